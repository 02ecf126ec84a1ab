(** * Property C138: seeds longer than the register *)
From Verif Require Import PyBase PyState PyFacts Utils UtilsFacts Streebog World Random RandomLemmas RandomLong.
Open Scope string_scope.
Open Scope list_scope.
Open Scope Z_scope.

(** C138.  Seeds of 63 to 198 bytes: only the last 63 bytes count, whatever sizes were asked for.  Two generators made with seeds that end alike give the same results in all calls of [random] and [clear]. *)
Theorem C138_last_bytes : forall u1 u2 size sz1 sz2 s1 s2 o1 o2 cs, 63 <= sz1 <= 198 -> 63 <= sz2 <= 198 -> bytes_ok s1 -> bytes_ok s2 -> len s1 = sz1 -> len s2 = sz2 ->
  ~ Forall (fun x => x = 0) s1 -> ~ Forall (fun x => x = 0) s2 -> last_bytes 63 s1 = last_bytes 63 s2 ->
  random_new u1 size (Some (VBytes s1)) (Some sz1) = Ok o1 -> random_new u2 size (Some (VBytes s2)) (Some sz2) = Ok o2 -> Forall no_rreset cs ->
  fst (World.run rstep cs o1) = fst (World.run rstep cs o2).
Proof. exact long_seeds. Qed.
Print Assumptions C138_last_bytes.

Lemma last_bytes_self s : List.length s = 63%nat -> last_bytes 63 s = s.
Proof. intros H. unfold last_bytes. rewrite H. reflexivity. Qed.
Lemma last_bytes_length s : 63 <= len s -> List.length (last_bytes 63 s) = 63%nat.
Proof. intros H. unfold last_bytes. rewrite skipn_length. unfold len in H. lia. Qed.
(** A seed of 64 to 198 bytes is no better than its last 63 bytes. *)
Theorem C138_like_63 : forall u1 u2 size sz s o o63 cs, 64 <= sz <= 198 -> bytes_ok s -> len s = sz -> ~ Forall (fun x => x = 0) (last_bytes 63 s) ->
  random_new u1 size (Some (VBytes s)) (Some sz) = Ok o -> random_new u2 size (Some (VBytes (last_bytes 63 s))) (Some 63) = Ok o63 -> Forall no_rreset cs ->
  fst (World.run rstep cs o) = fst (World.run rstep cs o63).
Proof.
  intros u1 u2 size sz s o o63 cs Hz Hs HL N E1 E2 HF. assert (LL : List.length (last_bytes 63 s) = 63%nat) by (apply last_bytes_length; lia).
  apply (long_seeds u1 u2 size sz 63 s (last_bytes 63 s) o o63 cs); try assumption; try lia.
  - now apply bytes_ok_skipn.
  - unfold len. now rewrite LL.
  - intros F. apply N. unfold last_bytes. apply Forall_forall. intros x Hx. rewrite Forall_forall in F. apply F. rewrite <- (firstn_skipn (List.length s - 63) s). apply in_or_app. now right.
  - now rewrite (last_bytes_self (last_bytes 63 s) LL).
Qed.
Print Assumptions C138_like_63.

(** From 199 bytes on the generator is made and no value can be drawn. *)
Theorem C138_too_long : forall u size sz s, 199 <= sz -> 1 <= size -> bytes_ok s -> len s = sz -> ~ Forall (fun x => x = 0) s ->
  exists o, random_new u size (Some (VBytes s)) (Some sz) = Ok o /\ fst (random o) = Err limit_error.
Proof. exact too_long. Qed.
Print Assumptions C138_too_long.

Definition seed_a : bytes := repeat 1 64.
Definition seed_b : bytes := 2 :: repeat 1 63.
Lemma seed_a_ok : bytes_ok seed_a.
Proof. apply (bytes_ok_repeat 1 64). unfold byte_ok. lia. Qed.
Lemma seed_b_ok : bytes_ok seed_b.
Proof. apply bytes_ok_cons. split; [unfold byte_ok; lia|]. apply (bytes_ok_repeat 1 63). unfold byte_ok. lia. Qed.
Lemma seed_a_nonzero : ~ Forall (fun x => x = 0) seed_a.
Proof. intros F. inversion F. discriminate. Qed.
Lemma seed_b_nonzero : ~ Forall (fun x => x = 0) seed_b.
Proof. intros F. inversion F. discriminate. Qed.

(** The claim that every byte of the seed matters: two seeds of one accepted size that differ lead to different results of some sequence of calls, or one of them is refused.  Refuted. *)
Definition every_byte_counts : Prop := forall u size sz s1 s2 o1 o2, bytes_ok s1 -> bytes_ok s2 -> len s1 = sz -> len s2 = sz -> s1 <> s2 -> 1 <= size ->
  random_new u size (Some (VBytes s1)) (Some sz) = Ok o1 -> random_new u size (Some (VBytes s2)) (Some sz) = Ok o2 ->
  exists cs, Forall no_rreset cs /\ fst (World.run rstep cs o1) <> fst (World.run rstep cs o2).
Theorem C138_every_byte_counts_refuted : ~ every_byte_counts.
Proof.
  intros H. assert (HA := long_init [] 64 seed_a 64 ltac:(lia) eq_refl ltac:(discriminate)). assert (HB := long_init [] 64 seed_b 64 ltac:(lia) eq_refl ltac:(discriminate)).
  destruct (H [] 64 64 seed_a seed_b _ _ seed_a_ok seed_b_ok eq_refl eq_refl ltac:(discriminate) ltac:(lia) HA HB) as (cs & HF & N). apply N.
  exact (C138_last_bytes [] [] 64 64 64 seed_a seed_b _ _ cs ltac:(lia) ltac:(lia) seed_a_ok seed_b_ok eq_refl eq_refl seed_a_nonzero seed_b_nonzero eq_refl HA HB HF).
Qed.
Print Assumptions C138_every_byte_counts_refuted.

(** Two seeds of 64 bytes that differ in the first byte, and a seed of 199 bytes. *)
Example C138_example : exists o1 o2, seed_a <> seed_b /\ random_new [] 100 (Some (VBytes seed_a)) (Some 64) = Ok o1 /\ random_new [] 100 (Some (VBytes seed_b)) (Some 64) = Ok o2 /\
  fst (World.run rstep [RRandom; RRandom; RClear; RRandom] o1) = fst (World.run rstep [RRandom; RRandom; RClear; RRandom] o2).
Proof.
  assert (HA := long_init [] 100 seed_a 64 ltac:(lia) eq_refl ltac:(discriminate)). assert (HB := long_init [] 100 seed_b 64 ltac:(lia) eq_refl ltac:(discriminate)).
  eexists _, _. split; [discriminate|]. split; [exact HA|]. split; [exact HB|].
  apply (C138_last_bytes [] [] 100 64 64 seed_a seed_b _ _ _ ltac:(lia) ltac:(lia) seed_a_ok seed_b_ok eq_refl eq_refl seed_a_nonzero seed_b_nonzero eq_refl HA HB).
  repeat (apply Forall_cons; [exact I|]). apply Forall_nil.
Qed.
Example C138_example_199 : match random_new [] 64 (Some (VBytes (repeat 1 199))) (Some 199) with Ok o => fst (random o) = Err limit_error | Err _ => False end.
Proof. vm_compute. reflexivity. Qed.
