(** * Property C157: several threads with one object *)
From Verif Require Import PyBase PyFacts PyState Utils UtilsFacts CipherObj Modes Mac SpecModes CipherLemmas CipherObjFacts ModeFacts ModeLemmas ModeMore ModeSim ModeExamples ModeProps MacMore ModeCross ModeCross2 MacKnown Threads ThreadFacts.
Open Scope string_scope.
Open Scope list_scope.
Open Scope Z_scope.

(** C157. The calls, statement by statement, are the calls of the model. *)
Theorem C157_alone : forall data o, run (p_ecb_encrypt data) o = ecb_encrypt data o /\ run (p_ecb_decrypt data) o = ecb_decrypt data o /\ run (p_ofb_encrypt data) o = ofb_encrypt data o /\ run (p_ctr_encrypt data) o = ctr_encrypt data o.
Proof. intros data o. split; [apply ecb_encrypt_alone|]. split; [apply ecb_decrypt_alone|]. split; [apply ofb_encrypt_alone | apply ctr_encrypt_alone]. Qed.
Print Assumptions C157_alone.

(** Byte strings encrypted and decrypted by any number of threads with one object of the mode ECB: whatever the
    order of the statements, the object stays as it was, a call that has ended has the result of the call
    alone, and a thread that gets enough turns ends. *)
Inductive ecb_call := Enc (m : bytes) | Dec (m : bytes).
Definition thread_of (c : ecb_call) : proc mode_obj bytes := match c with Enc m => p_ecb_encrypt (VBytes m) | Dec m => p_ecb_decrypt (VBytes m) end.
Definition alone (c : ecb_call) (o : mode_obj) : res bytes := match c with Enc m => fst (encrypt (VBytes m) o) | Dec m => fst (decrypt (VBytes m) o) end.
Theorem C157_ecb : forall o calls sched, o_class o = ECB -> let after := go sched (map thread_of calls) o in snd after = o /\ List.length (fst after) = List.length calls /\
  forall i c p r, nth_error calls i = Some c -> nth_error (fst after) i = Some p -> ended p = Some r -> r = alone c o.
Proof.
  intros o calls sched HC. assert (HP : Forall (calm o) (map thread_of calls)) by (apply Forall_forall; intros p H; apply in_map_iff in H as (c & <- & _); destruct c; [apply ecb_encrypt_calm | apply ecb_decrypt_calm]).
  destruct (go_calm o sched _ HP) as (pool' & E & L & B). cbv zeta. rewrite E. cbn [fst snd]. split; [reflexivity|]. split; [rewrite L; apply map_length|]. intros i c p r Hc Hp Hr.
  destruct (B i (thread_of c) p (map_nth_error thread_of i calls Hc) Hp) as (_ & HR & _). rewrite (ended_run o p r Hr) in HR. unfold alone. destruct c as [m|m]; unfold encrypt, decrypt, bindM, getM; rewrite HC; cbn [thread_of] in HR; [rewrite ecb_encrypt_alone in HR | rewrite ecb_decrypt_alone in HR]; now rewrite <- HR.
Qed.
Print Assumptions C157_ecb.
Theorem C157_ecb_ends : forall o calls i c, nth_error calls i = Some c -> exists turns, forall sched, (turns <= count_occ Nat.eq_dec sched i)%nat ->
  exists p r, nth_error (fst (go sched (map thread_of calls) o)) i = Some p /\ ended p = Some r.
Proof.
  intros o calls i c Hc. exists (size o (thread_of c)). intros sched HT. assert (HP : Forall (calm o) (map thread_of calls)) by (apply Forall_forall; intros p H; apply in_map_iff in H as (x & <- & _); destruct x; [apply ecb_encrypt_calm | apply ecb_decrypt_calm]).
  destruct (go_calm o sched _ HP) as (pool' & E & L & B). rewrite E. cbn [fst]. rewrite map_length in L.
  destruct (nth_error pool' i) as [p|] eqn:Ep; [|apply nth_error_None in Ep; assert (nth_error calls i <> None) as N by (rewrite Hc; discriminate); apply nth_error_Some in N; lia].
  destruct (B i (thread_of c) p (map_nth_error thread_of i calls Hc) Ep) as (_ & _ & HS). destruct (size_ended o p ltac:(lia)) as (r & Hr). now exists p, r.
Qed.
Print Assumptions C157_ecb_ends.

(** OFB with a vector of one block: two threads that take turns both get the ciphertext of a call alone, so that two messages are encrypted with one gamma. *)
Theorem C157_ofb : forall a key iv m1 m2 o, bytes_len 32 key -> blk (bsize a) iv -> bytes_ok m1 -> bytes_ok m2 -> List.length m1 = List.length m2 -> new (alg a) (VBytes key) (VInt MODE_OFB) (with_iv iv) = Ok (NewMode o) ->
  exists t o', forall n, (t <= n)%nat -> go (alternate n) [p_ofb_encrypt (VBytes m1); p_ofb_encrypt (VBytes m2)] o = ([Ret (answer a MODE_OFB key iv m1); Ret (answer a MODE_OFB key iv m2)], o').
Proof.
  intros a key iv m1 m2 o Hk Hv H1 H2 HL HN.
  destruct (new_ofb a key (with_iv iv) iv Hk eq_refl) as (c & Ec & Hm). { destruct Hv as [_ Hv]. unfold len. rewrite Hv. apply Z_mod_same_full. }
  assert (Eo : mk OFB c 0 iv [] = o) by (rewrite Ec in HN; now injection HN). subst o.
  assert (Hb : block c iv) by (destruct Hv as [Ho Hv]; split; [unfold len; rewrite Hv; symmetry; exact (made_bs _ _ _ Hm) | exact Ho]).
  destruct (ofb_together (mk OFB c 0 iv []) iv m1 m2 (proj1 Hm) Hb eq_refl HL) as (c1 & c2 & o' & E1 & E2 & _ & HK). destruct (lock_ended _ _ _ _ _ _ HK) as (t & G). exists t, o'. intros n Hn. rewrite (G n Hn).
  unfold answer. rewrite HN. unfold ModeProps.result. change (encrypt (VBytes m1) (mk OFB c 0 iv [])) with (ofb_encrypt (VBytes m1) (mk OFB c 0 iv [])). change (encrypt (VBytes m2) (mk OFB c 0 iv [])) with (ofb_encrypt (VBytes m2) (mk OFB c 0 iv [])). now rewrite E1, E2.
Qed.
Print Assumptions C157_ofb.
(** CTR: two threads that take turns encrypt both messages with one gamma: the sum of the ciphertexts is the sum of the messages. *)
Theorem C157_ctr : forall a key iv m1 m2 o, bytes_len 32 key -> bytes_len (half a) iv -> List.length m1 = List.length m2 -> new (alg a) (VBytes key) (VInt MODE_CTR) (with_iv iv) = Ok (NewMode o) ->
  exists t c1 c2 o', bxor c1 c2 = bxor m1 m2 /\ forall n, (t <= n)%nat -> go (alternate n) [p_ctr_encrypt (VBytes m1); p_ctr_encrypt (VBytes m2)] o = ([Ret c1; Ret c2], o').
Proof.
  intros a key iv m1 m2 o Hk Hv HL HN.
  destruct (new_ctr a key (with_iv iv) iv Hk eq_refl (proj1 Hv)) as (c & Ec & Hm).
  assert (Eo : mk CTR c 0 iv (iv ++ py_repeat 0 (half a)) = o) by (rewrite Ec in HN; now injection HN). subst o.
  destruct (ctr_together (mk CTR c 0 iv (iv ++ py_repeat 0 (half a))) (iv ++ py_repeat 0 (half a)) m1 m2 (proj1 Hm) (ctr_start a key c iv Hm Hv) eq_refl HL) as (g & o' & Hg & HK). destruct (lock_ended _ _ _ _ _ _ HK) as (t & G).
  exists t, (bxor m1 g), (bxor m2 g), o'. split; [|exact G].
  assert (F : forall m, (List.length m <= List.length g)%nat -> bxor m g = bxor m (firstn (List.length m) g)).
  { intros m Hl. rewrite <- (firstn_skipn (List.length m) g) at 1. apply bxor_app_l. rewrite firstn_length. lia. }
  rewrite (F m1) by exact Hg. rewrite (F m2) by lia. rewrite <- HL. apply bxor_pair; rewrite firstn_length; lia.
Qed.
Print Assumptions C157_ctr.

(** The claim: calls of two threads have, when both have ended, the results that they have in one or the other order one after the other. *)
Definition serial (p1 p2 : proc mode_obj bytes) (o : mode_obj) : list (res bytes * res bytes) :=
  let (r1, o1) := run p1 o in let (r2, o2) := run p2 o in [(r1, fst (run p2 o1)); (fst (run p1 o2), r2)].
Definition calls_are_serial (p : pyval -> proc mode_obj bytes) (mode : Z) : Prop := forall a key kw o d1 d2 sched q1 q2 r1 r2, bytes_len 32 key -> new (alg a) (VBytes key) (VInt mode) kw = Ok (NewMode o) ->
  fst (go sched [p d1; p d2] o) = [q1; q2] -> ended q1 = Some r1 -> ended q2 = Some r2 -> In (r1, r2) (serial (p d1) (p d2) o).
Definition seen (pool : list (proc mode_obj bytes)) : list (option (res bytes)) := map ended pool.
Lemma not_serial p mode a key kw d1 d2 sched o r1 r2 : bytes_len 32 key -> new (alg a) (VBytes key) (VInt mode) kw = Ok (NewMode o) -> seen (fst (go sched [p d1; p d2] o)) = [Some r1; Some r2] -> ~ In (r1, r2) (serial (p d1) (p d2) o) -> ~ calls_are_serial p mode.
Proof.
  intros Hk HN HS HI H. destruct (fst (go sched [p d1; p d2] o)) as [|q1 [|q2 [|]]] eqn:E; try discriminate HS. cbn in HS. injection HS as S1 S2. apply HI. exact (H a key kw o d1 d2 sched q1 q2 r1 r2 Hk HN E S1 S2).
Qed.

Definition one_block : pyval := VBytes (repeat 0 8).
Definition two_blocks : pyval := VBytes (repeat 0 16).
Definition half_vector : kwargs := with_iv [0x12; 0x34; 0x56; 0x78].
Ltac two_threads kw d1 d2 sched :=
  match goal with |- ~ calls_are_serial ?p ?mode =>
    let N := eval vm_compute in (new (alg Mag) (VBytes magma_test_key) (VInt mode) kw) in
    match N with Ok (NewMode ?o) =>
      let R := eval vm_compute in (seen (fst (go sched [p d1; p d2] o))) in
      match R with [Some ?r1; Some ?r2] => apply (not_serial p mode Mag magma_test_key kw d1 d2 sched o r1 r2); [concrete_bytes | vm_compute; reflexivity | vm_compute; reflexivity | vm_compute; intros H; repeat (destruct H as [H|H]; [discriminate H|]); exact H] end
    end
  end.
Theorem C157_ctr_refuted : ~ calls_are_serial p_ctr_encrypt MODE_CTR.
Proof. two_threads half_vector one_block one_block (alternate 4). Qed.
Print Assumptions C157_ctr_refuted.
(** In ECB a call that is refused because its data is not a byte string erases the key under the feet of the other thread. *)
Theorem C157_ecb_refuted : ~ calls_are_serial p_ecb_encrypt MODE_ECB.
Proof. two_threads (with_iv []) two_blocks (VStr "text") [0%nat; 0%nat; 0%nat; 1%nat; 0%nat]. Qed.
Print Assumptions C157_ecb_refuted.
(** Magma, messages of eleven octets: in ECB both threads get the answers of the calls alone; in OFB and CTR the sum of the ciphertexts is the sum of the messages. *)
Definition both (p : pyval -> proc mode_obj bytes) (mode : Z) (v m1 m2 : bytes) (sched : list nat) : list (option (res bytes)) :=
  match new (alg Mag) (VBytes magma_test_key) (VInt mode) (with_iv v) with Ok (NewMode o) => seen (fst (go sched [p (VBytes m1); p (VBytes m2)] o)) | _ => [] end.
Example C157_example : let m1 := [1; 2; 3; 4; 5; 6; 7; 8; 9; 10; 11] in let m2 := repeat 0x55 11 in let v := [0x12; 0x34; 0x56; 0x78; 0x90; 0xab; 0xcd; 0xef] in
  both p_ecb_encrypt MODE_ECB [] m1 m2 [0; 1; 1; 0; 0; 0; 1; 1]%nat = [Some (Ok (answer Mag MODE_ECB magma_test_key [] m1)); Some (Ok (answer Mag MODE_ECB magma_test_key [] m2))] /\
  (exists c1 c2, both p_ofb_encrypt MODE_OFB v m1 m2 (alternate 5) = [Some (Ok c1); Some (Ok c2)] /\ bxor c1 c2 = bxor m1 m2) /\
  (exists c1 c2, both p_ctr_encrypt MODE_CTR (firstn 4 v) m1 m2 (alternate 6) = [Some (Ok c1); Some (Ok c2)] /\ bxor c1 c2 = bxor m1 m2).
Proof.
  cbv zeta. split; [vm_compute; reflexivity|]. split.
  - eexists. eexists. split; [vm_compute; reflexivity | vm_compute; reflexivity].
  - eexists. eexists. split; [vm_compute; reflexivity | vm_compute; reflexivity].
Qed.
