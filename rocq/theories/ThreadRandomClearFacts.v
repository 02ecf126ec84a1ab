(** * A generator that is cleared during a call *)
From Verif Require Import PyBase PyState PyFacts Utils UtilsFacts Streebog SpecStreebog StreebogFacts StreebogLemmas StreebogProps Random SpecRandom RandomLemmas Threads ThreadFacts ThreadsRandom ThreadRandomFacts SpecPublicRegister ThreadsRandomClear.
Open Scope string_scope.
Open Scope list_scope.
Open Scope Z_scope.

Definition next_bytes (s : random_obj) : bytes := int_to_bytearray (bytearray_to_int (r_rand_u s) + 1 mod 2 ^ (_SIZE_M - 1)) (_SIZE_M - 1).
Lemma read_run {B} (f : unit -> proc random_obj B) s1 s2 : apart s1 s2 -> next_bytes s1 = next_bytes s2 -> run (bindP (act read_next) (fun v => bindP (act (write_next v)) f)) s1 = run (bindP (act read_next) (fun v => bindP (act (write_next v)) f)) s2.
Proof.
  intros HA HN. rewrite !run_bind, !run_act. assert (R : forall s, read_next s = (Ok (bytearray_to_int (r_rand_u s) + 1 mod 2 ^ (_SIZE_M - 1)), s)) by reflexivity. rewrite !R. cbv beta iota. rewrite !run_bind, !run_act.
  assert (W : forall v s, write_next v s = (Ok tt, set_rand_u s (int_to_bytearray v (_SIZE_M - 1)))) by reflexivity. rewrite !W. fold (next_bytes s1). fold (next_bytes s2). now rewrite HN, (HA (next_bytes s2)).
Qed.
(** A call of the generator waits before its first reading of the register for the increment. *)
Lemma random_pauses sz size : 1 <= size -> exists P n, (forall u o, rnd_is sz size u o -> seed_part sz u <> 0 -> forall q, go (repeat 0%nat n) [p_random; q] o = ([P; q], o)) /\
  forall s1 s2, apart s1 s2 -> next_bytes s1 = next_bytes s2 -> run P s1 = run P s2.
Proof.
  intros Hz.
  assert (Z0 : forall u o, rnd_is sz size u o -> seed_part sz u <> 0 -> seed_zero o = (Ok false, o)) by (intros u o [H1 H2 H3 H4 H5 H6 H7 H8] HS; unfold seed_zero, bindM, getM, retM; rewrite H2, H3, seed_value by assumption; apply Z.eqb_neq in HS; now rewrite HS).
  assert (L0 : forall u o, rnd_is sz size u o -> used_up o = (Ok false, o)) by (intros u o [H1 H2 H3 H4 H5 H6 H7 H8]; unfold used_up, bindM, getM, retM; rewrite H2, H3, H7, below_limit by assumption; reflexivity).
  destruct (Z.to_nat (size / 64)) as [|n] eqn:En.
  - assert (HR : negb (size mod 64 =? 0) = true) by (apply negb_true_iff, Z.eqb_neq; assert (0 <= size / 64) by (apply Z.div_pos; lia); pose proof (Z.div_mod size 64); lia).
    eexists. exists 4%nat. split.
    + intros u o Ho HS q. pose proof Ho as [H1 H2 H3 H4 H5 H6 H7 H8]. unfold p_random. cbn [repeat]. rewrite (step1 _ _ _ _ _ _ (Z0 u o Ho HS)). cbn match. erewrite step1 by reflexivity. rewrite H5, En. cbn [repeat forP bindP].
      erewrite step1 by reflexivity. rewrite H6, HR. unfold p_rand_iter. rewrite (step2 _ _ _ _ _ _ _ (L0 u o Ho)). cbn match. reflexivity.
    + intros s1 s2 HA HN. apply bind_run. now apply read_run.
  - eexists. exists 3%nat. split.
    + intros u o Ho HS q. pose proof Ho as [H1 H2 H3 H4 H5 H6 H7 H8]. unfold p_random. cbn [repeat]. rewrite (step1 _ _ _ _ _ _ (Z0 u o Ho HS)). cbn match. erewrite step1 by reflexivity. rewrite H5, En. cbn [repeat forP].
      unfold p_rand_iter at 1. rewrite (step4 _ _ _ _ _ _ _ _ _ (L0 u o Ho)). cbn match. reflexivity.
    + intros s1 s2 HA HN. apply bind_run, bind_run, bind_run. now apply read_run.
Qed.
Lemma paused_run {A} (p P : proc random_obj (list A)) n s : go (repeat 0%nat n) [p; Ret []] s = ([P; Ret []], s) -> run P s = run p s.
Proof.
  intros G1. destruct (go_first (Ret []) P s) as [l L]. destruct (go_first (Ret []) p s) as [l2 L2].
  assert (A1 : go (repeat 0%nat (n + l + l2)) [p; Ret []] s = ([fin (fst (run P s)); Ret []], snd (run P s))).
  { rewrite !repeat_app, !go_app, G1, L. clear. induction l2 as [|l2 IH]; [reflexivity|]. cbn [repeat go nth_error]. destruct (fst (run P s)); exact IH. }
  assert (A2 : go (repeat 0%nat (n + l + l2)) [p; Ret []] s = ([fin (fst (run p s)); Ret []], snd (run p s))).
  { replace (n + l + l2)%nat with (l2 + (n + l))%nat by lia. rewrite repeat_app, go_app, L2. generalize (n + l)%nat as m. clear. induction m as [|m IH]; [reflexivity|]. cbn [repeat go nth_error]. destruct (fst (run p s)); exact IH. }
  rewrite A1 in A2. injection A2 as F1 F2. destruct (run P s) as [[a|e] s1], (run p s) as [[b|e'] s2]; cbn in F1, F2; congruence.
Qed.
Lemma public_bound : 0 <= public_register < register_size.
Proof. split; [apply Z.leb_le | apply Z.ltb_lt]; vm_compute; reflexivity. Qed.
Lemma public_seed sz : 1 <= sz <= 63 -> seed_part sz public_register <> 0.
Proof.
  intros H. unfold seed_part. assert (0 < public_register / 256 ^ (63 - sz)); [|lia]. apply Z.div_str_pos. split; [apply Z.pow_pos_nonneg; lia|]. apply Z.le_trans with (256 ^ 62); [apply Z.pow_le_mono_r; lia | apply Z.leb_le; vm_compute; reflexivity].
Qed.
Lemma cleared_next o : List.length (r_rand_u o) = 63%nat -> next_bytes (set_rand_u o (zero_fill (r_rand_u o))) = be_bytes 63 (public_register + 1).
Proof.
  intros HL. unfold next_bytes. cbn [set_rand_u r_rand_u]. rewrite be_eq. change (_SIZE_M - 1) with 63. change (Z.of_nat 63) with 63. rewrite <- int_to_bytearray_mod by lia. symmetry. rewrite <- int_to_bytearray_mod by lia. f_equal.
  unfold zero_fill, zero_fill_val, bytes_mul, py_repeat, len. rewrite HL, Nat2Z.id. vm_compute. reflexivity.
Qed.
(** The generator continues as one with the public register. *)
Lemma other_run w sz size u o : 0 <= w < register_size -> (1 <= sz <= 63 -> seed_part sz w <> 0) -> next_bytes (set_rand_u o (zero_fill (r_rand_u o))) = be_bytes 63 (w + 1) -> rnd_is sz size u o -> seed_part sz u <> 0 -> 1 <= size ->
  exists sched o', go sched [p_random; p_random_clear] o = ([Ret (output w size); Ret []], o') /\ rnd_is sz size ((w + steps size) mod register_size) o'.
Proof.
  intros HW WS CN Ho HS Hz. pose proof Ho as [H1 H2 H3 H4 H5 H6 H7 H8]. assert (Hsz : 1 <= sz <= 63) by (split; [|lia]; assert (sz <> 0); [|lia]; intros ->; apply HS; unfold seed_part; apply Z.div_small; exact H4).
  set (op := set_rand_u o (be_bytes 63 w)). assert (Hp : rnd_is sz size w op) by (split; try assumption; reflexivity).
  destruct (random_pauses sz size Hz) as (P & n & G & HP). pose proof (random_is sz size w op Hp) as R. pose proof (WS Hsz) as PS. pose proof PS as PS'. apply Z.eqb_neq in PS'. rewrite PS' in R. destruct R as (o' & E & Ho').
  pose proof (paused_run p_random P n op (G w op Hp PS (Ret []))) as EP.
  set (oc := set_rand_u o (zero_fill (r_rand_u o))). assert (EC : run P oc = run P op).
  { apply HP; [intros x; reflexivity|]. unfold oc. rewrite CN. unfold next_bytes, op. cbn [set_rand_u r_rand_u]. rewrite be_value by exact HW. now rewrite be_eq. }
  destruct (go_first (Ret []) P oc) as [l L]. rewrite EC, EP, random_alone, E in L. cbn [fst snd fin] in L.
  exists (repeat 0%nat n ++ 1%nat :: repeat 0%nat l), o'. split; [|exact Ho']. rewrite go_app, (G u o Ho HS). exact L.
Qed.
Lemma public_run sz size u o : rnd_is sz size u o -> seed_part sz u <> 0 -> 1 <= size ->
  exists sched o', go sched [p_random; p_random_clear] o = ([Ret (output public_register size); Ret []], o') /\ rnd_is sz size ((public_register + steps size) mod register_size) o'.
Proof. intros Ho. apply (other_run public_register sz size u o public_bound (public_seed sz)); [|exact Ho]. apply cleared_next. rewrite (rn_u _ _ _ _ Ho). apply be_length. Qed.
(** The clearing is lost. *)
Lemma clear_lost sz size u o : rnd_is sz size u o -> seed_part sz u <> 0 -> 1 <= size ->
  exists sched o', go sched [p_random; p_random_clear] o = ([Ret (output u size); Ret []], o') /\ random o = (Ok (output u size), o') /\ rnd_is sz size ((u + steps size) mod register_size) o'.
Proof.
  intros Ho HS Hz. pose proof (random_is sz size u o Ho) as HR. pose proof HS as HS'. apply Z.eqb_neq in HS'. rewrite HS' in HR. destruct HR as (o' & E & Ho').
  destruct (random_waits sz size u o Ho HS Hz) as (P & [n G] & HP). set (oc := set_rand_u o (zero_fill (r_rand_u o))).
  pose proof (paused_run p_random P n o (G (Ret []))) as EP.
  destruct (go_first (Ret []) P oc) as [l L]. rewrite (HP oc o) in L by (intros x; reflexivity). rewrite EP, random_alone, E in L. cbn [fst snd fin] in L.
  exists (repeat 0%nat n ++ 1%nat :: repeat 0%nat l), o'. split; [|split; [exact E | exact Ho']]. rewrite go_app, (G p_random_clear). exact L.
Qed.
