(** * Properties C71-C78: the random number generator *)
From Verif Require Import PyBase PyState PyFacts Utils UtilsFacts Streebog SpecStreebog StreebogFacts StreebogLemmas StreebogProps World Random SpecRandom RandomLemmas.
Open Scope string_scope.
Open Scope list_scope.
Open Scope Z_scope.

Definition a_seed : bytes := repeat 7 48.
Lemma a_seed_ok : bytes_ok a_seed /\ len a_seed = 48.
Proof. split; [apply (bytes_ok_repeat 7 48); unfold byte_ok; lia | reflexivity]. Qed.
(** An object with this seed exists for every size. *)
Lemma a_made : forall size, random_made 48 size a_seed (fresh 48 size a_seed).
Proof.
  intros size. split; [unfold sizes_ok; lia|]. split; [apply a_seed_ok|]. exists a_seed, (VBytes a_seed). split; [apply a_seed_ok|]. split; [apply a_seed_ok|]. split; [reflexivity|].
  apply init_fresh; [unfold sizes_ok; lia | reflexivity | apply a_seed_ok].
Qed.

Lemma run_after sz size s o cs : random_made sz size s o -> Forall (rcall_ok sz) cs ->
  gen_is sz size (snd (World.run (gen_step sz size) cs (Some (start sz s)))) (snd (World.run rstep cs o)).
Proof. intros Hm Hc. apply gen_run_is; [exact Hc|]. exact (proj2 (proj2 (made_fresh sz size s o Hm))). Qed.
Lemma steps_zero size : 0 <= size -> steps size = 0 -> size = 0.
Proof. unfold steps. intros H E. destruct (Nat.eqb_spec (rest size) 0) as [R|R]; unfold whole, rest in *; [|lia]. assert (HM := Z.mod_pos_bound size 64 ltac:(lia)). lia. Qed.

(** C71: after any calls. *)
Theorem C71_length : forall sz size s o cs d o', random_made sz size s o -> Forall (rcall_ok sz) cs -> 0 <= size ->
  random (snd (World.run rstep cs o)) = (Ok d, o') -> Z.of_nat (List.length d) = size /\ bytes_ok d.
Proof.
  intros sz size s o cs d o' Hm Hc Hs E. pose proof (run_after sz size s o cs Hm Hc) as HG. destruct (snd (World.run (gen_step sz size) cs (Some (start sz s)))) as [u|]; cbn [gen_is] in HG.
  - pose proof (random_is sz size u _ HG) as R. rewrite E in R. destruct (seed_part sz u =? 0); [exfalso; congruence|]. destruct R as (o1 & R & _). assert (d = output u size) by congruence. subst d. split; [now apply output_length | apply output_ok].
  - destruct (wiped_random sz size _ HG) as (o1 & R & _). rewrite E in R. destruct (sz =? 0); [exfalso; congruence|]. destruct (Z.eqb_spec (steps size) 0) as [Z0|Z0]; [|exfalso; congruence]. assert (d = []) by congruence. subst d. split; [|apply bytes_ok_nil]. symmetry. now apply steps_zero.
Qed.
Print Assumptions C71_length.
(** Whether it returns: for an object that is not cleared, exactly when the seed part of the register is not zero. *)
Theorem C71_returns : forall sz size u o, rnd_is sz size u o -> ((exists d o', random o = (Ok d, o')) <-> seed_part sz u <> 0).
Proof.
  intros sz size u o Ho. pose proof (random_is sz size u o Ho) as R. destruct (Z.eqb_spec (seed_part sz u) 0) as [E|N].
  - split; [intros (d & o' & E'); exfalso; congruence | contradiction].
  - destruct R as (o' & R & _). split; [intros _; exact N | intros _; eauto].
Qed.
Print Assumptions C71_returns.
Example C71_example : random_made 48 0 a_seed (fresh 48 0 a_seed) /\ random (snd (World.run rstep [RRandom] (fresh 48 0 a_seed))) = (Ok [], fresh 48 0 a_seed).
Proof. split; [apply a_made | vm_compute; reflexivity]. Qed.

(** C72: all histories: the results of all calls are those of the generator of the specification. *)
Theorem C72_history : forall sz size s o cs, random_made sz size s o -> Forall (rcall_ok sz) cs ->
  fst (World.run rstep cs o) = fst (World.run (gen_step sz size) cs (Some (start sz s))).
Proof. intros sz size s o cs Hm Hc. apply gen_run_is; [exact Hc|]. exact (proj2 (proj2 (made_fresh sz size s o Hm))). Qed.
Print Assumptions C72_history.

Lemma start_seed sz s : sizes_ok sz -> bytes_ok s -> len s = sz -> seed_part sz (start sz s) = le_value (rev s).
Proof. intros Hz Hs HL. unfold seed_part, start. apply Z.div_mul. assert (0 < 256 ^ (63 - sz)) by (apply Z.pow_pos_nonneg; unfold sizes_ok in Hz; lia). lia. Qed.
Lemma value_zero s : bytes_ok s -> (le_value (rev s) = 0 <-> Forall (fun x => x = 0) s).
Proof.
  intros Hs. rewrite le_value_rev, rev_involutive. induction s as [|x s IH]; [split; [constructor | reflexivity]|]. apply bytes_ok_cons in Hs as [Hx Hs]. specialize (IH Hs).
  rewrite bytearray_to_int_cons. pose proof (bytearray_to_int_bound s Hs) as HB. assert (HP : 0 < 256 ^ len s) by (apply Z.pow_pos_nonneg; [lia | apply len_nonneg]). unfold byte_ok in Hx. split.
  - intros E. assert (x = 0) by nia. subst x. constructor; [reflexivity|]. apply IH. lia.
  - intros F. inversion F as [|y l Hy Hl]; subst. apply IH in Hl. lia.
Qed.
Lemma value_pos s : bytes_ok s -> ~ Forall (fun x => x = 0) s -> 0 < le_value (rev s).
Proof.
  intros Hs N. assert (le_value (rev s) <> 0) by (intros E; apply N; now apply value_zero). rewrite le_value_rev, rev_involutive in *. pose proof (bytearray_to_int_bound s Hs). lia.
Qed.

(** The calls one after another: the [i]-th call hashes the [steps size] registers after the first [i * steps size]. *)
Theorem C72_stream : forall sz size s o n, random_made sz size s o -> ~ Forall (fun x => x = 0) s -> start sz s + Z.of_nat n * steps size < register_size ->
  fst (World.run rstep (repeat RRandom n) o) = map (fun i => Ok (RBytes (output (start sz s + Z.of_nat i * steps size) size))) (seq 0 n).
Proof.
  intros sz size s o n Hm N Hmax. destruct (made_fresh sz size s o Hm) as (HL & _ & Ho). pose proof Hm as (Hz & Hs & _). apply calls_is with (sz := sz); try assumption.
  rewrite start_seed by assumption. now apply value_pos.
Qed.
Print Assumptions C72_stream.
(** [output]: the hashes of the next registers, the last one truncated to its final octets; for sizes that are a multiple of 64, the outputs are one stream of hashes. *)
Theorem C72_blocks : forall u n, 0 <= u -> 0 <= n -> output u (64 * n) = List.concat (map (fun t => streebog S512 (be_bytes 63 ((u + Z.of_nat t) mod register_size))) (seq 1 (Z.to_nat n))).
Proof.
  intros u n Hu Hn. Transparent output block. unfold output. unfold whole, rest. rewrite (Z.mul_comm 64 n), Z.mod_mul, Z.div_mul by lia. cbn [Z.to_nat Nat.eqb]. apply app_nil_r.
Qed.
Print Assumptions C72_blocks.
Opaque output block.

(** One octet of the generator with the seed 0x01 (one octet). *)
Example C72_example : random_made 1 1 [1] (fresh 1 1 [1]) /\ ~ Forall (fun x => x = 0) [1] /\ start 1 [1] + Z.of_nat 2 * steps 1 < register_size /\
  fst (random (fresh 1 1 [1])) = Ok [last (streebog S512 (1 :: repeat 0 61 ++ [1])) 0].
Proof.
  split; [|split; [|split]].
  - split; [unfold sizes_ok; lia|]. split; [apply bytes_ok_cons; split; [unfold byte_ok; lia | apply bytes_ok_nil]|]. exists [0], (VBytes [1]).
    split; [apply bytes_ok_cons; split; [unfold byte_ok; lia | apply bytes_ok_nil]|]. split; [reflexivity|]. split; [reflexivity|]. vm_compute. reflexivity.
  - intros F. inversion F. discriminate.
  - reflexivity.
  - vm_compute. reflexivity.
Qed.

(** C73.  The full statement: once the counter part is exhausted a call fails with the limit error. *)
Definition counter_limit : Prop := forall sz size s o n, random_made sz size s o -> ~ Forall (fun x => x = 0) s ->
  256 ^ (63 - sz) <= Z.of_nat n * steps size -> In (Err limit_error) (fst (World.run rstep (repeat RRandom n) o)).

Definition no_rclear (c : rcall) : Prop := match c with RClear => False | _ => True end.
Lemma live_stays sz size cs : Forall no_rclear cs -> forall u, exists u', snd (World.run (gen_step sz size) cs (Some u)) = Some u'.
Proof.
  induction 1 as [|c cs Hc HF IH]; intros u; [now exists u|]. rewrite run_cons. cbn [snd]. destruct c as [|ur k|]; cbn [gen_step]; [| |contradiction].
  - destruct (seed_part sz u =? 0); cbn [snd]; apply IH.
  - destruct k as [[|x k]|str|z|]; cbn [snd]; try apply IH. destruct (len (x :: k) =? sz); cbn [snd]; apply IH.
Qed.

(** The limit error occurs in no history without [clear]. *)
Theorem C73_never_limit : forall sz size s o cs, random_made sz size s o -> Forall (rcall_ok sz) cs -> Forall no_rclear cs ->
  ~ In (Err limit_error) (fst (World.run rstep cs o)).
Proof.
  intros sz size s o cs Hm Hc Hn. rewrite (C72_history sz size s o cs Hm Hc). clear Hm Hc. generalize (start sz s). induction Hn as [|c cs Hn HF IH]; intros u; [intros []|].
  rewrite run_cons. cbn [fst In]. intros [E|HI].
  - destruct c as [|ur k|]; cbn [gen_step] in E; [| |contradiction].
    + destruct (seed_part sz u =? 0); cbn [fst] in E; discriminate E.
    + destruct k as [[|x k]|str|z|]; cbn [fst] in E; try discriminate E. destruct (len (x :: k) =? sz); cbn [fst] in E; discriminate E.
  - destruct (live_stays sz size [c] (Forall_cons _ Hn (Forall_nil _)) u) as (u' & Eu). cbn [World.run] in Eu. destruct (gen_step sz size c (Some u)) as [r st] eqn:Es. cbn [snd] in Eu, HI. subst st. exact (IH u' HI).
Qed.
Print Assumptions C73_never_limit.

Theorem C73_limit_refuted : ~ counter_limit.
Proof.
  intros H. apply (C73_never_limit 63 64 (repeat 7 63) (fresh 63 64 (repeat 7 63)) [RRandom]).
  - split; [unfold sizes_ok; lia|]. assert (HB : bytes_ok (repeat 7 63)) by (apply (bytes_ok_repeat 7 63); unfold byte_ok; lia). split; [exact HB|]. exists (repeat 7 63), (VBytes (repeat 7 63)). split; [exact HB|]. split; [reflexivity|]. split; [reflexivity|].
    apply init_fresh; [unfold sizes_ok; lia | reflexivity | reflexivity].
  - repeat constructor.
  - repeat constructor.
  - apply (H 63 64 (repeat 7 63) _ 1%nat).
    + split; [unfold sizes_ok; lia|]. assert (HB : bytes_ok (repeat 7 63)) by (apply (bytes_ok_repeat 7 63); unfold byte_ok; lia). split; [exact HB|]. exists (repeat 7 63), (VBytes (repeat 7 63)). split; [exact HB|]. split; [reflexivity|]. split; [reflexivity|].
      apply init_fresh; [unfold sizes_ok; lia | reflexivity | reflexivity].
    + intros F. inversion F. discriminate.
    + vm_compute. discriminate.
Qed.
Print Assumptions C73_limit_refuted.

Lemma rnd_is_unique sz size u o o' : rnd_is sz size u o -> rnd_is sz size u o' -> o = o'.
Proof. intros [_ A1 A2 _ A3 A4 A5 A6] [_ B1 B2 _ B3 B4 B5 B6]. destruct o as [a1 a2 a3 a4 a5 a6], o' as [b1 b2 b3 b4 b5 b6]. cbn [r_size_s r_rand_u r_q r_r r_limit r_hash] in A1, A2, A3, A4, A5, A6, B1, B2, B3, B4, B5, B6. congruence. Qed.

(** Instead the counter carries into the seed: after exactly [256 ^ (63 - size_s)] steps the object is the new object of the next seed,
    for any seed that is not zero and not the greatest. *)
Theorem C73_carry : forall sz size s s' o o' n, random_made sz size s o -> random_made sz size s' o' -> ~ Forall (fun x => x = 0) s ->
  le_value (rev s') = le_value (rev s) + 1 -> Z.of_nat n * steps size = 256 ^ (63 - sz) ->
  snd (World.run rstep (repeat RRandom n) o) = o'.
Proof.
  intros sz size s s' o o' n Hm Hm' N ES EN. destruct (made_fresh sz size s o Hm) as (HL & _ & Ho). destruct (made_fresh sz size s' o' Hm') as (HL' & _ & Ho'). pose proof Hm as (Hz & Hs & _).
  assert (EU : start sz s + Z.of_nat n * steps size = start sz s') by (unfold start; rewrite ES, EN; lia).
  apply (rnd_is_unique sz size (start sz s')); [|exact Ho']. rewrite <- EU. apply calls_is; try assumption.
  - rewrite start_seed by assumption. now apply value_pos.
  - rewrite EU. apply Ho'.
Qed.
Print Assumptions C73_carry.
(** With 62 octets of seed, 256 one-block calls lead from the seed [s] to the object of the seed [s + 1]. *)
Example C73_example : let s := repeat 7 62 in let s' := repeat 7 61 ++ [8] in let o := fresh 62 64 s in
  snd (World.run rstep (repeat RRandom 256) o) = fresh 62 64 s' /\ ~ Forall (fun x => x = 0) s.
Proof.
  intros s s' o. assert (HB : bytes_ok s) by (apply (bytes_ok_repeat 7 62); unfold byte_ok; lia).
  assert (HB' : bytes_ok s') by (apply bytes_ok_app; split; [apply (bytes_ok_repeat 7 61); unfold byte_ok; lia | apply bytes_ok_cons; split; [unfold byte_ok; lia | apply bytes_ok_nil]]).
  assert (N : ~ Forall (fun x => x = 0) s) by (intros F; inversion F; discriminate). split; [|exact N].
  assert (M : forall x, bytes_ok x -> len x = 62 -> random_made 62 64 x (fresh 62 64 x)).
  { intros x Hx HL. split; [unfold sizes_ok; lia|]. split; [exact Hx|]. exists s, (VBytes x). split; [exact HB|]. split; [reflexivity|]. split; [destruct x; [discriminate HL | reflexivity]|].
    apply init_fresh; [unfold sizes_ok; lia | destruct x; [discriminate HL | reflexivity] | exact HL]. }
  apply (C73_carry 62 64 s s' o _ 256 (M s HB eq_refl) (M s' HB' eq_refl) N); vm_compute; reflexivity.
Qed.

(** C74.  The states after the iterations: the value hashed in an iteration is the register it leaves. *)
Fixpoint after_iters (n : nat) (o : random_obj) : random_obj := match n with O => o | S n' => snd (_rand_iter (after_iters n' o)) end.
Lemma after_iters_is sz size u o n : rnd_is sz size u o -> rnd_is sz size ((u + Z.of_nat n) mod register_size) (after_iters n o).
Proof.
  intros Ho. induction n as [|n IH]; [cbn [after_iters]; rewrite Z.add_0_r, Z.mod_small by apply Ho; exact Ho|]. cbn [after_iters]. destruct (iter_is _ _ _ _ IH) as (o' & E & H). rewrite E.
  rewrite Zplus_mod_idemp_l in H. replace (u + Z.of_nat (S n)) with (u + Z.of_nat n + 1) by lia. exact H.
Qed.
Theorem C74_inputs : forall sz size u o, rnd_is sz size u o -> forall n,
  fst (_rand_iter (after_iters n o)) = Ok (streebog S512 (r_rand_u (after_iters (S n) o))) /\ List.length (r_rand_u (after_iters (S n) o)) = 63%nat /\
  (forall m, Z.of_nat m < register_size -> (0 < m)%nat -> r_rand_u (after_iters (n + m) o) <> r_rand_u (after_iters n o)).
Proof.
  intros sz size u o Ho n. pose proof (after_iters_is sz size u o n Ho) as Hn. pose proof (after_iters_is sz size u o (S n) Ho) as Hn1. split; [|split].
  - destruct (iter_is _ _ _ _ Hn) as (o' & E & H). rewrite E. cbn [fst]. rewrite (rn_u _ _ _ _ Hn1). rewrite block_eq, Zplus_mod_idemp_l.
    replace (u + Z.of_nat (S n)) with (u + Z.of_nat n + 1) by lia. reflexivity.
  - rewrite (rn_u _ _ _ _ Hn1). apply be_length.
  - intros m Hm Hp E. pose proof (after_iters_is sz size u o (n + m) Ho) as Hnm. rewrite (rn_u _ _ _ _ Hn), (rn_u _ _ _ _ Hnm) in E.
    apply (f_equal bytearray_to_int) in E. rewrite !be_value in E by (apply Z.mod_pos_bound, register_pos).
    assert (ED : ((u + Z.of_nat (n + m)) - (u + Z.of_nat n)) mod register_size = 0) by (rewrite Zminus_mod, E, Z.sub_diag; reflexivity).
    replace (u + Z.of_nat (n + m) - (u + Z.of_nat n)) with (Z.of_nat m) in ED by lia. rewrite Z.mod_small in ED by lia. lia.
Qed.
Print Assumptions C74_inputs.
(** The iterations of an object in any history without [clear]. *)
Theorem C74_history : forall sz size s o cs, random_made sz size s o -> Forall (rcall_ok sz) cs -> Forall no_rclear cs ->
  exists u, rnd_is sz size u (snd (World.run rstep cs o)).
Proof. intros sz size s o cs Hm Hc Hn. pose proof (run_after sz size s o cs Hm Hc) as HG. destruct (live_stays sz size cs Hn (start sz s)) as (u & E). rewrite E in HG. now exists u. Qed.
Print Assumptions C74_history.
Example C74_example : rnd_is 48 64 (start 48 a_seed) (fresh 48 64 a_seed) /\ r_rand_u (after_iters 0 (fresh 48 64 a_seed)) = a_seed ++ repeat 0 15.
Proof. split; [|reflexivity]. apply fresh_is; [unfold sizes_ok; lia | apply a_seed_ok | apply a_seed_ok]. Qed.

(** C75: after [clear], in any history without an accepted [reset]. *)
Definition not_reset (sz : Z) (c : rcall) : Prop :=
  match c with RReset _ (VBytes []) => False | RReset _ (VBytes s) => len s <> sz | _ => True end.
Lemma stays_wiped sz size cs : Forall (not_reset sz) cs -> snd (World.run (gen_step sz size) cs None) = None.
Proof.
  induction 1 as [|c cs Hc HF IH]; [reflexivity|]. rewrite run_cons. cbn [snd]. replace (snd (gen_step sz size c None)) with (@None Z); [exact IH|]. destruct c as [|u k|]; cbn [gen_step]; try reflexivity.
  destruct k as [[|x k]|str|z|]; try reflexivity; [contradiction|]. cbn [not_reset] in Hc. replace (len (x :: k) =? sz) with false by lia. reflexivity.
Qed.
Theorem C75_cleared_fails : forall sz size s o cs cs', random_made sz size s o -> Forall (rcall_ok sz) cs -> Forall (rcall_ok sz) cs' -> Forall (not_reset sz) cs' -> 0 < size ->
  exists e o', random (snd (World.run rstep (cs ++ RClear :: cs') o)) = (Err (GOSTRandomError e), o').
Proof.
  intros sz size s o cs cs' Hm Hc Hc' Hn Hs. assert (HF : Forall (rcall_ok sz) (cs ++ RClear :: cs')) by (apply Forall_app; split; [exact Hc|]; constructor; [exact I | exact Hc']).
  pose proof (run_after sz size s o _ Hm HF) as HG. rewrite run_app in HG at 1. cbn [snd] in HG. rewrite run_cons in HG. cbn [gen_step snd] in HG. rewrite stays_wiped in HG by exact Hn. cbn [gen_is] in HG.
  destruct (wiped_random sz size _ HG) as (o' & E & _). rewrite E. destruct (sz =? 0); [unfold seed_error; eauto|]. destruct (Z.eqb_spec (steps size) 0) as [Z0|Z0]; [apply steps_zero in Z0; lia|]. unfold limit_error. eauto.
Qed.
Print Assumptions C75_cleared_fails.
Example C75_example : random_made 48 64 a_seed (fresh 48 64 a_seed) /\
  fst (World.run rstep [RClear; RRandom; RReset [] (VInt 3); RRandom] (fresh 48 64 a_seed)) = [Ok RNone; Err limit_error; Err value_error; Err limit_error].
Proof. split; [apply a_made | vm_compute; reflexivity]. Qed.

(** C76 (and the last part of C75): after any history, with or without [clear], an accepted [reset] gives the new object. *)
Theorem C76_reset : forall sz size s s' o o' cs u k, random_made sz size s o -> Forall (rcall_ok sz) cs -> bytes_ok u -> len u = sz -> varg_ok k ->
  random_new u size (Some k) (Some sz) = Ok o' -> seed_of u k = VBytes s' -> random_reset u k (snd (World.run rstep cs o)) = (Ok tt, o').
Proof.
  intros sz size s s' o o' cs u k Hm Hc Hu HLu Hk En Es. pose proof (run_in_use sz size cs Hc o (made_in_use sz size s o Hm)) as HU.
  assert (Hs' : bytes_ok s') by (destruct k as [[|x k]|str|z|]; cbn [seed_of] in Es; try discriminate Es; inversion Es; subst; assumption).
  assert (Hm' : random_made sz size s' o') by (split; [apply Hm|]; split; [exact Hs'|]; now exists u, k).
  destruct (made_fresh sz size s' o' Hm') as (HL & -> & _). now apply reset_fresh.
Qed.
Print Assumptions C76_reset.
Theorem C76_same_seed : forall sz size s o1 o2, random_made sz size s o1 -> random_made sz size s o2 -> o1 = o2.
Proof. intros sz size s o1 o2 H1 H2. destruct (made_fresh _ _ _ _ H1) as (_ & -> & _). destruct (made_fresh _ _ _ _ H2) as (_ & -> & _). reflexivity. Qed.
Print Assumptions C76_same_seed.
Theorem C75_reset_after_clear : forall sz size s s' o o' cs cs' u k, random_made sz size s o -> Forall (rcall_ok sz) cs -> Forall (rcall_ok sz) cs' -> bytes_ok u -> len u = sz -> varg_ok k ->
  random_new u size (Some k) (Some sz) = Ok o' -> seed_of u k = VBytes s' -> random_reset u k (snd (World.run rstep (cs ++ RClear :: cs') o)) = (Ok tt, o').
Proof.
  intros sz size s s' o o' cs cs' u k Hm Hc Hc'. apply C76_reset with (s := s); [exact Hm|]. apply Forall_app; split; [exact Hc|]. constructor; [exact I | exact Hc'].
Qed.
Print Assumptions C75_reset_after_clear.
Example C76_example : random_reset [] (VBytes a_seed) (snd (World.run rstep [RClear; RRandom; RRandom] (fresh 48 64 (repeat 9 48)))) = (Ok tt, fresh 48 64 a_seed).
Proof. vm_compute. reflexivity. Qed.

(** C77. *)
Theorem C77_zero_seed : forall sz size s o, random_made sz size s o ->
  (random o = (Err seed_error, o) <-> Forall (fun x => x = 0) s) /\ (~ Forall (fun x => x = 0) s -> exists o', random o = (Ok (output (start sz s) size), o')).
Proof.
  intros sz size s o Hm. destruct (made_fresh sz size s o Hm) as (HL & _ & Ho). pose proof Hm as (Hz & Hs & _). pose proof (random_is sz size _ o Ho) as R. rewrite start_seed in R by assumption.
  destruct (Z.eqb_spec (le_value (rev s)) 0) as [E|E].
  - apply value_zero in E; [|exact Hs]. split; [split; [intros _; exact E | intros _; exact R] | contradiction].
  - assert (NE : ~ Forall (fun x => x = 0) s) by (intros F; apply E; now apply value_zero). destruct R as (o' & R & _). split; [split; [intros F; exfalso; congruence | contradiction] | intros _; eauto].
Qed.
Print Assumptions C77_zero_seed.
(** After any history: whenever the error is raised the object has not changed. *)
Theorem C77_unchanged : forall sz size s o cs o', random_made sz size s o -> Forall (rcall_ok sz) cs -> Forall no_rclear cs ->
  random (snd (World.run rstep cs o)) = (Err seed_error, o') -> o' = snd (World.run rstep cs o).
Proof.
  intros sz size s o cs o' Hm Hc Hn E. destruct (C74_history sz size s o cs Hm Hc Hn) as (u & Hu). pose proof (random_is sz size u _ Hu) as R. rewrite E in R. destruct (seed_part sz u =? 0); [congruence|]. destruct R as (o1 & R & _). exfalso; congruence.
Qed.
Print Assumptions C77_unchanged.
Example C77_example : (exists o, random_new [] 64 (Some (VBytes (repeat 0 32))) (Some 32) = Ok o /\ random o = (Err seed_error, o)) /\ Forall (fun x => x = 0) (repeat 0 32).
Proof. split; [eexists; split; [vm_compute; reflexivity | vm_compute; reflexivity]|]. repeat constructor. Qed.

(** C78: an explicit seed. *)
Theorem C78_new : forall u size k sz, k <> VBytes [] -> sizes_ok sz ->
  random_new u size (Some k) (Some sz) = match k with VBytes s => if len s =? sz then Ok (fresh sz size s) else Err value_error | _ => Err value_error end.
Proof.
  intros u size k sz N Hz. unfold random_new. destruct k as [[|x k]|str|z|]; [contradiction| | | |]; try (unfold random_init; rewrite filling_bad by exact I; reflexivity).
  destruct (Z.eqb_spec (len (x :: k)) sz) as [E|E]; [apply init_fresh; [exact Hz | reflexivity | exact E]|]. unfold random_init. rewrite filling_bad by exact E. reflexivity.
Qed.
Print Assumptions C78_new.
Theorem C78_reset : forall sz size s o cs u k, random_made sz size s o -> Forall (rcall_ok sz) cs -> k <> VBytes [] ->
  let o1 := snd (World.run rstep cs o) in
  random_reset u k o1 = match k with VBytes s' => if len s' =? sz then (Ok tt, fresh sz size s') else (Err value_error, o1) | _ => (Err value_error, o1) end.
Proof.
  intros sz size s o cs u k Hm Hc N o1. pose proof (run_in_use sz size cs Hc o (made_in_use sz size s o Hm)) as HU. fold o1 in HU.
  destruct k as [[|x k]|str|z|]; [contradiction| | | |]; try (apply reset_bad with (1 := HU); exact I).
  destruct (Z.eqb_spec (len (x :: k)) sz) as [E|E]; [apply reset_fresh; [exact HU | reflexivity | exact E] | apply reset_bad with (1 := HU); exact E].
Qed.
Print Assumptions C78_reset.
(** Absent keywords: a seed from [os.urandom], and 48 octets. *)
Theorem C78_defaults : forall u size k sz,
  random_new u size None sz = random_new u size (Some (VBytes [])) sz /\ random_new u size k None = random_new u size k (Some 48) /\
  (sizes_ok 48 -> random_new u size None None = Ok (fresh 48 size u) \/ len u <> 48).
Proof.
  intros u size k sz. split; [reflexivity|]. split; [reflexivity|]. intros Hz. destruct (Z.eq_dec (len u) 48) as [E|E]; [left | right; exact E]. apply init_fresh; [exact Hz | reflexivity | exact E].
Qed.
Print Assumptions C78_defaults.
Example C78_example : random_new [] 64 (Some (VBytes [1; 2])) (Some 48) = Err value_error /\ random_new [] 64 (Some (VBytes a_seed)) (Some 48) = Ok (fresh 48 64 a_seed).
Proof. split; vm_compute; reflexivity. Qed.
