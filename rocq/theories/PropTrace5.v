(** * Properties of the sequence of steps of generating random numbers: C148 *)
From Verif Require Import PyBase PyState PyFacts PyLoop Utils UtilsFacts Streebog SpecStreebog StreebogFacts StreebogFacts2 StreebogObj StreebogLemmas StreebogProps HmacLemmas World Random SpecRandom RandomLemmas PropRandom SpecTrace SpecTraceHash SpecTracePbkdf SpecTraceRandom Trace TraceLemmas TraceHash TraceHashFlow TraceHashShow TracePbkdfFacts TraceRandom TraceRandomFacts.
Open Scope string_scope.
Open Scope list_scope.
Open Scope Z_scope.

(** A generator of [size] octets after any calls, without [clear], whose next call of [random] returns. *)
Definition ready (size : Z) (o : random_obj) : Prop :=
  exists sz s o0 cs d, random_made sz size s o0 /\ Forall (rcall_ok sz) cs /\ Forall no_rclear cs /\ o = snd (World.run rstep cs o0) /\ fst (random o) = Ok d.
Lemma ready_is size o : ready size o -> exists sz u, rnd_is sz size u o /\ seed_part sz u <> 0.
Proof.
  intros (sz & s & o0 & cs & d & Hm & Hc & Hn & -> & E). destruct (C74_history sz size s o0 cs Hm Hc Hn) as (u & Hu). exists sz, u. split; [exact Hu|]. intros Z. pose proof (random_is sz size u _ Hu) as R. rewrite Z in R. cbn [Z.eqb] in R. rewrite R in E. discriminate E.
Qed.

(** C148: which statements are executed depends on the size of the output alone: not on the seed, its size, or the calls before. *)
Theorem C148_flow : forall size o o', ready size o -> ready size o' -> map shape (fst (t_random o)) = map shape (fst (t_random o')).
Proof. intros size o o' H H'. destruct (ready_is _ _ H) as (sz & u & Hu & N), (ready_is _ _ H') as (sz' & u' & Hu' & N'). exact (flow_random sz sz' size u u' o o' Hu Hu' N N'). Qed.
Print Assumptions C148_flow.
(** Forgetting the steps gives the method of the model. *)
Theorem C148_results : forall o, snd (t_random o) = liftO (both random o).
Proof. exact erase_random. Qed.
Print Assumptions C148_results.
(** The work: three calls of the compression function for every block of 64 octets or part of one. *)
Theorem C148_work : forall size o, ready size o -> lookups (fst (t_random o)) = compressions (3 * Z.to_nat (steps size)).
Proof. intros size o H. destruct (ready_is _ _ H) as (sz & u & Hu & N). destruct (random_gives sz size u o Hu N) as (L & r & [G _] & E & _). unfold lookups. rewrite G. exact E. Qed.
Print Assumptions C148_work.

Lemma register_seen sz size u o : rnd_is sz size u o -> seed_part sz u <> 0 -> 0 < steps size -> register_before (fst (t_random o)) = u.
Proof.
  intros Hu N P. destruct (random_gives sz size u o Hu N) as (L & r & [G _] & _ & E). specialize (E P []). rewrite app_nil_r in E. unfold register_before. rewrite G, E, <- (be_mod (u + 1)), le_value_rev, rev_involutive, be_value by (apply Z.mod_pos_bound, register_pos).
  rewrite Zminus_mod_idemp_l. replace (u + 1 - 1) with u by lia. apply Z.mod_small, (rn_bound _ _ _ _ Hu).
Qed.
Lemma steps_pos size : 0 < size -> 0 < steps size.
Proof. intros H. unfold steps, whole, rest. assert (HM := Z.mod_pos_bound size 64 ltac:(lia)). destruct (Nat.eqb_spec (Z.to_nat (size mod 64)) 0); lia. Qed.
(** The positions read during one call give the answers of all calls, the earlier ones as well as the later ones. *)
Theorem C148_predict : forall sz size s o n i k, random_made sz size s o -> ~ Forall (fun x => x = 0) s -> 0 < size -> start sz s + Z.of_nat n * steps size < register_size -> (i < n)%nat -> (k < n)%nat ->
  nth_error (fst (World.run rstep (repeat RRandom n) o)) k = Some (Ok (RBytes (predicted size (fst (t_random (snd (World.run rstep (repeat RRandom i) o)))) (Z.of_nat k - Z.of_nat i)))).
Proof.
  intros sz size s o n i k Hm N Hsize Hmax Hi Hk. rewrite (C72_stream sz size s o n Hm N Hmax). destruct (made_fresh sz size s o Hm) as (HL & _ & Ho). pose proof Hm as (Hz & Hs & _).
  assert (HP : 0 < seed_part sz (start sz s)) by (rewrite start_seed by assumption; now apply value_pos). pose proof (rn_bound _ _ _ _ Ho) as HB. pose proof (steps_pos size Hsize) as HS.
  assert (Hmax' : start sz s + Z.of_nat i * steps size < register_size) by nia. pose proof (calls_is sz size i Hz (start sz s) o Ho HP Hmax') as [_ HC].
  rewrite (map_nth_error _ k (seq 0 n) (d := k)) by (rewrite nth_error_nth' with (d := 0%nat) by (rewrite seq_length; lia); rewrite seq_nth by lia; reflexivity).
  assert (NS : seed_part sz (start sz s + Z.of_nat i * steps size) <> 0). { unfold seed_part in *. assert (P : 0 < 256 ^ (63 - sz)) by (apply Z.pow_pos_nonneg; unfold sizes_ok in Hz; lia). pose proof (Z.div_le_mono (start sz s) (start sz s + Z.of_nat i * steps size) _ P ltac:(nia)). lia. }
  unfold predicted. rewrite (register_seen sz size _ _ HC NS HS). revert Hi Hk Hmax HB HS. clear. generalize (start sz s) (steps size) register_size. intros u t r Hi Hk Hmax HB HS.
  replace ((u + Z.of_nat i * t + (Z.of_nat k - Z.of_nat i) * t) mod r) with (u + Z.of_nat k * t); [reflexivity|]. symmetry. replace (u + Z.of_nat i * t + (Z.of_nat k - Z.of_nat i) * t) with (u + Z.of_nat k * t) by nia. apply Z.mod_small. nia.
Qed.
Print Assumptions C148_predict.
(** Those of the first call give the seed. *)
Theorem C148_seed : forall sz size s o, random_made sz size s o -> ~ Forall (fun x => x = 0) s -> 0 < size -> seen_seed (Z.to_nat sz) (fst (t_random o)) = s.
Proof.
  intros sz size s o Hm N Hsize. destruct (made_fresh sz size s o Hm) as (HL & EO & Ho). pose proof Hm as (Hz & Hs & _).
  assert (HP : 0 < seed_part sz (start sz s)) by (rewrite start_seed by assumption; now apply value_pos). unfold seen_seed. rewrite (register_seen sz size _ _ Ho ltac:(lia) (steps_pos size Hsize)), <- (rn_u _ _ _ _ Ho), EO. cbn [fresh r_rand_u]. unfold fill.
  replace (Z.to_nat sz) with (List.length s + 0)%nat by (unfold len in HL; lia). rewrite firstn_app_2. cbn [firstn]. apply app_nil_r.
Qed.
Print Assumptions C148_seed.
(** The claim that the steps do not depend on the seed. *)
Definition steps_hide_the_seed : Prop := forall sz size s s' o o', random_made sz size s o -> random_made sz size s' o' -> ~ Forall (fun x => x = 0) s -> ~ Forall (fun x => x = 0) s' -> fst (t_random o) = fst (t_random o').
Lemma small_made (x : Z) : byte_ok x -> random_made 1 32 [x] (fresh 1 32 [x]).
Proof.
  intros Hx. split; [unfold sizes_ok; lia|]. split; [apply Forall_cons; [exact Hx | apply Forall_nil]|]. exists [x], (VBytes [x]). split; [apply Forall_cons; [exact Hx | apply Forall_nil]|]. split; [reflexivity|]. split; [reflexivity|].
  unfold random_new. apply init_fresh; [unfold sizes_ok; lia | reflexivity | reflexivity].
Qed.
Theorem C148_hidden_refuted : ~ steps_hide_the_seed.
Proof.
  intros H. assert (M1 : random_made 1 32 [1] (fresh 1 32 [1])) by (apply small_made; unfold byte_ok; lia). assert (M2 : random_made 1 32 [2] (fresh 1 32 [2])) by (apply small_made; unfold byte_ok; lia).
  assert (N1 : ~ Forall (fun x => x = 0) [1]) by (intros F; inversion F; lia). assert (N2 : ~ Forall (fun x => x = 0) [2]) by (intros F; inversion F; lia). specialize (H 1 32 [1] [2] _ _ M1 M2 N1 N2).
  pose proof (C148_seed 1 32 [1] _ M1 N1 ltac:(lia)) as E1. pose proof (C148_seed 1 32 [2] _ M2 N2 ltac:(lia)) as E2. rewrite H in E1. rewrite E1 in E2. discriminate E2.
Qed.
Print Assumptions C148_hidden_refuted.

(** Two generators of 100 octets with seeds of 48 octets and of one octet. *)
Lemma demo_ready sz size s : random_made sz size s (fresh sz size s) -> ~ Forall (fun x => x = 0) s -> ready size (fresh sz size s).
Proof.
  intros Hm N. pose proof Hm as (Hz & Hs & _). destruct (made_fresh _ _ _ _ Hm) as (HL & _ & Ho). assert (HP : 0 < seed_part sz (start sz s)) by (rewrite start_seed by assumption; now apply value_pos).
  pose proof (random_is _ _ _ _ Ho) as R. replace (seed_part sz (start sz s) =? 0) with false in R by lia. destruct R as (o' & R & _). exists sz, s, (fresh sz size s), [], (output (start sz s) size).
  split; [exact Hm|]. split; [apply Forall_nil|]. split; [apply Forall_nil|]. split; [reflexivity|]. rewrite R. reflexivity.
Qed.
Example C148_example : exists o o', ready 32 o /\ ready 32 o' /\ map shape (fst (t_random o)) = map shape (fst (t_random o')) /\ lookups (fst (t_random o)) = (1600 * 3)%nat /\
  seen_seed 1 (fst (t_random o)) = [7] /\ seen_seed 1 (fst (t_random o')) = [9].
Proof.
  assert (M1 : random_made 1 32 [7] (fresh 1 32 [7])) by (apply small_made; unfold byte_ok; lia). assert (M2 : random_made 1 32 [9] (fresh 1 32 [9])) by (apply small_made; unfold byte_ok; lia).
  assert (N1 : ~ Forall (fun x => x = 0) [7]) by (intros F; inversion F; lia). assert (N2 : ~ Forall (fun x => x = 0) [9]) by (intros F; inversion F; lia).
  pose proof (demo_ready _ _ _ M1 N1) as R1. pose proof (demo_ready _ _ _ M2 N2) as R2. exists (fresh 1 32 [7]), (fresh 1 32 [9]). split; [exact R1|]. split; [exact R2|]. split; [exact (C148_flow 32 _ _ R1 R2)|]. split; [rewrite (C148_work 32 _ R1); reflexivity|].
  split; [exact (C148_seed 1 32 [7] _ M1 N1 ltac:(lia)) | exact (C148_seed 1 32 [9] _ M2 N2 ltac:(lia))].
Qed.
Example C148_example_predict : random_made 1 1 [1] (fresh 1 1 [1]) /\ ~ Forall (fun x => x = 0) [1] /\ start 1 [1] + Z.of_nat 2 * steps 1 < register_size.
Proof. split; [exact (proj1 C72_example)|]. split; [intros H; inversion H; lia | vm_compute; reflexivity]. Qed.
