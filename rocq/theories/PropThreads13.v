(** * Property C168: a generator that another thread clears during a call *)
From Verif Require Import PyBase PyState PyFacts Utils UtilsFacts Streebog SpecStreebog StreebogFacts StreebogLemmas StreebogProps World Random SpecRandom RandomLemmas PropRandom Threads ThreadFacts ThreadsRandom ThreadRandomFacts SpecPublicRegister ThreadsRandomClear ThreadRandomClearFacts.
Open Scope string_scope.
Open Scope list_scope.
Open Scope Z_scope.

(** C168. The call, statement by statement, is the call of the model. *)
Theorem C168_alone : forall o, run p_random_clear o = (Ok [], snd (random_clear o)).
Proof. reflexivity. Qed.
Print Assumptions C168_alone.
(** Whatever was called before, if a call alone would give octets, there is an order of the statements of the call and of the clearing in which the call gives octets that depend on nothing but their number: those of the
    generator whose register is the public one.  The register is then not the cleared one but follows the public one. *)
Theorem C168_public : forall sz size s o cs out o1, random_made sz size s o -> Forall (rcall_ok sz) cs -> 1 <= size -> let now := snd (World.run rstep cs o) in
  random now = (Ok out, o1) -> exists sched o', go sched [p_random; p_random_clear] now = ([Ret (output public_register size); Ret []], o') /\ r_rand_u o' = be_bytes 63 (public_register + steps size).
Proof.
  intros sz size s o cs out o1 Hm Hc Hs now E. assert (HU : in_use sz size now) by (apply run_in_use; [exact Hc | exact (made_in_use sz size s o Hm)]). destruct HU as [[u HU]|HW].
  - pose proof (random_is sz size u now HU) as R. destruct (Z.eqb_spec (seed_part sz u) 0) as [Z0|Z0]; [rewrite E in R; discriminate R|]. destruct (public_run sz size u now HU Z0 Hs) as (sched & o' & G & H'). exists sched, o'. split; [exact G|]. rewrite (rn_u _ _ _ _ H'). apply be_mod.
  - exfalso. destruct (wiped_random sz size now HW) as (o2 & R & _). rewrite E in R. destruct (sz =? 0); [discriminate R|]. destruct (Z.eqb_spec (steps size) 0) as [Z0|Z0]; [|discriminate R]. apply steps_zero in Z0; lia.
Qed.
Print Assumptions C168_public.
(** In another order the clearing is lost: all is as after the call alone. *)
Theorem C168_lost : forall sz size s o cs out o1, random_made sz size s o -> Forall (rcall_ok sz) cs -> 1 <= size -> let now := snd (World.run rstep cs o) in
  random now = (Ok out, o1) -> exists sched, go sched [p_random; p_random_clear] now = ([Ret out; Ret []], o1).
Proof.
  intros sz size s o cs out o1 Hm Hc Hs now E. assert (HU : in_use sz size now) by (apply run_in_use; [exact Hc | exact (made_in_use sz size s o Hm)]). destruct HU as [[u HU]|HW].
  - pose proof (random_is sz size u now HU) as R. destruct (Z.eqb_spec (seed_part sz u) 0) as [Z0|Z0]; [rewrite E in R; discriminate R|]. destruct (clear_lost sz size u now HU Z0 Hs) as (sched & o' & G & E' & _). rewrite E in E'.
    assert (HX : forall (x y : bytes) (a b : random_obj), (Ok x, a) = (Ok y, b) -> x = y /\ a = b) by (intros x y a b K; split; congruence). apply HX in E'. destruct E' as [-> ->]. now exists sched.
  - exfalso. destruct (wiped_random sz size now HW) as (o2 & R & _). rewrite E in R. destruct (sz =? 0); [discriminate R|]. destruct (Z.eqb_spec (steps size) 0) as [Z0|Z0]; [|discriminate R]. apply steps_zero in Z0; lia.
Qed.
Print Assumptions C168_lost.

(** The claim: when the call and the clearing have both returned, the generator gives no more octets. *)
Definition clearing_lasts : Prop := forall sz size s o sched a after, random_made sz size s o -> 1 <= size -> go sched [p_random; p_random_clear] o = ([Ret a; Ret []], after) ->
  exists e, fst (random after) = Err e.
Theorem C168_refuted : ~ clearing_lasts.
Proof.
  intros H. set (o := fresh 48 64 a_seed). assert (Hm : random_made 48 64 a_seed o) by apply a_made. destruct (made_fresh 48 64 a_seed o Hm) as (_ & _ & Ho).
  assert (HS : seed_part 48 (start 48 a_seed) <> 0) by (vm_compute; discriminate).
  destruct (clear_lost 48 64 (start 48 a_seed) o Ho HS ltac:(lia)) as (sched & o1 & G & _ & H1). destruct (H 48 64 a_seed o sched _ o1 Hm ltac:(lia) G) as [e F].
  set (u1 := (start 48 a_seed + steps 64) mod register_size) in H1. assert (HS1 : seed_part 48 u1 =? 0 = false) by (vm_compute; reflexivity).
  pose proof (random_is 48 64 u1 o1 H1) as R. rewrite HS1 in R. destruct R as (o2 & E2 & _). rewrite E2 in F. discriminate F.
Qed.
Print Assumptions C168_refuted.
(** After a clearing while no call runs, a call fails. *)
Example C168_after : exists e, fst (random (snd (random_clear (fresh 48 64 a_seed)))) = Err e.
Proof. eexists. vm_compute. reflexivity. Qed.
(** A seed of 48 octets, keys of 32 octets. *)
Example C168_example : exists sched o', go sched [p_random; p_random_clear] (fresh 48 32 a_seed) = ([Ret (output public_register 32); Ret []], o') /\ r_rand_u o' <> zero_fill (r_rand_u (fresh 48 32 a_seed)).
Proof.
  pose proof (a_made 32) as Hm. destruct (made_fresh 48 32 a_seed _ Hm) as (_ & _ & Ho). assert (HS : seed_part 48 (start 48 a_seed) <> 0) by (vm_compute; discriminate).
  destruct (public_run 48 32 _ _ Ho HS ltac:(lia)) as (sched & o' & G & H'). exists sched, o'. split; [exact G|]. intros K. apply (f_equal (@List.length Z)) in K. rewrite (rn_u _ _ _ _ H'), be_length in K. vm_compute in K. discriminate K.
Qed.
