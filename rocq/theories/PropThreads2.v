(** * Property C158: several threads with one generator *)
From Verif Require Import PyBase PyState PyFacts Utils UtilsFacts Streebog SpecStreebog StreebogFacts StreebogLemmas StreebogProps World Random SpecRandom RandomLemmas PropRandom Threads ThreadFacts ThreadsRandom ThreadRandomFacts.
Open Scope string_scope.
Open Scope list_scope.
Open Scope Z_scope.

(** C158. The call, statement by statement, is the call of the model. *)
Theorem C158_alone : forall o, run p_random o = random o.
Proof. exact random_alone. Qed.
Print Assumptions C158_alone.
(** Whatever was called before, if a call alone would give [out] and leave the generator as [o'], there is an order of the statements of two threads in which both get [out] and the generator is left as [o']. *)
Theorem C158_same : forall sz size s o cs out o', random_made sz size s o -> Forall (rcall_ok sz) cs -> 1 <= size -> let now := snd (World.run rstep cs o) in
  random now = (Ok out, o') -> exists sched, go sched [p_random; p_random] now = ([Ret out; Ret out], o').
Proof.
  intros sz size s o cs out o' Hm Hc Hs now E. assert (HU : in_use sz size now) by (apply run_in_use; [exact Hc | exact (made_in_use sz size s o Hm)]). destruct HU as [[u HU]|HW].
  - pose proof (random_is sz size u now HU) as R. destruct (Z.eqb_spec (seed_part sz u) 0) as [Z0|Z0]; [rewrite E in R; discriminate R|]. destruct (random_twice sz size u now HU Z0 Hs) as (sched & o1 & E1 & _ & G). rewrite E in E1. injection E1 as -> ->. now exists sched.
  - exfalso. destruct (wiped_random sz size now HW) as (o1 & R & _). rewrite E in R. destruct (sz =? 0); [discriminate R|]. destruct (Z.eqb_spec (steps size) 0) as [Z0|Z0]; [|discriminate R]. apply steps_zero in Z0; lia.
Qed.
Print Assumptions C158_same.

(** The claim: when the calls of two threads have both returned, the generator is as after two calls, one after the other. *)
Definition generator_counts : Prop := forall sz size s o sched a b after, random_made sz size s o -> 1 <= size -> go sched [p_random; p_random] o = ([Ret a; Ret b], after) ->
  after = snd (random (snd (random o))).
Theorem C158_refuted : ~ generator_counts.
Proof.
  intros H. set (o := fresh 48 64 a_seed). assert (Hm : random_made 48 64 a_seed o) by apply a_made. destruct (made_fresh 48 64 a_seed o Hm) as (_ & _ & Ho).
  assert (HS : seed_part 48 (start 48 a_seed) <> 0) by (vm_compute; discriminate).
  destruct (random_twice 48 64 (start 48 a_seed) o Ho HS ltac:(lia)) as (sched & o1 & E1 & H1 & G). pose proof (H 48 64 a_seed o sched _ _ o1 Hm ltac:(lia) G) as F. rewrite E1 in F. cbn [snd] in F.
  set (u1 := (start 48 a_seed + steps 64) mod register_size) in H1. assert (HS1 : seed_part 48 u1 =? 0 = false) by (vm_compute; reflexivity).
  pose proof (random_is 48 64 u1 o1 H1) as R. rewrite HS1 in R. destruct R as (o2 & E2 & H2). rewrite E2 in F. cbn [snd] in F. rewrite <- F in H2. pose proof (rn_u _ _ _ _ H1) as A. pose proof (rn_u _ _ _ _ H2) as B. rewrite A in B. vm_compute in B. discriminate B.
Qed.
Print Assumptions C158_refuted.
(** A seed of 48 octets, keys of 32 octets. *)
Example C158_example : exists sched out o', go sched [p_random; p_random] (fresh 48 32 a_seed) = ([Ret out; Ret out], o') /\ random (fresh 48 32 a_seed) = (Ok out, o') /\ Z.of_nat (List.length out) = 32.
Proof.
  pose proof (a_made 32) as Hm. destruct (made_fresh 48 32 a_seed _ Hm) as (_ & _ & Ho). assert (HS : seed_part 48 (start 48 a_seed) <> 0) by (vm_compute; discriminate).
  destruct (random_twice 48 32 _ _ Ho HS ltac:(lia)) as (sched & o' & E & _ & G). exists sched, (output (start 48 a_seed) 32), o'. split; [exact G|]. split; [exact E|]. apply output_length. lia.
Qed.
