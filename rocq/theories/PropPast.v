(** * Property C122: what the state of a generator says about its past *)
From Verif Require Import PyBase PyState PyFacts Utils UtilsFacts Streebog SpecStreebog StreebogFacts StreebogLemmas StreebogProps World Random SpecRandom RandomLemmas PropRandom.
Open Scope string_scope.
Open Scope list_scope.
Open Scope Z_scope.

(** C122.  The outputs a generator has returned can be computed from its register. *)
(** The output that was returned [j] calls before the register became [reg]. *)
Definition earlier (reg : bytes) (size : Z) (j : nat) : bytes := output ((le_value (rev reg) - Z.of_nat j * steps size) mod register_size) size.
Theorem C122_past : forall sz size s o n i, random_made sz size s o -> ~ Forall (fun x => x = 0) s -> start sz s + Z.of_nat n * steps size < register_size -> (i < n)%nat ->
  nth_error (fst (World.run rstep (repeat RRandom n) o)) i = Some (Ok (RBytes (earlier (r_rand_u (snd (World.run rstep (repeat RRandom n) o))) size (n - i)))).
Proof.
  intros sz size s o n i Hm N Hmax Hi. rewrite (C72_stream sz size s o n Hm N Hmax). destruct (made_fresh sz size s o Hm) as (HL & _ & Ho). pose proof Hm as (Hz & Hs & _).
  assert (HP : 0 < seed_part sz (start sz s)) by (rewrite start_seed by assumption; now apply value_pos).
  pose proof (calls_is sz size n Hz (start sz s) o Ho HP Hmax) as [_ HC].
  assert (HR := rn_u _ _ _ _ HC). rewrite HR. unfold earlier. rewrite le_value_rev, rev_involutive, be_value by (apply (rn_bound _ _ _ _ HC)).
  rewrite (map_nth_error _ i (seq 0 n) (d := i)) by (rewrite nth_error_nth' with (d := 0%nat) by (rewrite seq_length; lia); rewrite seq_nth by lia; reflexivity).
  pose proof (rn_bound _ _ _ _ Ho) as HB. assert (HS : 0 <= steps size) by (unfold steps; lia). revert Hi Hmax HB HS. clear. generalize (start sz s) (steps size) register_size. intros u t r Hi Hmax HB HS.
  replace ((u + Z.of_nat n * t - Z.of_nat (n - i) * t) mod r) with (u + Z.of_nat i * t); [reflexivity|]. symmetry.
  replace (u + Z.of_nat n * t - Z.of_nat (n - i) * t) with (u + Z.of_nat i * t) by nia. apply Z.mod_small. nia.
Qed.
Print Assumptions C122_past.
(** The claim that whoever reads an object does not learn what it returned before: no function of the object gives, for all generators, the output of the call before.  Refuted. *)
Definition past_is_hidden : Prop := forall f : random_obj -> bytes, exists sz size s o, random_made sz size s o /\ ~ Forall (fun x => x = 0) s /\ start sz s + steps size < register_size /\
  fst (random o) <> Ok (f (snd (random o))).
Theorem C122_hidden_refuted : ~ past_is_hidden.
Proof.
  intros H. destruct (H (fun o => earlier (r_rand_u o) (64 * r_q o + r_r o) 1)) as (sz & size & s & o & Hm & N & Hmax & HN). apply HN. clear H HN.
  pose proof (C122_past sz size s o 1 0 Hm N ltac:(lia) ltac:(lia)) as E. destruct (made_fresh sz size s o Hm) as (HL & _ & Ho). pose proof (random_is sz size _ o Ho) as R.
  destruct (seed_part sz (start sz s) =? 0) eqn:ES.
  - exfalso. cbn [repeat World.run rstep rmap] in E. rewrite R in E. discriminate E.
  - destruct R as (o' & R & Ho'). cbn [repeat World.run rstep] in E. rewrite R in E |- *. cbn [rmap fst snd nth_error Nat.sub] in E |- *. rewrite (rn_q _ _ _ _ Ho'), (rn_r _ _ _ _ Ho'), <- Z.div_mod by lia. congruence.
Qed.
Print Assumptions C122_hidden_refuted.
Example C122_example : random_made 48 0 a_seed (fresh 48 0 a_seed) /\ random_made 1 1 [1] (fresh 1 1 [1]) /\ ~ Forall (fun x => x = 0) [1] /\ start 1 [1] + Z.of_nat 3 * steps 1 < register_size /\ steps 1 = 1.
Proof.
  split; [apply a_made|]. split; [exact (proj1 C72_example)|]. split; [intros H; inversion H; lia|]. split; vm_compute; reflexivity.
Qed.
