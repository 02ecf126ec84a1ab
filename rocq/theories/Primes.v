(** * Primality: Fermat's theorem and Pocklington's criterion *)
From Coq Require Import ZArith Znumtheory Lia List Permutation.
Import ListNotations.
Open Scope Z_scope.

Lemma prime_divisor n : 1 < n -> exists l, prime l /\ (l | n).
Proof.
  intros H. assert (HW : forall m, 0 <= m -> forall n, 1 < n <= m -> exists l, prime l /\ (l | n)).
  - apply (natlike_ind (fun m => forall n, 1 < n <= m -> exists l, prime l /\ (l | n))); [intros; lia|].
    intros m Hm IH k Hk. destruct (prime_dec k) as [P|P]; [exists k; split; [exact P | apply Z.divide_refl]|].
    destruct (not_prime_divide k ltac:(lia) P) as (d & Hd & D). destruct (IH d ltac:(lia)) as (l & Pl & Dl). exists l. split; [exact Pl|]. now apply Z.divide_trans with d.
  - apply (HW n); lia.
Qed.
Lemma small_prime_divisor n : 1 < n -> ~ prime n -> exists l, prime l /\ (l | n) /\ l * l <= n.
Proof.
  intros H NP. destruct (not_prime_divide n H NP) as (d & Hd & c & E).
  assert (Hc : 1 < c < n) by nia. destruct (Z.le_ge_cases d c) as [L|L].
  - destruct (prime_divisor d ltac:(lia)) as (l & Pl & Dl). exists l. split; [exact Pl|]. split; [apply Z.divide_trans with d; [exact Dl | exists c; exact E]|].
    apply Z.divide_pos_le in Dl; [|lia]. pose proof (prime_ge_2 l Pl). nia.
  - destruct (prime_divisor c ltac:(lia)) as (l & Pl & Dl). exists l. split; [exact Pl|]. split; [apply Z.divide_trans with c; [exact Dl | exists d; lia]|].
    apply Z.divide_pos_le in Dl; [|lia]. pose proof (prime_ge_2 l Pl). nia.
Qed.
(** Trial division. *)
Lemma prime_trial n : 1 < n -> (forall d, 1 < d -> d * d <= n -> n mod d <> 0) -> prime n.
Proof.
  intros H HD. destruct (prime_dec n) as [P|P]; [exact P|]. destruct (small_prime_divisor n H P) as (l & Pl & Dl & L). exfalso.
  pose proof (prime_ge_2 l Pl). apply (HD l ltac:(lia) L). apply Z.mod_divide; [lia | exact Dl].
Qed.
Fixpoint trial (fuel : nat) (d n : Z) : bool :=
  match fuel with O => false | S f => if n <? d * d then true else if n mod d =? 0 then false else trial f (d + 1) n end.
Lemma trial_ok fuel : forall d n, trial fuel d n = true -> 0 < d -> forall e, d <= e -> e * e <= n -> n mod e <> 0.
Proof.
  induction fuel as [|f IH]; intros d n E Hd e He L; [discriminate E|]. cbn [trial] in E. destruct (Z.ltb_spec n (d * d)) as [C|C]; [nia|].
  destruct (Z.eqb_spec (n mod d) 0) as [M|M]; [discriminate E|]. destruct (Z.eq_dec e d) as [->|N]; [exact M|]. apply (IH (d + 1) n E); lia.
Qed.
Lemma prime_small fuel n : 1 < n -> trial fuel 2 n = true -> prime n.
Proof. intros H E. apply prime_trial; [exact H|]. intros d Hd. apply (trial_ok fuel 2 n E); lia. Qed.

(** ** Fermat's little theorem *)

Section Fermat.
Variable l : Z.
Hypothesis l_prime : prime l.
Let l2 := prime_ge_2 l l_prime.

Lemma mod_cancel a x y : a mod l <> 0 -> (a * x) mod l = (a * y) mod l -> x mod l = y mod l.
Proof.
  intros N E. assert (D : (l | a * (x - y))) by (apply Z.mod_divide; [lia|]; rewrite Z.mul_sub_distr_l, Zminus_mod, E, Z.sub_diag; apply Z.mod_0_l; lia).
  apply (prime_mult l l_prime) in D. destruct D as [D|D]; [exfalso; apply N; apply Z.mod_divide; [lia | exact D]|].
  destruct D as [c Hc]. replace x with (y + c * l) by lia. apply Z.mod_add. lia.
Qed.
Definition prod (L : list Z) : Z := fold_right Z.mul 1 L.
Lemma prod_perm L M : Permutation L M -> prod L = prod M.
Proof. unfold prod. induction 1; cbn [fold_right]; lia. Qed.
Lemma prod_map a L : prod (map (fun i => (a * i) mod l) L) mod l = (a ^ Z.of_nat (length L) * prod L) mod l.
Proof.
  induction L as [|x L IH]; [reflexivity|]. cbn [map prod fold_right length]. fold (prod L) (prod (map (fun i => (a * i) mod l) L)).
  rewrite Zmult_mod, Z.mod_mod, IH, <- Zmult_mod by lia. f_equal. rewrite Nat2Z.inj_succ, Z.pow_succ_r by lia. lia.
Qed.
Definition units : list Z := map Z.of_nat (seq 1 (Z.to_nat (l - 1))).
Lemma units_in x : In x units <-> 0 < x < l.
Proof.
  unfold units. rewrite in_map_iff. split.
  - intros (n & <- & H). apply in_seq in H. lia.
  - intros H. exists (Z.to_nat x). split; [lia|]. apply in_seq. lia.
Qed.
Lemma units_nodup : NoDup units.
Proof. apply FinFun.Injective_map_NoDup; [intros x y; apply Nat2Z.inj | apply seq_NoDup]. Qed.
Lemma units_length : length units = Z.to_nat (l - 1).
Proof. unfold units. now rewrite map_length, seq_length. Qed.
Lemma prod_units L : (forall x, In x L -> x mod l <> 0) -> prod L mod l <> 0.
Proof.
  induction L as [|x L IH]; intros H; [cbn; rewrite Z.mod_small by lia; lia|]. cbn [prod fold_right]. fold (prod L). intros E. apply Z.mod_divide in E; [|lia].
  apply (prime_mult l l_prime) in E. destruct E as [E|E]; (apply Z.mod_divide in E; [|lia]); [apply (H x); [left; reflexivity | exact E] | apply IH; [intros y Hy; apply H; now right | exact E]].
Qed.
Lemma nodup_map_in {A B} (f : A -> B) L : NoDup L -> (forall x y, In x L -> In y L -> f x = f y -> x = y) -> NoDup (map f L).
Proof.
  induction 1 as [|x L NI ND IH]; intros H; [constructor|]. cbn [map]. constructor.
  - intros HI. apply in_map_iff in HI. destruct HI as (y & E & Hy). apply NI. replace x with y; [exact Hy|]. apply H; [now right | now left | exact E].
  - apply IH. intros u v Hu Hv. apply H; now right.
Qed.
Theorem fermat a : a mod l <> 0 -> a ^ (l - 1) mod l = 1.
Proof.
  intros N. set (M := map (fun i => (a * i) mod l) units).
  assert (ND : NoDup M).
  { apply nodup_map_in; [apply units_nodup|]. intros x y Hx Hy E. apply units_in in Hx, Hy. apply mod_cancel in E; [|exact N]. rewrite !Z.mod_small in E by lia. exact E. }
  assert (IN : incl M units).
  { intros x Hx. apply in_map_iff in Hx. destruct Hx as (y & <- & Hy). apply units_in in Hy. apply units_in. assert (HB := Z.mod_pos_bound (a * y) l ltac:(lia)).
    destruct (Z.eq_dec ((a * y) mod l) 0) as [E|E]; [|lia]. exfalso. apply Z.mod_divide in E; [|lia]. apply (prime_mult l l_prime) in E.
    destruct E as [E|E]; [apply N; apply Z.mod_divide; [lia | exact E] | apply Z.divide_pos_le in E; lia]. }
  assert (PM : Permutation M units) by (apply NoDup_Permutation_bis; [exact ND | unfold M; rewrite map_length; lia | exact IN]).
  pose proof (prod_map a units) as E. fold M in E. rewrite (prod_perm _ _ PM), units_length, Z2Nat.id in E by lia.
  assert (NU : prod units mod l <> 0) by (apply prod_units; intros x Hx; apply units_in in Hx; rewrite Z.mod_small; lia).
  replace (prod units) with (prod units * 1) in E at 1 by lia. rewrite (Z.mul_comm (a ^ (l - 1))) in E. apply mod_cancel in E; [|exact NU]. rewrite <- E. apply Z.mod_small. lia.
Qed.

Lemma pow_one b m : 0 <= m -> b mod l = 1 -> b ^ m mod l = 1.
Proof.
  intros Hm E. revert m Hm. apply natlike_ind; [apply Z.mod_small; lia|]. intros m Hm IH. rewrite Z.pow_succ_r, Zmult_mod, E, IH by lia. apply Z.mod_small. lia.
Qed.
Lemma order_divides f b : prime f -> b mod l <> 1 -> b ^ f mod l = 1 -> (f | l - 1).
Proof.
  intros PF N1 EF. pose proof (prime_ge_2 f PF) as F2. destruct (Zdivide_dec f (l - 1)) as [D|D]; [exact D|]. exfalso. apply N1.
  assert (NB : b mod l <> 0).
  { intros E. assert (E0 : b ^ f mod l = 0); [|lia]. replace f with (Z.succ (f - 1)) by lia. rewrite Z.pow_succ_r, Zmult_mod, E by lia. apply Z.mod_0_l. lia. }
  pose proof (fermat b NB) as EL. destruct (rel_prime_bezout _ _ (prime_rel_prime f PF (l - 1) D)) as [u v UV].
  set (t := Z.abs u + Z.abs v). assert (HT : 0 <= t) by lia.
  assert (E1 : (u + t * (l - 1)) * f = 1 + (t * f - v) * (l - 1)) by nia.
  assert (H1 : 0 <= u + t * (l - 1)) by nia. assert (H2 : 0 <= t * f - v) by nia.
  assert (HA : b ^ ((u + t * (l - 1)) * f) mod l = 1) by (rewrite Z.mul_comm, Z.pow_mul_r by lia; apply pow_one; assumption).
  assert (H3 : 0 <= (t * f - v) * (l - 1)) by (apply Z.mul_nonneg_nonneg; [exact H2 | lia]).
  rewrite E1, (Z.pow_add_r _ _ _ Z.le_0_1 H3), Z.pow_1_r in HA. rewrite (Z.mul_comm _ (l - 1)), Z.pow_mul_r in HA by lia.
  rewrite <- Zmult_mod_idemp_r, pow_one, Z.mul_1_r in HA by assumption. exact HA.
Qed.
End Fermat.

(** ** Pocklington's criterion *)

(** [f] is a prime factor of [n - 1 = f R], and [c = a ^ R] shows it. *)
Definition witness (n f : Z) : Prop :=
  prime f /\ exists R c w, f * R + 1 = n /\ 0 <= R /\ c ^ f mod n = 1 /\ (c * w) mod n = (1 + w) mod n.

Lemma mod_divides x n l : 0 < n -> 0 < l -> (l | n) -> (x mod n) mod l = x mod l.
Proof. intros Hn Hl D. symmetry. now apply Zmod_div_mod. Qed.

Lemma witness_divides n f l : 1 < n -> witness n f -> prime l -> (l | n) -> (f | l - 1).
Proof.
  intros Hn (PF & R & c & w & E & HR & E1 & E2) PL D. pose proof (prime_ge_2 l PL). apply (order_divides l PL f c PF).
  - intros EC. assert (E3 : ((c * w) mod n) mod l = ((1 + w) mod n) mod l) by now rewrite E2. rewrite !mod_divides in E3 by (lia || exact D).
    rewrite <- Zmult_mod_idemp_l, EC, Z.mul_1_l in E3. assert (E4 : 1 mod l = 0); [|rewrite Z.mod_small in E4; lia].
    replace 1 with ((1 + w) - w) by lia. rewrite Zminus_mod, <- E3, Z.sub_diag. apply Z.mod_0_l. lia.
  - rewrite <- (mod_divides _ n l) by (lia || exact D). rewrite E1. apply Z.mod_small. lia.
Qed.
Lemma product_divides fs m : Forall prime fs -> NoDup fs -> Forall (fun f => (f | m)) fs -> (prod fs | m).
Proof.
  revert m. induction fs as [|f fs IH]; intros m HP ND HD; [apply Z.divide_1_l|]. inversion HP; inversion ND; inversion HD; subst. cbn [prod fold_right]. fold (prod fs).
  specialize (IH m ltac:(assumption) ltac:(assumption) ltac:(assumption)). destruct IH as [c Hc].
  assert (DF : (f | c)).
  { assert (D : (f | c * prod fs)) by (rewrite <- Hc; assumption). apply prime_mult in D; [|assumption]. destruct D as [D|D]; [exact D|]. exfalso.
    assert (HI : forall gs, Forall prime gs -> (f | prod gs) -> In f gs).
    { induction gs as [|g gs IHg]; intros HG DG; [apply Z.divide_1_r_nonneg in DG; [|match goal with H : prime f |- _ => pose proof (prime_ge_2 f H) end; lia]; subst f; exfalso; now apply not_prime_1|].
      inversion HG; subst. apply prime_mult in DG; [|assumption]. destruct DG as [DG|DG]; [left | right; now apply IHg]. apply prime_div_prime in DG; auto. }
    match goal with H : ~ In f fs |- _ => apply H end. now apply HI. }
  destruct DF as [e He]. exists e. subst c. lia.
Qed.
Theorem pocklington n fs : 1 < n -> NoDup fs -> Forall (witness n) fs -> n <= prod fs * prod fs -> prime n.
Proof.
  intros Hn ND HW HF. destruct (prime_dec n) as [P|P]; [exact P|]. destruct (small_prime_divisor n Hn P) as (l & PL & D & L). exfalso.
  assert (PP : Forall prime fs) by (eapply Forall_impl; [|exact HW]; intros f Hf; apply Hf).
  assert (DD : (prod fs | l - 1)).
  { apply product_divides; [exact PP | exact ND|]. eapply Forall_impl; [|exact HW]. intros f Hf. now apply (witness_divides n). }
  assert (PF : 0 < prod fs) by (clear - PP; induction PP as [|f fs Pf _ IH]; cbn [prod fold_right]; [lia|]; fold (prod fs); pose proof (prime_ge_2 f Pf); nia).
  pose proof (prime_ge_2 l PL). apply Z.divide_pos_le in DD; nia.
Qed.
