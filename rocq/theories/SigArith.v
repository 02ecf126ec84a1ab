(** * The signature object: point addition and multiples *)
From Coq Require Import ZArith Znumtheory Field_theory Field Lia.
From Verif Require Import PyBase PyFacts PyLoop Utils UtilsFacts Euclid Fp SpecCurve CurveGroup SpecSign SigCurves Sig SigLemmas.
Open Scope Z_scope.

(** ** Loops *)

(** The outcome for all sufficiently large fuel; no outcome for any fuel. *)
Definition eventually {A} (f : nat -> outcome A) (r : outcome A) : Prop := exists n0, forall n, (n0 <= n)%nat -> f n = r.
Definition diverges {A} (f : nat -> outcome A) : Prop := forall n, f n = OutOfFuel.
Lemma eventually_unique {A} (f : nat -> outcome A) r r' : eventually f r -> eventually f r' -> r = r'.
Proof. intros [n H] [m H']. rewrite <- (H (Nat.max n m)) by lia. apply H'. lia. Qed.
Lemma eventually_not_diverges {A} (f : nat -> outcome A) r : eventually f r -> r <> OutOfFuel -> ~ diverges f.
Proof. intros [n H] N D. apply N. rewrite <- (H n) by lia. apply D. Qed.

(** ** Addition *)

Lemma add_total o x1 x2 y1 y2 : 0 <= s_size o -> exists x3 y3, _add o x1 x2 y1 y2 = Ok (x3, y3).
Proof. intros H. unfold _add. rewrite !compare_int by exact H. cbn [bind]. eauto. Qed.

Definition reduced (p x : Z) : Prop := 0 <= x < p.
Lemma mk_reduced p x y : reduced p x -> reduced p y -> mk p x = mk p y -> x = y.
Proof. intros Hx Hy E. apply mk_eq in E. unfold reduced in *. now rewrite !Z.mod_small in E by lia. Qed.

Lemma three_eq p : mk p 3 = fp_add p (fp_add p (mk p 1) (mk p 1)) (mk p 1).
Proof. rewrite <- !mk_add. reflexivity. Qed.
Lemma two_eq p : mk p 2 = fp_add p (mk p 1) (mk p 1).
Proof. rewrite <- !mk_add. reflexivity. Qed.

(** A coordinate as it is encoded; [reduced p] and this one differ when [p < 256 ^ size]. *)
Definition fits (o : sig_obj) (x : Z) : Prop := 0 <= x < 256 ^ s_size o.

Lemma add_is o b x1 y1 x2 y2 : let p := s_p o in prime p -> 2 < p -> 0 <= s_size o ->
  fits o x1 -> fits o y1 -> fits o x2 -> fits o y2 -> (aff p x1 y1 = aff p x2 y2 -> x1 = x2 /\ y1 = y2) ->
  ec_on p (s_a o) b (aff p x1 y1) -> ec_on p (s_a o) b (aff p x2 y2) -> aff p x1 y1 <> ec_neg p (aff p x2 y2) ->
  exists x3 y3, _add o x1 x2 y1 y2 = Ok (x3, y3) /\ reduced p x3 /\ reduced p y3 /\ aff p x3 y3 = ec_add p (s_a o) (aff p x1 y1) (aff p x2 y2).
Proof.
  intros p HP PO HS Rx1 Ry1 Rx2 Ry2 HE H1 H2 N. pose proof (prime_ge_2 p HP) as P2.
  unfold _add. fold p. rewrite !compare_int by exact HS. unfold fits in *. rewrite !(Z.mod_small _ (256 ^ s_size o)) by lia. cbn [bind].
  unfold aff, ec_add in *. cbn [padd]. destruct (fp_eq p (mk p x1) (mk p x2)) as [EX|NX].
  - assert (NY : mk p y1 <> fp_opp p (mk p y2)) by (intros E; apply N; unfold ec_neg; cbn [pneg]; now rewrite EX, E).
    destruct (fp_eq p (mk p y1) (fp_opp p (mk p y2))) as [EY|_]; [contradiction|].
    assert (H2' : ec_on p (s_a o) b (Aff (mk p x1) (mk p y2))) by (rewrite EX; exact H2).
    destruct (same_x _ _ _ _ _ _ _ _ (fp_eq p) (fp_field p HP) _ _ _ _ _ H1 H2') as [EY|EY]; [|contradiction].
    destruct HE as [X12 Y12]; [now rewrite EX, EY|]. rewrite <- X12, <- Y12, !Z.eqb_refl. cbn [andb].
    do 2 eexists. split; [reflexivity|]. split; [apply Z.mod_pos_bound; lia|]. split; [apply Z.mod_pos_bound; lia|]. unfold psum.
    rewrite ?mk_mod, ?mk_sub, ?mk_mul, ?mk_mod, ?mk_sub, ?mk_mul, ?mk_add, ?mk_mul, ?(mk_invert p HP PO), ?mk_mul, ?three_eq, ?two_eq, ?mk_mod, ?mk_sub, ?mk_mul, ?mk_mod, ?mk_mul, ?mk_add, ?(mk_invert p HP PO), ?mk_mul, ?three_eq, ?two_eq. reflexivity.
  - assert (X12 : (x1 =? x2) = false) by (apply Z.eqb_neq; intros E; apply NX; now rewrite E). rewrite X12. cbn [andb].
    do 2 eexists. split; [reflexivity|]. split; [apply Z.mod_pos_bound; lia|]. split; [apply Z.mod_pos_bound; lia|]. unfold psum.
    assert (EG : mk p (((y2 - y1) mod p * _invert ((x2 - x1) mod p) p) mod p) = fp_div p (fp_sub p (mk p y2) (mk p y1)) (fp_sub p (mk p x2) (mk p x1))) by (rewrite mk_mod, mk_mul, mk_mod, mk_sub, (mk_invert p HP PO), mk_mod, mk_sub; reflexivity).
    assert (EX : mk p ((((y2 - y1) mod p * _invert ((x2 - x1) mod p) p) mod p * (((y2 - y1) mod p * _invert ((x2 - x1) mod p) p) mod p) - x1 - x2) mod p) =
      fp_sub p (fp_sub p (fp_mul p (fp_div p (fp_sub p (mk p y2) (mk p y1)) (fp_sub p (mk p x2) (mk p x1))) (fp_div p (fp_sub p (mk p y2) (mk p y1)) (fp_sub p (mk p x2) (mk p x1)))) (mk p x1)) (mk p x2)) by (rewrite mk_mod, !mk_sub, mk_mul, EG; reflexivity).
    f_equal; [exact EX|]. rewrite mk_mod, mk_sub, mk_mul, mk_sub, EG, EX. reflexivity.
Qed.

(** Equal [x] and different [y]: the inverse of 0 is 0, the slope is 0 and so the "sum" is [(-2 x, -y)]. *)
Lemma add_opposite o x1 y1 x2 y2 : let p := s_p o in 0 < p -> 0 <= s_size o -> fits o y1 -> fits o y2 ->
  x1 mod p = x2 mod p -> y1 <> y2 -> _add o x1 x2 y1 y2 = Ok ((- 2 * x1) mod p, (- y1) mod p).
Proof.
  intros p HP HS H1 H2 EX NY. unfold _add. fold p. rewrite !compare_int by exact HS. unfold fits in *. rewrite !(Z.mod_small y1), !(Z.mod_small y2) by lia. cbn [bind].
  replace (y1 =? y2) with false by (symmetry; now apply Z.eqb_neq). rewrite andb_false_r.
  assert (E0 : (x2 - x1) mod p = 0) by (rewrite Zminus_mod, EX, Z.sub_diag; now apply Z.mod_0_l; lia).
  rewrite E0, invert_zero, Z.mul_0_r, Z.mod_0_l, Z.mul_0_l by (try (apply Z.mod_0_l); lia). rewrite Z.mul_0_l. cbn zeta. apply f_equal, f_equal2; [|f_equal; lia].
  replace (0 - x1 - x2) with (- x1 - x2) by lia. rewrite Zminus_mod, <- EX, <- Zminus_mod. f_equal. lia.
Qed.

(** ** Multiples *)

Lemma mul_loop_S o fuel value xn yn xp yp : value <> 0 -> mul_loop o (S fuel) value xn yn xp yp =
  let? next := (if Z.land value 1 =? 1 then liftO (_add o xn xp yn yp) else Returns (xn, yn)) in
  let? prev := liftO (_add o xp xp yp yp) in
  mul_loop o fuel (Z.shiftr value 1) (fst next) (snd next) (fst prev) (snd prev).
Proof. intros N. cbn [mul_loop]. replace (value =? 0) with false by lia. reflexivity. Qed.
Lemma mul_loop_done o fuel xn yn xp yp : mul_loop o fuel 0 xn yn xp yp = Returns (xn, yn).
Proof. destruct fuel; reflexivity. Qed.
Lemma half v : Z.shiftr v 1 = v / 2 /\ Z.land v 1 = v mod 2.
Proof. split; [rewrite Z.shiftr_div_pow2 by lia; reflexivity|]. change 1 with (Z.ones 1). rewrite Z.land_ones by lia. reflexivity. Qed.

(** The loop ends for every non-negative value and for no negative one. *)
Lemma mul_loop_ends o fuel : 0 <= s_size o -> forall v xn yn xp yp, 0 <= v < 2 ^ Z.of_nat fuel -> exists r, forall n, (fuel <= n)%nat -> mul_loop o n v xn yn xp yp = Returns r.
Proof.
  intros HS. induction fuel as [|fuel IH]; intros v xn yn xp yp H.
  - cbn in H. assert (v = 0) by lia. subst v. exists (xn, yn). intros n _. apply mul_loop_done.
  - destruct (Z.eq_dec v 0) as [->|N]; [exists (xn, yn); intros n _; apply mul_loop_done|]. destruct (half v) as [E1 E2].
    assert (HV : 0 <= Z.shiftr v 1 < 2 ^ Z.of_nat fuel) by (rewrite E1; rewrite Nat2Z.inj_succ, Z.pow_succ_r in H by lia; split; [apply Z.div_pos; lia | apply Z.div_lt_upper_bound; lia]).
    destruct (add_total o xp xp yp yp HS) as (xq & yq & EQ). destruct (add_total o xn xp yn yp HS) as (xm & ym & EM).
    destruct (Z.land v 1 =? 1) eqn:EB.
    + destruct (IH (Z.shiftr v 1) xm ym xq yq HV) as (r & Hr). exists r. intros n Hn. destruct n as [|n]; [lia|]. rewrite mul_loop_S, EB, EM, EQ by exact N. apply Hr. lia.
    + destruct (IH (Z.shiftr v 1) xn yn xq yq HV) as (r & Hr). exists r. intros n Hn. destruct n as [|n]; [lia|]. rewrite mul_loop_S, EB, EQ by exact N. apply Hr. lia.
Qed.
Lemma mul_loop_diverges o n : 0 <= s_size o -> forall v xn yn xp yp, v < 0 -> mul_loop o n v xn yn xp yp = OutOfFuel.
Proof.
  intros HS. induction n as [|n IH]; intros v xn yn xp yp H; [cbn [mul_loop]; replace (v =? 0) with false by lia; reflexivity|].
  rewrite mul_loop_S by lia. destruct (half v) as [E1 _]. assert (HV : Z.shiftr v 1 < 0) by (rewrite E1; apply Z.div_lt_upper_bound; lia).
  destruct (add_total o xp xp yp yp HS) as (xq & yq & EQ). destruct (add_total o xn xp yn yp HS) as (xm & ym & EM). rewrite EQ, EM. destruct (Z.land v 1 =? 1); cbn [liftO bindO]; now apply IH.
Qed.

Lemma aff_inj p x1 y1 x2 y2 : aff p x1 y1 = aff p x2 y2 -> mk p x1 = mk p x2 /\ mk p y1 = mk p y2.
Proof.
  intros E. split.
  - exact (f_equal (fun P : Pt p => match P with Aff u _ => u | Inf => mk p 0 end) E).
  - exact (f_equal (fun P : Pt p => match P with Aff _ u => u | Inf => mk p 0 end) E).
Qed.

Section Mul.
Variable o : sig_obj.
Variable b q : Z.
Notation p := (s_p o).
Notation a := (s_a o).
Hypothesis p_prime : prime p.
Hypothesis p_odd : 2 < p.
Hypothesis p_fits : p <= 256 ^ s_size o.
Hypothesis size_pos : 0 <= s_size o.
Hypothesis disc : ec_disc p a b <> mk p 0.
Hypothesis q_prime : prime q.
Hypothesis q_odd : 2 < q.
(** The point to multiply, as encoded: its coordinates need not be below [p]. *)
Variables X Y : Z.
Hypothesis X_fits : fits o X.
Hypothesis Y_fits : fits o Y.
Notation P := (aff p X Y).
Hypothesis P_on : ec_on p a b P.
Hypothesis P_order : ec_mul p a q P = Inf.

Definition holds_mul (k x y : Z) : Prop :=
  aff p x y = ec_mul p a k P /\ (k = 1 -> x = X /\ y = Y) /\ (k <> 1 -> reduced p x /\ reduced p y).

Lemma holds_fits k x y : holds_mul k x y -> fits o x /\ fits o y.
Proof. intros (_ & H1 & H2). unfold fits, reduced in *. destruct (Z.eq_dec k 1) as [E|E]; [destruct (H1 E); subst; split; assumption | destruct (H2 E); lia]. Qed.
Lemma aff_ne x y : aff p x y <> Inf.
Proof. discriminate. Qed.

Lemma add_mul k l xk yk xl yl : 0 <= k < q -> 0 <= l < q -> holds_mul k xk yk -> holds_mul l xl yl -> (k + l) mod q <> 0 ->
  exists x y, _add o xk xl yk yl = Ok (x, y) /\ reduced p x /\ reduced p y /\ aff p x y = ec_mul p a (k + l) P.
Proof.
  intros Hk Hl Hkk Hll N. pose proof (holds_fits _ _ _ Hkk) as [F1 F2]. pose proof (holds_fits _ _ _ Hll) as [F3 F4].
  destruct Hkk as (E1 & A1 & B1). destruct Hll as (E2 & A2 & B2).
  destruct (add_is o b xk yk xl yl p_prime p_odd size_pos F1 F2 F3 F4) as (x & y & E & R5 & R6 & E3).
  - intros EE. pose proof EE as EE'. rewrite E1, E2 in EE. apply (mul_inj_q p a b p_prime p_odd disc q q_prime _ P_on (aff_ne _ _) P_order) in EE; [|lia|lia].
    rewrite !Z.mod_small in EE by lia. subst l. destruct (Z.eq_dec k 1) as [E|E].
    + destruct (A1 E), (A2 E). subst. split; reflexivity.
    + destruct (B1 E), (B2 E). apply aff_inj in EE'. destruct EE'. split; apply (mk_reduced p); assumption.
  - rewrite E1. now apply ec_mul_on.
  - rewrite E2. now apply ec_mul_on.
  - rewrite E1, E2. intros E. apply N. revert E. apply (mul_opposite_q p a b p_prime p_odd disc q q_prime _ P_on (aff_ne _ _) P_order); lia.
  - exists x, y. split; [exact E|]. split; [exact R5|]. split; [exact R6|]. rewrite E3, E1, E2. symmetry. apply (ec_mul_add p a b p_prime p_odd disc); try lia. exact P_on.
Qed.

(** The loop: [m P] and [t P] with [m + value t] below the order. *)
Lemma mul_loop_is fuel : forall v m t xn yn xp yp, 0 <= v < 2 ^ Z.of_nat fuel -> 0 < m -> 0 < t -> m + v * t < q -> holds_mul m xn yn -> holds_mul t xp yp ->
  exists x y, (forall n, (fuel <= n)%nat -> mul_loop o n v xn yn xp yp = Returns (x, y)) /\ holds_mul (m + v * t) x y.
Proof.
  induction fuel as [|fuel IH]; intros v m t xn yn xp yp HV Hm Ht HQ Hn Hp.
  - cbn in HV. assert (v = 0) by lia. subst v. exists xn, yn. split; [intros n _; apply mul_loop_done|]. replace (m + 0 * t) with m by lia. exact Hn.
  - destruct (Z.eq_dec v 0) as [->|N]; [exists xn, yn; split; [intros n _; apply mul_loop_done|]; replace (m + 0 * t) with m by lia; exact Hn|].
    destruct (half v) as [E1 E2]. assert (HB := Z.mod_pos_bound v 2 ltac:(lia)). pose proof (Z.div_mod v 2 ltac:(lia)) as DM.
    assert (HV' : 0 <= v / 2 < 2 ^ Z.of_nat fuel) by (rewrite Nat2Z.inj_succ, Z.pow_succ_r in HV by lia; lia).
    assert (TQ : t < q) by nia. assert (MQ : m < q) by nia.
    assert (NT : (t + t) mod q <> 0).
    { intros E. apply Z.mod_divide in E; [|lia]. destruct E as [c Hc]. assert (c = 1) by nia. subst c.
      assert (D : (2 | q)) by (exists t; lia). apply (prime_divisors q q_prime) in D. lia. }
    destruct (add_mul t t xp yp xp yp ltac:(lia) ltac:(lia) Hp Hp NT) as (xq & yq & EQ & RQ1 & RQ2 & EQQ).
    assert (HQQ : holds_mul (t + t) xq yq) by (split; [exact EQQ|]; split; [lia | split; assumption]).
    destruct (Z.eq_dec (v mod 2) 1) as [B1|B0].
    + assert (NM : (m + t) mod q <> 0) by (rewrite Z.mod_small by nia; lia).
      destruct (add_mul m t xn yn xp yp ltac:(lia) ltac:(lia) Hn Hp NM) as (xm & ym & EM & RM1 & RM2 & EMM).
      assert (HM : holds_mul (m + t) xm ym) by (split; [exact EMM|]; split; [lia | split; assumption]).
      destruct (IH (v / 2) (m + t) (t + t) xm ym xq yq HV' ltac:(lia) ltac:(lia) ltac:(nia) HM HQQ) as (x & y & EL & HL).
      exists x, y. split; [|replace (m + v * t) with (m + t + v / 2 * (t + t)) by nia; exact HL].
      intros n Hle. destruct n as [|n]; [lia|]. rewrite mul_loop_S, E2, B1, EM, EQ, E1 by exact N. apply EL. lia.
    + destruct (IH (v / 2) m (t + t) xn yn xq yq HV' ltac:(lia) ltac:(lia) ltac:(nia) Hn HQQ) as (x & y & EL & HL).
      exists x, y. split; [|replace (m + v * t) with (m + v / 2 * (t + t)) by nia; exact HL].
      intros n Hle. destruct n as [|n]; [lia|]. rewrite mul_loop_S, E2, EQ, E1 by exact N. replace (v mod 2 =? 1) with false by lia. apply EL. lia.
Qed.

(** [_mul_point] for [1 <= k < q], with the number of iterations of its loop. *)
Lemma mul_loop_point n0 k : 1 <= k < q -> q <= 2 ^ Z.of_nat n0 ->
  exists x y, (forall n, (n0 <= n)%nat -> mul_loop o n (k - 1) X Y X Y = Returns (x, y)) /\ holds_mul k x y.
Proof.
  intros Hk HQ.
  assert (H1 : holds_mul 1 X Y) by (split; [symmetry; apply ec_mul_1 | split; [split; reflexivity | lia]]).
  destruct (mul_loop_is n0 (k - 1) 1 1 X Y X Y ltac:(lia) ltac:(lia) ltac:(lia) ltac:(lia) H1 H1) as (x & y & E & H).
  exists x, y. split; [exact E|]. replace k with (1 + (k - 1) * 1) by lia. exact H.
Qed.
End Mul.
