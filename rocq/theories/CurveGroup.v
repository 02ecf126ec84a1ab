(** * The group law: associativity and the other laws, over any field of characteristic other than 2 *)
From Coq Require Import ZArith Field_theory Field Lia.
From Verif Require Import SpecCurve.

Section Curve.
Context {F : Type}.
Variables (f0 f1 : F) (fadd fmul fsub : F -> F -> F) (fopp : F -> F) (fdiv : F -> F -> F) (finv : F -> F) (feq : forall x y : F, {x = y} + {x <> y}).
Variable Fth : field_theory f0 f1 fadd fmul fsub fopp fdiv finv (@eq F).
Variables a b : F.
Infix "+" := fadd.
Infix "*" := fmul.
Infix "-" := fsub.
Infix "/" := fdiv.
Notation "- x" := (fopp x).
Notation two := (f1 + f1).
Notation three := (f1 + f1 + f1).
Hypothesis two_ne : two <> f0.
Hypothesis disc_ne : discriminant f1 fadd fmul a b <> f0.
Add Field F_field : Fth.

Notation pt := (point F).
Notation on := (on_curve fadd fmul a b).
Notation neg := (pneg fopp).
Notation sum := (psum fmul fsub).
Notation add := (padd f1 fadd fmul fsub fopp fdiv feq a).

Lemma integral x y : x * y = f0 -> x = f0 \/ y = f0.
Proof. intros H. destruct (feq x f0) as [E|N]; [now left|]. right. transitivity ((x * y) / x); [field; exact N | rewrite H; field; exact N]. Qed.
Lemma cancel x y z : z <> f0 -> z * x = z * y -> x = y.
Proof. intros N H. assert (E : z * (x - y) = f0) by (transitivity (z * x - z * y); [ring | rewrite H; ring]). destruct (integral _ _ E) as [E'|E']; [contradiction|]. transitivity (x - y + y); [ring | rewrite E'; ring]. Qed.
Lemma sub_zero x y : x - y = f0 -> x = y.
Proof. intros E. transitivity (x - y + y); [ring | rewrite E; ring]. Qed.
Lemma sub_ne x y : x <> y -> x - y <> f0.
Proof. intros N E. apply N. now apply sub_zero. Qed.
Lemma neg_eq y : y = - y -> y = f0.
Proof. intros H. apply (cancel y f0 two two_ne). transitivity (y + y); [ring|]. rewrite H at 2. ring. Qed.

(** [l] is the slope of the line through the two points (the tangent if they are equal). *)
Definition line (x1 y1 x2 y2 l : F) : Prop := y1 - y2 = l * (x1 - x2) /\ l * (y1 + y2) = x1 * x1 + x1 * x2 + x2 * x2 + a.

Definition opposite (P Q : pt) : Prop := P = neg Q.
Lemma neg_neg P : neg (neg P) = P.
Proof. destruct P as [|x y]; [reflexivity|]. cbn. f_equal. ring. Qed.
Lemma on_neg P : on P -> on (neg P).
Proof. destruct P as [|x y]; [trivial|]. cbn. intros H. rewrite <- H. ring. Qed.

(** Two points with the same abscissa are equal or opposite. *)
Lemma same_x x y1 y2 : on (Aff x y1) -> on (Aff x y2) -> y1 = y2 \/ y1 = - y2.
Proof.
  cbn. intros H1 H2. assert (E : (y1 - y2) * (y1 - - y2) = f0) by (transitivity (y1 * y1 - y2 * y2); [ring | rewrite H1, H2; ring]).
  destruct (integral _ _ E) as [E'|E']; [left | right]; now apply sub_zero.
Qed.

Lemma line_exists x1 y1 x2 y2 : on (Aff x1 y1) -> on (Aff x2 y2) -> Aff x1 y1 <> neg (Aff x2 y2) ->
  exists l, line x1 y1 x2 y2 l /\ add (Aff x1 y1) (Aff x2 y2) = sum l x1 y1 x2.
Proof.
  intros H1 H2 N. cbn [padd]. destruct (feq x1 x2) as [<-|NX].
  - destruct (feq y1 (- y2)) as [E|NY]; [exfalso; apply N; cbn; now rewrite E|].
    destruct (same_x _ _ _ H1 H2) as [<-|E]; [|contradiction].
    assert (NZ : y1 <> f0) by (intros E; apply NY; rewrite E; ring).
    eexists. split; [|reflexivity]. split; [ring | field; split; assumption].
  - assert (ND : x2 - x1 <> f0) by (apply sub_ne; congruence). eexists. split; [|reflexivity]. split; [field; exact ND|].
    cbn in H1, H2. transitivity ((y2 * y2 - y1 * y1) / (x2 - x1)); [field; exact ND|]. rewrite H1, H2. field. exact ND.
Qed.
Lemma line_unique x1 y1 x2 y2 l l' : on (Aff x1 y1) -> on (Aff x2 y2) -> Aff x1 y1 <> neg (Aff x2 y2) -> line x1 y1 x2 y2 l -> line x1 y1 x2 y2 l' -> l = l'.
Proof.
  intros H1 H2 N [A1 A2] [B1 B2]. destruct (feq x1 x2) as [<-|NX].
  - destruct (same_x _ _ _ H1 H2) as [<-|E]; [|exfalso; apply N; cbn; now rewrite E].
    assert (NZ : y1 + y1 <> f0) by (intros E; apply N; cbn; f_equal; apply sub_zero; rewrite <- E; ring).
    apply (cancel l l' (y1 + y1) NZ). transitivity (l * (y1 + y1)); [ring|]. rewrite A2, <- B2. ring.
  - apply (cancel l l' (x1 - x2) (sub_ne _ _ NX)). transitivity (l * (x1 - x2)); [ring|]. rewrite <- A1, B1. ring.
Qed.
Lemma add_line x1 y1 x2 y2 l : on (Aff x1 y1) -> on (Aff x2 y2) -> Aff x1 y1 <> neg (Aff x2 y2) -> line x1 y1 x2 y2 l ->
  add (Aff x1 y1) (Aff x2 y2) = sum l x1 y1 x2.
Proof. intros H1 H2 N HL. destruct (line_exists _ _ _ _ H1 H2 N) as (l' & HL' & E). now rewrite E, (line_unique _ _ _ _ _ _ H1 H2 N HL HL'). Qed.

Lemma line_sum_on x1 y1 x2 y2 l : on (Aff x1 y1) -> line x1 y1 x2 y2 l -> on (sum l x1 y1 x2).
Proof.
  cbn. intros H1 [A1 A2]. set (x3 := l * l - x1 - x2).
  (* b from the first point, a from the line *)
  assert (EY : y2 = y1 - l * (x1 - x2)) by (rewrite <- A1; ring).
  assert (EA : a = l * (y1 + y2) - (x1 * x1 + x1 * x2 + x2 * x2)) by (rewrite A2; ring).
  assert (EB : b = y1 * y1 - (x1 * x1 * x1 + a * x1)) by (rewrite H1; ring).
  rewrite EB, EA, EY. unfold x3. ring.
Qed.
Lemma add_on P Q : on P -> on Q -> on (add P Q).
Proof.
  destruct P as [|x1 y1], Q as [|x2 y2]; try (cbn; tauto). intros H1 H2.
  destruct (feq x1 x2) as [EX|NX]; [destruct (feq y1 (- y2)) as [EY|NY]|].
  - cbn [padd]. destruct (feq x1 x2); [|contradiction]. destruct (feq y1 (- y2)); [exact I | contradiction].
  - destruct (line_exists x1 y1 x2 y2 H1 H2) as (l & HL & E); [cbn; congruence|]. rewrite E. now apply (line_sum_on x1 y1 x2 y2).
  - destruct (line_exists x1 y1 x2 y2 H1 H2) as (l & HL & E); [cbn; congruence|]. rewrite E. now apply (line_sum_on x1 y1 x2 y2).
Qed.

Lemma pt_dec (P Q : pt) : {P = Q} + {P <> Q}.
Proof. destruct P as [|x1 y1], Q as [|x2 y2]; [now left | right; discriminate | right; discriminate|]. destruct (feq x1 x2) as [->|N]; [|right; congruence]. destruct (feq y1 y2) as [->|N]; [now left | right; congruence]. Qed.

Lemma add_inf_l P : add Inf P = P.
Proof. reflexivity. Qed.
Lemma add_inf_r P : add P Inf = P.
Proof. now destruct P. Qed.
Lemma add_neg_l P : add (neg P) P = Inf.
Proof. destruct P as [|x y]; [reflexivity|]. cbn. destruct (feq x x); [|contradiction]. destruct (feq (- y) (- y)); [reflexivity | contradiction]. Qed.
Lemma add_neg_r P : add P (neg P) = Inf.
Proof. rewrite <- (neg_neg P) at 1. apply add_neg_l. Qed.
Lemma line_sym x1 y1 x2 y2 l : line x1 y1 x2 y2 l -> line x2 y2 x1 y1 l.
Proof. intros [A1 A2]. split; [transitivity (- (y1 - y2)); [ring | rewrite A1; ring] | transitivity (l * (y1 + y2)); [ring | rewrite A2; ring]]. Qed.
Lemma add_comm P Q : on P -> on Q -> add P Q = add Q P.
Proof.
  intros HP HQ. destruct (pt_dec P (neg Q)) as [->|N]; [now rewrite add_neg_l, add_neg_r|].
  destruct P as [|x1 y1], Q as [|x2 y2]; try reflexivity.
  destruct (line_exists x1 y1 x2 y2 HP HQ N) as (l & HL & E). rewrite E.
  rewrite (add_line x2 y2 x1 y1 l HQ HP).
  - unfold psum. destruct HL as [A1 A2]. f_equal; [ring|]. transitivity (l * (x2 - (l * l - x1 - x2)) + (l * (x1 - x2)) - y1); [ring|]. rewrite <- A1. ring.
  - intros E'. apply N. rewrite E', neg_neg. reflexivity.
  - now apply line_sym.
Qed.
Lemma neg_inj P Q : neg P = neg Q -> P = Q.
Proof. intros H. rewrite <- (neg_neg P), H. apply neg_neg. Qed.
Lemma line_neg x1 y1 x2 y2 l : line x1 y1 x2 y2 l -> line x1 (- y1) x2 (- y2) (- l).
Proof. intros [A1 A2]. split; [transitivity (- (y1 - y2)); [ring | rewrite A1; ring] | transitivity (l * (y1 + y2)); [ring | rewrite A2; ring]]. Qed.
Lemma neg_add P Q : on P -> on Q -> neg (add P Q) = add (neg P) (neg Q).
Proof.
  intros HP HQ. destruct (pt_dec P (neg Q)) as [->|N]; [now rewrite add_neg_l, neg_neg, add_neg_r|].
  destruct P as [|x1 y1]; [reflexivity|]. destruct Q as [|x2 y2]; [reflexivity|].
  destruct (line_exists x1 y1 x2 y2 HP HQ N) as (l & HL & E). rewrite E. cbn [pneg].
  rewrite (add_line x1 (- y1) x2 (- y2) (- l)); [unfold psum; cbn [pneg]; f_equal; ring | apply (on_neg (Aff x1 y1)); exact HP | apply (on_neg (Aff x2 y2)); exact HQ | | now apply line_neg].
  intros E'. apply N. apply neg_inj. exact E'.
Qed.

(** A point of order two is not singular. *)
Lemma order_two x : on (Aff x f0) -> three * x * x + a <> f0.
Proof.
  cbn. intros H E. apply disc_ne. unfold discriminant.
  assert (EA : a = - (three * x * x)) by (transitivity (three * x * x + a - three * x * x); [ring | rewrite E; ring]).
  assert (EB : b = two * x * x * x) by (transitivity (x * x * x + a * x + b - x * x * x - a * x); [ring | rewrite <- H, EA; ring]).
  rewrite EB, EA. ring.
Qed.

(** Cancellation: A + (-A + C) = C. *)
Lemma add_neg_cancel A C : on A -> on C -> add A (add (neg A) C) = C.
Proof.
  intros HA HC. destruct (pt_dec (neg A) (neg C)) as [E|N]; [apply neg_inj in E; subst C; rewrite add_neg_l; apply add_inf_r|].
  destruct A as [|x1 y1]; [reflexivity|]. destruct C as [|x3 y3]; [rewrite add_inf_r; apply add_neg_r|].
  cbn [pneg] in *. assert (HnA : on (Aff x1 (- y1))) by (apply (on_neg (Aff x1 y1)); exact HA).
  destruct (line_exists x1 (- y1) x3 y3 HnA HC N) as (l & HL & E). rewrite E. pose proof (line_sum_on _ _ _ _ _ HnA HL) as HE. unfold psum in HE |- *.
  set (xe := l * l - x1 - x3) in *. set (ye := l * (x1 - xe) - - y1) in *.
  assert (ND : Aff x1 y1 <> neg (Aff xe ye)).
  { cbn [pneg]. intros E'. inversion E' as [[EX EY]]. (* E = -A: the line is tangent at a point of order two *)
    assert (Y0 : y1 = f0) by (apply (neg_eq y1); transitivity (- ye); [exact EY | unfold ye; rewrite <- EX; ring]).
    destruct HL as [A1 A2]. rewrite Y0 in *. apply (order_two x1 HA). rewrite <- EX in *. assert (EL : l * l = x1 + x1 + x3) by (transitivity (xe + x1 + x3); [unfold xe; ring | rewrite <- EX; ring]).
    assert (E3 : y3 = l * (x3 - x1)) by (transitivity (- (- f0 - y3)); [ring | rewrite A1; ring]).
    transitivity (three * x1 * x1 + (l * (- f0 + y3) - (x1 * x1 + x1 * x3 + x3 * x3))); [rewrite A2; ring|]. rewrite E3.
    transitivity (three * x1 * x1 + (l * l * (x3 - x1) - (x1 * x1 + x1 * x3 + x3 * x3))); [ring|]. rewrite EL. ring. }
  rewrite (add_line x1 y1 xe ye (- l) HA HE ND).
  - unfold psum. destruct HL as [A1 A2]. f_equal; [unfold xe; ring|]. transitivity (- (l * (x1 - x3)) - y1); [unfold xe; ring|]. rewrite <- A1. ring.
  - destruct HL as [A1 A2]. split; [unfold ye; ring|].
    assert (E3 : y3 = - y1 - l * (x1 - x3)) by (rewrite <- A1; ring).
    assert (EA : a = l * (- y1 + y3) - (x1 * x1 + x1 * x3 + x3 * x3)) by (rewrite A2; ring). rewrite EA, E3. unfold ye, xe. ring.
Qed.
Lemma sum_inf P Q : on P -> on Q -> add P Q = Inf -> P = neg Q.
Proof.
  intros HP HQ H. destruct (pt_dec P (neg Q)) as [E|N]; [exact E|].
  destruct P as [|x1 y1]; [cbn in H; subst Q; reflexivity|]. destruct Q as [|x2 y2]; [discriminate H|].
  destruct (line_exists _ _ _ _ HP HQ N) as (l & _ & E). rewrite E in H. discriminate H.
Qed.

(** The general case. *)
Lemma assoc_generic x1 y1 x2 y2 x3 y3 al be : on (Aff x1 y1) -> on (Aff x2 y2) -> on (Aff x3 y3) ->
  line x1 y1 x2 y2 al -> line x2 y2 x3 y3 be -> al <> be ->
  let D := sum al x1 y1 x2 in let E := sum be x2 y2 x3 in D <> neg (Aff x3 y3) -> Aff x1 y1 <> neg E ->
  add D (Aff x3 y3) = add (Aff x1 y1) E.
Proof.
  intros H1 H2 H3 L1 L2 NE D E ND NA.
  pose proof (line_sum_on _ _ _ _ _ H1 L1) as HD. pose proof (line_sum_on _ _ _ _ _ H2 L2) as HE. fold D in HD. fold E in HE.
  pose proof (sub_ne _ _ NE) as NS. set (t := (x1 - x3) / (al - be)).
  destruct L1 as [A1 A2], L2 as [B1 B2].
  assert (E1 : y1 = y2 + al * (x1 - x2)) by (rewrite <- A1; ring).
  assert (E3 : y3 = y2 - be * (x2 - x3)) by (rewrite <- B1; ring).
  assert (EA : a = al * (y1 + y2) - (x1 * x1 + x1 * x2 + x2 * x2)) by (rewrite A2; ring).
  assert (EA' : a = be * (y2 + y3) - (x2 * x2 + x2 * x3 + x3 * x3)) by (rewrite B2; ring).
  assert (EY : y2 = (be * be * (x3 - x2) - al * al * (x1 - x2) + (x1 - x3) * (x1 + x2 + x3)) / (two * (al - be))).
  { assert (EQ : two * (al - be) * y2 = be * be * (x3 - x2) - al * al * (x1 - x2) + (x1 - x3) * (x1 + x2 + x3)).
    { apply sub_zero. transitivity ((al * (y1 + y2) - (x1 * x1 + x1 * x2 + x2 * x2)) - (be * (y2 + y3) - (x2 * x2 + x2 * x3 + x3 * x3))); [rewrite E1, E3; ring|]. rewrite <- EA, <- EA'. ring. }
    rewrite <- EQ. field. split; assumption. }
  unfold D, E, psum in *.
  rewrite (add_line _ _ _ _ (t - al) HD H3 ND).
  - rewrite (add_line _ _ _ _ (t - be) H1 HE NA).
    + unfold psum, t. apply f_equal2; [field; exact NS|]. rewrite E1. clear - EY NS two_ne Fth. rewrite EY. field. split; assumption.
    + split.
      * rewrite E1. unfold t. clear - EY NS two_ne Fth. rewrite EY. field. split; assumption.
      * rewrite EA, E1. unfold t. clear - EY NS two_ne Fth. rewrite EY. field. split; assumption.
  - split.
    + rewrite E3, E1. unfold t. clear - EY NS two_ne Fth. rewrite EY. field. split; assumption.
    + rewrite EA, E3, E1. unfold t. clear - EY NS two_ne Fth. rewrite EY. field. split; assumption.
Qed.

Theorem add_assoc P Q R : on P -> on Q -> on R -> add (add P Q) R = add P (add Q R).
Proof.
  intros HP HQ HR.
  destruct P as [|x1 y1]; [reflexivity|]. destruct Q as [|x2 y2]; [reflexivity|]. destruct R as [|x3 y3]; [now rewrite !add_inf_r|].
  set (A := Aff x1 y1) in *. set (B := Aff x2 y2) in *. set (C := Aff x3 y3) in *.
  destruct (pt_dec A (neg B)) as [EAB|NAB].
  { rewrite EAB, add_neg_l, add_inf_l. rewrite <- (neg_neg B) at 2. symmetry. apply add_neg_cancel; [now apply on_neg | exact HR]. }
  destruct (pt_dec B (neg C)) as [EBC|NBC].
  { rewrite EBC, add_neg_l, add_inf_r. rewrite (add_comm A (neg C)), (add_comm (add (neg C) A) C); [apply add_neg_cancel; assumption | | | |]; try assumption; try (apply on_neg; assumption). apply add_on; [now apply on_neg | assumption]. }
  destruct (pt_dec (add A B) (neg C)) as [ED|ND].
  { rewrite ED, add_neg_l. assert (EC : C = neg (add A B)) by (rewrite ED, neg_neg; reflexivity). rewrite EC, neg_add, (add_comm (neg A) (neg B)) by (assumption || apply on_neg; assumption).
    rewrite add_neg_cancel by (assumption || apply on_neg; assumption). now rewrite add_neg_r. }
  destruct (pt_dec A (neg (add B C))) as [EE|NE].
  { rewrite EE, add_neg_l, neg_add by assumption. rewrite (add_comm (neg B) (neg C)) by (apply on_neg; assumption).
    rewrite (add_comm _ B), (add_comm (neg C) (neg B)) by (repeat first [assumption | apply add_on | apply on_neg]). rewrite add_neg_cancel by (assumption || apply on_neg; assumption). apply add_neg_l. }
  destruct (line_exists _ _ _ _ HP HQ NAB) as (al & L1 & E1). destruct (line_exists _ _ _ _ HQ HR NBC) as (be & L2 & E2).
  destruct (feq al be) as [EQ|NQ].
  - (* the three points are on one line *)
    subst be. destruct L1 as [A1 A2]. destruct L2 as [B1 B2].
    assert (EZ : (x1 - x3) * (al * al - (x1 + x2 + x3)) = f0).
    { transitivity (al * (al * (x1 - x2) + al * (x2 - x3)) - (x1 - x3) * (x1 + x2 + x3)); [ring|]. rewrite <- A1, <- B1.
      transitivity (al * (y1 + y2) - al * (y2 + y3) - (x1 - x3) * (x1 + x2 + x3)); [ring|]. rewrite A2, B2. ring. }
    destruct (integral _ _ EZ) as [Z1|Z1].
    + assert (EX : x1 = x3) by now apply sub_zero. assert (EYY : y1 = y3).
      { apply sub_zero. transitivity ((y1 - y2) + (y2 - y3)); [ring|]. rewrite A1, B1. rewrite EX. ring. }
      assert (EAC : A = C) by (unfold A, C; now rewrite EX, EYY). rewrite <- EAC in *. rewrite (add_comm B A) by assumption. apply add_comm; [now apply add_on | assumption].
    + exfalso. apply ND. unfold A, B, C. rewrite E1. unfold psum. cbn [pneg]. assert (EX : al * al - x1 - x2 = x3) by (apply sub_zero; transitivity (al * al - (x1 + x2 + x3)); [ring | exact Z1]). rewrite EX. f_equal.
      transitivity (- (y1 - al * (x1 - x3))); [ring|]. f_equal. transitivity (y1 - (al * (x1 - x2) + al * (x2 - x3))); [ring|]. rewrite <- A1, <- B1. ring.
  - unfold A, B, C in *. rewrite E1, E2 in *. now apply (assoc_generic x1 y1 x2 y2 x3 y3 al be).
Qed.

(** ** Multiples *)

Notation mul := (pmul f1 fadd fmul fsub fopp fdiv feq a).
Lemma mul_on n P : on P -> on (mul n P).
Proof. intros H. induction n as [|n IH]; [exact I|]. cbn [pmul]. now apply add_on. Qed.
Lemma mul_add m n P : on P -> mul (m + n)%nat P = add (mul m P) (mul n P).
Proof.
  intros H. induction m as [|m IH]; [reflexivity|]. cbn [Nat.add pmul]. rewrite IH. symmetry. apply add_assoc; try assumption; now apply mul_on.
Qed.
Lemma mul_one P : mul 1%nat P = P.
Proof. apply add_inf_r. Qed.
Lemma mul_inf n : mul n Inf = Inf.
Proof. induction n as [|n IH]; [reflexivity|]. cbn [pmul]. rewrite IH. reflexivity. Qed.
Lemma mul_mul m n P : on P -> mul (m * n)%nat P = mul m (mul n P).
Proof.
  intros H. induction m as [|m IH]; [reflexivity|]. cbn [Nat.mul pmul]. rewrite mul_add by exact H. now rewrite IH.
Qed.
Lemma neg_mul n P : on P -> neg (mul n P) = mul n (neg P).
Proof. intros H. induction n as [|n IH]; [reflexivity|]. cbn [pmul]. rewrite neg_add, IH; try assumption; [reflexivity | now apply mul_on]. Qed.
Lemma add_cancel P Q R : on P -> on Q -> on R -> add P Q = add P R -> Q = R.
Proof.
  intros HP HQ HR H. rewrite <- (add_neg_cancel (neg P) Q), <- (add_neg_cancel (neg P) R) by (assumption || now apply on_neg). rewrite neg_neg. now rewrite H.
Qed.

(** A point of prime order. *)
Section Order.
Variable q : nat.
Hypothesis q_prime : forall d, (0 < d < q)%nat -> exists i j, (i * d = 1 + j * q)%nat.
Variable P : pt.
Hypothesis P_on : on P.
Hypothesis P_ne : P <> Inf.
Hypothesis P_order : mul q P = Inf.
Lemma mul_order_times j : mul (j * q)%nat P = Inf.
Proof. rewrite mul_mul by exact P_on. rewrite P_order. apply mul_inf. Qed.
Lemma mul_mod n : q <> 0%nat -> mul n P = mul (n mod q) P.
Proof. intros N. rewrite (Nat.div_mod n q N) at 1. rewrite Nat.add_comm, Nat.mul_comm, mul_add by exact P_on. rewrite mul_order_times. apply add_inf_r. Qed.
Lemma mul_not_inf n : (0 < n < q)%nat -> mul n P <> Inf.
Proof.
  intros Hn H. destruct (q_prime n Hn) as (i & j & E). assert (HI : mul (i * n)%nat P = Inf) by (rewrite mul_mul by exact P_on; rewrite H; apply mul_inf).
  rewrite E, mul_add, mul_order_times, add_inf_r, mul_one in HI by exact P_on. exact (P_ne HI).
Qed.
Lemma mul_inf_iff n : q <> 0%nat -> (mul n P = Inf <-> n mod q = 0%nat).
Proof.
  intros N. rewrite (mul_mod n N). split; [|intros ->; reflexivity]. intros H. destruct (Nat.eq_dec (n mod q) 0) as [E|E]; [exact E|]. exfalso. apply (mul_not_inf (n mod q)); [|exact H]. pose proof (Nat.mod_upper_bound n q N). lia.
Qed.
Lemma mul_opposite m n : (m + n)%nat = q -> mul m P = neg (mul n P).
Proof. intros E. apply sum_inf; try now apply mul_on. rewrite <- mul_add by exact P_on. now rewrite E. Qed.
End Order.
End Curve.
