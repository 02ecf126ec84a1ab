(** * Certificates checked with the arithmetic of [BigZ]: powers, and multiples of a point *)
From Bignums Require Import BigZ.
From Coq Require Import ZArith Znumtheory Lia List Bool Field_theory Field.
From Verif Require Import Fp SpecCurve CurveGroup SpecSign SigLemmas Primes.
Import ListNotations.
Local Open Scope Z_scope.
Notation B := BigZ.t.
Notation zv := BigZ.to_Z.

(** ** Pocklington's criterion *)

Fixpoint bpow (n x : B) (e : positive) : B :=
  match e with
  | xH => BigZ.modulo x n
  | xO e' => let y := bpow n x e' in BigZ.modulo (BigZ.mul y y) n
  | xI e' => let y := bpow n x e' in BigZ.modulo (BigZ.mul (BigZ.modulo (BigZ.mul y y) n) x) n
  end.
Lemma bpow_is n x e : zv (bpow n x e) = zv x ^ Z.pos e mod zv n.
Proof.
  induction e as [e IH|e IH|]; cbn [bpow].
  - rewrite !BigZ.spec_modulo, !BigZ.spec_mul, !BigZ.spec_modulo, BigZ.spec_mul, IH. rewrite <- Zmult_mod, Zmult_mod_idemp_l.
    rewrite Pos2Z.inj_xI, Z.pow_add_r, Z.pow_twice_r, Z.pow_1_r by lia. reflexivity.
  - rewrite BigZ.spec_modulo, BigZ.spec_mul, IH, <- Zmult_mod. rewrite Pos2Z.inj_xO, Z.pow_twice_r. reflexivity.
  - rewrite BigZ.spec_modulo, Z.pow_1_r. reflexivity.
Qed.
(** The power [a ^ R], and the factor [f] with [n = f R + 1]. *)
Definition check_witness (n : B) (f R : positive) (a w : B) : bool :=
  let c := bpow n a R in
  BigZ.eqb (BigZ.add (BigZ.mul (BigZ.of_Z (Z.pos f)) (BigZ.of_Z (Z.pos R))) BigZ.one) n &&
  BigZ.eqb (bpow n c f) BigZ.one &&
  BigZ.eqb (BigZ.modulo (BigZ.mul c w) n) (BigZ.modulo (BigZ.add BigZ.one w) n).
Lemma check_witness_ok n f R a w : check_witness n f R a w = true -> prime (Z.pos f) -> witness (zv n) (Z.pos f).
Proof.
  unfold check_witness. rewrite !andb_true_iff, !BigZ.spec_eqb, !Z.eqb_eq. intros [[E1 E2] E3] P. split; [exact P|].
  exists (Z.pos R), (zv (bpow n a R)), (zv w). rewrite BigZ.spec_add, BigZ.spec_mul, !BigZ.spec_of_Z in E1. rewrite bpow_is in E2.
  rewrite !BigZ.spec_modulo, BigZ.spec_mul, BigZ.spec_add in E3. rewrite BigZ.spec_1 in *. split; [exact E1|]. split; [lia|]. split; assumption.
Qed.

(** ** Multiples of a point, with the slopes given *)

Inductive step := Dbl (slope : B) | Add (slope : B).

Section Run.
Variables n a gx gy : B.
Notation "x %% y" := (BigZ.modulo x y) (at level 40).
Notation "x [+] y" := (BigZ.add x y) (at level 50).
Notation "x [-] y" := (BigZ.sub x y) (at level 50).
Notation "x [*] y" := (BigZ.mul x y) (at level 40).

(** The coordinates, the multiplier and the product of the denominators. *)
Fixpoint brun (l : list step) (x y : B) (k : Z) (den : B) : option (B * B * Z * B) :=
  match l with
  | [] => Some (x, y, k, den)
  | Dbl s :: l' =>
      let d := y [+] y in
      if BigZ.eqb (((s [*] d) [-] ((BigZ.of_Z 3 [*] (x [*] x)) [+] a)) %% n) BigZ.zero then
        let x' := ((s [*] s) [-] (x [+] x)) %% n in
        brun l' x' (((s [*] (x [-] x')) [-] y) %% n) (2 * k) ((den [*] d) %% n)
      else None
  | Add s :: l' =>
      let d := x [-] gx in
      if BigZ.eqb (((s [*] d) [-] (y [-] gy)) %% n) BigZ.zero then
        let x' := ((s [*] s) [-] (x [+] gx)) %% n in
        brun l' x' (((s [*] (x [-] x')) [-] y) %% n) (k + 1) ((den [*] d) %% n)
      else None
  end.

(** The reduction modulo a prime divisor of [n]. *)
Section Reduce.
Variable l b : Z.
Hypothesis l_prime : prime l.
Hypothesis l_odd : 2 < l.
Hypothesis l_div : (l | zv n).
Hypothesis n_pos : 0 < zv n.
Hypothesis disc : ec_disc l (zv a) b <> mk l 0.
Notation G := (aff l (zv gx) (zv gy)).
Hypothesis G_on : ec_on l (zv a) b G.
Add Field fl : (fp_field l l_prime).

Lemma mk_zv_mod x : mk l (zv (x %% n)) = mk l (zv x).
Proof. rewrite BigZ.spec_modulo. apply mk_eq. apply mod_divides; (lia || exact l_div). Qed.
Lemma mk_zero x : zv (x %% n) = 0 -> mk l (zv x) = mk l 0.
Proof. intros E. rewrite <- mk_zv_mod, E. reflexivity. Qed.

Lemma dbl_is s x y : let d := y [+] y in
  zv (((s [*] d) [-] ((BigZ.of_Z 3 [*] (x [*] x)) [+] a)) %% n) = 0 -> mk l (zv d) <> mk l 0 ->
  let x' := ((s [*] s) [-] (x [+] x)) %% n in
  aff l (zv x') (zv (((s [*] (x [-] x')) [-] y) %% n)) = ec_add l (zv a) (aff l (zv x) (zv y)) (aff l (zv x) (zv y)).
Proof.
  intros d E N x'. apply mk_zero in E. unfold d in *. clear d. rewrite BigZ.spec_sub, BigZ.spec_add, !BigZ.spec_mul, !BigZ.spec_add, !BigZ.spec_of_Z in E. rewrite BigZ.spec_add in N.
  unfold aff, ec_add. cbn [padd]. destruct (fp_eq l (mk l (zv x)) (mk l (zv x))) as [_|NX]; [|now elim NX].
  rewrite mk_sub, !mk_add, !mk_mul, !mk_add in E. rewrite mk_add in N.
  destruct (fp_eq l (mk l (zv y)) (fp_opp l (mk l (zv y)))) as [EY|_].
  { exfalso. apply N. rewrite EY at 1. ring. }
  assert (ES : mk l (zv s) = fp_div l (fp_add l (fp_mul l (fp_mul l (fp_add l (fp_add l (mk l 1) (mk l 1)) (mk l 1)) (mk l (zv x))) (mk l (zv x))) (mk l (zv a))) (fp_mul l (fp_add l (mk l 1) (mk l 1)) (mk l (zv y)))).
  { assert (N2 : fp_mul l (fp_add l (mk l 1) (mk l 1)) (mk l (zv y)) <> mk l 0) by (intros E2; apply N; rewrite <- E2; ring).
    assert (E3 : mk l 3 = fp_add l (fp_add l (mk l 1) (mk l 1)) (mk l 1)) by (rewrite <- !mk_add; reflexivity). rewrite E3 in E.
    assert (E4 : fp_mul l (mk l (zv s)) (fp_mul l (fp_add l (mk l 1) (mk l 1)) (mk l (zv y))) = fp_add l (fp_mul l (fp_mul l (fp_add l (fp_add l (mk l 1) (mk l 1)) (mk l 1)) (mk l (zv x))) (mk l (zv x))) (mk l (zv a))).
    { match type of E with ?L = _ => transitivity (fp_add l L (fp_add l (fp_mul l (fp_mul l (fp_add l (fp_add l (mk l 1) (mk l 1)) (mk l 1)) (mk l (zv x))) (mk l (zv x))) (mk l (zv a)))); [ring | rewrite E; ring] end. }
    rewrite <- E4. field. split; [intros E5; apply N; rewrite E5; ring | exact (fp_two l l_odd)]. }
  assert (EX : mk l (zv x') = fp_sub l (fp_sub l (fp_mul l (mk l (zv s)) (mk l (zv s))) (mk l (zv x))) (mk l (zv x))).
  { unfold x'. rewrite mk_zv_mod, BigZ.spec_sub, BigZ.spec_mul, BigZ.spec_add, mk_sub, mk_mul, mk_add. ring. }
  unfold psum. apply f_equal2.
  - rewrite EX, ES. first [reflexivity | ring | field].
  - rewrite mk_zv_mod, BigZ.spec_sub, BigZ.spec_mul, BigZ.spec_sub, !mk_sub, mk_mul, mk_sub, EX, ES. first [reflexivity | ring].
Qed.

Lemma add_g_is s x y : let d := x [-] gx in
  zv (((s [*] d) [-] (y [-] gy)) %% n) = 0 -> mk l (zv d) <> mk l 0 ->
  let x' := ((s [*] s) [-] (x [+] gx)) %% n in
  aff l (zv x') (zv (((s [*] (x [-] x')) [-] y) %% n)) = ec_add l (zv a) (aff l (zv x) (zv y)) G.
Proof.
  intros d E N x'. apply mk_zero in E. unfold d in *. clear d. rewrite ?BigZ.spec_sub, ?BigZ.spec_mul, ?BigZ.spec_sub in E. rewrite BigZ.spec_sub in N.
  unfold aff, ec_add. cbn [padd]. rewrite ?mk_sub, ?mk_mul, ?mk_sub in E. rewrite mk_sub in N.
  destruct (fp_eq l (mk l (zv x)) (mk l (zv gx))) as [EX0|NX].
  { exfalso. apply N. rewrite EX0. ring. }
  assert (ES : mk l (zv s) = fp_div l (fp_sub l (mk l (zv gy)) (mk l (zv y))) (fp_sub l (mk l (zv gx)) (mk l (zv x)))).
  { assert (E4 : fp_mul l (mk l (zv s)) (fp_sub l (mk l (zv gx)) (mk l (zv x))) = fp_sub l (mk l (zv gy)) (mk l (zv y))).
    { match type of E with ?L = _ => transitivity (fp_sub l (fp_sub l (mk l (zv gy)) (mk l (zv y))) L); [ring | rewrite E; ring] end. }
    rewrite <- E4. field. intros E5. apply N. transitivity (fp_opp l (fp_sub l (mk l (zv gx)) (mk l (zv x)))); [ring | rewrite E5; ring]. }
  assert (EX : mk l (zv x') = fp_sub l (fp_sub l (fp_mul l (mk l (zv s)) (mk l (zv s))) (mk l (zv x))) (mk l (zv gx))).
  { unfold x'. rewrite mk_zv_mod, BigZ.spec_sub, BigZ.spec_mul, BigZ.spec_add, mk_sub, mk_mul, mk_add. ring. }
  unfold psum. apply f_equal2.
  - rewrite EX, ES. first [reflexivity | ring | field].
  - rewrite mk_zv_mod, BigZ.spec_sub, BigZ.spec_mul, BigZ.spec_sub, !mk_sub, mk_mul, mk_sub, EX, ES. first [reflexivity | ring].
Qed.

Lemma den_ne den d : mk l (zv ((den [*] d) %% n)) <> mk l 0 -> mk l (zv den) <> mk l 0 /\ mk l (zv d) <> mk l 0.
Proof.
  rewrite mk_zv_mod, BigZ.spec_mul, mk_mul. intros N. split; intros E; apply N; rewrite E; ring.
Qed.
Lemma brun_is ss : forall x y k den x' y' k' den', brun ss x y k den = Some (x', y', k', den') -> mk l (zv den') <> mk l 0 ->
  mk l (zv den) <> mk l 0 /\ (0 <= k -> aff l (zv x) (zv y) = ec_mul l (zv a) k G -> 0 <= k' /\ aff l (zv x') (zv y') = ec_mul l (zv a) k' G).
Proof.
  induction ss as [|[s|s] ss IH]; intros x y k den x' y' k' den' E N; cbn [brun] in E.
  - injection E as <- <- <- <-. split; [exact N|]. intros Hk EG. split; assumption.
  - match type of E with (if BigZ.eqb ?u _ then _ else _) = _ => destruct (BigZ.eqb u BigZ.zero) eqn:EC; [|discriminate E] end.
    rewrite BigZ.spec_eqb, Z.eqb_eq, BigZ.spec_0 in EC. destruct (IH _ _ _ _ _ _ _ _ E N) as [N1 HR]. apply den_ne in N1. destruct N1 as [N1 N2]. split; [exact N1|].
    intros Hk EG. apply HR; [lia|]. rewrite dbl_is by assumption. rewrite EG. replace (2 * k) with (k + k) by lia. symmetry. apply (ec_mul_add l (zv a) b l_prime l_odd disc); assumption.
  - match type of E with (if BigZ.eqb ?u _ then _ else _) = _ => destruct (BigZ.eqb u BigZ.zero) eqn:EC; [|discriminate E] end.
    rewrite BigZ.spec_eqb, Z.eqb_eq, BigZ.spec_0 in EC. destruct (IH _ _ _ _ _ _ _ _ E N) as [N1 HR]. apply den_ne in N1. destruct N1 as [N1 N2]. split; [exact N1|].
    intros Hk EG. apply HR; [lia|]. rewrite add_g_is by assumption. rewrite EG.
    rewrite (ec_mul_add l (zv a) b l_prime l_odd disc k 1) by (lia || exact G_on). now rewrite ec_mul_1.
Qed.

(** [(q - 1) G = - G] *)
Definition check_order (q : Z) (ss : list step) (w : B) : bool :=
  match brun ss gx gy 1 BigZ.one with
  | Some (x, y, k, den) =>
      Z.eqb k (q - 1) && BigZ.eqb ((x [-] gx) %% n) BigZ.zero && BigZ.eqb ((y [+] gy) %% n) BigZ.zero && BigZ.eqb ((den [*] w) %% n) BigZ.one
  | None => false
  end.
Lemma check_order_ok q ss w : 0 < q -> check_order q ss w = true -> ec_mul l (zv a) q G = Inf.
Proof.
  intros Hq. unfold check_order. destruct (brun ss gx gy 1 BigZ.one) as [[[[x y] k] den]|] eqn:E; [|discriminate].
  rewrite !andb_true_iff, !BigZ.spec_eqb, !Z.eqb_eq, BigZ.spec_0, BigZ.spec_1. intros [[[EK EX] EY] ED].
  apply mk_zero in EX, EY. rewrite BigZ.spec_sub, mk_sub in EX. rewrite BigZ.spec_add, mk_add in EY.
  assert (ND : mk l (zv den) <> mk l 0).
  { intros E0. assert (E1 : mk l (zv ((den [*] w) %% n)) = mk l 1) by now rewrite ED. rewrite mk_zv_mod, BigZ.spec_mul, mk_mul, E0 in E1.
    apply (F_1_neq_0 (fp_field l l_prime)). rewrite <- E1. ring. }
  destruct (brun_is ss gx gy 1 BigZ.one x y k den E ND) as [_ HR]. destruct (HR ltac:(lia)) as [Hk HG]; [symmetry; apply ec_mul_1|].
  replace q with (k + 1) by lia. rewrite (ec_mul_add l (zv a) b l_prime l_odd disc) by (lia || exact G_on). rewrite ec_mul_1, <- HG.
  replace (aff l (zv x) (zv y)) with (ec_neg l G); [apply ec_neg_sum|]. unfold ec_neg, aff. cbn [pneg]. apply f_equal2.
  - transitivity (fp_add l (fp_sub l (mk l (zv x)) (mk l (zv gx))) (mk l (zv gx))); [rewrite EX; ring | ring].
  - transitivity (fp_sub l (fp_add l (mk l (zv y)) (mk l (zv gy))) (mk l (zv gy))); [rewrite EY; ring | ring].
Qed.
End Reduce.

(** ** The modulus is prime when a point has a large prime order

    (Goldwasser and Kilian; the trivial bound on the number of points is enough.) *)

Section Count.
Variable l b q : Z.
Hypothesis l_prime : prime l.
Hypothesis l_odd : 2 < l.
Hypothesis disc : ec_disc l (zv a) b <> mk l 0.
Hypothesis q_prime : prime q.
Hypothesis q_odd : 2 < q.
Notation G := (aff l (zv gx) (zv gy)).
Hypothesis G_on : ec_on l (zv a) b G.
Hypothesis G_order : ec_mul l (zv a) q G = Inf.

Definition xof (P : Pt l) : Z := match P with Inf => 0 | Aff x _ => val l x end.
Lemma half_order_le : (q - 1) / 2 <= l.
Proof.
  pose proof (prime_ge_2 q q_prime) as Q2. set (m := Z.to_nat ((q - 1) / 2)).
  assert (HM : Z.of_nat m = (q - 1) / 2) by (unfold m; apply Z2Nat.id; apply Z.div_pos; lia). assert (HQ : 2 * Z.of_nat m < q) by (rewrite HM; pose proof (Z.mul_div_le (q - 1) 2 ltac:(lia)); lia).
  set (L := map (fun i => xof (ec_mul l (zv a) (Z.of_nat i) G)) (seq 1 m)).
  assert (ND : NoDup L).
  { apply nodup_map_in; [apply seq_NoDup|]. intros i j Hi Hj E. apply in_seq in Hi, Hj.
    assert (NI : forall k, (1 <= k < 1 + m)%nat -> exists x y, ec_mul l (zv a) (Z.of_nat k) G = Aff x y).
    { intros k Hk. destruct (ec_mul l (zv a) (Z.of_nat k) G) as [|x y] eqn:EK; [|eauto]. exfalso.
      apply (mul_inf_q l (zv a) b l_prime l_odd disc q q_prime G G_on ltac:(discriminate) G_order) in EK; [|lia]. rewrite Z.mod_small in EK by lia. lia. }
    destruct (NI i Hi) as (x1 & y1 & E1). destruct (NI j Hj) as (x2 & y2 & E2). rewrite E1, E2 in E. cbn [xof] in E. apply val_inj in E. subst x2.
    pose proof (ec_mul_on l (zv a) b l_prime l_odd (Z.of_nat i) G G_on) as O1. pose proof (ec_mul_on l (zv a) b l_prime l_odd (Z.of_nat j) G G_on) as O2. rewrite E1 in O1. rewrite E2 in O2.
    destruct (same_x _ _ _ _ _ _ _ _ (fp_eq l) (fp_field l l_prime) _ _ _ _ _ O1 O2) as [EY|EY].
    - assert (EE : ec_mul l (zv a) (Z.of_nat i) G = ec_mul l (zv a) (Z.of_nat j) G) by (rewrite E1, E2, EY; reflexivity).
      apply (mul_inj_q l (zv a) b l_prime l_odd disc q q_prime G G_on ltac:(discriminate) G_order) in EE; [|lia|lia]. rewrite !Z.mod_small in EE by lia. lia.
    - assert (EE : ec_mul l (zv a) (Z.of_nat i) G = ec_neg l (ec_mul l (zv a) (Z.of_nat j) G)) by (rewrite E1, E2, EY; reflexivity).
      apply (mul_opposite_q l (zv a) b l_prime l_odd disc q q_prime G G_on ltac:(discriminate) G_order) in EE; [|lia|lia]. rewrite Z.mod_small in EE by lia. lia. }
  assert (IN : incl L (map Z.of_nat (seq 0 (Z.to_nat l)))).
  { intros x Hx. apply in_map_iff in Hx. destruct Hx as (i & <- & _). apply in_map_iff.
    assert (HR : 0 <= xof (ec_mul l (zv a) (Z.of_nat i) G) < l) by (destruct (ec_mul l (zv a) (Z.of_nat i) G) as [|x y]; cbn [xof]; [lia | apply val_range; exact l_prime]).
    exists (Z.to_nat (xof (ec_mul l (zv a) (Z.of_nat i) G))). split; [lia|]. apply in_seq. lia. }
  apply (NoDup_incl_length ND) in IN. unfold L in IN. rewrite !map_length, !seq_length in IN. lia.
Qed.
End Count.

(** The equation of the curve, the discriminant and the order, all modulo [n]. *)
Definition check_curve (b wd : B) (q : Z) (ss : list step) (w : B) : bool :=
  BigZ.eqb (((gy [*] gy) [-] ((gx [*] gx [*] gx) [+] (a [*] gx) [+] b)) %% n) BigZ.zero &&
  BigZ.eqb (((((BigZ.of_Z 4 [*] a [*] a [*] a) [+] (BigZ.of_Z 27 [*] b [*] b)) [*] wd)) %% n) BigZ.one &&
  check_order q ss w.
Section Curve.
Variables (b wd : B) (q : Z) (ss : list step) (w : B).
Hypothesis OK : check_curve b wd q ss w = true.
Hypothesis n_pos : 2 < zv n.
Hypothesis n_odd : zv n mod 2 = 1.
Hypothesis q_prime : prime q.
Hypothesis q_odd : 2 < q.
Variable l : Z.
Hypothesis l_prime : prime l.
Hypothesis l_div : (l | zv n).
Add Field fl2 : (fp_field l l_prime).

Lemma l_odd : 2 < l.
Proof.
  pose proof (prime_ge_2 l l_prime). destruct (Z.eq_dec l 2) as [E|E]; [|lia]. exfalso. rewrite E in l_div. apply Z.mod_divide in l_div; lia.
Qed.
Lemma n_gt : 0 < zv n.
Proof. lia. Qed.
Lemma curve_on : ec_on l (zv a) (zv b) (aff l (zv gx) (zv gy)).
Proof.
  unfold check_curve in OK. rewrite !andb_true_iff, !BigZ.spec_eqb, !Z.eqb_eq, BigZ.spec_0 in OK. destruct OK as [[E _] _].
  apply (mk_zero l l_odd l_div n_gt) in E. rewrite ?BigZ.spec_sub, ?BigZ.spec_add, ?BigZ.spec_mul, ?mk_sub, ?mk_add, ?mk_mul in E.
  unfold ec_on, aff, on_curve. match type of E with fp_sub _ ?u ?v = _ => transitivity (fp_add l (fp_sub l u v) v); [ring | rewrite E; ring] end.
Qed.
Lemma curve_disc : ec_disc l (zv a) (zv b) <> mk l 0.
Proof.
  unfold check_curve in OK. rewrite !andb_true_iff, !BigZ.spec_eqb, !Z.eqb_eq, BigZ.spec_1 in OK. destruct OK as [[_ E] _].
  intros E0. assert (E1 : mk l (zv (((((BigZ.of_Z 4 [*] a [*] a [*] a) [+] (BigZ.of_Z 27 [*] b [*] b)) [*] wd)) %% n)) = mk l 1) by now rewrite E.
  rewrite (mk_zv_mod l l_odd l_div n_gt) in E1. rewrite ?BigZ.spec_mul, ?BigZ.spec_add, ?BigZ.spec_mul, ?BigZ.spec_of_Z, ?mk_mul, ?mk_add, ?mk_mul in E1.
  apply (F_1_neq_0 (fp_field l l_prime)). rewrite <- E1. transitivity (fp_mul l (ec_disc l (zv a) (zv b)) (mk l (zv wd))); [|rewrite E0; ring].
  unfold ec_disc, discriminant. cbv zeta.
  replace (mk l 4) with (fp_add l (fp_add l (mk l 1) (mk l 1)) (fp_add l (mk l 1) (mk l 1))) by (rewrite <- !mk_add; reflexivity).
  replace (mk l 27) with (fp_mul l (fp_mul l (fp_add l (fp_add l (mk l 1) (mk l 1)) (mk l 1)) (fp_add l (fp_add l (mk l 1) (mk l 1)) (mk l 1))) (fp_add l (fp_add l (mk l 1) (mk l 1)) (mk l 1))) by (rewrite <- !mk_add, <- !mk_mul; reflexivity).
  ring.
Qed.
Lemma curve_order : ec_mul l (zv a) q (aff l (zv gx) (zv gy)) = Inf.
Proof.
  pose proof OK as OK'. unfold check_curve in OK'. rewrite !andb_true_iff in OK'. destruct OK' as [_ E].
  apply (check_order_ok l (zv b) l_prime l_odd l_div n_gt curve_disc curve_on q ss w); [pose proof (prime_ge_2 q q_prime); lia | exact E].
Qed.
Lemma curve_bound : (q - 1) / 2 <= l.
Proof. apply (half_order_le l (zv b)); try assumption; [apply l_odd | apply curve_disc | apply curve_on | apply curve_order]. Qed.
End Curve.

Theorem prime_by_order b wd q ss w : check_curve b wd q ss w = true -> 2 < zv n -> zv n mod 2 = 1 -> prime q -> 2 < q -> zv n < ((q - 1) / 2) * ((q - 1) / 2) -> prime (zv n).
Proof.
  intros OK N2 NO PQ Q2 HB. destruct (prime_dec (zv n)) as [P|P]; [exact P|]. destruct (small_prime_divisor (zv n) ltac:(lia) P) as (l & PL & D & L). exfalso.
  pose proof (curve_bound b wd q ss w OK N2 NO PQ Q2 l PL D) as HL. pose proof (prime_ge_2 l PL). assert (HP : 0 <= (q - 1) / 2) by (apply Z.div_pos; lia). nia.
Qed.
End Run.
