(** * The extended Euclidean algorithm: Bezout coefficients, their size, and the number of steps *)
From Coq Require Import ZArith Znumtheory Lia List.
Import ListNotations.
Open Scope Z_scope.

(** At most [n] nested steps. *)
Fixpoint egcd (n : nat) (a b : Z) : option (Z * Z * Z) :=
  match n with
  | O => None
  | S n' =>
      if b =? 0 then Some (a, 1, 0)
      else match egcd n' b (a mod b) with
           | Some (g, x, y) => Some (g, y, x - y * (a / b))
           | None => None
           end
  end.

Lemma egcd_S n a b : egcd (S n) a b = if b =? 0 then Some (a, 1, 0) else match egcd n b (a mod b) with Some (g, x, y) => Some (g, y, x - y * (a / b)) | None => None end.
Proof. reflexivity. Qed.
Lemma egcd_more n m a b t : egcd n a b = Some t -> (n <= m)%nat -> egcd m a b = Some t.
Proof.
  revert m a b t. induction n as [|n IH]; intros m a b t E L; [discriminate E|]. destruct m as [|m]; [lia|]. cbn [egcd] in *.
  destruct (b =? 0); [exact E|]. destruct (egcd n b (a mod b)) as [r|] eqn:E1; [|discriminate E]. rewrite (IH m _ _ _ E1) by lia. exact E.
Qed.
Lemma egcd_bezout n a b g x y : egcd n a b = Some (g, x, y) -> a * x + b * y = g /\ (g | a) /\ (g | b).
Proof.
  revert a b g x y. induction n as [|n IH]; intros a b g x y E; [discriminate E|]. cbn [egcd] in E. destruct (Z.eqb_spec b 0) as [->|N].
  - inversion E; subst. split; [lia|]. split; [apply Z.divide_refl | apply Z.divide_0_r].
  - destruct (egcd n b (a mod b)) as [[[g' x'] y']|] eqn:E1; [|discriminate E]. inversion E; subst. destruct (IH _ _ _ _ _ E1) as (B & D1 & D2).
    pose proof (Z.div_mod a b N) as DM. split; [rewrite <- B; nia|]. split; [|exact D1]. rewrite DM. apply Z.divide_add_r; [now apply Z.divide_mul_l | exact D2].
Qed.

(** Signs and sizes. *)
Lemma egcd_pos n a b g x y : egcd n a b = Some (g, x, y) -> 0 < b \/ (b = 0 /\ 0 < a) -> 0 < g.
Proof.
  revert a b g x y. induction n as [|n IH]; intros a b g x y E H; [discriminate E|]. cbn [egcd] in E. destruct (Z.eqb_spec b 0) as [->|N].
  - inversion E; subst. lia.
  - destruct (egcd n b (a mod b)) as [[[g' x'] y']|] eqn:E1; [|discriminate E]. inversion E; subst. apply (IH _ _ _ _ _ E1). assert (HM := Z.mod_pos_bound a b). lia.
Qed.
Lemma egcd_size n b r g x y : egcd n b r = Some (g, x, y) -> 0 <= r < b -> g * Z.abs y <= b /\ g * Z.abs x <= Z.max r g.
Proof.
  revert b r g x y. induction n as [|n IH]; intros b r g x y E H; [discriminate E|].
  pose proof (egcd_pos _ _ _ _ _ _ E ltac:(lia)) as GP. destruct (egcd_bezout _ _ _ _ _ _ E) as (_ & Da & Db).
  cbn [egcd] in E. destruct (Z.eqb_spec r 0) as [->|N].
  - inversion E; subst. lia.
  - destruct (egcd n r (b mod r)) as [[[g' x'] y']|] eqn:E1; [|discriminate E]. inversion E; subst.
    assert (HM := Z.mod_pos_bound b r ltac:(lia)). destruct (IH _ _ _ _ _ E1 HM) as [I1 I2]. destruct (egcd_bezout _ _ _ _ _ _ E1) as (_ & D1 & D2).
    assert (gr : g <= r) by (apply Z.divide_pos_le; [lia | exact Db]).
    split; [|lia]. pose proof (Z.div_mod b r ltac:(lia)) as DM. assert (DP : 1 <= b / r) by (apply Z.div_le_lower_bound; lia).
    destruct (Z.eq_dec (b mod r) 0) as [Z0|Z0].
    + assert (EX : x' = 1 /\ x = 0 /\ g = r). { destruct n as [|n]; [discriminate E1|]. cbn [egcd] in E1. rewrite Z0 in E1. cbn [Z.eqb] in E1. inversion E1; subst. auto. }
      destruct EX as (-> & -> & ->). rewrite Z.mul_0_l, Z.sub_0_r. lia.
    + assert (gm : g <= b mod r) by (apply Z.divide_pos_le; [lia | exact D2]). rewrite Z.max_l in I2 by lia.
      assert (T : Z.abs (x' - x * (b / r)) <= Z.abs x' + Z.abs x * (b / r)) by (rewrite <- (Z.abs_eq (b / r)) at 2 by lia; rewrite <- Z.abs_mul; lia).
      nia.
Qed.

(** ** The number of steps *)

Lemma egcd_steps n : forall a b, 0 <= b < 2 ^ Z.of_nat n -> egcd (2 * n + 1) a b <> None.
Proof.
  induction n as [|n IH]; intros a b H.
  - cbn in H. assert (b = 0) by lia. subst b. discriminate.
  - replace (2 * S n + 1)%nat with (S (S (2 * n + 1))) by lia. cbn [egcd]. destruct (Z.eqb_spec b 0) as [|N]; [discriminate|].
    assert (HM := Z.mod_pos_bound a b ltac:(lia)). destruct (Z.eqb_spec (a mod b) 0) as [|N2]; [discriminate|].
    set (r := a mod b) in *. assert (HM2 := Z.mod_pos_bound b r ltac:(lia)). pose proof (Z.div_mod b r ltac:(lia)) as DM. assert (DP : 1 <= b / r) by (apply Z.div_le_lower_bound; lia).
    specialize (IH r (b mod r)). destruct (egcd (2 * n + 1) r (b mod r)) as [[[g x] y]|] eqn:E; [discriminate|]. exfalso. apply IH; [|reflexivity].
    rewrite Nat2Z.inj_succ, Z.pow_succ_r in H by lia. nia.
Qed.
(** Any integers: negative moduli give non-positive remainders. *)
Lemma egcd_opp n : forall a b, egcd n (- a) (- b) = match egcd n a b with Some (g, x, y) => Some (- g, x, y) | None => None end.
Proof.
  induction n as [|n IH]; intros a b; [reflexivity|]. cbn [egcd]. replace (- b =? 0) with (b =? 0) by (destruct (Z.eqb_spec b 0), (Z.eqb_spec (- b) 0); lia). destruct (Z.eqb_spec b 0) as [|N]; [reflexivity|].
  rewrite Zmod_opp_opp, IH, Zdiv_opp_opp. destruct (egcd n b (a mod b)) as [[[g x] y]|]; reflexivity.
Qed.
Lemma egcd_total a b n : (2 * (Z.log2 (Z.abs b)) + 3 <= Z.of_nat n) -> egcd n a b <> None.
Proof.
  intros H. assert (G : forall a c, 0 <= c -> Z.abs b = c -> egcd n a c <> None).
  { intros a' c Hc Ec. set (k := Z.to_nat (Z.log2 c + 1)). assert (HL := Z.log2_nonneg c). assert (HB : 0 <= c < 2 ^ Z.of_nat k).
    { split; [exact Hc|]. unfold k. rewrite Z2Nat.id by lia. destruct (Z.eq_dec c 0) as [->|N]; [reflexivity|]. pose proof (Z.log2_spec c ltac:(lia)) as [_ HS]. exact HS. }
    pose proof (egcd_steps k a' c HB) as HT. destruct (egcd (2 * k + 1) a' c) as [t|] eqn:E; [|contradiction]. rewrite (egcd_more _ n _ _ _ E); [discriminate|]. unfold k. rewrite Ec in H. lia. }
  destruct (Z.le_gt_cases 0 b) as [P|P]; [apply G; lia|]. specialize (G (- a) (- b)). pose proof (egcd_opp n (- a) (- b)) as EO. rewrite !Z.opp_involutive in EO. rewrite EO. destruct (egcd n (- a) (- b)) as [[[g x] y]|]; [discriminate|]. exfalso. apply G; [lia | lia | reflexivity].
Qed.

(** ** Lame's bound: [n + 2] nested steps are not enough only if the modulus is at least the [n]-th Fibonacci number *)

Fixpoint fib2 (n : nat) : Z * Z := match n with O => (1, 1) | S n' => let (u, v) := fib2 n' in (v, u + v) end.
(** 1, 1, 2, 3, 5, ... *)
Definition fib (n : nat) : Z := fst (fib2 n).
Lemma fib_step n : fib (S (S n)) = fib n + fib (S n).
Proof. unfold fib. cbn [fib2]. destruct (fib2 n). reflexivity. Qed.
Lemma fib_pos n : 1 <= fib n /\ 1 <= fib (S n).
Proof. induction n as [|n [IH1 IH2]]; [split; reflexivity|]. split; [exact IH2|]. rewrite fib_step. lia. Qed.

Lemma lame n : forall b r, 0 <= r < b -> egcd (S n) b r = None -> fib (S n) <= b /\ fib n <= r.
Proof.
  induction n as [|n IH]; intros b r H E.
  - cbn [egcd] in E. destruct (Z.eqb_spec r 0); [discriminate E|]. cbn. lia.
  - rewrite egcd_S in E. destruct (Z.eqb_spec r 0); [discriminate E|]. destruct (egcd (S n) r (b mod r)) as [[[g x] y]|] eqn:E1; [discriminate E|].
    assert (HM := Z.mod_pos_bound b r ltac:(lia)). destruct (IH _ _ HM E1) as [I1 I2]. split; [|exact I1]. rewrite fib_step. pose proof (Z.div_mod b r ltac:(lia)) as DM. assert (DP : 1 <= b / r) by (apply Z.div_le_lower_bound; lia). nia.
Qed.
Lemma lame_first n a b : 0 < b -> egcd (S (S n)) a b = None -> fib (S n) <= b.
Proof.
  intros H E. rewrite egcd_S in E.
  destruct (Z.eqb_spec b 0); [discriminate E|]. destruct (egcd (S n) b (a mod b)) as [[[g x] y]|] eqn:E1; [discriminate E|].
  apply (lame n b (a mod b)); [apply Z.mod_pos_bound; lia | exact E1].
Qed.

(** ** Inverses *)

Definition steps_for (m : Z) : nat := Z.to_nat (2 * Z.log2 (Z.abs m) + 3).
Definition coeff (a m : Z) : Z := match egcd (steps_for m) a m with Some (_, x, _) => x | None => 0 end.

Lemma coeff_bezout a m : 0 < m -> exists g y, 0 < g /\ (g | a) /\ (g | m) /\ a * coeff a m + m * y = g /\ g * Z.abs (coeff a m) <= m.
Proof.
  intros H. unfold coeff. assert (HL := Z.log2_nonneg (Z.abs m)). destruct (egcd (steps_for m) a m) as [[[g x] y]|] eqn:E.
  - destruct (egcd_bezout _ _ _ _ _ _ E) as (B & D1 & D2). exists g, y. split; [apply (egcd_pos _ _ _ _ _ _ E); lia|]. split; [exact D1|]. split; [exact D2|]. split; [exact B|].
    destruct (steps_for m) as [|n]; [discriminate E|]. cbn [egcd] in E. destruct (Z.eqb_spec m 0); [lia|]. destruct (egcd n m (a mod m)) as [[[g' x'] y']|] eqn:E1; [|discriminate E]. inversion E; subst.
    apply (egcd_size _ _ _ _ _ _ E1). apply Z.mod_pos_bound. lia.
  - exfalso. apply (egcd_total a m (steps_for m)); [unfold steps_for; lia | exact E].
Qed.
Lemma coeff_zero a m : 0 < m -> a mod m = 0 -> coeff a m = 0.
Proof.
  intros H Z0. unfold coeff. assert (HL := Z.log2_nonneg (Z.abs m)). destruct (steps_for m) as [|[|n]] eqn:EN; [unfold steps_for in EN; lia | unfold steps_for in EN; lia|].
  cbn [egcd]. destruct (Z.eqb_spec m 0); [lia|]. rewrite Z0. reflexivity.
Qed.
Lemma coeff_prime a m : prime m -> a mod m <> 0 -> (a * coeff a m) mod m = 1 /\ Z.abs (coeff a m) < m.
Proof.
  intros HP N. pose proof (prime_ge_2 m HP) as H2. destruct (coeff_bezout a m ltac:(lia)) as (g & y & GP & D1 & D2 & B & S).
  assert (G1 : g = 1). { destruct (prime_divisors m HP g D2) as [E|[E|[E|E]]]; try lia. exfalso. apply N. rewrite E in D1. apply Z.mod_divide; [lia | exact D1]. }
  rewrite G1 in *. assert (M1 : (a * coeff a m) mod m = 1).
  { replace (a * coeff a m) with (1 + (- y) * m) by lia. rewrite Z.mod_add by lia. apply Z.mod_small. lia. }
  split; [exact M1|]. destruct (Z.eq_dec (Z.abs (coeff a m)) m) as [E|E]; [|lia]. exfalso.
  assert (D : (m | a * coeff a m)) by (apply Z.divide_mul_r; apply Z.divide_abs_r; rewrite E; apply Z.divide_refl). apply Z.mod_divide in D; [|lia]. rewrite M1 in D. discriminate D.
Qed.
