(** * The signature object: multiples, signatures and their verification *)
From Coq Require Import ZArith Znumtheory Lia String.
From Verif Require Import PyBase PyFacts PyLoop Utils UtilsFacts Euclid Fp SpecCurve CurveGroup SpecSign SigCurves Sig SigLemmas SigArith.
Open Scope Z_scope.

Definition usable (o : sig_obj) : Prop := gost_domain (s_size o) (s_p o) (s_a o) (s_b o) (s_q o) (s_x o) (s_y o).
Definition base (o : sig_obj) : Pt (s_p o) := aff (s_p o) (s_x o) (s_y o).
Definition times (o : sig_obj) (k : Z) (P : Pt (s_p o)) : Pt (s_p o) := ec_mul (s_p o) (s_a o) k P.

(** ** Facts that need nothing but a size and a positive modulus [q] *)

Definition shaped (o : sig_obj) : Prop := 0 < s_size o /\ 0 < s_q o <= 256 ^ s_size o.
Lemma usable_shaped o : usable o -> shaped o.
Proof. intros U. split; [apply U|]. pose proof (g_q_odd _ _ _ _ _ _ _ U). pose proof (g_q_fits _ _ _ _ _ _ _ U). lia. Qed.

Definition iters (o : sig_obj) : nat := Z.to_nat (8 * s_size o).
Lemma iters_pow o : 0 <= s_size o -> 2 ^ Z.of_nat (iters o) = 256 ^ s_size o.
Proof. intros H. unfold iters. rewrite Z2Nat.id by lia. rewrite Z.pow_mul_r by lia. reflexivity. Qed.

Lemma mul_loop_more o : 0 <= s_size o -> forall n v xn yn xp yp r m, mul_loop o n v xn yn xp yp = Returns r -> (n <= m)%nat -> mul_loop o m v xn yn xp yp = Returns r.
Proof.
  intros HS. induction n as [|n IH]; intros v xn yn xp yp r m E L.
  - cbn [mul_loop] in E. destruct (Z.eqb_spec v 0) as [->|N]; [|discriminate E]. rewrite mul_loop_done. exact E.
  - destruct (Z.eq_dec v 0) as [->|N]; [rewrite mul_loop_done in *; exact E|]. destruct m as [|m]; [lia|]. rewrite mul_loop_S in * by exact N.
    destruct (add_total o xp xp yp yp HS) as (xq & yq & EQ). destruct (add_total o xn xp yn yp HS) as (xm & ym & EM). rewrite EQ, EM in *.
    destruct (Z.land v 1 =? 1); cbn [liftO bindO fst snd] in *; apply (IH _ _ _ _ _ _ m E); lia.
Qed.
Lemma mul_loop_outcome o : 0 <= s_size o -> forall n v xn yn xp yp, mul_loop o n v xn yn xp yp = OutOfFuel \/ exists r, mul_loop o n v xn yn xp yp = Returns r.
Proof.
  intros HS. induction n as [|n IH]; intros v xn yn xp yp; (destruct (Z.eq_dec v 0) as [->|N]; [right; rewrite mul_loop_done; eauto|]).
  - left. cbn [mul_loop]. now replace (v =? 0) with false by lia.
  - rewrite mul_loop_S by exact N. destruct (add_total o xp xp yp yp HS) as (xq & yq & EQ). destruct (add_total o xn xp yn yp HS) as (xm & ym & EM). rewrite EQ, EM.
    destruct (Z.land v 1 =? 1); cbn [liftO bindO fst snd]; apply IH.
Qed.
(** A run of the loop either has not ended yet or has given the final value. *)
Lemma mul_point_upto o n0 n k X Y r : 0 <= s_size o -> (forall n, (n0 <= n)%nat -> _mul_point o n k X Y = Returns r) -> _mul_point o n k X Y = OutOfFuel \/ _mul_point o n k X Y = Returns r.
Proof.
  intros HS H. unfold _mul_point in *. destruct (mul_loop_outcome o HS n (k - 1) (if (X >? 0) && (Y >? 0) then X else s_x o) (if (X >? 0) && (Y >? 0) then Y else s_y o)
    (if (X >? 0) && (Y >? 0) then X else s_x o) (if (X >? 0) && (Y >? 0) then Y else s_y o)) as [E|[r' E]]; [left; exact E|]. right.
  rewrite <- (H (Nat.max n n0)) by lia. rewrite E. symmetry. apply (mul_loop_more o HS n _ _ _ _ _ _ _ E). lia.
Qed.
Lemma mul_point_ends o k X Y : 0 <= s_size o -> 1 <= k <= 256 ^ s_size o -> exists r, forall n, (iters o <= n)%nat -> _mul_point o n k X Y = Returns r.
Proof.
  intros HS Hk. unfold _mul_point. destruct (mul_loop_ends o (iters o) HS (k - 1) (if (X >? 0) && (Y >? 0) then X else s_x o) (if (X >? 0) && (Y >? 0) then Y else s_y o)
    (if (X >? 0) && (Y >? 0) then X else s_x o) (if (X >? 0) && (Y >? 0) then Y else s_y o)) as [r E]; [rewrite iters_pow by exact HS; lia|]. exists r. exact E.
Qed.
Lemma mul_point_diverges o n k X Y : 0 <= s_size o -> k <= 0 -> _mul_point o n k X Y = OutOfFuel.
Proof. intros HS Hk. unfold _mul_point. apply mul_loop_diverges; [exact HS | lia]. Qed.

(** The number of a digest. *)
Lemma set_e_is o digest : shaped o -> _set_e o digest = Ok (gost_e (s_q o) (bytearray_to_int digest)).
Proof.
  intros [HS HQ]. unfold _set_e, gost_e. rewrite compare_to_zero_int by lia. cbn [bind]. assert (HB := Z.mod_pos_bound (bytearray_to_int digest) (s_q o) ltac:(lia)).
  rewrite (Z.mod_small _ (256 ^ s_size o)) by lia. reflexivity.
Qed.
Lemma gost_e_range q alpha : 1 < q -> 0 < gost_e q alpha < q.
Proof. intros H. unfold gost_e. assert (HB := Z.mod_pos_bound alpha q ltac:(lia)). destruct (Z.eqb_spec (alpha mod q) 0); lia. Qed.

(** The two loops of [sign], when the multiple is [xy]. *)
Section Loops.
Variable o : sig_obj.
Hypothesis HS : shaped o.
Variables (pk rk : bytes) (e : Z) (xy : Z * Z).
Notation k := (bytearray_to_int rk).
Hypothesis Hxy : forall n, (iters o <= n)%nat -> _mul_point o n k (-1) (-1) = Returns xy.
Notation r := (fst xy mod s_q o).
Notation s := ((r * bytearray_to_int pk + k * e) mod s_q o).

Lemma zero_test v : 0 <= v < s_q o -> liftO (compare_to_zero (int_to_bytearray v (s_size o))) = Returns (v =? 0).
Proof. intros H. destruct HS as [H1 H2]. rewrite compare_to_zero_int, Z.mod_small by lia. reflexivity. Qed.
Lemma r_range : 0 <= r < s_q o.
Proof. destruct HS. apply Z.mod_pos_bound. lia. Qed.
Lemma s_range r' : 0 <= (r' * bytearray_to_int pk + k * e) mod s_q o < s_q o.
Proof. destruct HS. apply Z.mod_pos_bound. lia. Qed.
Lemma sign_inner_ok n k0 : (iters o < n)%nat -> r <> 0 -> sign_inner o n rk 0 k0 = Returns (r, k).
Proof.
  intros Hn N. destruct n as [|n]; [lia|]. cbn [sign_inner]. rewrite zero_test by (destruct HS; lia). cbn [bindO]. change (0 =? 0) with true. cbn iota. rewrite Hxy by lia. cbn [bindO].
  destruct n as [|n]; cbn [sign_inner]; rewrite zero_test by apply r_range; cbn [bindO]; (destruct (Z.eqb_spec r 0) as [E|_]; [contradiction | reflexivity]).
Qed.
Lemma sign_inner_diverges n : r = 0 -> forall k0, sign_inner o n rk 0 k0 = OutOfFuel.
Proof.
  intros E. induction n as [|n IH]; intros k0; cbn [sign_inner]; rewrite zero_test by (destruct HS; lia); cbn [bindO]; change (0 =? 0) with true; cbn iota; [reflexivity|].
  destruct (mul_point_upto o (iters o) (S n) k (-1) (-1) xy ltac:(destruct HS; lia) Hxy) as [D|D]; rewrite D; cbn [bindO]; [reflexivity|]. rewrite E. apply IH.
Qed.
Lemma sign_inner_upto n k0 : r <> 0 -> sign_inner o n rk 0 k0 = OutOfFuel \/ sign_inner o n rk 0 k0 = Returns (r, k).
Proof.
  intros N. destruct n as [|n]; cbn [sign_inner]; rewrite zero_test by (destruct HS; lia); cbn [bindO]; change (0 =? 0) with true; cbn iota; [left; reflexivity|].
  destruct (mul_point_upto o (iters o) (S n) k (-1) (-1) xy ltac:(destruct HS; lia) Hxy) as [D|D]; rewrite D; cbn [bindO]; [left; reflexivity|]. right.
  destruct n as [|n]; cbn [sign_inner]; rewrite zero_test by apply r_range; cbn [bindO]; (destruct (Z.eqb_spec r 0) as [E|_]; [contradiction | reflexivity]).
Qed.
Lemma sign_inner_keep n k0 : r <> 0 -> sign_inner o n rk r k0 = Returns (r, k0).
Proof. intros N. destruct n as [|n]; cbn [sign_inner]; rewrite zero_test by apply r_range; cbn [bindO]; (destruct (Z.eqb_spec r 0) as [E|_]; [contradiction | reflexivity]). Qed.
Lemma sign_outer_ok n : (iters o < n)%nat -> r <> 0 -> s <> 0 -> sign_outer o n pk rk e 0 0 0 = Returns (r, s).
Proof.
  intros Hn Nr Ns. destruct n as [|n]; [lia|]. cbn [sign_outer]. rewrite zero_test by (destruct HS; lia). cbn [bindO]. change (0 =? 0) with true. cbn iota.
  rewrite (sign_inner_ok (S n) 0) by (lia || exact Nr). cbn [bindO fst snd].
  destruct n as [|n]; cbn [sign_outer]; rewrite zero_test by apply s_range; cbn [bindO]; (destruct (Z.eqb_spec s 0) as [E|_]; [contradiction | reflexivity]).
Qed.
Lemma sign_outer_stuck n : r <> 0 -> s = 0 -> sign_outer o n pk rk e r 0 k = OutOfFuel.
Proof.
  intros Nr Es. induction n as [|n IH]; cbn [sign_outer]; rewrite zero_test by (destruct HS; lia); cbn [bindO]; change (0 =? 0) with true; cbn iota; [reflexivity|].
  rewrite sign_inner_keep by exact Nr. cbn [bindO fst snd]. rewrite Es. exact IH.
Qed.
Lemma sign_outer_diverges n : r = 0 \/ s = 0 -> sign_outer o n pk rk e 0 0 0 = OutOfFuel.
Proof.
  intros H. destruct n as [|n]; cbn [sign_outer]; rewrite zero_test by (destruct HS; lia); cbn [bindO]; change (0 =? 0) with true; cbn iota; [reflexivity|].
  destruct (Z.eq_dec r 0) as [E|N]; [now rewrite sign_inner_diverges by exact E|]. destruct H as [H|H]; [contradiction|].
  destruct (sign_inner_upto (S n) 0 N) as [D|D]; rewrite D; cbn [bindO fst snd]; [reflexivity|]. rewrite H. now apply sign_outer_stuck.
Qed.
End Loops.

Lemma sign_outer_zero o n pk rk e : shaped o -> bytearray_to_int rk <= 0 -> sign_outer o n pk rk e 0 0 0 = OutOfFuel.
Proof.
  intros HS Hk. destruct n as [|n]; cbn [sign_outer]; rewrite zero_test by (assumption || destruct HS; lia); cbn [bindO]; change (0 =? 0) with true; cbn iota; [reflexivity|].
  cbn [sign_inner]; rewrite zero_test by (assumption || destruct HS; lia); cbn [bindO]; change (0 =? 0) with true; cbn iota. rewrite mul_point_diverges by (destruct HS; lia). reflexivity.
Qed.

(** ** [sign] on arguments that pass the checks *)

Definition octets (o : sig_obj) (v : Z) : bytes := int_to_bytearray v (s_size o).
Lemma sign_start o n ur pk dg rk : shaped o -> len pk = s_size o -> len dg = s_size o -> rk <> [] -> bytearray_to_int rk < s_q o ->
  sign o n ur (VBytes pk) (VBytes dg) (VBytes rk) =
  let? rs := sign_outer o n pk rk (gost_e (s_q o) (bytearray_to_int dg)) 0 0 0 in Returns (octets o (fst rs) ++ octets o (snd rs)).
Proof.
  intros HS Hp Hd N Hk. unfold sign, check_value. rewrite Hp, Hd, Z.eqb_refl. cbn [negb]. rewrite set_e_is by exact HS. cbn [liftO bindO].
  destruct rk as [|k0 rk]; [contradiction|]. cbn [bindO]. replace (bytearray_to_int (k0 :: rk) >=? s_q o) with false by lia. reflexivity.
Qed.
Lemma sign_big o n ur pk dg rk : shaped o -> len pk = s_size o -> len dg = s_size o -> rk <> [] -> s_q o <= bytearray_to_int rk ->
  sign o n ur (VBytes pk) (VBytes dg) (VBytes rk) = Raises (GOSTSignatureError "GOSTSignatureError: invalid random value").
Proof.
  intros HS Hp Hd N Hk. unfold sign, check_value. rewrite Hp, Hd, Z.eqb_refl. cbn [negb]. rewrite set_e_is by exact HS. cbn [liftO bindO].
  destruct rk as [|k0 rk]; [contradiction|]. cbn [bindO]. replace (bytearray_to_int (k0 :: rk) >=? s_q o) with true by lia. reflexivity.
Qed.

(** The nonce taken from the system: the first one below [q]. *)
Lemma rand_loop_finds o ur : forall j i n, (forall l, (i <= l < i + j)%nat -> s_q o <= bytearray_to_int (ur l)) -> bytearray_to_int (ur (i + j)%nat) < s_q o -> (j <= n)%nat -> rand_loop o n ur i = Returns (ur (i + j)%nat).
Proof.
  induction j as [|j IH]; intros i n HB HL Hn.
  - rewrite Nat.add_0_r in *. destruct n; cbn [rand_loop]; (replace (bytearray_to_int (ur i) >=? s_q o) with false by lia); reflexivity.
  - destruct n as [|n]; [lia|]. cbn [rand_loop]. specialize (HB i ltac:(lia)) as HI. replace (bytearray_to_int (ur i) >=? s_q o) with true by lia.
    replace (i + S j)%nat with (S i + j)%nat in * by lia. apply IH; [|exact HL|lia]. intros l Hl. apply HB. lia.
Qed.
Lemma rand_loop_never o ur : (forall l, s_q o <= bytearray_to_int (ur l)) -> forall n i, rand_loop o n ur i = OutOfFuel.
Proof. intros H. induction n as [|n IH]; intros i; cbn [rand_loop]; specialize (H i); (replace (bytearray_to_int (ur i) >=? s_q o) with true by lia); [reflexivity | apply IH]. Qed.

(** ** With parameters as in the standard *)

Section Usable.
Variable o : sig_obj.
Hypothesis U : usable o.
Notation p := (s_p o).
Notation q := (s_q o).
Notation a := (s_a o).
Notation b := (s_b o).
Notation G := (base o).

Let p_prime := g_p_prime _ _ _ _ _ _ _ U.
Let p_odd := g_p_odd _ _ _ _ _ _ _ U.
Let p_fits := g_p_fits _ _ _ _ _ _ _ U.
Let disc := g_disc _ _ _ _ _ _ _ U.
Let q_prime := g_q_prime _ _ _ _ _ _ _ U.
Let q_odd := g_q_odd _ _ _ _ _ _ _ U.
Let q_fits := g_q_fits _ _ _ _ _ _ _ U.
Let G_on := g_on _ _ _ _ _ _ _ U.
Let G_order := g_order _ _ _ _ _ _ _ U.
Lemma size_ge : 0 <= s_size o.
Proof. pose proof (g_size _ _ _ _ _ _ _ U). lia. Qed.
Lemma G_key : gost_key p a b q G.
Proof. split; [discriminate|]. split; [exact G_on | exact G_order]. Qed.

(** The multiple of a point given by coordinates. *)
Lemma mul_point_key X Y k : 0 < X < 256 ^ s_size o -> 0 < Y < 256 ^ s_size o -> gost_key p a b q (aff p X Y) -> 1 <= k < q ->
  exists x y, (forall n, (iters o <= n)%nat -> _mul_point o n k X Y = Returns (x, y)) /\ aff p x y = ec_mul p a k (aff p X Y) /\
  (k = 1 -> x = X /\ y = Y) /\ (k <> 1 -> reduced p x /\ reduced p y).
Proof.
  intros HX HY (_ & K2 & K3) Hk.
  destruct (mul_loop_point o b q p_prime p_odd p_fits size_ge disc q_prime q_odd X Y ltac:(unfold fits; lia) ltac:(unfold fits; lia) K2 K3 (iters o) k Hk) as (x & y & E & H).
  { rewrite iters_pow by apply size_ge. exact q_fits. }
  exists x, y. split; [|exact H]. intros n Hn. unfold _mul_point. replace ((X >? 0) && (Y >? 0)) with true by lia. now apply E.
Qed.
Lemma mul_point_base k X Y : X <= 0 \/ Y <= 0 -> 1 <= k < q ->
  exists x y, (forall n, (iters o <= n)%nat -> _mul_point o n k X Y = Returns (x, y)) /\ aff p x y = times o k G /\ reduced p x /\ reduced p y.
Proof.
  intros H0 Hk. pose proof (g_x _ _ _ _ _ _ _ U) as HX. pose proof (g_y _ _ _ _ _ _ _ U) as HY.
  destruct (mul_loop_point o b q p_prime p_odd p_fits size_ge disc q_prime q_odd (s_x o) (s_y o) ltac:(unfold fits; lia) ltac:(unfold fits; lia) G_on G_order (iters o) k Hk) as (x & y & E & H1 & H2 & H3).
  { rewrite iters_pow by apply size_ge. exact q_fits. }
  exists x, y. split; [|split; [exact H1|]].
  - intros n Hn. unfold _mul_point. replace ((X >? 0) && (Y >? 0)) with false by lia. now apply E.
  - destruct (Z.eq_dec k 1) as [E1|E1]; [destruct (H2 E1); subst x y; split; assumption | exact (H3 E1)].
Qed.
Lemma x_coord_aff x y : reduced p x -> x_coord (aff p x y) = Some x.
Proof. intros H. unfold aff, x_coord. rewrite val_mk. now rewrite Z.mod_small by exact H. Qed.
Lemma y_coord_aff x y : reduced p y -> y_coord (aff p x y) = Some y.
Proof. intros H. unfold aff, y_coord. rewrite val_mk. now rewrite Z.mod_small by exact H. Qed.

(** What [sign] does with a nonce [0 < k < q]. *)
Lemma sign_multiple k : 1 <= k < q -> exists x y, (forall n, (iters o <= n)%nat -> _mul_point o n k (-1) (-1) = Returns (x, y)) /\ x_coord (times o k G) = Some x.
Proof. intros Hk. destruct (mul_point_base k (-1) (-1) ltac:(lia) Hk) as (x & y & E & EA & R1 & R2). exists x, y. split; [exact E|]. rewrite <- EA. now apply x_coord_aff. Qed.

(** ** Verification *)

Lemma key_mul_ne Q k : gost_key p a b q Q -> 1 <= k < q -> ec_mul p a k Q <> Inf.
Proof.
  intros (K1 & K2 & K3) Hk E. apply (mul_inf_q p a b p_prime p_odd disc q q_prime Q K2 K1 K3) in E; [|lia]. rewrite Z.mod_small in E by lia. lia.
Qed.

(** The last addition of [verify]: the sum, or [-2 x] when the sum is [Inf]. *)
Definition final_x (P1 P2 : Pt p) : option Z :=
  match ec_add p a P1 P2 with
  | Aff x _ => Some (val p x)
  | Inf => match P1 with Aff x _ => Some ((- 2 * val p x) mod p) | Inf => None end
  end.
Lemma final_add x1 y1 x2 y2 : fits o x1 -> fits o y1 -> fits o x2 -> fits o y2 ->
  (aff p x1 y1 = aff p x2 y2 -> x1 = x2 /\ y1 = y2) -> ec_on p a b (aff p x1 y1) -> ec_on p a b (aff p x2 y2) ->
  ec_add p a (aff p x1 y1) (aff p x1 y1) <> Inf ->
  exists x3 y3, _add o x1 x2 y1 y2 = Ok (x3, y3) /\ final_x (aff p x1 y1) (aff p x2 y2) = Some x3.
Proof.
  intros F1 F2 F3 F4 HE H1 H2 HD. destruct (ec_add p a (aff p x1 y1) (aff p x2 y2)) as [|xs ys] eqn:ES.
  - pose proof (ec_sum_inf p a b p_prime p_odd _ _ H1 H2 ES) as EN. unfold aff, ec_neg in EN. cbn [pneg] in EN.
    assert (EX : mk p x1 = mk p x2) by exact (f_equal (fun P : Pt p => match P with Aff u _ => u | Inf => mk p 0 end) EN).
    assert (NY : y1 <> y2).
    { intros <-. apply HD. rewrite <- ES. unfold aff. now rewrite EX. }
    assert (PP : 0 < p) by lia. apply mk_eq in EX.
    pose proof (add_opposite o x1 y1 x2 y2 PP size_ge F2 F4 EX NY) as EA. do 2 eexists. split; [exact EA|].
    unfold final_x. rewrite ES. unfold aff. rewrite val_mk. f_equal. rewrite Zmult_mod_idemp_r. reflexivity.
  - destruct (add_is o b x1 y1 x2 y2 p_prime p_odd size_ge F1 F2 F3 F4 HE H1 H2) as (x3 & y3 & E & R3 & R4 & EA).
    + intros EN. rewrite EN in ES. rewrite (ec_neg_sum p a) in ES. discriminate ES.
    + exists x3, y3. split; [exact E|]. unfold final_x. rewrite <- EA. unfold aff. rewrite val_mk, Z.mod_small by exact R3. reflexivity.
Qed.

(** The two multipliers of the verification. *)
Lemma inverse_ne e : 0 < e < q -> 0 < _invert e q < q /\ (e * _invert e q) mod q = 1.
Proof.
  intros He. pose proof (invert_inverse e q q_prime ltac:(rewrite Z.mod_small; lia)) as HI. pose proof (invert_range e q q_prime) as HR. split; [|exact HI].
  destruct (Z.eq_dec (_invert e q) 0) as [E|E]; [|lia]. rewrite E, Z.mul_0_r, Z.mod_0_l in HI by lia. discriminate HI.
Qed.
Lemma product_ne x y : 0 < x < q -> 0 < y < q -> 0 < (x * y) mod q < q.
Proof.
  intros Hx Hy. assert (HB := Z.mod_pos_bound (x * y) q ltac:(lia)). destruct (Z.eq_dec ((x * y) mod q) 0) as [E|E]; [|lia].
  apply Z.mod_divide in E; [|lia]. apply (prime_mult q q_prime) in E. destruct E as [E|E]; apply Z.divide_pos_le in E; lia.
Qed.
Lemma minus_mod x : 0 < x mod q -> q - x mod q = (- x) mod q.
Proof.
  intros H. assert (HB := Z.mod_pos_bound x q ltac:(lia)). rewrite Z.mod_opp_l_nz by lia. reflexivity.
Qed.
Lemma z2_one e r : 0 < e < q -> 0 < r < q -> ((- r * _invert e q) mod q = 1 <-> (r + e) mod q = 0).
Proof.
  intros He Hr. destruct (inverse_ne e He) as [HV HI]. set (v := _invert e q) in *. split.
  - intros E. assert (E2 : (e * (- r * v)) mod q = e mod q) by (rewrite <- Zmult_mod_idemp_r, E, Z.mul_1_r; reflexivity).
    replace (e * (- r * v)) with (- r * (e * v)) in E2 by lia. rewrite <- Zmult_mod_idemp_r, HI, Z.mul_1_r in E2.
    replace (r + e) with (e - - r) by lia. rewrite Zminus_mod, <- E2, Z.sub_diag. apply Z.mod_0_l. lia.
  - intros E. apply Z.mod_divide in E; [|lia]. destruct E as [c Hc]. replace (- r * v) with (e * v + (- c * v) * q) by nia. rewrite Z.mod_add by lia. exact HI.
Qed.

Definition pk_x (pk : bytes) : Z := bytearray_to_int (py_upto pk (s_size o)).
Definition pk_y (pk : bytes) : Z := bytearray_to_int (py_from pk (s_size o)).
Lemma half_bounds l : bytes_ok l -> len l = s_size o * 2 -> 0 <= pk_x l < 256 ^ s_size o /\ 0 <= pk_y l < 256 ^ s_size o.
Proof.
  intros Hl HL. pose proof size_ge as HS. unfold pk_x, pk_y, py_upto, py_from. rewrite HL.
  replace (clamp (s_size o * 2) (s_size o)) with (s_size o) by (unfold clamp; destruct (Z.ltb_spec (s_size o) 0); [lia|]; destruct (Z.ltb_spec (s_size o) 0); [lia|]; destruct (Z.ltb_spec (s_size o * 2) (s_size o)); lia).
  pose proof (bytearray_to_int_bound (firstn (Z.to_nat (s_size o)) l) ltac:(apply Forall_forall; intros x Hx; apply (proj1 (Forall_forall _ _) Hl); rewrite <- (firstn_skipn (Z.to_nat (s_size o)) l); apply in_or_app; left; exact Hx)) as H1.
  pose proof (bytearray_to_int_bound (skipn (Z.to_nat (s_size o)) l) ltac:(apply Forall_forall; intros x Hx; apply (proj1 (Forall_forall _ _) Hl); rewrite <- (firstn_skipn (Z.to_nat (s_size o)) l); apply in_or_app; right; exact Hx)) as H2.
  unfold len in *. rewrite firstn_length, skipn_length in *. replace (Z.of_nat (Nat.min (Z.to_nat (s_size o)) (length l))) with (s_size o) in H1 by lia.
  replace (Z.of_nat (length l - Z.to_nat (s_size o))) with (s_size o) in H2 by lia.  split; assumption.
Qed.

Lemma verify_start n pk dg sg : len pk = s_size o * 2 -> len dg = s_size o -> len sg = s_size o * 2 ->
  0 < pk_x sg < q -> 0 < pk_y sg < q ->
  let e := gost_e q (bytearray_to_int dg) in let v := _invert e q in
  verify o n (VBytes pk) (VBytes dg) (VBytes sg) =
  let? sign_p := _mul_point o n ((pk_y sg * v) mod q) (-1) (-1) in
  let? sign_q := _mul_point o n ((- pk_x sg * v) mod q) (pk_x pk) (pk_y pk) in
  let? sign_c := liftO (_add o (fst sign_p) (fst sign_q) (snd sign_p) (snd sign_q)) in
  liftO (compare (int_to_bytearray (fst sign_c mod q) (s_size o)) (int_to_bytearray (pk_x sg) (s_size o))).
Proof.
  intros Hp Hd Hs Hr Hss e v. unfold verify, check_value. rewrite Hp, Hd, Hs, !Z.eqb_refl. cbn [negb].
  fold (pk_x sg) (pk_y sg) (pk_x pk) (pk_y pk). unfold _verify_step_1. replace ((pk_x sg <=? 0) || (pk_x sg >=? q) || (pk_y sg <=? 0) || (pk_y sg >=? q)) with false by lia. cbn [negb].
  rewrite set_e_is by (apply usable_shaped; exact U). fold e. cbn [liftO bindO]. fold v.
  assert (He : 0 < e < q) by (apply gost_e_range; lia). destruct (inverse_ne e He) as [HV _]. fold v in HV.
  rewrite minus_mod by (apply product_ne; assumption). rewrite Z.mul_opp_l. reflexivity.
Qed.

Lemma compare_octets c r : 0 < r < q -> liftO (compare (int_to_bytearray (c mod q) (s_size o)) (int_to_bytearray r (s_size o))) = Returns (c mod q =? r).
Proof. intros Hr. assert (HB := Z.mod_pos_bound c q ltac:(lia)). rewrite compare_int, !(Z.mod_small _ (256 ^ s_size o)) by (apply size_ge || lia). reflexivity. Qed.

Lemma key_double Q k : gost_key p a b q Q -> 1 <= k < q -> ec_add p a (ec_mul p a k Q) (ec_mul p a k Q) <> Inf.
Proof.
  intros (K1 & K2 & K3) Hk E. rewrite <- (ec_mul_add p a b p_prime p_odd disc) in E by (lia || exact K2).
  apply (mul_inf_q p a b p_prime p_odd disc q q_prime Q K2 K1 K3) in E; [|lia]. apply Z.mod_divide in E; [|lia]. destruct E as [c Hc]. assert (c = 1) by nia. subst c.
  assert (D : (2 | q)) by (exists k; lia). apply (prime_divisors q q_prime) in D. lia.
Qed.

(** The result of [verify]: the comparison of [final_x]. *)
Lemma verify_key pk dg sg : bytes_ok pk -> len pk = s_size o * 2 -> len dg = s_size o -> len sg = s_size o * 2 ->
  0 < pk_x sg < q -> 0 < pk_y sg < q ->
  let e := gost_e q (bytearray_to_int dg) in let v := _invert e q in
  0 < pk_x pk -> 0 < pk_y pk -> gost_key p a b q (aff p (pk_x pk) (pk_y pk)) ->
  (pk_x pk < p /\ pk_y pk < p) \/ (pk_x sg + e) mod q <> 0 ->
  exists x3, final_x (times o ((pk_y sg * v) mod q) G) (times o ((- pk_x sg * v) mod q) (aff p (pk_x pk) (pk_y pk))) = Some x3 /\
  forall n, (iters o <= n)%nat -> verify o n (VBytes pk) (VBytes dg) (VBytes sg) = Returns (x3 mod q =? pk_x sg).
Proof.
  intros Ho Hp Hd Hs Hr Hss e v HX HY HK HC. destruct (half_bounds pk Ho Hp) as [BX BY].
  assert (He : 0 < e < q) by (apply gost_e_range; lia). destruct (inverse_ne e He) as [HV HI]. fold v in HV, HI.
  assert (Z1 : 0 < (pk_y sg * v) mod q < q) by (apply product_ne; assumption).
  assert (Z2 : 0 < (- pk_x sg * v) mod q < q) by (rewrite Z.mul_opp_l; rewrite <- minus_mod by (apply product_ne; assumption); pose proof (product_ne _ _ Hr HV); lia).
  destruct (mul_point_base ((pk_y sg * v) mod q) (-1) (-1) ltac:(lia) ltac:(lia)) as (x1 & y1 & E1 & EA1 & R1 & R2).
  destruct (mul_point_key (pk_x pk) (pk_y pk) ((- pk_x sg * v) mod q) ltac:(lia) ltac:(lia) HK ltac:(lia)) as (x2 & y2 & E2 & EA2 & H1 & HN1).
  assert (RF : forall x, reduced p x -> fits o x) by (intros x [Ha Hb]; split; [exact Ha | exact (Z.lt_le_trans _ _ _ Hb p_fits)]).
  assert (F2 : fits o x2 /\ fits o y2).
  { destruct (Z.eq_dec ((- pk_x sg * v) mod q) 1) as [E|E]; [destruct (H1 E) as [-> ->]; split; assumption | destruct (HN1 E); split; apply RF; assumption]. }
  assert (RR : aff p x1 y1 = aff p x2 y2 -> x1 = x2 /\ y1 = y2).
  { intros EE. apply aff_inj in EE. destruct EE as [EE1 EE2]. assert (RB : reduced p x2 /\ reduced p y2).
    { destruct (Z.eq_dec ((- pk_x sg * v) mod q) 1) as [E|E]; [|exact (HN1 E)]. destruct (H1 E) as [-> ->]. destruct HC as [HC|HC]; [unfold reduced; lia|].
      exfalso. apply HC. now apply z2_one. }
    destruct RB. split; apply (mk_reduced p); assumption. }
  destruct (final_add x1 y1 x2 y2 (RF _ R1) (RF _ R2) (proj1 F2) (proj2 F2) RR) as (x3 & y3 & E3 & EF).
  - rewrite EA1. apply (ec_mul_on p a b p_prime p_odd). exact G_on.
  - rewrite EA2. apply (ec_mul_on p a b p_prime p_odd). apply HK.
  - rewrite EA1. apply key_double; [exact G_key | lia].
  - exists x3. split; [rewrite <- EF, EA1, EA2; reflexivity|]. intros n Hn.
    rewrite verify_start by assumption. fold e v. rewrite E1 by exact Hn. cbn [bindO]. rewrite E2 by exact Hn. cbn [bindO fst snd]. rewrite E3. cbn [liftO bindO fst]. now apply compare_octets.
Qed.

(** The standard's condition does not depend on the choice of the inverse. *)
Lemma accepts_iff Q e r s : 0 < e < q -> let v := _invert e q in
  gost_accepts p a q G Q e r s <-> 0 < r < q /\ 0 < s < q /\ exists x, x_coord (ec_add p a (times o ((s * v) mod q) G) (times o ((- r * v) mod q) Q)) = Some x /\ x mod q = r.
Proof.
  intros He v. destruct (inverse_ne e He) as [HV HI]. fold v in HV, HI. unfold gost_accepts, times. split.
  - intros (H1 & H2 & v' & Hv & x & HX). split; [exact H1|]. split; [exact H2|]. exists x.
    assert (EV : v' mod q = v mod q).
    { transitivity ((v * (e * v')) mod q); [|rewrite <- Zmult_mod_idemp_r, Hv, Z.mul_1_r; reflexivity].
      replace (v * (e * v')) with (v' * (e * v)) by lia. rewrite <- Zmult_mod_idemp_r, HI, Z.mul_1_r. reflexivity. }
    rewrite <- (Zmult_mod_idemp_r v s), <- (Zmult_mod_idemp_r v (- r)), <- EV, !Zmult_mod_idemp_r. exact HX.
  - intros (H1 & H2 & x & HX). split; [exact H1|]. split; [exact H2|]. exists v. split; [exact HI|]. exists x. exact HX.
Qed.

(** A signature of the standard satisfies the equation of the verification; the sum is [k G]. *)
Lemma signature_sum d e k r s : 0 < e < q -> 0 <= d -> 0 <= k -> s = (r * d + k * e) mod q -> let v := _invert e q in
  ec_add p a (times o ((s * v) mod q) G) (times o ((- r * v) mod q) (times o d G)) = times o (k mod q) G.
Proof.
  intros He Hd Hk Hs v. destruct (inverse_ne e He) as [HV HI]. fold v in HV, HI. unfold times.
  assert (B1 := Z.mod_pos_bound (s * v) q ltac:(lia)). assert (B2 := Z.mod_pos_bound (- r * v) q ltac:(lia)).
  assert (B3 : 0 <= (- r * v) mod q * d) by (apply Z.mul_nonneg_nonneg; [apply B2 | exact Hd]).
  assert (B4 : 0 <= (s * v) mod q + (- r * v) mod q * d) by (apply Z.add_nonneg_nonneg; [apply B1 | exact B3]).
  rewrite <- (ec_mul_mul p a b p_prime p_odd disc _ _ G (proj1 B2) Hd G_on), <- (ec_mul_add p a b p_prime p_odd disc _ _ G (proj1 B1) B3 G_on).
  rewrite (mul_mod_q p a b p_prime p_odd disc q q_prime G G_on G_order _ B4). f_equal.
  rewrite Zplus_mod, Zmult_mod_idemp_l. rewrite Hs, Zmult_mod_idemp_l, Z.mod_mod, <- Zplus_mod by lia.
  replace ((r * d + k * e) * v + - r * v * d) with (k * (e * v)) by lia. rewrite <- Zmult_mod_idemp_r, HI, Z.mul_1_r. reflexivity.
Qed.
End Usable.
