(** * Accepted signatures: the claims that fail, and their witnesses *)
From Coq Require Import ZArith Znumtheory Lia String.
From Verif Require Import PyBase PyFacts PyLoop Utils UtilsFacts Euclid Primes Fp SpecCurve SpecModes SpecSign SigCurves Sig SigLemmas SigArith SigProps SigSign SigFinal SigCons SigMore SigMore2 PropSig PropSig2.
Open Scope string_scope.
Open Scope list_scope.
Open Scope Z_scope.

Lemma pt_eq p (P Q : Pt p) : x_coord P = x_coord Q -> y_coord P = y_coord Q -> P = Q.
Proof.
  destruct P as [|x y], Q as [|x' y']; cbn [x_coord y_coord]; intros H1 H2; try discriminate; [reflexivity|].
  injection H1 as H1. injection H2 as H2. apply val_inj in H1, H2. now subst.
Qed.

(** The claim that a signature of a digest is accepted for one generated key only. *)
Definition one_key (o : sig_obj) : Prop := forall d d' pk pk' dg sg, len d = s_size o -> len d' = s_size o -> 1 <= number d < s_q o -> 1 <= number d' < s_q o ->
  eventually (fun n => public_key_generate o n (VBytes d)) (Returns pk) -> eventually (fun n => public_key_generate o n (VBytes d')) (Returns pk') ->
  eventually (fun n => verify o n (VBytes pk) (VBytes dg) (VBytes sg)) (Returns true) ->
  eventually (fun n => verify o n (VBytes pk') (VBytes dg) (VBytes sg)) (Returns true) -> pk = pk'.
(** The claim that [verify] accepts only what [sign] returns. *)
Definition only_signed (o : sig_obj) : Prop := forall d dg sg pk, bytes_ok d -> len d = s_size o -> 1 <= number d < s_q o -> len dg = s_size o ->
  eventually (fun n => public_key_generate o n (VBytes d)) (Returns pk) -> eventually (fun n => verify o n (VBytes pk) (VBytes dg) (VBytes sg)) (Returns true) ->
  exists n ur rk, bytes_ok rk /\ (forall i, bytes_ok (ur i)) /\ sign o n ur (VBytes d) (VBytes dg) (VBytes rk) = Returns sg.
(** The claim that two keys that accept one signature of one digest, and denote the same point, are the same octets. *)
Definition one_encoding (o : sig_obj) : Prop := forall X Y X' Y' dg sg, 0 <= X < 256 ^ s_size o -> 0 <= Y < 256 ^ s_size o -> 0 <= X' < 256 ^ s_size o -> 0 <= Y' < 256 ^ s_size o ->
  aff (s_p o) X Y = aff (s_p o) X' Y' ->
  eventually (fun n => verify o n (VBytes (encode (s_size o) X Y)) (VBytes dg) (VBytes sg)) (Returns true) ->
  eventually (fun n => verify o n (VBytes (encode (s_size o) X' Y')) (VBytes dg) (VBytes sg)) (Returns true) -> X = X' /\ Y = Y'.
(** The claim that [verify] ends for every object that the constructor makes. *)
Definition verify_always_ends : Prop := forall mode c o pk dg sg, sig_new mode c = Ok o -> ~ diverges (fun n => verify o n pk dg sg).

Section Claims.
Variable o : sig_obj.
Hypothesis U : usable o.
Notation p := (s_p o).
Notation q := (s_q o).
Notation a := (s_a o).
Notation b := (s_b o).
Notation G := (base o).
Notation size := (s_size o).
Let p_prime := g_p_prime _ _ _ _ _ _ _ U.
Let p_odd := g_p_odd _ _ _ _ _ _ _ U.
Let p_fits := g_p_fits _ _ _ _ _ _ _ U.
Let disc := g_disc _ _ _ _ _ _ _ U.
Let q_prime := g_q_prime _ _ _ _ _ _ _ U.
Let q_odd := g_q_odd _ _ _ _ _ _ _ U.
Let q_fits := g_q_fits _ _ _ _ _ _ _ U.
Let GM : member p a b q G := key_member p a b q G (G_key o U).

(** The generated key of a private key. *)
Lemma generated d : 1 <= d < q -> exists X Y, 0 <= X < p /\ 0 < Y < p /\ aff p X Y = ec_mul p a d G /\
  eventually (fun n => public_key_generate o n (VBytes (octets o d))) (Returns (encode size X Y)).
Proof.
  intros Hd. pose proof (size_ge o U) as HS.
  assert (ED : bytearray_to_int (octets o d) = d) by (unfold octets; apply to_int_of_int_small; lia).
  destruct (public_eventually o U (octets o d) (octets_len o d HS)) as (X & Y & RX & RY & EA & E); [now rewrite ED|].
  rewrite ED in EA. exists X, Y. unfold reduced in *. unfold times in EA. split; [exact RX|]. split; [|split; [exact EA | exact E]].
  assert (NY : Y mod p <> 0) by (apply (key_y_ne o U X Y); rewrite EA; apply (key_multiple o U); exact Hd).
  rewrite Z.mod_small in NY by exact RY. lia.
Qed.
Notation checks X Y dg r s := (fun n => verify o n (VBytes (encode size X Y)) (VBytes dg) (VBytes (encode size r s))).

(** The key of a private key is a key. *)
Lemma private_pair d X Y : 1 <= d < q -> aff p X Y = ec_mul p a d G -> 0 < X < p -> 0 < Y < p -> key_pair o X Y.
Proof. intros Hd EA HX HY. split; [exact HX|]. split; [exact HY|]. rewrite EA. apply (key_multiple o U); exact Hd. Qed.

Lemma chosen_digest X Y u w x y e r s : 0 < X < p -> 0 < Y < p -> gost_key p a b q (aff p X Y) ->
  ec_add p a (ec_mul p a (u mod q) G) (ec_mul p a (w mod q) (aff p X Y)) = aff p x y -> 0 <= x < p ->
  r = x mod q -> r <> 0 -> (e * w) mod q = (- r) mod q -> s = (u * e) mod q -> s <> 0 ->
  eventually (checks X Y (int_to_bytearray (e mod q) size) r s) (Returns true).
Proof.
  intros HX HY HK EC Hx Er Nr He Es Ns. pose proof (size_ge o U) as HS. assert (BE := Z.mod_pos_bound e q ltac:(lia)). assert (BS := Z.mod_pos_bound (u * e) q ltac:(lia)).
  apply (forged o U X Y u w (mk p x) (mk p y) e); try assumption.
  - split; [exact HX | split; [exact HY | exact HK]].
  - rewrite val_mk. now rewrite (Z.mod_small x p Hx).
  - rewrite Es in Ns |- *. clear - BS Ns. lia.
  - rewrite <- Zplus_mod_idemp_l, He, Zplus_mod_idemp_l. now rewrite Z.add_opp_diag_l, Z.mod_0_l by lia.
  - now apply octets_len.
  - rewrite number_eq. apply to_int_of_int_small; [clear - HS; lia|]. pose proof q_fits as QF. revert BE QF. generalize (e mod q). clear. intros. lia.
Qed.

Lemma accepted_signed ur d dg r s X Y : bytes_ok d -> len d = size -> 1 <= number d < q -> len dg = size ->
  aff p X Y = ec_mul p a (number d) G -> 0 < X < p -> 0 < Y < p -> 0 <= r < 256 ^ size -> 0 <= s < 256 ^ size ->
  eventually (checks X Y dg r s) (Returns true) ->
  (exists rk, bytes_ok rk /\ len rk = size /\ 0 < number rk < q /\ eventually (fun n => sign o n ur (VBytes d) (VBytes dg) (VBytes rk)) (Returns (encode size r s))) \/
  infinity_accepts p a q G (aff p X Y) (gost_e q (number dg)) r s.
Proof.
  intros Od Ld Hd Ldg EA HX HY Hr Hs HV. pose proof (size_ge o U) as HS.
  destruct (checks_iff o U X Y dg r s (private_pair _ _ _ Hd EA HX HY) Ldg Hr Hs) as (t & ET & HT).
  pose proof (eventually_unique _ _ _ HV ET) as F. injection F as <-. destruct (proj1 HT eq_refl) as [HA|HI]; [left | right; exact HI].
  destruct (accepted_is_signature p a b q p_prime p_odd disc q_prime q_odd G (aff p X Y) (number d) (gost_e q (number dg)) r s (G_key o U)) as (k & Hk & HG); [|exact HA|].
  - unfold zmul. rewrite Z.mod_small by lia. exact EA.
  - assert (EK : number (octets o k) = k) by (rewrite number_eq; unfold octets; apply to_int_of_int_small; lia).
    exists (octets o k). split; [apply int_to_bytearray_ok|]. split; [now apply octets_len|]. rewrite EK. split; [exact Hk|].
    apply C83_complete; try assumption.
    + apply int_to_bytearray_ok.
    + intros E. assert (L := octets_len o k HS). rewrite E in L. cbn in L. pose proof q_fits as QF. rewrite <- L in QF. cbn in QF. lia.
    + now rewrite EK.
    + now rewrite EK.
Qed.

Lemma infinity_eq d e r s X Y : aff p X Y = ec_mul p a d G -> 1 <= d < q -> infinity_accepts p a q G (aff p X Y) e r s -> (s - r * d) mod q = 0.
Proof.
  intros EA Hd (Hr & Hs & v & Hv & HI & _). rewrite EA in HI.
  assert (E : ec_mul p a d G = zmul p a q d G) by (unfold zmul; now rewrite Z.mod_small by lia).
  rewrite E in HI. change (ec_add p a (zmul p a q (s * v) G) (zmul p a q (- r * v) (zmul p a q d G)) = Inf) in HI.
  rewrite <- (zmul_mul p a b q p_prime p_odd disc q_prime q_odd _ _ _ GM), <- (zmul_add p a b q p_prime p_odd disc q_prime q_odd _ _ _ GM) in HI.
  apply (zmul_inf p a b q p_prime p_odd disc q_prime q_odd _ _ (G_key o U)) in HI.
  replace (s * v + - r * v * d) with ((s - r * d) * v) in HI by ring.
  apply Z.mod_divide in HI; [|lia]. apply prime_mult in HI; [|exact q_prime]. destruct HI as [HI|HI].
  - apply Z.mod_divide; [lia | exact HI].
  - exfalso. apply (Z.divide_mul_r _ e) in HI. apply Z.mod_divide in HI; [|lia]. lia.
Qed.

Lemma not_signed n ur d dg rk r s X Y : bytes_ok d -> bytes_ok rk -> (forall i, bytes_ok (ur i)) -> len d = size -> 1 <= number d < q -> len dg = size ->
  aff p X Y = ec_mul p a (number d) G -> infinity_accepts p a q G (aff p X Y) (gost_e q (number dg)) r s ->
  sign o n ur (VBytes d) (VBytes dg) (VBytes rk) <> Returns (encode size r s).
Proof.
  intros Od Ork Our Ld Hd Ldg EA HI E. pose proof (infinity_eq _ _ _ _ _ _ EA Hd HI) as HZ. pose proof HI as (Hr & Hs & _).
  destruct (C83_standard o n ur d dg rk _ U Od Ork Our Ld Ldg E) as (k & r' & s' & _ & Hk & EN & (x & _ & E1) & E2 & N1 & N2).
  assert (Q1 : 1 < q) by (pose proof q_odd; lia). assert (BE := gost_e_range q (number dg) Q1). assert (B1 := Z.mod_pos_bound x q ltac:(lia)). assert (B2 : 0 <= s' < q) by (rewrite E2; apply Z.mod_pos_bound; lia).
  destruct (encode_inj size r s r' s' (size_ge o U) ltac:(lia) ltac:(lia) ltac:(lia) ltac:(lia) EN) as [-> ->].
  set (e := gost_e q (number dg)) in *. clearbody e.
  assert (HK : (number k * e) mod q = 0).
  { rewrite E2, Zminus_mod_idemp_l in HZ. revert HZ. clear. intros HZ. rewrite <- HZ. f_equal. ring. }
  apply Z.mod_divide in HK; [|lia]. apply prime_mult in HK; [|exact q_prime]. destruct HK as [HK|HK]; apply Z.divide_pos_le in HK; lia.
Qed.

(** The key of the private key 1 is [G]. *)
Lemma key_one : s_x o <> 0 -> exists Y, key_pair o (s_x o) Y /\ aff p (s_x o) Y = G /\ eventually (fun n => public_key_generate o n (VBytes (octets o 1))) (Returns (encode size (s_x o) Y)).
Proof.
  intros NX. pose proof q_odd as QO. destruct (generated 1 ltac:(lia)) as (X & Y & HX & HY & EA & E). assert (EA' := EA). rewrite ec_mul_1 in EA'.
  assert (EX : X = s_x o).
  { unfold base in EA'. apply aff_inj in EA'. destruct EA' as [E1 _]. apply (mk_reduced p X (s_x o)); [exact HX | exact (g_x _ _ _ _ _ _ _ U) | exact E1]. }
  subst X. exists Y. split; [|split; [exact EA' | exact E]]. apply (private_pair 1); [lia | exact EA | lia | exact HY].
Qed.
Lemma number_octets v : 0 <= v < q -> number (octets o v) = v.
Proof. intros H. pose proof q_fits as QF. rewrite number_eq. unfold octets. apply to_int_of_int_small; [exact (size_ge o U) | lia]. Qed.
Lemma x_of_aff (P : Pt p) X Y x : 0 <= X < p -> aff p X Y = P -> x_coord P = Some x -> x = X.
Proof. intros HX <- E. rewrite (x_coord_aff o X Y HX) in E. now injection E. Qed.

Lemma one_key_refuted x2 x3 : s_x o <> 0 -> 3 < q -> x_coord (ec_mul p a 2 G) = Some x2 -> x2 mod q <> 0 -> x_coord (ec_mul p a 3 G) = Some x3 -> x3 <> 0 -> ~ one_key o.
Proof.
  intros NX Q3 E2 N2 E3 N3 H. pose proof q_odd as QO. pose proof q_fits as QF. pose proof p_fits as PF. pose proof (size_ge o U) as HS.
  pose proof (zmul_mod p a q) as ZM.
  assert (Zof : forall k, 0 <= k < q -> ec_mul p a k G = zmul p a q k G) by (intros k Hk; unfold zmul; now rewrite Z.mod_small by exact Hk).
  destruct (key_one NX) as (Y & KP & EA & EK). destruct (generated (q - 3) ltac:(lia)) as (X' & Y' & HX' & HY' & EA' & EK').
  assert (EX' : x3 = X').
  { apply (x_of_aff _ X' Y' x3 HX' EA'). rewrite (Zof (q - 3)) by lia. rewrite (ZM (q - 3) (- (3))).
    - rewrite (zmul_neg p a b q p_prime p_odd disc q_prime q_odd 3 G GM), <- Zof by lia. rewrite x_neg. exact E3.
    - replace (q - 3) with (- (3) + 1 * q) by ring. now rewrite Z.mod_add by lia. }
  set (r := x2 mod q) in *. assert (HR : 0 < r < q) by (assert (B := Z.mod_pos_bound x2 q ltac:(lia)); fold r in B; lia).
  assert (ED : number (octets o (q - r)) = q - r) by (apply number_octets; lia).
  assert (EE : gost_e q (number (octets o (q - r))) = q - r) by (rewrite ED, gost_e_ne; rewrite Z.mod_small by lia; lia).
  destruct (ec_mul p a 2 G) as [|x y] eqn:E2G; [discriminate E2|]. cbn [x_coord] in E2. injection E2 as E2.
  assert (HA : gost_accepts p a q G (aff p (s_x o) Y) (gost_e q (number (octets o (q - r)))) r (q - r)).
  { rewrite EE, EA. apply (forged_accepted p a b q q_prime q_odd G G 1 1 x y); try assumption; try lia.
    - rewrite <- (zmul_add p a b q p_prime p_odd disc q_prime q_odd _ _ _ GM). change (1 + 1) with 2. rewrite <- Zof by lia. exact E2G.
    - unfold r. now rewrite E2.
    - replace ((q - r) * 1 + r) with (1 * q) by ring. apply Z.mod_mul. lia.
    - rewrite Z.mul_1_l, Z.mod_small; lia. }
  destruct (inverse_ne o U r HR) as [HV HI]. set (w := _invert r q) in *.
  destruct (other_key o U (s_x o) Y X' Y' w (octets o (q - r)) r (q - r) KP ltac:(lia) HY' HI) as [HV2 NE]; [|now apply octets_len | exact HA|].
  - rewrite EA, EA', (Zof (q - 3)) by lia. change (ec_mul p a ((2 * (q - r) * w) mod q) G) with (zmul p a q (2 * (q - r) * w) G).
    rewrite <- (zmul_1 p a q q_odd G) at 2. rewrite <- (zmul_neg p a b q p_prime p_odd disc q_prime q_odd _ _ GM), <- (zmul_add p a b q p_prime p_odd disc q_prime q_odd _ _ _ GM).
    apply ZM.
    revert HI. generalize w. clear - Q3. intros w HI. pose proof (Z.div_mod (r * w) q ltac:(lia)) as DM. rewrite HI in DM.
    replace (- (1) + 2 * (q - r) * w) with (q - 3 + (2 * w - 2 * (r * w / q) - 1) * q); [now rewrite Z.mod_add by lia|].
    replace (2 * (q - r) * w) with (2 * (q * w) - 2 * (r * w)) by ring. rewrite DM at 2. ring.
  - apply NE. pose proof KP as (KX & KY & KK). destruct (checks_iff o U (s_x o) Y (octets o (q - r)) r (q - r) KP (octets_len o _ HS) ltac:(unfold fits; lia) ltac:(unfold fits; lia)) as (t & ET & HT).
    replace t with true in ET by (symmetry; apply HT; left; exact HA).
    pose proof (H (octets o 1) (octets o (q - 3)) _ _ _ _ (octets_len o _ HS) (octets_len o _ HS) ltac:(rewrite number_octets; lia) ltac:(rewrite number_octets; lia) EK EK' ET HV2) as EQ.
    clear - HX' HY' KX KY PF HS EQ.
    destruct (encode_inj size (s_x o) Y X' Y' HS ltac:(lia) ltac:(lia) ltac:(lia) ltac:(lia) EQ) as [-> ->]. reflexivity.
Qed.

Lemma only_signed_refuted : s_x o <> 0 -> ((- 2 * s_x o) mod p) mod q <> 0 -> ~ only_signed o.
Proof.
  intros NX NR H. pose proof q_odd as QO. pose proof q_fits as QF. pose proof (size_ge o U) as HS. pose proof (g_x _ _ _ _ _ _ _ U) as HX.
  destruct (key_one NX) as (Y & KP & EA & EK).
  set (r := ((- 2 * s_x o) mod p) mod q) in *. assert (HR : 0 < r < q) by (assert (HB := Z.mod_pos_bound ((- 2 * s_x o) mod p) q ltac:(lia)); fold r in HB; lia).
  assert (EE : gost_e q (number (octets o r)) = r) by (rewrite number_octets, gost_e_ne; rewrite ?Z.mod_small by lia; lia).
  assert (HI : infinity_accepts p a q G (aff p (s_x o) Y) (gost_e q (number (octets o r))) r r).
  { rewrite EE, EA. destruct (inverse_ne o U r HR) as [HV HI]. split; [exact HR|]. split; [exact HR|]. exists (_invert r q). split; [exact HI|]. split.
    - change (ec_add p a (zmul p a q (r * _invert r q) G) (zmul p a q (- r * _invert r q) G) = Inf).
      rewrite <- (zmul_add p a b q p_prime p_odd disc q_prime q_odd _ _ _ GM). replace (r * _invert r q + - r * _invert r q) with 0 by ring. apply zmul_0. exact QO.
    - exists (s_x o). rewrite HI, ec_mul_1, <- EA. split; [exact (x_coord_aff o (s_x o) Y HX) | reflexivity]. }
  destruct (checks_iff o U (s_x o) Y (octets o r) r r KP (octets_len o _ HS) ltac:(unfold fits; lia) ltac:(unfold fits; lia)) as (t & ET & HT).
  replace t with true in ET by (symmetry; apply HT; right; exact HI).
  destruct (H (octets o 1) (octets o r) _ _ (int_to_bytearray_ok _ _) (octets_len o _ HS) ltac:(rewrite number_octets; lia) (octets_len o _ HS) EK ET) as (n & ur & rk & Ork & Our & ES).
  revert ES. apply (not_signed n ur (octets o 1) (octets o r) rk r r (s_x o) Y); try assumption; try apply int_to_bytearray_ok; try (now apply octets_len).
  - rewrite number_octets; lia.
  - rewrite number_octets by lia. now rewrite ec_mul_1.
Qed.
End Claims.

(** ** One encoding *)

(** More fuel does not change the answer. *)
Lemma verify_more o pk dg sg n m t : 0 <= s_size o -> verify o n pk dg sg = Returns t -> (n <= m)%nat -> verify o m pk dg sg = Returns t.
Proof.
  intros HS E Hn. revert E. unfold verify.
  destruct (check_value pk _); [|auto]. destruct pk; [|auto..].
  destruct (check_value sg _); [|auto]. destruct sg; [|auto..]. destruct (check_value dg _); [|auto]. destruct dg; auto.
  destruct (negb _); [auto|]. destruct (_set_e _ _) as [e|]; [|auto]. cbn [liftO bindO].
  set (z1 := (_ * _) mod _). set (z2 := s_q o - _).
  destruct (_mul_point o n z1 (-1) (-1)) as [P| |] eqn:E1; [|discriminate|discriminate].
  assert (E0 : _mul_point o m z1 (-1) (-1) = Returns P) by exact (mul_loop_more o HS _ _ _ _ _ _ _ _ E1 Hn). rewrite E0. cbn [bindO].
  match goal with |- context [_mul_point o n z2 ?x ?y] => set (X := x); set (Y := y) end.
  destruct (_mul_point o n z2 X Y) as [Q| |] eqn:E2; [|discriminate|discriminate].
  assert (E3 : _mul_point o m z2 X Y = Returns Q) by exact (mul_loop_more o HS _ _ _ _ _ _ _ _ E2 Hn).
  rewrite E3. auto.
  all: auto.
Qed.

Definition paramSetB : sig_obj := sig_attrs MODE_256 curve_2012_256_paramSetB.
Definition paramB_r : Z := 64328938465175664124206102782604393251816658147578091133031991115507294244140.
Definition paramB_e : Z := 83627620004728363361467933617385711227165433834710197658862160247325421728253.
Lemma paramB_size : 0 <= s_size paramSetB.
Proof. discriminate. Qed.
Lemma paramB_answer : verify paramSetB 2 (VBytes (encode (s_size paramSetB) 1 (s_y paramSetB))) (VBytes (be_bytes 32 paramB_e)) (VBytes (encode (s_size paramSetB) paramB_r paramB_e)) = Returns true /\
  verify paramSetB 2 (VBytes (encode (s_size paramSetB) (s_p paramSetB + 1) (s_y paramSetB))) (VBytes (be_bytes 32 paramB_e)) (VBytes (encode (s_size paramSetB) paramB_r paramB_e)) = Returns true.
Proof. split; vm_compute; reflexivity. Qed.
Lemma one_encoding_refuted : ~ one_encoding paramSetB.
Proof.
  intros H. destruct paramB_answer as [A1 A2].
  assert (F : 1 = s_p paramSetB + 1 /\ s_y paramSetB = s_y paramSetB).
  { apply (H 1 (s_y paramSetB) (s_p paramSetB + 1) (s_y paramSetB) (be_bytes 32 paramB_e) (encode (s_size paramSetB) paramB_r paramB_e)).
    - vm_compute. split; [discriminate | reflexivity].
    - vm_compute. split; [discriminate | reflexivity].
    - vm_compute. split; [discriminate | reflexivity].
    - vm_compute. split; [discriminate | reflexivity].
    - unfold aff. f_equal. rewrite <- (mk_mod (s_p paramSetB) (s_p paramSetB + 1)). f_equal.
    - exists 2%nat. intros n Hn. exact (verify_more paramSetB _ _ _ 2 n true paramB_size A1 Hn).
    - exists 2%nat. intros n Hn. exact (verify_more paramSetB _ _ _ 2 n true paramB_size A2 Hn). }
  destruct F as [F _]. vm_compute in F. discriminate F.
Qed.

(** ** Parameters for which [verify] does not end *)

Definition even_curve : curve := {| c_p := Some (2 ^ 255 + 1); c_a := Some 1; c_b := Some 0; c_e := None; c_d := None; c_m := Some (2 ^ 255); c_q := Some (2 ^ 255 + 2); c_x := Some 0; c_y := Some 0; c_u := None; c_v := None |}.
Definition even_obj : sig_obj := sig_attrs MODE_256 even_curve.
Lemma even_new : sig_new MODE_256 even_curve = Ok even_obj.
Proof.
  apply (C88_weierstrass MODE_256 even_curve (or_introl eq_refl)); [intros (H & _); vm_compute in H; discriminate H|].
  split; [vm_compute; discriminate|]. split; [vm_compute; discriminate|]. split; [vm_compute; reflexivity|]. left. split; [reflexivity|]. vm_compute. split; discriminate.
Qed.
(** The digest is [2^254 + 2], with the inverse 2, and the signature [(1, 2^254 + 1)]: the multiple is 0. *)
Lemma even_diverges : diverges (fun n => verify even_obj n (VBytes (encode 32 1 1)) (VBytes (be_bytes 32 (2 ^ 254 + 2))) (VBytes (encode 32 1 (2 ^ 254 + 1)))).
Proof.
  intros n. unfold verify.
  set (x := bytearray_to_int (py_upto (encode 32 1 1) _)). set (y := bytearray_to_int (py_from (encode 32 1 1) _)).
  assert (E1 : check_value (VBytes (encode 32 1 1)) (s_size even_obj * 2) = true) by (vm_compute; reflexivity).
  assert (E2 : check_value (VBytes (encode 32 1 (2 ^ 254 + 1))) (s_size even_obj * 2) = true) by (vm_compute; reflexivity).
  assert (E3 : check_value (VBytes (be_bytes 32 (2 ^ 254 + 2))) (s_size even_obj) = true) by (vm_compute; reflexivity).
  rewrite E1, E2, E3.
  assert (E4 : bytearray_to_int (py_upto (encode 32 1 (2 ^ 254 + 1)) (s_size even_obj)) = 1) by (vm_compute; reflexivity).
  assert (E5 : bytearray_to_int (py_from (encode 32 1 (2 ^ 254 + 1)) (s_size even_obj)) = 2 ^ 254 + 1) by (vm_compute; reflexivity).
  rewrite E4, E5.
  assert (E6 : _verify_step_1 even_obj 1 (2 ^ 254 + 1) = true) by (vm_compute; reflexivity).
  assert (E7 : _set_e even_obj (be_bytes 32 (2 ^ 254 + 2)) = Ok (2 ^ 254 + 2)) by (vm_compute; reflexivity).
  rewrite E6, E7. cbn [negb liftO bindO].
  assert (E8 : ((2 ^ 254 + 1) * _invert (2 ^ 254 + 2) (s_q even_obj)) mod s_q even_obj = 0) by (vm_compute; reflexivity).
  rewrite E8. rewrite mul_point_diverges by (discriminate || lia). reflexivity.
Qed.
Lemma verify_ends_refuted : ~ verify_always_ends.
Proof. intros H. exact (H _ _ _ _ _ _ even_new even_diverges). Qed.
