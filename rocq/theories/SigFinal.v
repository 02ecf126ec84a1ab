(** * The signature object: keys, signatures and digests as octet strings *)
From Coq Require Import ZArith Znumtheory Lia String.
From Verif Require Import PyBase PyFacts PyLoop Utils UtilsFacts CipherObjFacts Euclid Fp SpecCurve CurveGroup SpecModes SpecSign SigCurves Sig SigLemmas SigArith SigProps SigSign.
Open Scope Z_scope.

Lemma number_eq l : number l = bytearray_to_int l.
Proof. apply be_value_eq. Qed.
Lemma be_octets o v : 0 <= s_size o -> be_bytes (Z.to_nat (s_size o)) v = octets o v.
Proof. intros H. rewrite be_bytes_eq, Z2Nat.id by exact H. reflexivity. Qed.
Lemma encode_eq o x y : 0 <= s_size o -> encode (s_size o) x y = octets o x ++ octets o y.
Proof. intros H. unfold encode. now rewrite !be_octets by exact H. Qed.
Lemma encode_ok size x y : bytes_ok (encode size x y).
Proof. unfold encode. rewrite !be_bytes_eq. apply Forall_app. split; apply int_to_bytearray_ok. Qed.
Lemma encode_len size x y : 0 <= size -> len (encode size x y) = size * 2.
Proof. intros H. unfold encode. rewrite !be_bytes_eq, len_app, !int_to_bytearray_len, Z2Nat.id; lia. Qed.
Lemma encode_x o x y : 0 <= s_size o -> fits o x -> pk_x o (encode (s_size o) x y) = x.
Proof. intros H HX. rewrite encode_eq by exact H. now apply pair_x. Qed.
Lemma encode_y o x y : 0 <= s_size o -> fits o y -> pk_y o (encode (s_size o) x y) = y.
Proof. intros H HX. rewrite encode_eq by exact H. now apply pair_y. Qed.
(** Every string of the right length is the encoding of one pair. *)
Lemma encode_all size l : 0 <= size -> bytes_ok l -> len l = size * 2 -> exists x y, 0 <= x < 256 ^ size /\ 0 <= y < 256 ^ size /\ l = encode size x y.
Proof.
  intros HS HO HL. set (h := firstn (Z.to_nat size) l). set (t := skipn (Z.to_nat size) l). assert (EL : l = h ++ t) by (symmetry; apply firstn_skipn).
  assert (LH : len h = size) by (unfold h, len in *; rewrite firstn_length; lia). assert (LT : len t = size) by (unfold t, len in *; rewrite skipn_length; lia).
  rewrite EL in HO. apply Forall_app in HO. destruct HO as [OH OT]. exists (bytearray_to_int h), (bytearray_to_int t).
  pose proof (bytearray_to_int_bound h OH) as BH. pose proof (bytearray_to_int_bound t OT) as BT. rewrite LH in BH. rewrite LT in BT. split; [exact BH|]. split; [exact BT|].
  unfold encode. rewrite !be_bytes_eq, !Z2Nat.id by exact HS. rewrite EL at 1. rewrite <- LH at 1. rewrite of_int_to_int by exact OH. rewrite <- LT. now rewrite of_int_to_int by exact OT.
Qed.
Lemma encode_inj size x y x' y' : 0 <= size -> 0 <= x < 256 ^ size -> 0 <= y < 256 ^ size -> 0 <= x' < 256 ^ size -> 0 <= y' < 256 ^ size ->
  encode size x y = encode size x' y' -> x = x' /\ y = y'.
Proof.
  intros HS Hx Hy Hx' Hy' E. unfold encode in E. rewrite !be_bytes_eq, !Z2Nat.id in E by exact HS.
  assert (EL : length (int_to_bytearray x size) = length (int_to_bytearray x' size)).
  { pose proof (int_to_bytearray_len x size) as H1. pose proof (int_to_bytearray_len x' size) as H2. unfold len in *. lia. }
  pose proof (f_equal (firstn (length (int_to_bytearray x size))) E) as E1. pose proof (f_equal (skipn (length (int_to_bytearray x size))) E) as E2.
  rewrite EL in E1 at 2. rewrite EL in E2 at 2. rewrite !firstn_app, !firstn_all, !Nat.sub_diag, !firstn_O, !app_nil_r in E1. rewrite !skipn_app, !skipn_all, !Nat.sub_diag, !skipn_O in E2. cbn [app] in E2.
  apply (f_equal bytearray_to_int) in E1. apply (f_equal bytearray_to_int) in E2. rewrite !to_int_of_int_small in E1, E2 by assumption. split; assumption.
Qed.

Section Final.
Variable o : sig_obj.
Hypothesis U : usable o.
Notation p := (s_p o).
Notation q := (s_q o).
Notation a := (s_a o).
Notation b := (s_b o).
Notation G := (base o).
Notation size := (s_size o).

Let p_prime := g_p_prime _ _ _ _ _ _ _ U.
Let p_odd := g_p_odd _ _ _ _ _ _ _ U.
Let p_fits := g_p_fits _ _ _ _ _ _ _ U.
Let disc := g_disc _ _ _ _ _ _ _ U.
Let q_prime := g_q_prime _ _ _ _ _ _ _ U.
Let q_odd := g_q_odd _ _ _ _ _ _ _ U.
Let q_fits := g_q_fits _ _ _ _ _ _ _ U.
Let G_on := g_on _ _ _ _ _ _ _ U.
Let G_order := g_order _ _ _ _ _ _ _ U.

(** Points of the subgroup have no zero second coordinate. *)
Lemma key_y_ne X Y : gost_key p a b q (aff p X Y) -> Y mod p <> 0.
Proof.
  intros K E. apply (key_double o U (aff p X Y) 1 K ltac:(lia)). rewrite ec_mul_1.
  assert (EN : aff p X Y = ec_neg p (aff p X Y)).
  { unfold aff, ec_neg. cbn [pneg]. apply f_equal2; [reflexivity|]. rewrite <- mk_opp. apply mk_eq. rewrite E. symmetry. apply Z_mod_zero_opp_full. exact E. }
  rewrite EN at 1. apply ec_neg_sum.
Qed.
Lemma key_multiple d : 1 <= d < q -> gost_key p a b q (times o d G).
Proof.
  intros Hd. unfold times. split; [apply (key_mul_ne o U); [apply (G_key o U) | exact Hd]|]. split; [apply (ec_mul_on p a b p_prime p_odd); exact G_on|].
  rewrite <- (ec_mul_mul p a b p_prime p_odd disc) by (lia || exact G_on). rewrite Z.mul_comm, (ec_mul_mul p a b p_prime p_odd disc) by (lia || exact G_on).
  assert (GO : ec_mul p a q G = Inf) by exact G_order. rewrite GO. unfold ec_mul. induction (Z.to_nat d) as [|n IH]; [reflexivity|]. cbn [pmul]. rewrite IH. reflexivity.
Qed.

(** ** Public keys *)
Lemma public_is n d : len d = size -> 1 <= bytearray_to_int d < q -> (iters o <= n)%nat ->
  exists x y, reduced p x /\ reduced p y /\ aff p x y = times o (bytearray_to_int d) G /\ public_key_generate o n (VBytes d) = Returns (encode size x y).
Proof.
  intros HL Hd Hn. destruct (mul_point_base o U (bytearray_to_int d) (-1) (-1) ltac:(lia) Hd) as (x & y & E & EA & R1 & R2).
  exists x, y. split; [exact R1|]. split; [exact R2|]. split; [exact EA|]. unfold public_key_generate, check_value. rewrite HL, Z.eqb_refl. rewrite E by exact Hn. cbn [bindO fst snd].
  now rewrite encode_eq by apply (size_ge o U).
Qed.
Lemma public_eventually d : len d = size -> 1 <= bytearray_to_int d < q ->
  exists x y, reduced p x /\ reduced p y /\ aff p x y = times o (bytearray_to_int d) G /\ eventually (fun n => public_key_generate o n (VBytes d)) (Returns (encode size x y)).
Proof.
  intros HL Hd. destruct (public_is (iters o) d HL Hd (Nat.le_refl _)) as (x & y & R1 & R2 & EA & E). exists x, y. split; [exact R1|]. split; [exact R2|]. split; [exact EA|].
  exists (iters o). intros n Hn. destruct (public_is n d HL Hd Hn) as (x' & y' & R1' & R2' & EA' & E'). rewrite E'.
  rewrite <- EA' in EA. apply aff_inj in EA. destruct EA as [E1 E2]. rewrite (mk_reduced p x x'), (mk_reduced p y y') by assumption. reflexivity.
Qed.

(** ** Verification *)

(** The value of [verify] from the second multiple. *)
Lemma reduced_fits x : reduced p x -> fits o x.
Proof. intros [H1 H2]. split; [exact H1 | exact (Z.lt_le_trans _ _ _ H2 p_fits)]. Qed.
Definition final_is (Q : Pt p) (e r s : Z) (x : Z) : Prop :=
  final_x o (times o ((s * _invert e q) mod q) G) (times o ((- r * _invert e q) mod q) Q) = Some x.
(** [x3 mod q = r] says that the signature is accepted. *)
Lemma final_iff Q e r s x : 0 < e < q -> 0 < r < q -> 0 < s < q -> final_is Q e r s x ->
  (x mod q = r <-> gost_accepts p a q G Q e r s \/ infinity_accepts p a q G Q e r s).
Proof.
  intros He Hr Hs HF. unfold final_is, final_x in HF. destruct (inverse_ne o U e He) as [HV HI]. set (v := _invert e q) in *.
  assert (UV : forall v', (e * v') mod q = 1 -> (s * v') mod q = (s * v) mod q /\ (- r * v') mod q = (- r * v) mod q).
  { intros v' Hv. assert (EV : v' mod q = v mod q).
    { transitivity ((v * (e * v')) mod q); [|rewrite <- Zmult_mod_idemp_r, Hv, Z.mul_1_r; reflexivity].
      replace (v * (e * v')) with (v' * (e * v)) by lia. rewrite <- Zmult_mod_idemp_r, HI, Z.mul_1_r. reflexivity. }
    rewrite <- (Zmult_mod_idemp_r v' s), <- (Zmult_mod_idemp_r v' (- r)), EV, !Zmult_mod_idemp_r. split; reflexivity. }
  fold (times o ((s * v) mod q) G) in HF. destruct (ec_add p a (times o ((s * v) mod q) G) (times o ((- r * v) mod q) Q)) as [|xs ys] eqn:ES.
  - destruct (times o ((s * v) mod q) G) as [|x1 y1] eqn:E1; [discriminate HF|]. injection HF as <-. split.
    + intros EX. right. split; [exact Hr|]. split; [exact Hs|]. exists v. split; [exact HI|]. unfold times in *. rewrite E1. split; [exact ES|]. exists (val p x1). split; [reflexivity | exact EX].
    + intros [(_ & _ & v' & Hv & x & HX & _)|(_ & _ & v' & Hv & _ & x & HX & EX)]; destruct (UV v' Hv) as [U1 U2]; unfold times in *.
      * rewrite U1, U2, E1, ES in HX. discriminate HX.
      * rewrite U1, E1 in HX. cbn [x_coord] in HX. injection HX as HX. rewrite HX. exact EX.
  - injection HF as <-. split.
    + intros EX. left. split; [exact Hr|]. split; [exact Hs|]. exists v. split; [exact HI|]. exists (val p xs). unfold times in *. rewrite ES. split; [reflexivity | exact EX].
    + intros [(_ & _ & v' & Hv & x & HX & EX)|(_ & _ & v' & Hv & EI & _)]; destruct (UV v' Hv) as [U1 U2]; unfold times in *.
      * rewrite U1, U2, ES in HX. cbn [x_coord] in HX. injection HX as HX. rewrite HX. exact EX.
      * rewrite U1, U2, ES in EI. discriminate EI.
Qed.

Lemma verify_range n pk dg sg : len pk = size * 2 -> len dg = size -> len sg = size * 2 -> ~ (0 < pk_x o sg < q /\ 0 < pk_y o sg < q) ->
  verify o n (VBytes pk) (VBytes dg) (VBytes sg) = Returns false.
Proof.
  intros Hp Hd Hs HR. unfold verify, check_value. rewrite Hp, Hd, Hs, !Z.eqb_refl. cbn [negb]. fold (pk_x o sg) (pk_y o sg). unfold _verify_step_1.
  replace ((pk_x o sg <=? 0) || (pk_x o sg >=? q) || (pk_y o sg <=? 0) || (pk_y o sg >=? q)) with true by lia. reflexivity.
Qed.

Lemma verify_points pk dg sg Q : bytes_ok pk -> len pk = size * 2 -> len dg = size -> len sg = size * 2 -> 0 < pk_x o sg < q -> 0 < pk_y o sg < q ->
  gost_key p a b q Q -> ((pk_x o pk = 0 \/ pk_y o pk = 0) /\ Q = G) \/ (0 < pk_x o pk /\ 0 < pk_y o pk /\ Q = aff p (pk_x o pk) (pk_y o pk) /\ ((pk_x o pk < p /\ pk_y o pk < p) \/ (pk_x o sg + gost_e q (bytearray_to_int dg)) mod q <> 0)) ->
  exists x3, final_is Q (gost_e q (bytearray_to_int dg)) (pk_x o sg) (pk_y o sg) x3 /\ forall n, (iters o <= n)%nat -> verify o n (VBytes pk) (VBytes dg) (VBytes sg) = Returns (x3 mod q =? pk_x o sg).
Proof.
  intros Ho Hp Hd Hs Hr Hss HK [[HZ ->]|(HX & HY & -> & HC)]; [|exact (verify_key o U pk dg sg Ho Hp Hd Hs Hr Hss HX HY HK HC)].
  set (e := gost_e q (bytearray_to_int dg)). set (v := _invert e q).
  assert (He : 0 < e < q) by (apply gost_e_range; lia). destruct (inverse_ne o U e He) as [HV HI]. fold v in HV, HI.
  assert (Z1 : 0 < (pk_y o sg * v) mod q < q) by (apply (product_ne o U); assumption).
  assert (Z2 : 0 < (- pk_x o sg * v) mod q < q) by (rewrite Z.mul_opp_l; rewrite <- (minus_mod o U) by (apply (product_ne o U); assumption); pose proof (product_ne o U _ _ Hr HV); lia).
  destruct (mul_point_base o U ((pk_y o sg * v) mod q) (-1) (-1) ltac:(lia) ltac:(lia)) as (x1 & y1 & E1 & EA1 & R1 & R2).
  destruct (mul_point_base o U ((- pk_x o sg * v) mod q) (pk_x o pk) (pk_y o pk) ltac:(lia) ltac:(lia)) as (x2 & y2 & E2 & EA2 & R3 & R4).
  assert (RR : aff p x1 y1 = aff p x2 y2 -> x1 = x2 /\ y1 = y2) by (intros EE; apply aff_inj in EE; destruct EE; split; apply (mk_reduced p); assumption).
  destruct (final_add o U x1 y1 x2 y2 (reduced_fits _ R1) (reduced_fits _ R2) (reduced_fits _ R3) (reduced_fits _ R4) RR) as (x3 & y3 & E3 & EF).
  - rewrite EA1. apply (ec_mul_on p a b p_prime p_odd). exact G_on.
  - rewrite EA2. apply (ec_mul_on p a b p_prime p_odd). exact G_on.
  - rewrite EA1. apply (key_double o U); [exact HK | lia].
  - exists x3. split; [unfold final_is; fold v; rewrite <- EF, EA1, EA2; reflexivity|]. intros n Hn.
    rewrite (verify_start o U) by assumption. fold e v. rewrite E1 by exact Hn. cbn [bindO]. rewrite E2 by exact Hn. cbn [bindO fst snd]. rewrite E3. cbn [liftO bindO fst]. now apply (compare_octets o U).
Qed.

(** The point that [verify] uses for the public key [(X, Y)]. *)
Definition used_point (X Y : Z) : Pt p := if (X =? 0) || (Y =? 0) then G else aff p X Y.
(** The exact answer for keys of the subgroup. *)
Lemma verify_exact X Y dg r s : fits o X -> fits o Y -> len dg = size -> fits o r -> fits o s -> let Q := used_point X Y in let e := gost_e q (number dg) in
  gost_key p a b q Q -> (X < p /\ Y < p) \/ (r + e) mod q <> 0 ->
  exists t, (forall n, (iters o <= n)%nat -> verify o n (VBytes (encode size X Y)) (VBytes dg) (VBytes (encode size r s)) = Returns t) /\
  (t = true <-> gost_accepts p a q G Q e r s \/ infinity_accepts p a q G Q e r s).
Proof.
  intros FX FY Hd Fr Fs Q e HK HC. pose proof (size_ge o U) as HS. unfold e in *. rewrite number_eq in *. clear e.
  assert (EX : pk_x o (encode size X Y) = X) by now apply encode_x. assert (EY : pk_y o (encode size X Y) = Y) by now apply encode_y.
  assert (ER : pk_x o (encode size r s) = r) by now apply encode_x. assert (ES : pk_y o (encode size r s) = s) by now apply encode_y.
  assert (LK := encode_len size X Y HS). assert (LS := encode_len size r s HS).
  assert (DR : (0 < r < q /\ 0 < s < q) \/ ~ (0 < r < q /\ 0 < s < q)) by lia. destruct DR as [[Hr Hs]|NR].
  - destruct (verify_points (encode size X Y) dg (encode size r s) Q (encode_ok _ _ _) LK Hd LS) as (x3 & HF & HE); rewrite ?EX, ?EY, ?ER, ?ES; try assumption.
    + unfold Q, used_point. unfold fits in *. destruct (Z.eqb_spec X 0); [left; split; [left; assumption | reflexivity]|]. destruct (Z.eqb_spec Y 0); [left; split; [right; assumption | reflexivity]|].
      right. split; [lia|]. split; [lia|]. split; [reflexivity | exact HC].
    + rewrite ER, ES in HF. rewrite ER in HE. exists (x3 mod q =? r). split; [exact HE|]. rewrite Z.eqb_eq. apply final_iff; [apply gost_e_range; lia | exact Hr | exact Hs | exact HF].
  - exists false. split; [intros n _; apply verify_range; [exact LK | exact Hd | exact LS | rewrite ER, ES; exact NR]|].
    split; [discriminate|]. intros [(H1 & H2 & _)|(H1 & H2 & _)]; exfalso; apply NR; split; assumption.
Qed.

(** ** Signatures *)
Lemma signature_is n pk dg rk sg : bytes_ok pk -> bytes_ok rk -> sign_with o n pk dg rk = Returns sg ->
  let d := number pk in let k := number rk in let e := gost_e q (number dg) in
  0 < k < q /\ exists r s, 0 < r < q /\ 0 < s < q /\ sg = encode size r s /\ gost_signature p a q G d e k r s.
Proof.
  intros HP HO E. rewrite !number_eq. destruct (sign_with_returns o n pk dg rk sg (usable_shaped o U) HO E) as (HK & x & y & Hxy & N1 & N2 & ->).
  cbv zeta. split; [exact HK|]. exists (sig_r o x), (sig_s o x (bytearray_to_int pk) (bytearray_to_int rk) (gost_e q (bytearray_to_int dg))).
  assert (B1 : 0 <= sig_r o x < q) by (apply Z.mod_pos_bound; lia). assert (B2 : 0 <= sig_s o x (bytearray_to_int pk) (bytearray_to_int rk) (gost_e q (bytearray_to_int dg)) < q) by (apply Z.mod_pos_bound; lia).
  split; [lia|]. split; [lia|]. split; [symmetry; apply encode_eq; apply (size_ge o U)|]. split; [|split; [reflexivity | split; assumption]].
  exists x. split; [|reflexivity]. destruct (sign_multiple o U (bytearray_to_int rk) ltac:(lia)) as (x' & y' & E' & EX).
  specialize (Hxy (iters o) (Nat.le_refl _)). rewrite E' in Hxy by lia. injection Hxy as <- _. exact EX.
Qed.
(** The standard accepts its signatures. *)
Lemma signature_accepted d e k r s : 0 < e < q -> 0 <= d -> 0 < k < q -> gost_signature p a q G d e k r s -> gost_accepts p a q G (times o d G) e r s.
Proof.
  intros He Hd Hk ((x & EX & Hr) & Hs & Nr & Ns). apply (accepts_iff o U); [exact He|].
  assert (B1 := Z.mod_pos_bound x q ltac:(lia)). assert (B2 := Z.mod_pos_bound (r * d + k * e) q ltac:(lia)).
  split; [lia|]. split; [lia|]. exists x. split; [|symmetry; exact Hr]. rewrite (signature_sum o U d e k r s) by (assumption || lia). rewrite Z.mod_small by lia. exact EX.
Qed.
End Final.
