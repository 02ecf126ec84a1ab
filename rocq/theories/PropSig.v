(** * Properties of the signature: C79 - C88, C90 - C95

    [eventually f r]: the call returns [r] (or raises it); [diverges f]: it does not end.  [usable o]: the
    parameters of the object satisfy the standard ([gost_domain]). *)
From Coq Require Import ZArith Znumtheory Lia String.
From Verif Require Import PyBase PyFacts PyLoop Utils UtilsFacts Euclid Primes Fp SpecCurve SpecModes SpecSign SigCurves Sig SigLemmas SigArith SigProps SigSign SigFinal SigCons.
Open Scope string_scope.
Open Scope list_scope.
Open Scope Z_scope.

(** A small curve for the examples: y^2 = x^3 + 2 x + 2 over 17 elements has 19 points. *)
Definition toy : sig_obj := {| s_size := 1; s_oid := ""; s_p := 17; s_a := 2; s_b := 2; s_e := 0; s_d := 0; s_m := 19; s_q := 19; s_x := 5; s_y := 1; s_u := 0; s_v := 0 |}.
Lemma prime_17 : prime 17.
Proof. apply (prime_small 10); [lia | vm_compute; reflexivity]. Qed.
Lemma prime_19 : prime 19.
Proof. apply (prime_small 10); [lia | vm_compute; reflexivity]. Qed.
Example toy_usable : usable toy.
Proof.
  constructor; try (vm_compute; reflexivity).
  - exact prime_17.
  - vm_compute. discriminate.
  - intros E. apply (f_equal (val 17)) in E. vm_compute in E. discriminate E.
  - exact prime_19.
  - vm_compute. discriminate.
  - vm_compute. split; [discriminate | reflexivity].
  - vm_compute. split; [discriminate | reflexivity].
  - apply val_inj. vm_compute. reflexivity.
Qed.

(** C79. *)
Theorem C79_inverse : forall n v, prime n -> 0 <= _invert v n < n /\ (~ (n | v) -> (v * _invert v n) mod n = 1) /\ ((n | v) -> _invert v n = 0).
Proof.
  intros n v HP. pose proof (prime_ge_2 n HP). split; [now apply invert_range|]. split; intros H0.
  - apply invert_inverse; [exact HP|]. intros E. apply H0. apply Z.mod_divide; [lia | exact E].
  - apply invert_zero; [lia|]. apply Z.mod_divide; [lia | exact H0].
Qed.
Print Assumptions C79_inverse.
Example C79_example : prime 17 /\ _invert (-3) 17 = 11 /\ _invert 34 17 = 0.
Proof. split; [exact prime_17 | split; vm_compute; reflexivity]. Qed.

(** C80: [gcdex n] makes at most [n] nested calls. *)
Theorem C80_depth : forall v n, gcdex (Z.to_nat (2 * Z.log2 (Z.abs n) + 3)) v n <> None.
Proof. intros v n. rewrite gcdex_eq. apply egcd_total. pose proof (Z.log2_nonneg (Z.abs n)). lia. Qed.
Print Assumptions C80_depth.
Theorem C80_depth_512 : forall v n, 0 < n < 2 ^ 512 -> gcdex 740 v n <> None.
Proof.
  intros v n Hn E. rewrite gcdex_eq in E. apply (lame_first 738 v n) in E; [|lia]. apply (Z.lt_irrefl n). apply (Z.lt_le_trans _ (2 ^ 512)); [lia|]. refine (Z.le_trans _ _ _ _ E). apply Z.leb_le. vm_compute. reflexivity.
Qed.
Print Assumptions C80_depth_512.
Example C80_example : gcdex 10 34 55 <> None /\ gcdex 9 34 55 = None.
Proof. split; vm_compute; [discriminate | reflexivity]. Qed.

(** C81. *)
Theorem C81_add : forall o b x1 y1 x2 y2, let p := s_p o in prime p -> 2 < p <= 256 ^ s_size o -> 0 <= s_size o ->
  0 <= x1 < p -> 0 <= y1 < p -> 0 <= x2 < p -> 0 <= y2 < p -> ec_on p (s_a o) b (aff p x1 y1) -> ec_on p (s_a o) b (aff p x2 y2) -> aff p x1 y1 <> ec_neg p (aff p x2 y2) ->
  exists x3 y3, _add o x1 x2 y1 y2 = Ok (x3, y3) /\ 0 <= x3 < p /\ 0 <= y3 < p /\ aff p x3 y3 = ec_add p (s_a o) (aff p x1 y1) (aff p x2 y2) /\ ec_on p (s_a o) b (aff p x3 y3).
Proof.
  intros o b x1 y1 x2 y2 p HP HB HS H1 H2 H3 H4 O1 O2 N. assert (RF : forall x, 0 <= x < p -> fits o x) by (unfold fits, p; lia).
  destruct (add_is o b x1 y1 x2 y2 HP ltac:(apply HB) HS (RF _ H1) (RF _ H2) (RF _ H3) (RF _ H4)) as (x3 & y3 & E & R1 & R2 & EA); try assumption.
  - intros EE. apply aff_inj in EE. destruct EE. split; apply (mk_reduced p); assumption.
  - exists x3, y3. split; [exact E|]. split; [exact R1|]. split; [exact R2|]. split; [exact EA|]. fold p in EA. rewrite EA. apply (ec_add_on p (s_a o) b HP ltac:(lia)); assumption.
Qed.
Print Assumptions C81_add.
(** The sum of opposite points is not a point; the result then is [(-2 x, -y)]. *)
Theorem C81_opposite : forall o x y y', 0 < s_p o <= 256 ^ s_size o -> 0 <= s_size o -> 0 <= y < s_p o -> 0 <= y' < s_p o -> y <> y' ->
  _add o x x y y' = Ok ((- 2 * x) mod s_p o, (- y) mod s_p o).
Proof. intros o x y y' HP HS H1 H2 N. apply add_opposite; unfold fits; (lia || reflexivity || exact N). Qed.
Print Assumptions C81_opposite.
Theorem C81_group : forall p a b, prime p -> 2 < p -> ec_disc p a b <> mk p 0 -> let on := ec_on p a b in let add := ec_add p a in
  (forall P Q, on P -> on Q -> on (add P Q)) /\ (forall P Q R, on P -> on Q -> on R -> add (add P Q) R = add P (add Q R)) /\ (forall P Q, on P -> on Q -> add P Q = add Q P) /\
  on Inf /\ (forall P, add Inf P = P) /\ (forall P, on P -> on (ec_neg p P) /\ add (ec_neg p P) P = Inf).
Proof.
  intros p a b HP PO HD on add. split; [exact (ec_add_on p a b HP PO)|]. split; [exact (ec_assoc p a b HP PO HD)|]. split; [exact (ec_comm p a b HP PO)|].
  split; [exact I|]. split; [intros P; reflexivity|]. intros P HO. split; [|apply ec_neg_sum].
  destruct P as [|x y]; [exact I|]. unfold on, ec_on, ec_neg in *. cbn [on_curve pneg] in *. rewrite <- HO. apply val_inj. unfold fp_mul, fp_opp. rewrite !val_mk.
  rewrite Zmult_mod_idemp_l, Zmult_mod_idemp_r. f_equal. lia.
Qed.
Print Assumptions C81_group.
Example C81_example : _add toy 5 5 1 1 = Ok (6, 3) /\ _add toy 5 6 1 3 = Ok (10, 6) /\ aff 17 5 1 <> ec_neg 17 (aff 17 6 3).
Proof. split; [vm_compute; reflexivity|]. split; [vm_compute; reflexivity|]. intros E. apply (f_equal x_coord) in E. vm_compute in E. discriminate E. Qed.

(** C82: for a point of the subgroup with coordinates that are not 0, and for the base point. *)
Theorem C82_mul : forall o X Y k, usable o -> 0 < X < s_p o -> 0 < Y < s_p o -> gost_key (s_p o) (s_a o) (s_b o) (s_q o) (aff (s_p o) X Y) -> 1 <= k < s_q o ->
  exists x y, eventually (fun n => _mul_point o n k X Y) (Returns (x, y)) /\ 0 <= x < s_p o /\ 0 <= y < s_p o /\ aff (s_p o) x y = ec_mul (s_p o) (s_a o) k (aff (s_p o) X Y).
Proof.
  intros o X Y k U HX HY HK Hk. pose proof (g_p_fits _ _ _ _ _ _ _ U) as PF. destruct (mul_point_key o U X Y k ltac:(lia) ltac:(lia) HK Hk) as (x & y & E & EA & H1 & H2). exists x, y.
  split; [exists (iters o); exact E|]. destruct (Z.eq_dec k 1) as [E1|N1]; [destruct (H1 E1); subst x y | destruct (H2 N1) as [R1 R2]; unfold reduced in *]; (split; [lia|]; split; [lia|]; exact EA).
Qed.
Print Assumptions C82_mul.
Theorem C82_base : forall o k, usable o -> 1 <= k < s_q o ->
  exists x y, eventually (fun n => _mul_point o n k (-1) (-1)) (Returns (x, y)) /\ 0 <= x < s_p o /\ 0 <= y < s_p o /\ aff (s_p o) x y = ec_mul (s_p o) (s_a o) k (base o).
Proof.
  intros o k U Hk. destruct (mul_point_base o U k (-1) (-1) ltac:(lia) Hk) as (x & y & E & EA & R1 & R2). exists x, y. split; [exists (iters o); exact E|]. split; [exact R1|]. split; [exact R2 | exact EA].
Qed.
Print Assumptions C82_base.
(** The order is exactly [q]: different multipliers below [q] have different results. *)
Theorem C82_distinct : forall o k l r, usable o -> 1 <= k < s_q o -> 1 <= l < s_q o ->
  eventually (fun n => _mul_point o n k (-1) (-1)) (Returns r) -> eventually (fun n => _mul_point o n l (-1) (-1)) (Returns r) -> k = l.
Proof.
  intros o k l r U Hk Hl E1 E2. destruct (C82_base o k U Hk) as (x & y & D1 & _ & _ & A1). destruct (C82_base o l U Hl) as (x' & y' & D2 & _ & _ & A2).
  pose proof (eventually_unique _ _ _ E1 D1) as F1. pose proof (eventually_unique _ _ _ E2 D2) as F2. injection F1 as ->. injection F2 as -> ->. rewrite A1 in A2.
  destruct (G_key o U) as (K1 & K2 & K3). apply (mul_inj_q (s_p o) (s_a o) (s_b o) (g_p_prime _ _ _ _ _ _ _ U) (g_p_odd _ _ _ _ _ _ _ U) (g_disc _ _ _ _ _ _ _ U) (s_q o) (g_q_prime _ _ _ _ _ _ _ U) (base o) K2 K1 K3) in A2; [|lia|lia].
  rewrite !Z.mod_small in A2 by lia. exact A2.
Qed.
Print Assumptions C82_distinct.
Example C82_example : usable toy /\ _mul_point toy 8 18 (-1) (-1) = Returns (5, 16) /\ _mul_point toy 8 7 (-1) (-1) = Returns (0, 6) /\ _mul_point toy 8 2 6 3 = Returns (3, 1).
Proof. split; [exact toy_usable|]. repeat match goal with |- _ /\ _ => split end; vm_compute; reflexivity. Qed.

(** C83: with a given nonce ([rk] not empty) or one from the system. *)
Theorem C83_sign_verify : forall o n ur d dg rk sg, usable o -> bytes_ok d -> bytes_ok rk -> (forall i, bytes_ok (ur i)) ->
  len d = s_size o -> 1 <= number d < s_q o -> len dg = s_size o -> x_coord (ec_mul (s_p o) (s_a o) (number d) (base o)) <> Some 0 ->
  sign o n ur (VBytes d) (VBytes dg) (VBytes rk) = Returns sg ->
  exists pk, eventually (fun m => public_key_generate o m (VBytes d)) (Returns pk) /\ eventually (fun m => verify o m (VBytes pk) (VBytes dg) (VBytes sg)) (Returns true).
Proof.
  intros o n ur d dg rk sg U Od Ork Our Ld Hd Ldg HX E. pose proof (usable_shaped o U) as HS. destruct (sign_returns o n ur d dg rk sg HS Ld Ldg E) as (k & HN & EW).
  assert (Ok : bytes_ok k) by (destruct HN as [[_ ->]|(_ & i & ->)]; [exact Ork | apply Our]).
  destruct (signature_is o U n d dg k sg Od Ok EW) as (Hk & r & s & Hr & Hs & -> & HG). pose proof Hd as Hd'. rewrite number_eq in Hd'.
  destruct (public_eventually o U d Ld Hd') as (X & Y & RX & RY & EA & EP). exists (encode (s_size o) X Y). split; [exact EP|]. rewrite <- number_eq in EA. unfold times in EA.
  pose proof (key_multiple o U (number d) Hd) as HK. unfold times in HK. rewrite <- EA in HK. pose proof (key_y_ne o U X Y HK) as NY. rewrite <- EA in HX. rewrite (x_coord_aff o X Y RX) in HX.
  rewrite Z.mod_small in NY by exact RY. assert (NX : X <> 0) by congruence.
  assert (UP : used_point o X Y = aff (s_p o) X Y) by (unfold used_point; replace (X =? 0) with false by lia; replace (Y =? 0) with false by lia; reflexivity).
  pose proof (g_q_odd _ _ _ _ _ _ _ U). pose proof (g_q_fits _ _ _ _ _ _ _ U) as QF. assert (He : 0 < gost_e (s_q o) (number dg) < s_q o) by (apply gost_e_range; lia).
  destruct (verify_exact o U X Y dg r s (reduced_fits o U X RX) (reduced_fits o U Y RY) Ldg ltac:(unfold fits; lia) ltac:(unfold fits; lia)) as (t & ET & HT).
  - rewrite UP. exact HK.
  - left. unfold reduced in *. lia.
  - exists (iters o). intros m Hm. rewrite ET by exact Hm. f_equal. apply HT. left. rewrite UP, EA. apply (signature_accepted o U _ _ (number k)); try assumption; lia.
Qed.
Print Assumptions C83_sign_verify.
(** The signature is the one of the standard. *)
Theorem C83_standard : forall o n ur d dg rk sg, usable o -> bytes_ok d -> bytes_ok rk -> (forall i, bytes_ok (ur i)) -> len d = s_size o -> len dg = s_size o ->
  sign o n ur (VBytes d) (VBytes dg) (VBytes rk) = Returns sg ->
  exists k r s, nonce ur rk k /\ 0 < number k < s_q o /\ sg = encode (s_size o) r s /\ gost_signature (s_p o) (s_a o) (s_q o) (base o) (number d) (gost_e (s_q o) (number dg)) (number k) r s.
Proof.
  intros o n ur d dg rk sg U Od Ork Our Ld Ldg E. destruct (sign_returns o n ur d dg rk sg (usable_shaped o U) Ld Ldg E) as (k & HN & EW).
  assert (Ok : bytes_ok k) by (destruct HN as [[_ ->]|(_ & i & ->)]; [exact Ork | apply Our]).
  destruct (signature_is o U n d dg k sg Od Ok EW) as (Hk & r & s & Hr & Hs & -> & HG). exists k, r, s. split; [exact HN|]. split; [exact Hk|]. split; [reflexivity | exact HG].
Qed.
Print Assumptions C83_standard.
(** And [sign] returns the signature of the standard whenever there is one. *)
Theorem C83_complete : forall o ur d dg rk r s, usable o -> bytes_ok d -> bytes_ok rk -> rk <> [] -> 0 < number rk < s_q o -> len d = s_size o -> len dg = s_size o ->
  gost_signature (s_p o) (s_a o) (s_q o) (base o) (number d) (gost_e (s_q o) (number dg)) (number rk) r s ->
  eventually (fun n => sign o n ur (VBytes d) (VBytes dg) (VBytes rk)) (Returns (encode (s_size o) r s)).
Proof.
  intros o ur d dg rk r s U Od Ork N Hk Ld Ldg ((x & EX & Hr) & Hs & Nr & Ns). pose proof (usable_shaped o U) as HS. rewrite !number_eq in *.
  destruct (sign_with_exact o d dg rk HS Ork) as (_ & _ & H3). cbv zeta in H3. destruct (H3 Hk) as (x' & y' & Hxy & HO & _).
  destruct (sign_multiple o U (bytearray_to_int rk) ltac:(lia)) as (x2 & y2 & E2 & EX2). specialize (Hxy (iters o) (Nat.le_refl _)). rewrite E2 in Hxy by lia. injection Hxy as <- <-.
  unfold times in EX2. rewrite EX in EX2. injection EX2 as <-. exists (S (iters o)). intros n Hn. rewrite sign_given by assumption. rewrite encode_eq by apply (size_ge o U). subst s. subst r. apply HO; [exact Nr | exact Ns | lia].
Qed.
Print Assumptions C83_complete.
Example C83_example : sign toy 9 (fun _ => []) (VBytes [3]) (VBytes [26]) (VBytes [10]) = Returns [7; 15] /\ public_key_generate toy 8 (VBytes [3]) = Returns [10; 6] /\
  verify toy 8 (VBytes [10; 6]) (VBytes [26]) (VBytes [7; 15]) = Returns true /\ verify toy 8 (VBytes [10; 6]) (VBytes [27]) (VBytes [7; 15]) = Returns false /\
  x_coord (ec_mul 17 2 3 (aff 17 5 1)) = Some 10.
Proof. repeat match goal with |- _ /\ _ => split end; vm_compute; reflexivity. Qed.

(** C84: every key is the encoding of a pair, so the statement is for pairs of numbers.  [verify] answers exactly as the standard
    unless the sum is [Inf], when it compares [r] with [-2 x]. *)
Theorem C84_pairs : forall size l, 0 <= size -> bytes_ok l -> len l = size * 2 ->
  exists x y, (0 <= x < 256 ^ size /\ 0 <= y < 256 ^ size /\ l = encode size x y) /\ forall x' y', 0 <= x' < 256 ^ size -> 0 <= y' < 256 ^ size -> l = encode size x' y' -> x' = x /\ y' = y.
Proof.
  intros size l HS HO HL. destruct (encode_all size l HS HO HL) as (x & y & HX & HY & E). exists x, y. split; [repeat (split; [assumption|]); exact E|].
  intros x' y' HX' HY' E'. rewrite E' in E. now apply (encode_inj size).
Qed.
Print Assumptions C84_pairs.
Theorem C84_exact : forall o X Y dg r s, usable o -> 0 < X < s_p o -> 0 < Y < s_p o -> gost_key (s_p o) (s_a o) (s_b o) (s_q o) (aff (s_p o) X Y) -> len dg = s_size o ->
  0 <= r < 256 ^ s_size o -> 0 <= s < 256 ^ s_size o -> let e := gost_e (s_q o) (number dg) in let Q := aff (s_p o) X Y in
  exists t, eventually (fun n => verify o n (VBytes (encode (s_size o) X Y)) (VBytes dg) (VBytes (encode (s_size o) r s))) (Returns t) /\
  (t = true <-> gost_accepts (s_p o) (s_a o) (s_q o) (base o) Q e r s \/ infinity_accepts (s_p o) (s_a o) (s_q o) (base o) Q e r s).
Proof.
  intros o X Y dg r s U HX HY HK Ld Hr Hs e Q. pose proof (g_p_fits _ _ _ _ _ _ _ U) as PF.
  assert (UP : used_point o X Y = aff (s_p o) X Y) by (unfold used_point; replace (X =? 0) with false by lia; replace (Y =? 0) with false by lia; reflexivity).
  destruct (verify_exact o U X Y dg r s ltac:(unfold fits; lia) ltac:(unfold fits; lia) Ld Hr Hs) as (t & ET & HT).
  - rewrite UP. exact HK.
  - left. lia.
  - rewrite UP in HT. exists t. split; [exists (iters o); exact ET | exact HT].
Qed.
Print Assumptions C84_exact.
Theorem C84_accepts_standard : forall o X Y dg r s, usable o -> 0 < X < s_p o -> 0 < Y < s_p o -> gost_key (s_p o) (s_a o) (s_b o) (s_q o) (aff (s_p o) X Y) -> len dg = s_size o ->
  gost_accepts (s_p o) (s_a o) (s_q o) (base o) (aff (s_p o) X Y) (gost_e (s_q o) (number dg)) r s ->
  eventually (fun n => verify o n (VBytes (encode (s_size o) X Y)) (VBytes dg) (VBytes (encode (s_size o) r s))) (Returns true).
Proof.
  intros o X Y dg r s U HX HY HK Ld HA. pose proof (g_q_fits _ _ _ _ _ _ _ U) as QF. pose proof HA as (Hr & Hs & _).
  destruct (C84_exact o X Y dg r s U HX HY HK Ld ltac:(lia) ltac:(lia)) as (t & [n E] & HT). exists n. intros m Hm. rewrite E by exact Hm. f_equal. apply HT. left. exact HA.
Qed.
Print Assumptions C84_accepts_standard.
(** A sum that is not [Inf]: the standard and [verify] agree. *)
Theorem C84_agrees : forall o X Y dg r s, usable o -> 0 < X < s_p o -> 0 < Y < s_p o -> gost_key (s_p o) (s_a o) (s_b o) (s_q o) (aff (s_p o) X Y) -> len dg = s_size o ->
  0 <= r < 256 ^ s_size o -> 0 <= s < 256 ^ s_size o -> let e := gost_e (s_q o) (number dg) in let Q := aff (s_p o) X Y in
  (forall v, (e * v) mod s_q o = 1 -> ec_add (s_p o) (s_a o) (ec_mul (s_p o) (s_a o) ((s * v) mod s_q o) (base o)) (ec_mul (s_p o) (s_a o) ((- r * v) mod s_q o) Q) <> Inf) ->
  exists t, eventually (fun n => verify o n (VBytes (encode (s_size o) X Y)) (VBytes dg) (VBytes (encode (s_size o) r s))) (Returns t) /\
  (t = true <-> gost_accepts (s_p o) (s_a o) (s_q o) (base o) Q e r s).
Proof.
  intros o X Y dg r s U HX HY HK Ld Hr Hs e Q HN. destruct (C84_exact o X Y dg r s U HX HY HK Ld Hr Hs) as (t & ET & HT). exists t. split; [exact ET|].
  fold e Q in HT. rewrite HT. split; [|intros H; left; exact H]. intros [H|(_ & _ & v & Hv & EI & _)]; [exact H | destruct (HN v Hv EI)].
Qed.
Print Assumptions C84_agrees.
(** The full claim fails on every curve with [-2 x_G mod p mod q <> 0]: the key [G] (private key 1), the digest [r] and the signature [(r, r)]. *)
Definition verifies_only_standard (o : sig_obj) : Prop := forall X Y dg r s, 0 < X < s_p o -> 0 < Y < s_p o -> gost_key (s_p o) (s_a o) (s_b o) (s_q o) (aff (s_p o) X Y) -> len dg = s_size o ->
  0 <= r < 256 ^ s_size o -> 0 <= s < 256 ^ s_size o ->
  eventually (fun n => verify o n (VBytes (encode (s_size o) X Y)) (VBytes dg) (VBytes (encode (s_size o) r s))) (Returns true) ->
  gost_accepts (s_p o) (s_a o) (s_q o) (base o) (aff (s_p o) X Y) (gost_e (s_q o) (number dg)) r s.
Theorem C84_only_standard_refuted : forall o, usable o -> s_x o <> 0 -> ((- 2 * s_x o) mod s_p o) mod s_q o <> 0 -> ~ verifies_only_standard o.
Proof.
  intros o U NX NR H. pose proof (g_p_fits _ _ _ _ _ _ _ U) as PF. pose proof (g_q_fits _ _ _ _ _ _ _ U) as QF. pose proof (g_q_odd _ _ _ _ _ _ _ U) as QO. pose proof (g_p_odd _ _ _ _ _ _ _ U) as PO.
  pose proof (size_ge o U) as HS. pose proof (g_x _ _ _ _ _ _ _ U) as HX. pose proof (g_y _ _ _ _ _ _ _ U) as HY.
  pose proof (G_key o U) as HK. pose proof (key_y_ne o U (s_x o) (s_y o) HK) as NY. rewrite Z.mod_small in NY by exact HY.
  set (r := ((- 2 * s_x o) mod s_p o) mod s_q o) in *. assert (HR : 0 < r < s_q o) by (assert (HB := Z.mod_pos_bound ((- 2 * s_x o) mod s_p o) (s_q o) ltac:(lia)); fold r in HB; lia).
  set (dg := octets o r). assert (ND : number dg = r) by (rewrite number_eq; unfold dg, octets; apply to_int_of_int_small; lia).
  assert (ED : gost_e (s_q o) (number dg) = r) by (rewrite ND; unfold gost_e; rewrite Z.mod_small by lia; destruct (Z.eqb_spec r 0); [contradiction | reflexivity]).
  assert (INF : forall v, (r * v) mod s_q o = 1 -> ec_add (s_p o) (s_a o) (ec_mul (s_p o) (s_a o) ((r * v) mod s_q o) (base o)) (ec_mul (s_p o) (s_a o) ((- r * v) mod s_q o) (base o)) = Inf).
  { intros v Hv. rewrite Hv. assert (E2 : (- r * v) mod s_q o = s_q o - 1) by (rewrite Z.mul_opp_l, Z.mod_opp_l_nz by lia; rewrite Hv; lia). rewrite E2.
    rewrite <- (ec_mul_add (s_p o) (s_a o) (s_b o) (g_p_prime _ _ _ _ _ _ _ U) PO (g_disc _ _ _ _ _ _ _ U)) by (lia || apply HK). replace (1 + (s_q o - 1)) with (s_q o) by lia. apply HK. }
  assert (A : gost_accepts (s_p o) (s_a o) (s_q o) (base o) (aff (s_p o) (s_x o) (s_y o)) (gost_e (s_q o) (number dg)) r r).
  { apply H; [lia | lia | exact HK | unfold dg; apply octets_len; exact HS | lia | lia|].
    destruct (C84_exact o (s_x o) (s_y o) dg r r U ltac:(lia) ltac:(lia) HK (octets_len o r HS) ltac:(lia) ltac:(lia)) as (t & [n E] & HT). exists n. intros m Hm. rewrite E by exact Hm. f_equal. apply HT. right. rewrite ED.
    destruct (inverse_ne o U r HR) as [HV HI]. split; [exact HR|]. split; [exact HR|]. exists (_invert r (s_q o)). split; [exact HI|]. split; [exact (INF _ HI)|]. exists (s_x o). rewrite HI, ec_mul_1. split; [exact (x_coord_aff o (s_x o) (s_y o) HX) | reflexivity]. }
  rewrite ED in A. destruct A as (_ & _ & v & Hv & x & EX & _). fold (base o) in EX. rewrite (INF v Hv) in EX. discriminate EX.
Qed.
Print Assumptions C84_only_standard_refuted.
Example C84_example : usable toy /\ s_x toy <> 0 /\ ((- 2 * s_x toy) mod s_p toy) mod s_q toy = 7 /\ verify toy 9 (VBytes [5; 1]) (VBytes [7]) (VBytes [7; 7]) = Returns true /\
  ec_add 17 2 (ec_mul 17 2 1 (aff 17 5 1)) (ec_mul 17 2 18 (aff 17 5 1)) = Inf.
Proof. split; [exact toy_usable|]. split; [discriminate|]. repeat match goal with |- _ /\ _ => split end; vm_compute; reflexivity. Qed.

(** C85. *)
Definition octets_of (n : Z) (v : pyval) : Prop := match v with VBytes l => len l = n | _ => False end.
Lemma check_value_iff v n : check_value v n = true <-> octets_of n v.
Proof. unfold check_value, octets_of. destruct v as [l| | |]; try (split; [discriminate | contradiction]). rewrite <- Z.eqb_eq. destruct (len l =? n); reflexivity. Qed.
Theorem C85_out_of_range : forall o n X Y dg r s, 0 <= s_size o -> 0 <= r < 256 ^ s_size o -> 0 <= s < 256 ^ s_size o -> len dg = s_size o ->
  r = 0 \/ s_q o <= r \/ s = 0 \/ s_q o <= s -> verify o n (VBytes (encode (s_size o) X Y)) (VBytes dg) (VBytes (encode (s_size o) r s)) = Returns false.
Proof.
  intros o n X Y dg r s HS Hr Hs Ld H. unfold verify, check_value. rewrite !encode_len, Ld, !Z.eqb_refl by exact HS. fold (pk_x o (encode (s_size o) r s)) (pk_y o (encode (s_size o) r s)).
  rewrite encode_x, encode_y by assumption. unfold _verify_step_1. replace ((r <=? 0) || (r >=? s_q o) || (s <=? 0) || (s >=? s_q o)) with true by lia. reflexivity.
Qed.
Print Assumptions C85_out_of_range.
(** The exceptions: exactly for arguments of a wrong type or length. *)
Theorem C85_errors : forall o n pk dg sg, shaped o ->
  (verify o n pk dg sg = Raises (GOSTSignatureError "GOSTSignatureError: invalid public key value") <-> ~ octets_of (s_size o * 2) pk) /\
  (verify o n pk dg sg = Raises (GOSTSignatureError "GOSTSignatureError: invalid signature value") <-> octets_of (s_size o * 2) pk /\ ~ octets_of (s_size o * 2) sg) /\
  (verify o n pk dg sg = Raises (GOSTSignatureError "GOSTSignatureError: invalid digest value") <-> octets_of (s_size o * 2) pk /\ octets_of (s_size o * 2) sg /\ ~ octets_of (s_size o) dg) /\
  (octets_of (s_size o * 2) pk -> octets_of (s_size o * 2) sg -> octets_of (s_size o) dg -> forall e, verify o n pk dg sg <> Raises e).
Proof.
  intros o n pk dg sg HS. rewrite <- !check_value_iff. assert (NR : check_value pk (s_size o * 2) = true -> check_value sg (s_size o * 2) = true -> check_value dg (s_size o) = true -> forall e, verify o n pk dg sg <> Raises e).
  { intros C1 C2 C3 e. unfold verify. rewrite C1, C2, C3. destruct pk as [pk| | |], sg as [sg| | |], dg as [dg| | |]; try discriminate. destruct (negb _); [discriminate|].
    rewrite set_e_is by exact HS. cbn [liftO bindO]. unfold _mul_point.
    match goal with |- context [mul_loop o n ?v ?a ?b ?c ?d] => destruct (mul_loop_outcome o ltac:(destruct HS; lia) n v a b c d) as [D|[r D]]; rewrite D; cbn [bindO]; [discriminate|] end.
    match goal with |- context [mul_loop o n ?v ?a ?b ?c ?d] => destruct (mul_loop_outcome o ltac:(destruct HS; lia) n v a b c d) as [D'|[r' D']]; rewrite D'; cbn [bindO]; [discriminate|] end.
    destruct (add_total o (fst r) (fst r') (snd r) (snd r') ltac:(destruct HS; lia)) as (x3 & y3 & EA). rewrite EA. cbn [liftO bindO]. rewrite compare_int by (destruct HS; lia). discriminate. }
  destruct (check_value pk (s_size o * 2)) eqn:C1; [destruct (check_value sg (s_size o * 2)) eqn:C2; [destruct (check_value dg (s_size o)) eqn:C3|]|].
  - specialize (NR eq_refl eq_refl eq_refl). repeat match goal with |- _ /\ _ => split end; try (split; [intros H; destruct (NR _ H) | intuition congruence]). intros _ _ _. exact NR.
  - assert (E : verify o n pk dg sg = Raises (GOSTSignatureError "GOSTSignatureError: invalid digest value")) by (unfold verify; rewrite C1, C2, C3; destruct pk, sg; try discriminate; reflexivity).
    rewrite E. repeat match goal with |- _ /\ _ => split end; try (split; [intros H; first [discriminate H | repeat split; congruence] | intuition congruence]). congruence.
  - assert (E : verify o n pk dg sg = Raises (GOSTSignatureError "GOSTSignatureError: invalid signature value")) by (unfold verify; rewrite C1, C2; destruct pk; try discriminate; reflexivity).
    rewrite E. repeat match goal with |- _ /\ _ => split end; try (split; [intros H; first [discriminate H | repeat split; congruence] | intuition congruence]). congruence.
  - assert (E : verify o n pk dg sg = Raises (GOSTSignatureError "GOSTSignatureError: invalid public key value")) by (unfold verify; rewrite C1; reflexivity).
    rewrite E. repeat match goal with |- _ /\ _ => split end; try (split; [intros H; first [discriminate H | repeat split; congruence] | intuition congruence]). congruence.
Qed.
Print Assumptions C85_errors.
(** The exceptions of [sign] and [public_key_generate]. *)
Theorem C85_sign_errors : forall o n ur pk dg rk e, shaped o -> sign o n ur pk dg rk = Raises e <->
  (~ octets_of (s_size o) pk /\ e = GOSTSignatureError "GOSTSignatureError: invalid private key value") \/
  (octets_of (s_size o) pk /\ ~ octets_of (s_size o) dg /\ e = GOSTSignatureError "GOSTSignatureError: invalid digest value") \/
  (octets_of (s_size o) pk /\ octets_of (s_size o) dg /\ (match rk with VBytes [] => False | VBytes k => s_q o <= number k | _ => True end) /\ e = GOSTSignatureError "GOSTSignatureError: invalid random value").
Proof.
  intros o n ur pk dg rk e HS. rewrite <- !check_value_iff. destruct (check_value pk (s_size o)) eqn:C1.
  2:{ unfold sign. rewrite C1. split; [intros H; injection H as <-; left; split; [discriminate | reflexivity] | intros [[_ ->]|[[H _]|[H _]]]; [reflexivity | discriminate H | discriminate H]]. }
  destruct (check_value dg (s_size o)) eqn:C2.
  2:{ unfold sign. rewrite C1, C2. destruct pk; try discriminate C1. split; [intros H; injection H as <-; right; left; repeat split; congruence | intros [[H _]|[(_ & _ & ->)|(_ & H & _)]]; [congruence | reflexivity | congruence]]. }
  destruct pk as [pk| | |], dg as [dg| | |]; try discriminate. apply check_value_iff in C1, C2. cbn [octets_of] in C1, C2.
  assert (SW : forall k, (exists m, sign_with o n pk dg k = OutOfFuel \/ sign_with o n pk dg k = Returns m) \/ (s_q o <= bytearray_to_int k /\ sign_with o n pk dg k = Raises (GOSTSignatureError "GOSTSignatureError: invalid random value"))).
  { intros k. unfold sign_with. destruct (bytearray_to_int k >=? s_q o) eqn:EB; [right; split; [lia | reflexivity] | left].
    destruct (Z_le_gt_dec (bytearray_to_int k) 0) as [L|L]; [exists []; left; rewrite sign_outer_zero by assumption; reflexivity|]. destruct HS as [S1 S2]. assert (HS : shaped o) by (split; assumption).
    destruct (mul_point_ends o (bytearray_to_int k) (-1) (-1) ltac:(lia) ltac:(lia)) as (xy & Hxy). set (E := gost_e (s_q o) (bytearray_to_int dg)).
    destruct (Z.eq_dec (fst xy mod s_q o) 0) as [E0|N0]; [exists []; left; rewrite (sign_outer_diverges o HS pk k E xy Hxy n (or_introl E0)); reflexivity|].
    destruct (Z.eq_dec ((fst xy mod s_q o * bytearray_to_int pk + bytearray_to_int k * E) mod s_q o) 0) as [E1|N1]; [exists []; left; rewrite (sign_outer_diverges o HS pk k E xy Hxy n (or_intror E1)); reflexivity|].
    destruct n as [|n']; cbn [sign_outer]; rewrite zero_test by (exact HS || lia); cbn [bindO]; change (0 =? 0) with true; cbv iota; [exists []; left; reflexivity|].
    destruct (sign_inner_upto o HS k xy Hxy (S n') 0 N0) as [D|D]; rewrite D; cbn [bindO fst snd]; [exists []; left; reflexivity|].
    assert (HB := s_range o HS pk k E (fst xy mod s_q o)).
    destruct n' as [|n']; cbn [sign_outer]; rewrite zero_test by (exact HS || exact HB); cbn [bindO]; (destruct (Z.eqb_spec ((fst xy mod s_q o * bytearray_to_int pk + bytearray_to_int k * E) mod s_q o) 0) as [EE|_]; [contradiction | eexists; right; reflexivity]). }
  destruct rk as [[|k0 rk]|s0|z0|].
  - rewrite sign_generated by assumption. split; [|intros [[H _]|[(_ & H & _)|(_ & _ & [] & _)]]; exfalso; apply H; reflexivity]. intros H. exfalso. destruct (rand_loop o n ur 0) as [k| |] eqn:ER; cbn [bindO] in H; [| |discriminate H].
    + destruct (rand_loop_returns o ur n 0 k ER) as (j & -> & HL & _). destruct (SW (ur (0 + j)%nat)) as [[m [D|D]]|[HG _]]; [rewrite D in H; discriminate H | rewrite D in H; discriminate H | lia].
    + clear - ER. revert ER. generalize 0%nat. induction n as [|n IH]; intros i; cbn [rand_loop]; destruct (bytearray_to_int (ur i) >=? s_q o); try discriminate. apply IH.
  - rewrite sign_given by (assumption || discriminate). destruct (SW (k0 :: rk)) as [[m D]|[HG D]].
    + split; [intros H; destruct D as [D|D]; rewrite D in H; discriminate H|]. intros [[H _]|[(_ & H & _)|(_ & _ & H & _)]]; [exfalso; apply H; reflexivity | exfalso; apply H; reflexivity|].
      rewrite number_eq in H. exfalso. unfold sign_with in D. replace (bytearray_to_int (k0 :: rk) >=? s_q o) with true in D by lia. destruct D as [D|D]; discriminate D.
    + rewrite D. split; [intros H; injection H as <-; right; right; repeat split; rewrite number_eq; exact HG | intros [[H _]|[(_ & H & _)|(_ & _ & _ & ->)]]; [exfalso; apply H; reflexivity | exfalso; apply H; reflexivity | reflexivity]].
  - unfold sign, check_value. rewrite C1, C2, Z.eqb_refl. rewrite set_e_is by exact HS. cbn [liftO bindO]. split; [intros H; injection H as <-; right; right; repeat split | intros [[H _]|[(_ & H & _)|(_ & _ & _ & ->)]]; [exfalso; apply H; reflexivity | exfalso; apply H; reflexivity | reflexivity]].
  - unfold sign, check_value. rewrite C1, C2, Z.eqb_refl. rewrite set_e_is by exact HS. cbn [liftO bindO]. split; [intros H; injection H as <-; right; right; repeat split | intros [[H _]|[(_ & H & _)|(_ & _ & _ & ->)]]; [exfalso; apply H; reflexivity | exfalso; apply H; reflexivity | reflexivity]].
  - unfold sign, check_value. rewrite C1, C2, Z.eqb_refl. rewrite set_e_is by exact HS. cbn [liftO bindO]. split; [intros H; injection H as <-; right; right; repeat split | intros [[H _]|[(_ & H & _)|(_ & _ & _ & ->)]]; [exfalso; apply H; reflexivity | exfalso; apply H; reflexivity | reflexivity]].
Qed.
Print Assumptions C85_sign_errors.
Theorem C85_public_errors : forall o n d e, 0 <= s_size o -> public_key_generate o n d = Raises e <-> ~ octets_of (s_size o) d /\ e = GOSTSignatureError "GOSTSignatureError: invalid private key".
Proof.
  intros o n d e HS. rewrite <- check_value_iff. unfold public_key_generate. destruct (check_value d (s_size o)) eqn:C.
  - destruct d as [d| | |]; try discriminate C. unfold _mul_point.
    match goal with |- context [mul_loop o n ?v ?a ?b ?c ?d] => destruct (mul_loop_outcome o HS n v a b c d) as [D|[r D]]; rewrite D; cbn [bindO]; (split; [discriminate | intros [H _]; exfalso; apply H; reflexivity]) end.
  - split; [intros H; injection H as <-; split; [discriminate | reflexivity] | intros [_ ->]; reflexivity].
Qed.
Print Assumptions C85_public_errors.
Example C85_example : verify toy 9 (VBytes [5; 1]) (VBytes [7]) (VBytes [7; 19]) = Returns false /\ verify toy 9 (VBytes [5]) (VBytes [7]) (VBytes [7; 7]) = Raises (GOSTSignatureError "GOSTSignatureError: invalid public key value") /\
  sign toy 9 (fun _ => []) (VBytes [3]) (VBytes [26]) (VBytes [19]) = Raises (GOSTSignatureError "GOSTSignatureError: invalid random value") /\ shaped toy.
Proof. split; [vm_compute; reflexivity|]. split; [vm_compute; reflexivity|]. split; [vm_compute; reflexivity|]. apply usable_shaped, toy_usable. Qed.
