(** * Properties of the signature: C86 - C88, C90 - C95 *)
From Coq Require Import ZArith Znumtheory Lia String.
From Verif Require Import PyBase PyFacts PyLoop Utils UtilsFacts Euclid Primes Fp SpecCurve SpecModes SpecSign SigCurves Sig SigLemmas SigArith SigProps SigSign SigFinal SigCons PropSig.
Open Scope string_scope.
Open Scope list_scope.
Open Scope Z_scope.

(** C86: a key with a zero coordinate stands for the generator. *)
Theorem C86_zero_coordinate : forall o n X Y dg sg, 0 <= s_size o -> 0 <= X < 256 ^ s_size o -> 0 <= Y < 256 ^ s_size o -> 0 <= s_x o < 256 ^ s_size o -> 0 <= s_y o < 256 ^ s_size o -> X = 0 \/ Y = 0 ->
  verify o n (VBytes (encode (s_size o) X Y)) dg sg = verify o n (VBytes (encode (s_size o) (s_x o) (s_y o))) dg sg.
Proof.
  intros o n X Y dg sg HS HX HY HGX HGY HZ. unfold verify, check_value. rewrite !encode_len, Z.eqb_refl by exact HS. cbn [negb].
  assert (EX : pk_x o (encode (s_size o) X Y) = X) by now apply encode_x. assert (EY : pk_y o (encode (s_size o) X Y) = Y) by now apply encode_y.
  assert (EGX : pk_x o (encode (s_size o) (s_x o) (s_y o)) = s_x o) by now apply encode_x. assert (EGY : pk_y o (encode (s_size o) (s_x o) (s_y o)) = s_y o) by now apply encode_y.
  unfold pk_x in EX, EGX. unfold pk_y in EY, EGY. rewrite EX, EY, EGX, EGY.
  assert (EM : forall k, _mul_point o n k X Y = _mul_point o n k (s_x o) (s_y o)).
  { intros k. unfold _mul_point. replace ((X >? 0) && (Y >? 0)) with false by lia. destruct ((s_x o >? 0) && (s_y o >? 0)); reflexivity. }
  destruct sg as [sg| | |]; try reflexivity. destruct (negb (len sg =? s_size o * 2)); [reflexivity|]. destruct dg as [dg| | |]; try reflexivity. destruct (negb (len dg =? s_size o)); [reflexivity|].
  destruct (negb _); [reflexivity|]. destruct (liftO (_set_e o dg)); cbn [bindO]; [|reflexivity|reflexivity].
  destruct (_mul_point o n _ (-1) (-1)); cbn [bindO]; [|reflexivity|reflexivity]. rewrite EM. reflexivity.
Qed.
Print Assumptions C86_zero_coordinate.
(** Whoever signs with the private key 1 is accepted for such a key. *)
Theorem C86_forgery : forall o n ur d dg rk sg X Y, usable o -> bytes_ok d -> bytes_ok rk -> (forall i, bytes_ok (ur i)) -> len d = s_size o -> number d = 1 -> len dg = s_size o ->
  0 <= X < 256 ^ s_size o -> 0 <= Y < 256 ^ s_size o -> X = 0 \/ Y = 0 -> sign o n ur (VBytes d) (VBytes dg) (VBytes rk) = Returns sg ->
  eventually (fun m => verify o m (VBytes (encode (s_size o) X Y)) (VBytes dg) (VBytes sg)) (Returns true).
Proof.
  intros o n ur d dg rk sg X Y U Od Ork Our Ld Hd Ldg HX HY HZ E. pose proof (usable_shaped o U) as HS. destruct (sign_returns o n ur d dg rk sg HS Ld Ldg E) as (k & HN & EW).
  assert (Ok : bytes_ok k) by (destruct HN as [[_ ->]|(_ & i & ->)]; [exact Ork | apply Our]).
  destruct (signature_is o U n d dg k sg Od Ok EW) as (Hk & r & s & Hr & Hs & -> & HG). rewrite Hd in HG.
  pose proof (g_q_odd _ _ _ _ _ _ _ U). pose proof (g_q_fits _ _ _ _ _ _ _ U) as QF. pose proof (g_p_odd _ _ _ _ _ _ _ U). assert (He : 0 < gost_e (s_q o) (number dg) < s_q o) by (apply gost_e_range; lia).
  assert (UP : used_point o X Y = base o) by (unfold used_point; destruct HZ as [-> | ->]; [reflexivity | rewrite orb_true_r; reflexivity]).
  assert (OR : (X < s_p o /\ Y < s_p o) \/ ~ (X < s_p o /\ Y < s_p o)) by lia.
  pose proof (G_key o U) as HK.
  pose proof (signature_accepted o U 1 (gost_e (s_q o) (number dg)) (number k) r s He ltac:(lia) Hk HG) as HA. unfold times in HA. rewrite ec_mul_1 in HA.
  destruct (verify_exact o U 0 0 dg r s ltac:(unfold fits; lia) ltac:(unfold fits; lia) Ldg ltac:(unfold fits; lia) ltac:(unfold fits; lia)) as (t & ET & HT); [exact HK | left; lia|].
  exists (iters o). intros m Hm. pose proof (g_x _ _ _ _ _ _ _ U). pose proof (g_y _ _ _ _ _ _ _ U). pose proof (g_p_fits _ _ _ _ _ _ _ U).
  rewrite (C86_zero_coordinate o m X Y) by (apply (size_ge o U) || lia). rewrite <- (C86_zero_coordinate o m 0 0) by (apply (size_ge o U) || lia). rewrite ET by exact Hm. f_equal. apply HT. left. exact HA.
Qed.
Print Assumptions C86_forgery.
(** The claim fails on every curve with [x_G mod q <> 0]: there are a key outside the curve, a digest and an accepted signature. *)
Definition verifies_only_curve_points (o : sig_obj) : Prop := forall X Y dg sg, 0 <= X < 256 ^ s_size o -> 0 <= Y < 256 ^ s_size o -> len dg = s_size o -> len sg = s_size o * 2 ->
  eventually (fun n => verify o n (VBytes (encode (s_size o) X Y)) (VBytes dg) (VBytes sg)) (Returns true) -> ec_on (s_p o) (s_a o) (s_b o) (aff (s_p o) X Y).
Theorem C86_curve_points_refuted : forall o, usable o -> s_x o mod s_q o <> 0 -> ~ verifies_only_curve_points o.
Proof.
  intros o U NR H. pose proof (g_q_odd _ _ _ _ _ _ _ U) as QO. pose proof (g_q_fits _ _ _ _ _ _ _ U) as QF. pose proof (g_p_odd _ _ _ _ _ _ _ U) as PO. pose proof (g_p_fits _ _ _ _ _ _ _ U) as PF. pose proof (size_ge o U) as HS. pose proof (g_x _ _ _ _ _ _ _ U) as HX.
  set (r := s_x o mod s_q o) in *. assert (HR : 0 < r < s_q o) by (assert (HB := Z.mod_pos_bound (s_x o) (s_q o) ltac:(lia)); fold r in HB; lia).
  set (dg := octets o r). set (one := octets o 1).
  assert (N1 : number one = 1) by (rewrite number_eq; unfold one, octets; apply to_int_of_int_small; lia).
  assert (ND : number dg = r) by (rewrite number_eq; unfold dg, octets; apply to_int_of_int_small; lia).
  assert (ED : gost_e (s_q o) (number dg) = r) by (rewrite ND; unfold gost_e; rewrite Z.mod_small by lia; destruct (Z.eqb_spec r 0); [contradiction | reflexivity]).
  assert (NS : (r * 1 + 1 * r) mod s_q o <> 0).
  { intros E. apply Z.mod_divide in E; [|lia]. replace (r * 1 + 1 * r) with (2 * r) in E by lia. apply (prime_mult _ (g_q_prime _ _ _ _ _ _ _ U)) in E. destruct E as [E|E]; apply Z.divide_pos_le in E; lia. }
  assert (HGS : gost_signature (s_p o) (s_a o) (s_q o) (base o) (number one) (gost_e (s_q o) (number dg)) (number one) r ((r * 1 + 1 * r) mod s_q o)).
  { rewrite N1, ED. split; [|split; [reflexivity | split; [lia | exact NS]]]. exists (s_x o). rewrite ec_mul_1. split; [exact (x_coord_aff o (s_x o) (s_y o) HX) | reflexivity]. }
  assert (O1 : bytes_ok one) by apply int_to_bytearray_ok. assert (L1 : len one = s_size o) by (apply octets_len; exact HS). assert (LD : len dg = s_size o) by (apply octets_len; exact HS).
  assert (NE : one <> []) by (intros E; rewrite E in L1; cbn in L1; pose proof (g_size _ _ _ _ _ _ _ U); lia).
  destruct (C83_complete o (fun _ => []) one dg one r _ U O1 O1 NE ltac:(lia) L1 LD HGS) as [n E]. specialize (E n (Nat.le_refl n)). cbv beta in E.
  assert (HV : forall Y, 0 <= Y < 256 ^ s_size o -> ec_on (s_p o) (s_a o) (s_b o) (aff (s_p o) 0 Y)).
  { intros Y HY. apply (H 0 Y dg (encode (s_size o) r ((r * 1 + 1 * r) mod s_q o))); [lia | exact HY | exact LD | apply encode_len; exact HS|].
    exact (C86_forgery o n _ one dg one _ 0 Y U O1 O1 ltac:(intros i; constructor) L1 N1 LD ltac:(lia) HY (or_introl eq_refl) E). }
  pose proof (HV 0 ltac:(lia)) as V0. pose proof (HV 1 ltac:(lia)) as V1. unfold ec_on, aff in V0, V1. cbn [on_curve] in V0, V1. rewrite <- V0, <- !mk_mul in V1. apply mk_eq in V1. rewrite !Z.mod_small in V1 by lia. discriminate V1.
Qed.
Print Assumptions C86_curve_points_refuted.
(** A correct key with [x = 0] (private key 7 of the small curve): its signatures are rejected, and those of the private key 1 are accepted. *)
Example C86_example : usable toy /\ public_key_generate toy 8 (VBytes [7]) = Returns [0; 6] /\ sign toy 9 (fun _ => []) (VBytes [7]) (VBytes [26]) (VBytes [10]) = Returns [7; 5] /\ verify toy 8 (VBytes [0; 6]) (VBytes [26]) (VBytes [7; 5]) = Returns false /\
  sign toy 9 (fun _ => []) (VBytes [1]) (VBytes [26]) (VBytes [10]) = Returns [7; 1] /\ verify toy 8 (VBytes [0; 6]) (VBytes [26]) (VBytes [7; 1]) = Returns true.
Proof. split; [exact toy_usable|]. repeat match goal with |- _ /\ _ => split end; vm_compute; reflexivity. Qed.

(** C87: the exact cases, for every object that the constructor returns (nothing is assumed about the curve). *)
Theorem C87_sign_exact : forall mode c o ur d dg rk, sig_new mode c = Ok o -> bytes_ok rk -> rk <> [] -> len d = s_size o -> len dg = s_size o ->
  let k := number rk in let e := gost_e (s_q o) (number dg) in let call := fun n => sign o n ur (VBytes d) (VBytes dg) (VBytes rk) in
  (s_q o <= k -> eventually call (Raises (GOSTSignatureError "GOSTSignatureError: invalid random value"))) /\
  (k = 0 -> diverges call) /\
  (0 < k < s_q o -> exists x y, eventually (fun n => _mul_point o n k (-1) (-1)) (Returns (x, y)) /\ let r := x mod s_q o in let s := (r * number d + k * e) mod s_q o in
    (r = 0 \/ s = 0 -> diverges call) /\ (r <> 0 -> s <> 0 -> eventually call (Returns (encode (s_size o) r s)))).
Proof.
  intros mode c o ur d dg rk EN Ork N Ld Ldg k e call. pose proof (new_shaped mode c o EN) as HS. unfold k, e, call in *. rewrite !number_eq.
  destruct (sign_with_exact o d dg rk HS Ork) as (H1 & H2 & H3). split; [|split].
  - intros HK. exists 0%nat. intros n _. rewrite sign_given by assumption. now apply H1.
  - intros HK n. rewrite sign_given by assumption. now apply H2.
  - intros HK. destruct (H3 HK) as (x & y & Hxy & HO & HD & _). exists x, y. split; [exists (iters o); exact Hxy|]. cbv zeta. split.
    + intros HZ n. rewrite sign_given by assumption. now apply HD.
    + intros N1 N2. exists (S (iters o)). intros n Hn. rewrite sign_given by assumption. rewrite encode_eq by (destruct HS; lia). apply HO; [exact N1 | exact N2 | lia].
Qed.
Print Assumptions C87_sign_exact.
(** A nonce from the system: the first value below [q] is used, and none means that the call does not end. *)
Theorem C87_sign_random : forall mode c o ur d dg, sig_new mode c = Ok o -> len d = s_size o -> len dg = s_size o ->
  ((forall i, s_q o <= number (ur i)) -> diverges (fun n => sign o n ur (VBytes d) (VBytes dg) (VBytes []))) /\
  (forall j, ur j <> [] -> number (ur j) < s_q o -> (forall i, (i < j)%nat -> s_q o <= number (ur i)) ->
   forall n, (j <= n)%nat -> sign o n ur (VBytes d) (VBytes dg) (VBytes []) = sign o n ur (VBytes d) (VBytes dg) (VBytes (ur j))).
Proof.
  intros mode c o ur d dg EN Ld Ldg. pose proof (new_shaped mode c o EN) as HS. split.
  - intros H n. rewrite sign_generated by assumption. rewrite rand_loop_never; [reflexivity|]. intros l. rewrite <- number_eq. apply H.
  - intros j NE HJ HA n Hn. rewrite sign_generated, sign_given by assumption. rewrite (rand_loop_finds o ur j 0 n).
    + reflexivity.
    + intros l Hl. rewrite <- number_eq. apply HA. lia.
    + rewrite <- number_eq. exact HJ.
    + exact Hn.
Qed.
Print Assumptions C87_sign_random.
Theorem C87_public_exact : forall mode c o d, sig_new mode c = Ok o -> bytes_ok d -> len d = s_size o -> let call := fun n => public_key_generate o n (VBytes d) in
  (number d = 0 -> diverges call) /\ (number d <> 0 -> exists pk, eventually call (Returns pk)).
Proof.
  intros mode c o d EN Od Ld call. pose proof (new_shaped mode c o EN) as [HS HQ]. unfold call. rewrite number_eq. pose proof (bytearray_to_int_bound d Od) as HB. rewrite Ld in HB. split.
  - intros E n. unfold public_key_generate, check_value. rewrite Ld, Z.eqb_refl. cbn [negb]. rewrite mul_point_diverges by lia. reflexivity.
  - intros NE. destruct (mul_point_ends o (bytearray_to_int d) (-1) (-1) ltac:(lia) ltac:(lia)) as (xy & Hxy). eexists. exists (iters o). intros n Hn. unfold public_key_generate, check_value. rewrite Ld, Z.eqb_refl. cbn [negb]. rewrite Hxy by exact Hn. cbn [bindO]. reflexivity.
Qed.
Print Assumptions C87_public_exact.
(** An object for the witnesses: the built-in curve paramSetB of 256 bits. *)
Lemma a_new : exists o, sig_new MODE_256 curve_2012_256_paramSetB = Ok o /\ o = sig_attrs MODE_256 curve_2012_256_paramSetB.
Proof.
  eexists. split; [|reflexivity]. rewrite sig_new_known by (left; reflexivity). apply sig_init_ok; [left; reflexivity|]. split; [vm_compute; reflexivity|].
  constructor; [vm_compute; discriminate | vm_compute; discriminate | vm_compute; reflexivity|]. left. split; [reflexivity|]. vm_compute. split; discriminate.
Qed.
Definition sign_terminates : Prop := forall mode c o ur d dg rk, sig_new mode c = Ok o -> bytes_ok d -> bytes_ok dg -> bytes_ok rk -> rk <> [] -> len d = s_size o -> len dg = s_size o ->
  exists n, sign o n ur (VBytes d) (VBytes dg) (VBytes rk) <> OutOfFuel.
Theorem C87_sign_terminates_refuted : ~ sign_terminates.
Proof.
  intros H. destruct a_new as (o & EN & ->). assert (OK : bytes_ok (repeat 0 32)) by (repeat constructor; lia).
  destruct (H _ _ _ (fun _ => []) (repeat 0 32) (repeat 0 32) [0] EN OK OK ltac:(repeat constructor; lia) ltac:(discriminate) eq_refl eq_refl) as [n HN].
  destruct (C87_sign_exact _ _ _ (fun _ => []) (repeat 0 32) (repeat 0 32) [0] EN ltac:(repeat constructor; lia) ltac:(discriminate) eq_refl eq_refl) as (_ & H2 & _). apply HN. apply H2. reflexivity.
Qed.
Print Assumptions C87_sign_terminates_refuted.
Definition public_terminates : Prop := forall mode c o d, sig_new mode c = Ok o -> bytes_ok d -> len d = s_size o -> exists n, public_key_generate o n (VBytes d) <> OutOfFuel.
Theorem C87_public_terminates_refuted : ~ public_terminates.
Proof.
  intros H. destruct a_new as (o & EN & ->). assert (OK : bytes_ok (repeat 0 32)) by (repeat constructor; lia). destruct (H _ _ _ (repeat 0 32) EN OK eq_refl) as [n HN].
  destruct (C87_public_exact _ _ _ (repeat 0 32) EN OK eq_refl) as [H1 _]. apply HN. apply H1. vm_compute. reflexivity.
Qed.
Print Assumptions C87_public_terminates_refuted.
Example C87_example : sign toy 9 (fun _ => []) (VBytes [3]) (VBytes [26]) (VBytes [7]) = OutOfFuel /\ _mul_point toy 9 7 (-1) (-1) = Returns (0, 6) /\
  sign toy 9 (fun i => match i with 0%nat => [200] | 1%nat => [19] | _ => [10] end) (VBytes [3]) (VBytes [26]) (VBytes []) = Returns [7; 15].
Proof. repeat match goal with |- _ /\ _ => split end; vm_compute; reflexivity. Qed.

(** C88: what the constructor accepts. *)
Theorem C88_accepts : forall mode c, mode = MODE_256 \/ mode = MODE_512 ->
  (exists o, sig_new mode c = Ok o) <-> exists o, _edvards_to_canonical (sig_attrs mode c) = Ok o /\
    s_m o <> s_p o /\ s_p o <> 0 /\ (s_y o * s_y o) mod s_p o = (s_x o * s_x o * s_x o + s_a o * s_x o + s_b o) mod s_p o /\
    ((mode = MODE_256 /\ 2 ^ 254 <= s_q o <= 2 ^ 256) \/ (mode = MODE_512 /\ 2 ^ 508 <= s_q o <= 2 ^ 512)).
Proof.
  intros mode c K. rewrite sig_new_known by exact K. split; intros [o H]; exists o.
  - apply (sig_init_ok mode c o K) in H. destruct H as [H A]. split; [exact H|]. destruct A. repeat split; assumption.
  - apply (sig_init_ok mode c o K). destruct H as (H & A1 & A2 & A3 & A4). split; [exact H|]. constructor; assumption.
Qed.
Print Assumptions C88_accepts.
(** A curve in the Weierstrass form: the object has exactly the given numbers. *)
Theorem C88_weierstrass : forall mode c, mode = MODE_256 \/ mode = MODE_512 -> let o := sig_attrs mode c in ~ (s_a o = 0 /\ s_b o = 0 /\ s_x o = 0 /\ s_y o = 0) ->
  (sig_new mode c = Ok o <-> s_m o <> s_p o /\ s_p o <> 0 /\ (s_y o * s_y o) mod s_p o = (s_x o * s_x o * s_x o + s_a o * s_x o + s_b o) mod s_p o /\
    ((mode = MODE_256 /\ 2 ^ 254 <= s_q o <= 2 ^ 256) \/ (mode = MODE_512 /\ 2 ^ 508 <= s_q o <= 2 ^ 512))) /\
  (forall o', sig_new mode c = Ok o' -> o' = o).
Proof.
  intros mode c K o NW. assert (EC : _edvards_to_canonical o = Ok o).
  { unfold _edvards_to_canonical. destruct ((s_a o =? 0) && (s_b o =? 0) && (s_x o =? 0) && (s_y o =? 0)) eqn:EB; [|reflexivity]. exfalso. apply NW. rewrite !andb_true_iff, !Z.eqb_eq in EB. tauto. }
  rewrite sig_new_known by exact K. split.
  - rewrite (sig_init_ok mode c o K). split.
    + intros [_ A]. destruct A. repeat split; assumption.
    + intros (A1 & A2 & A3 & A4). split; [exact EC | constructor; assumption].
  - intros o' E. apply (sig_init_ok mode c o' K) in E. destruct E as [E _]. fold o in E. rewrite EC in E. injection E as <-. reflexivity.
Qed.
Print Assumptions C88_weierstrass.
Theorem C88_errors : forall mode c e, sig_new mode c = Err e ->
  (~ (mode = MODE_256 \/ mode = MODE_512) /\ e = GOSTSignatureError "GOSTSignatureError: unsupported signature mode") \/
  ((mode = MODE_256 \/ mode = MODE_512) /\ (e = GOSTSignatureError "GOSTSignatureError: invalid parameters of the elliptic curve" \/ (e = ZeroDivisionError /\ (c_p c = Some 0 \/ c_q c = Some 0)))).
Proof.
  intros mode c e H. unfold sig_new in H. destruct ((mode =? MODE_256) || (mode =? MODE_512)) eqn:EM; cbn [negb] in H.
  - right. apply orb_true_iff in EM. rewrite !Z.eqb_eq in EM. split; [exact EM|]. apply sig_init_err in H. destruct H as [->|[-> H]]; [left; reflexivity|]. right. split; [reflexivity|].
    cbn [sig_attrs s_p s_q] in H. unfold get in H. destruct H as [H|H]; [left | right]; [destruct (c_p c) | destruct (c_q c)]; congruence.
  - left. injection H as <-. split; [|reflexivity]. apply orb_false_iff in EM. rewrite !Z.eqb_neq in EM. tauto.
Qed.
Print Assumptions C88_errors.
(** The documented condition p^i <> 1 (mod q) is not enforced, and neither is primality. *)
Definition mov_enforced : Prop := forall mode c o, sig_new mode c = Ok o -> forall i, 1 <= i <= 31 -> s_p o ^ i mod s_q o <> 1.
Definition primality_enforced : Prop := forall mode c o, sig_new mode c = Ok o -> prime (s_p o) /\ prime (s_q o).
Definition weak_curve : curve := {| c_p := Some (2 ^ 255 + 1); c_a := Some 1; c_b := Some 0; c_e := None; c_d := None; c_m := Some (2 ^ 255); c_q := Some (2 ^ 255); c_x := Some 0; c_y := Some 0; c_u := None; c_v := None |}.
Lemma weak_new : sig_new MODE_256 weak_curve = Ok (sig_attrs MODE_256 weak_curve).
Proof.
  apply (C88_weierstrass MODE_256 weak_curve (or_introl eq_refl)); [intros (H & _); vm_compute in H; discriminate H|].
  split; [vm_compute; discriminate|]. split; [vm_compute; discriminate|]. split; [vm_compute; reflexivity|]. left. split; [reflexivity|]. vm_compute. split; discriminate.
Qed.
Theorem C88_mov_refuted : ~ mov_enforced.
Proof. intros H. apply (H _ _ _ weak_new 1 ltac:(lia)). vm_compute. reflexivity. Qed.
Print Assumptions C88_mov_refuted.
Theorem C88_primality_refuted : ~ primality_enforced.
Proof.
  intros H. destruct (H _ _ _ weak_new) as [_ HQ]. assert (D : (2 | s_q (sig_attrs MODE_256 weak_curve))) by (exists (2 ^ 254); vm_compute; reflexivity).
  apply (prime_divisors _ HQ) in D. vm_compute in D. destruct D as [D|[D|[D|D]]]; discriminate D.
Qed.
Print Assumptions C88_primality_refuted.
Example C88_example : (exists o, sig_new MODE_256 curve_2012_256_paramSetB = Ok o) /\ sig_new 3 weak_curve = Err (GOSTSignatureError "GOSTSignatureError: unsupported signature mode").
Proof. split; [destruct a_new as (o & E & _); exists o; exact E | reflexivity]. Qed.

(** C90. *)
Theorem C90_conversion : forall o, prime (s_p o) -> 3 < s_p o -> s_a o = 0 /\ s_b o = 0 /\ s_x o = 0 /\ s_y o = 0 ->
  (s_e o * (s_u o * s_u o) + s_v o * s_v o) mod s_p o = (1 + s_d o * ((s_u o * s_u o) * (s_v o * s_v o))) mod s_p o -> s_u o mod s_p o <> 0 -> s_v o mod s_p o <> 1 ->
  exists o', _edvards_to_canonical o = Ok o' /\ s_p o' = s_p o /\ s_q o' = s_q o /\ s_m o' = s_m o /\ 0 <= s_a o' < s_p o /\ 0 <= s_b o' < s_p o /\ 0 <= s_x o' < s_p o /\ 0 <= s_y o' < s_p o /\
  (s_y o' * s_y o') mod s_p o = (s_x o' * s_x o' * s_x o' + s_a o' * s_x o' + s_b o') mod s_p o.
Proof.
  intros o HP H3 E0 HE NU NV. destruct (canonical_is o HP H3 E0) as (o' & EO & _ & _ & EP & EM & EQ & RA & RB & RX & RY & _). exists o'. split; [exact EO|]. split; [exact EP|]. split; [exact EQ|]. split; [exact EM|]. do 4 (split; [assumption|]).
  destruct (canonical_on o HP H3 E0 HE NU NV) as (o2 & EO2 & ON). rewrite EO in EO2. injection EO2 as <-. unfold ec_on, aff in ON. cbn [on_curve] in ON. rewrite <- !mk_mul, <- !mk_add in ON. apply mk_eq in ON. exact ON.
Qed.
Print Assumptions C90_conversion.
Theorem C90_only_edwards : forall o, ~ (s_a o = 0 /\ s_b o = 0 /\ s_x o = 0 /\ s_y o = 0) -> _edvards_to_canonical o = Ok o.
Proof.
  intros o NW. unfold _edvards_to_canonical. destruct ((s_a o =? 0) && (s_b o =? 0) && (s_x o =? 0) && (s_y o =? 0)) eqn:EB; [|reflexivity]. exfalso. apply NW. rewrite !andb_true_iff, !Z.eqb_eq in EB. tauto.
Qed.
Print Assumptions C90_only_edwards.
(** The numbers are those of the birational map: with s = (e - d)/4 and t = (e + d)/6, a = s^2 - 3 t^2, b = 2 t^3 - t s^2, x = s (1 + v)/(1 - v) + t and y = s (1 + v)/((1 - v) u). *)
Theorem C90_formulas : forall o o', prime (s_p o) -> 3 < s_p o -> s_a o = 0 /\ s_b o = 0 /\ s_x o = 0 /\ s_y o = 0 -> _edvards_to_canonical o = Ok o' -> let p := s_p o in
  exists s t, (4 * s) mod p = (s_e o - s_d o) mod p /\ (6 * t) mod p = (s_e o + s_d o) mod p /\
  s_a o' mod p = (s * s - 3 * (t * t)) mod p /\ s_b o' mod p = (2 * (t * t * t) - t * (s * s)) mod p /\
  (s_v o mod p <> 1 -> ((s_x o' - t) * (1 - s_v o)) mod p = (s * (1 + s_v o)) mod p) /\
  (s_v o mod p <> 1 -> s_u o mod p <> 0 -> (s_y o' * ((1 - s_v o) * s_u o)) mod p = (s * (1 + s_v o)) mod p).
Proof.
  intros o o' HP H3 (A & B & X & Y) EO p. unfold _edvards_to_canonical, py_mod in EO. rewrite A, B, X, Y in EO. change ((0 =? 0) && (0 =? 0) && (0 =? 0) && (0 =? 0)) with true in EO. cbv iota in EO.
  fold p in EO, HP, H3. replace (p =? 0) with false in EO by lia. cbn [bind] in EO. apply (f_equal (fun z => match z with Ok w => w | Err _ => o' end)) in EO. cbv beta iota in EO. rewrite <- EO. cbn [s_a s_b s_x s_y]. clear EO.
  set (s := ((s_e o - s_d o) * _invert 4 p) mod p). set (t := ((s_e o + s_d o) * _invert 6 p) mod p). exists s, t.
  assert (INV : forall w z, ~ (p | w) -> (w * (z * _invert w p)) mod p = z mod p).
  { intros w z NW. replace (w * (z * _invert w p)) with (z * (w * _invert w p)) by lia. rewrite <- Zmult_mod_idemp_r. rewrite (proj1 (proj2 (C79_inverse p w HP)) NW). now rewrite Z.mul_1_r. }
  assert (ND : forall w, w mod p <> 0 -> ~ (p | w)) by (intros w NW D; apply NW; apply Z.mod_divide; [lia | exact D]).
  assert (N4 : ~ (p | 4)).
  { intros D. change 4 with (2 * 2) in D. apply (prime_mult p HP) in D. destruct D as [D|D]; apply Z.divide_pos_le in D; lia. }
  assert (N6 : ~ (p | 6)).
  { intros D. change 6 with (2 * 3) in D. apply (prime_mult p HP) in D. destruct D as [D|D]; apply Z.divide_pos_le in D; lia. }
  assert (NV : s_v o mod p <> 1 -> ~ (p | 1 - s_v o)).
  { intros NV [c Hc]. apply NV. replace (s_v o) with (1 + (- c) * p) by lia. rewrite Z.mod_add by lia. apply Z.mod_small. lia. }
  split; [unfold s; rewrite Zmult_mod_idemp_r; now apply INV|]. split; [unfold t; rewrite Zmult_mod_idemp_r; now apply INV|].
  split; [rewrite Z.mod_mod by lia; f_equal; ring|]. split; [rewrite Z.mod_mod by lia; f_equal; ring|]. split.
  - intros HV. rewrite <- Zmult_mod_idemp_l, <- Zminus_mod_idemp_l, Z.mod_mod, Zminus_mod_idemp_l, Zmult_mod_idemp_l by lia.
    replace (s * (1 + s_v o) * _invert (1 - s_v o) p + t - t) with (s * (1 + s_v o) * _invert (1 - s_v o) p) by lia. rewrite Z.mul_comm. now apply INV, NV.
  - intros HV HU. rewrite Zmult_mod_idemp_l, Z.mul_comm. apply INV. intros D. apply (prime_mult p HP) in D. destruct D as [D|D]; [exact (NV HV D) | exact (ND _ HU D)].
Qed.
Print Assumptions C90_formulas.
Definition toy_edwards : sig_obj := {| s_size := 1; s_oid := ""; s_p := 13; s_a := 0; s_b := 0; s_e := 1; s_d := 2; s_m := 8; s_q := 5; s_x := 0; s_y := 0; s_u := 4; s_v := 4 |}.
Lemma prime_13 : prime 13.
Proof. apply (prime_small 10); [lia | vm_compute; reflexivity]. Qed.
Example C90_example : exists o', _edvards_to_canonical toy_edwards = Ok o' /\ (s_a o', s_b o', s_x o', s_y o') <> (0, 0, 0, 0) /\ prime (s_p toy_edwards) /\
  (s_e toy_edwards * (s_u toy_edwards * s_u toy_edwards) + s_v toy_edwards * s_v toy_edwards) mod 13 = (1 + s_d toy_edwards * ((s_u toy_edwards * s_u toy_edwards) * (s_v toy_edwards * s_v toy_edwards))) mod 13.
Proof. eexists. split; [vm_compute; reflexivity|]. split; [discriminate|]. split; [exact prime_13 | vm_compute; reflexivity]. Qed.

(** C91. *)
Definition ok_val (v : pyval) : Prop := match v with VBytes l => bytes_ok l | _ => True end.
Theorem C91_shape : forall mode c o n ur d dg rk sg, sig_new mode c = Ok o -> ok_val rk -> (forall i, bytes_ok (ur i)) -> sign o n ur d dg rk = Returns sg ->
  len sg = 2 * s_size o /\ exists r s, 0 < r < s_q o /\ 0 < s < s_q o /\ sg = encode (s_size o) r s.
Proof.
  intros mode c o n ur d dg rk sg EN Ork Our E. pose proof (new_shaped mode c o EN) as HS. destruct HS as [S1 S2]. assert (HS : shaped o) by (split; assumption).
  destruct (check_value d (s_size o)) eqn:C1; [|unfold sign in E; rewrite C1 in E; discriminate E]. destruct d as [d| | |]; try discriminate C1.
  destruct (check_value dg (s_size o)) eqn:C2; [|unfold sign in E; rewrite C1, C2 in E; discriminate E]. destruct dg as [dg| | |]; try discriminate C2.
  apply check_value_iff in C1, C2. cbn [octets_of] in C1, C2.
  assert (HW : exists k, bytes_ok k /\ sign_with o n d dg k = Returns sg).
  { destruct rk as [rk| | |].
    - destruct (sign_returns o n ur d dg rk sg HS C1 C2 E) as (k & HN & EW). exists k. split; [destruct HN as [[_ ->]|(_ & i & ->)]; [exact Ork | apply Our] | exact EW].
    - unfold sign, check_value in E. rewrite C1, C2, Z.eqb_refl, set_e_is in E by exact HS. discriminate E.
    - unfold sign, check_value in E. rewrite C1, C2, Z.eqb_refl, set_e_is in E by exact HS. discriminate E.
    - unfold sign, check_value in E. rewrite C1, C2, Z.eqb_refl, set_e_is in E by exact HS. discriminate E. }
  destruct HW as (k & Ok & EW). destruct (sign_with_returns o n d dg k sg HS Ok EW) as (_ & x & y & _ & N1 & N2 & ->).
  set (s := sig_s o x (bytearray_to_int d) (bytearray_to_int k) (gost_e (s_q o) (bytearray_to_int dg))) in *.
  assert (B1 : 0 <= sig_r o x < s_q o) by (apply Z.mod_pos_bound; lia). assert (B2 : 0 <= s < s_q o) by (apply Z.mod_pos_bound; lia).
  split; [rewrite pair_len by lia; lia|]. exists (sig_r o x), s. split; [lia|]. split; [lia|]. symmetry. apply encode_eq. lia.
Qed.
Print Assumptions C91_shape.
Example C91_example : exists o r, sig_new MODE_256 curve_2012_256_paramSetB = Ok o /\ sign o 257 (fun _ => []) (VBytes (repeat 0 31 ++ [2])) (VBytes (repeat 0 31 ++ [5])) (VBytes [1]) = Returns r /\ len r = 64.
Proof.
  destruct a_new as (o & E & EO). assert (HS : shaped o) by exact (new_shaped _ _ _ E).
  assert (HR : exists r, sign o 257 (fun _ => []) (VBytes (repeat 0 31 ++ [2])) (VBytes (repeat 0 31 ++ [5])) (VBytes [1]) = Returns r).
  { eexists. rewrite sign_given by (exact HS || (rewrite EO; vm_compute; (reflexivity || discriminate)) || discriminate).
    destruct (sign_with_exact o (repeat 0 31 ++ [2]) (repeat 0 31 ++ [5]) [1] HS ltac:(repeat constructor; lia)) as (_ & _ & H3). cbv zeta in H3.
    destruct H3 as (x & y & Hxy & HO & _ & _); [rewrite EO; vm_compute; split; reflexivity|]. specialize (Hxy (iters o) (Nat.le_refl _)). unfold _mul_point in Hxy.
    change (bytearray_to_int [1] - 1) with 0 in Hxy. rewrite mul_loop_done in Hxy. change ((-1 >? 0) && (-1 >? 0)) with false in Hxy. cbv iota in Hxy. injection Hxy as <- <-.
    apply HO; [rewrite EO; vm_compute; discriminate | rewrite EO; vm_compute; discriminate | rewrite EO; apply Nat.ltb_lt; vm_compute; reflexivity]. }
  destruct HR as [r HR]. exists o, r. split; [exact E|]. split; [exact HR|].
  destruct (C91_shape _ _ _ _ (fun _ => []) _ _ (VBytes [1]) _ E ltac:(repeat constructor; lia) ltac:(intros i; constructor) HR) as [HL _]. rewrite HL, EO. reflexivity.
Qed.

(** C92: only the reduced digest matters. *)
Theorem C92_sign : forall mode c o n ur d dg dg' rk, sig_new mode c = Ok o -> len dg = s_size o -> len dg' = s_size o -> gost_e (s_q o) (number dg) = gost_e (s_q o) (number dg') ->
  sign o n ur d (VBytes dg) rk = sign o n ur d (VBytes dg') rk.
Proof.
  intros mode c o n ur d dg dg' rk EN L L' E. pose proof (new_shaped mode c o EN) as HS. rewrite !number_eq in E. unfold sign, check_value. rewrite L, L', Z.eqb_refl, !set_e_is, E by exact HS. reflexivity.
Qed.
Print Assumptions C92_sign.
Theorem C92_verify : forall mode c o n pk dg dg' sg, sig_new mode c = Ok o -> len dg = s_size o -> len dg' = s_size o -> gost_e (s_q o) (number dg) = gost_e (s_q o) (number dg') ->
  verify o n pk (VBytes dg) sg = verify o n pk (VBytes dg') sg.
Proof.
  intros mode c o n pk dg dg' sg EN L L' E. pose proof (new_shaped mode c o EN) as HS. rewrite !number_eq in E. unfold verify, check_value. rewrite L, L', Z.eqb_refl, !set_e_is, E by exact HS. reflexivity.
Qed.
Print Assumptions C92_verify.
(** In particular digests that differ by a multiple of [q], and 0, [q] and 1. *)
Theorem C92_classes : forall q v v', 1 < q -> (v mod q = v' mod q -> gost_e q v = gost_e q v') /\ gost_e q 0 = gost_e q 1 /\ gost_e q q = gost_e q 1 /\
  (gost_e q v = gost_e q v' -> v mod q = v' mod q \/ (v mod q = 0 /\ v' mod q = 1) \/ (v mod q = 1 /\ v' mod q = 0)).
Proof.
  intros q v v' H. unfold gost_e. split; [intros ->; reflexivity|]. rewrite Z.mod_0_l, Z_mod_same_full, (Z.mod_small 1) by lia. split; [reflexivity|]. split; [reflexivity|].
  destruct (Z.eqb_spec (v mod q) 0), (Z.eqb_spec (v' mod q) 0); lia.
Qed.
Print Assumptions C92_classes.
Example C92_example : sign toy 9 (fun _ => []) (VBytes [3]) (VBytes [0]) (VBytes [10]) = sign toy 9 (fun _ => []) (VBytes [3]) (VBytes [1]) (VBytes [10]) /\ sign toy 9 (fun _ => []) (VBytes [3]) (VBytes [0]) (VBytes [10]) = Returns [7; 12].
Proof. split; vm_compute; reflexivity. Qed.

(** C93. *)
Theorem C93_key_mod_q : forall mode c o n ur d d' dg rk, sig_new mode c = Ok o -> len d = s_size o -> len d' = s_size o -> number d mod s_q o = number d' mod s_q o ->
  sign o n ur (VBytes d) dg rk = sign o n ur (VBytes d') dg rk.
Proof.
  intros mode c o n ur d d' dg rk EN L L' E. pose proof (new_shaped mode c o EN) as HS. rewrite !number_eq in E.
  assert (EO : forall m k e r s kk, sign_outer o m d k e r s kk = sign_outer o m d' k e r s kk).
  { induction m as [|m IH]; intros k e r s kk; cbn [sign_outer]; [reflexivity|]. destruct (liftO (compare_to_zero (int_to_bytearray s (s_size o)))) as [[|]| |]; cbn [bindO]; try reflexivity.
    destruct (sign_inner o (S m) k r kk) as [rk1| |]; cbn [bindO]; try reflexivity. rewrite IH. f_equal. rewrite Zplus_mod, <- (Zmult_mod_idemp_r (bytearray_to_int d)), E, Zmult_mod_idemp_r, <- Zplus_mod. reflexivity. }
  unfold sign, check_value. rewrite L, L', Z.eqb_refl. cbn [negb]. destruct dg as [dg| | |]; try reflexivity. destruct (negb (len dg =? s_size o)); [reflexivity|]. destruct (liftO (_set_e o dg)) as [e| |]; cbn [bindO]; try reflexivity.
  destruct (match rk with VBytes [] => _ | _ => _ end) as [[k| | |]| |]; cbn [bindO]; try reflexivity. destruct (bytearray_to_int k >=? s_q o); [reflexivity|]. rewrite EO. reflexivity.
Qed.
Print Assumptions C93_key_mod_q.
(** No private key of the right length is refused. *)
Theorem C93_not_rejected : forall mode c o n ur d dg rk, sig_new mode c = Ok o -> len d = s_size o -> sign o n ur (VBytes d) dg rk <> Raises (GOSTSignatureError "GOSTSignatureError: invalid private key value").
Proof.
  intros mode c o n ur d dg rk EN L H. apply C85_sign_errors in H; [|exact (new_shaped mode c o EN)]. destruct H as [[H _]|[(_ & _ & H)|(_ & _ & _ & H)]]; [exact (H L) | discriminate H | discriminate H].
Qed.
Print Assumptions C93_not_rejected.
Example C93_example : sign toy 9 (fun _ => []) (VBytes [3]) (VBytes [26]) (VBytes [10]) = sign toy 9 (fun _ => []) (VBytes [22]) (VBytes [26]) (VBytes [10]) /\ number [22] mod 19 = number [3] mod 19.
Proof. split; vm_compute; reflexivity. Qed.

(** C94: with [w] the inverse of [r (e2 - e1)], the private key is [(s1 e2 - s2 e1) w] modulo [q]. *)
Theorem C94_nonce_reuse : forall mode c o n n' ur ur' d dg1 dg2 rk sg1 sg2, sig_new mode c = Ok o -> bytes_ok rk -> rk <> [] -> len d = s_size o -> len dg1 = s_size o -> len dg2 = s_size o ->
  sign o n ur (VBytes d) (VBytes dg1) (VBytes rk) = Returns sg1 -> sign o n' ur' (VBytes d) (VBytes dg2) (VBytes rk) = Returns sg2 ->
  let e1 := gost_e (s_q o) (number dg1) in let e2 := gost_e (s_q o) (number dg2) in
  exists r s1 s2, 0 < r < s_q o /\ 0 < s1 < s_q o /\ 0 < s2 < s_q o /\ sg1 = encode (s_size o) r s1 /\ sg2 = encode (s_size o) r s2 /\
  (forall w, (r * (e2 - e1) * w) mod s_q o = 1 mod s_q o -> number d mod s_q o = ((s1 * e2 - s2 * e1) * w) mod s_q o) /\
  (prime (s_q o) -> e1 <> e2 -> exists w, (r * (e2 - e1) * w) mod s_q o = 1 mod s_q o).
Proof.
  intros mode c o n n' ur ur' d dg1 dg2 rk sg1 sg2 EN Ork N Ld L1 L2 E1 E2 e1 e2. pose proof (new_shaped mode c o EN) as HS. destruct HS as [S1 S2]. assert (HS : shaped o) by (split; assumption).
  rewrite sign_given in E1, E2 by assumption. destruct (sign_with_returns o n d dg1 rk sg1 HS Ork E1) as (HK & x & y & Hxy & N1 & N2 & ->). destruct (sign_with_returns o n' d dg2 rk sg2 HS Ork E2) as (_ & x' & y' & Hxy' & N1' & N2' & ->).
  specialize (Hxy (iters o) (Nat.le_refl _)). rewrite Hxy' in Hxy by lia. injection Hxy as -> ->. unfold e1, e2 in *. rewrite !number_eq. clear e1 e2. set (e1 := gost_e (s_q o) (bytearray_to_int dg1)) in *. set (e2 := gost_e (s_q o) (bytearray_to_int dg2)) in *.
  set (k := bytearray_to_int rk) in *. set (D := bytearray_to_int d) in *. set (r := sig_r o x) in *. set (s1 := sig_s o x D k e1) in *. set (s2 := sig_s o x D k e2) in *. set (q := s_q o) in *.
  exists r, s1, s2. assert (B0 : 0 <= r < q) by (apply Z.mod_pos_bound; lia). assert (B1 : 0 <= s1 < q) by (apply Z.mod_pos_bound; lia). assert (B2 : 0 <= s2 < q) by (apply Z.mod_pos_bound; lia).
  split; [lia|]. split; [lia|]. split; [lia|]. split; [symmetry; apply encode_eq; lia|]. split; [symmetry; apply encode_eq; lia|]. split.
  - intros w Hw. pose proof (Z.div_mod (r * D + k * e1) q ltac:(lia)) as M1. pose proof (Z.div_mod (r * D + k * e2) q ltac:(lia)) as M2.
    change ((r * D + k * e1) mod q) with s1 in M1. change ((r * D + k * e2) mod q) with s2 in M2. set (c1 := (r * D + k * e1) / q) in *. set (c2 := (r * D + k * e2) / q) in *.
    replace ((s1 * e2 - s2 * e1) * w) with (D * (r * (e2 - e1) * w) + (c2 * e1 - c1 * e2) * w * q) by (replace s1 with (r * D + k * e1 - q * c1) by lia; replace s2 with (r * D + k * e2 - q * c2) by lia; ring).
    rewrite Z.mod_add by lia. rewrite <- Zmult_mod_idemp_r, Hw, Zmult_mod_idemp_r, Z.mul_1_r. reflexivity.
  - intros HP NE. exists (_invert (r * (e2 - e1)) q). pose proof (prime_ge_2 q HP). rewrite (Z.mod_small 1) by lia. apply (proj1 (proj2 (C79_inverse q (r * (e2 - e1)) HP))). intros DV. apply (prime_mult q HP) in DV.
    assert (R1 : 0 < e1 < q) by (apply gost_e_range; lia). assert (R2 : 0 < e2 < q) by (apply gost_e_range; lia).
    destruct DV as [DV|DV]; [apply Z.divide_pos_le in DV; lia|]. apply Z.divide_abs_r in DV. apply Z.divide_pos_le in DV; lia.
Qed.
Print Assumptions C94_nonce_reuse.
Example C94_example : sign toy 9 (fun _ => []) (VBytes [3]) (VBytes [2]) (VBytes [10]) = Returns [7; 3] /\ sign toy 9 (fun _ => []) (VBytes [3]) (VBytes [5]) (VBytes [10]) = Returns [7; 14] /\
  (7 * (5 - 2) * 10) mod 19 = 1 /\ ((3 * 5 - 14 * 2) * 10) mod 19 = 3.
Proof. repeat match goal with |- _ /\ _ => split end; vm_compute; reflexivity. Qed.

(** C95. *)
Theorem C95_public_key : forall o d, usable o -> len d = s_size o -> 1 <= number d < s_q o ->
  exists x y, eventually (fun n => public_key_generate o n (VBytes d)) (Returns (encode (s_size o) x y)) /\ 0 <= x < s_p o /\ 0 < y < s_p o /\
  aff (s_p o) x y = ec_mul (s_p o) (s_a o) (number d) (base o) /\ gost_key (s_p o) (s_a o) (s_b o) (s_q o) (aff (s_p o) x y) /\ (y * y) mod s_p o = (x * x * x + s_a o * x + s_b o) mod s_p o.
Proof.
  intros o d U Ld Hd. pose proof Hd as Hd'. rewrite number_eq in Hd'. destruct (public_eventually o U d Ld Hd') as (x & y & RX & RY & EA & EP). rewrite <- number_eq in EA. unfold times in EA. exists x, y.
  pose proof (key_multiple o U (number d) Hd) as HK. unfold times in HK. rewrite <- EA in HK. pose proof (key_y_ne o U x y HK) as NY. rewrite Z.mod_small in NY by exact RY. unfold reduced in *.
  split; [exact EP|]. split; [exact RX|]. split; [lia|]. split; [exact EA|]. split; [exact HK|]. destruct HK as (_ & ON & _). unfold ec_on, aff in ON. cbn [on_curve] in ON. rewrite <- !mk_mul, <- !mk_add in ON. apply mk_eq in ON. exact ON.
Qed.
Print Assumptions C95_public_key.
(** Different private keys in the range have different public keys. *)
Theorem C95_injective : forall o d d' pk, usable o -> len d = s_size o -> len d' = s_size o -> 1 <= number d < s_q o -> 1 <= number d' < s_q o ->
  eventually (fun n => public_key_generate o n (VBytes d)) (Returns pk) -> eventually (fun n => public_key_generate o n (VBytes d')) (Returns pk) -> number d = number d'.
Proof.
  intros o d d' pk U L L' H H' E E'. destruct (C95_public_key o d U L H) as (x & y & P & RX & RY & EA & _). destruct (C95_public_key o d' U L' H') as (x' & y' & P' & RX' & RY' & EA' & _).
  pose proof (eventually_unique _ _ _ E P) as F. pose proof (eventually_unique _ _ _ E' P') as F'. rewrite F' in F. injection F as F. pose proof (g_p_fits _ _ _ _ _ _ _ U) as PF.
  apply (encode_inj (s_size o)) in F; [|apply (size_ge o U)|lia|lia|lia|lia]. destruct F as [-> ->]. rewrite EA in EA'. destruct (G_key o U) as (K1 & K2 & K3).
  apply (mul_inj_q (s_p o) (s_a o) (s_b o) (g_p_prime _ _ _ _ _ _ _ U) (g_p_odd _ _ _ _ _ _ _ U) (g_disc _ _ _ _ _ _ _ U) (s_q o) (g_q_prime _ _ _ _ _ _ _ U) (base o) K2 K1 K3) in EA'; [|lia|lia].
  rewrite !Z.mod_small in EA' by lia. exact EA'.
Qed.
Print Assumptions C95_injective.
Example C95_example : public_key_generate toy 8 (VBytes [18]) = Returns [5; 16] /\ (16 * 16) mod 17 = (5 * 5 * 5 + 2 * 5 + 2) mod 17.
Proof. split; vm_compute; reflexivity. Qed.
