(** * The signature object: the constructor *)
From Coq Require Import ZArith Znumtheory Field_theory Field Lia String.
From Verif Require Import PyBase PyFacts PyLoop Utils UtilsFacts Euclid Fp SpecCurve SpecSign EdwardsMap SigCurves Sig SigLemmas SigArith SigProps.
Open Scope Z_scope.

(** ** The checks *)

Lemma check_p_true o : s_q o <> 0 -> _check_p o = Ok true.
Proof.
  intros N. unfold _check_p, py_mod. replace (s_q o =? 0) with false by lia. generalize (py_range 1 (if s_size o =? 64 then 132 else 32) 1). intros l. induction l as [|i l IH]; [reflexivity|].
  cbn [for_ bind]. destruct (_ =? _); cbn [orb]; exact IH.
Qed.
Lemma check_p_zero o : s_q o = 0 -> _check_p o = Err ZeroDivisionError.
Proof.
  intros E. unfold _check_p. assert (exists l, py_range 1 (if s_size o =? 64 then 132 else 32) 1 = 1 :: l) as [l ->] by (destruct (s_size o =? 64); eexists; reflexivity).
  cbn [for_]. unfold py_mod. rewrite E. reflexivity.
Qed.
Definition in_range (o : sig_obj) : bool := (2 ^ (s_size o * 8 - s_size o / 16) <=? s_q o) && (s_q o <=? 2 ^ (s_size o * 8)).
Lemma check_curve_is o : _check_curve o =
  if s_m o =? s_p o then Ok false else if s_p o =? 0 then Err ZeroDivisionError
  else if negb ((s_y o * s_y o) mod s_p o =? (s_x o ^ 3 + s_x o * s_a o + s_b o) mod s_p o) then Ok false
  else if s_q o =? 0 then Err ZeroDivisionError else Ok (in_range o).
Proof.
  unfold _check_curve, _check_p_m, _check_x_y, py_mod. destruct (s_m o =? s_p o); cbn [negb]; [reflexivity|]. destruct (s_p o =? 0); cbn [bind]; [reflexivity|].
  destruct (_ mod _ =? _); cbn [negb bind]; [|reflexivity]. destruct (Z.eqb_spec (s_q o) 0) as [E|N].
  - rewrite check_p_zero by exact E. reflexivity.
  - rewrite check_p_true by exact N. cbn [bind negb]. unfold _check_q, in_range.
    destruct (Z.ltb_spec (s_q o) (2 ^ (s_size o * 8 - s_size o / 16))); cbn [orb negb]; [replace (2 ^ (s_size o * 8 - s_size o / 16) <=? s_q o) with false by lia; reflexivity|].
    replace (2 ^ (s_size o * 8 - s_size o / 16) <=? s_q o) with true by lia. destruct (Z.gtb_spec (s_q o) (2 ^ (s_size o * 8))); cbn [negb andb]; [replace (s_q o <=? 2 ^ (s_size o * 8)) with false by lia | replace (s_q o <=? 2 ^ (s_size o * 8)) with true by lia]; reflexivity.
Qed.
Definition bad_curve : exn := GOSTSignatureError "GOSTSignatureError: invalid parameters of the elliptic curve".
Definition known_mode (mode : Z) : Prop := mode = MODE_256 \/ mode = MODE_512.
Lemma sig_new_known mode c : known_mode mode -> sig_new mode c = sig_init mode c.
Proof. intros [->| ->]; reflexivity. Qed.

(** What an accepted object satisfies, in numbers. *)
Record accepted (mode : Z) (o : sig_obj) : Prop := {
  acc_m : s_m o <> s_p o;
  acc_p : s_p o <> 0;
  acc_on : (s_y o * s_y o) mod s_p o = (s_x o * s_x o * s_x o + s_a o * s_x o + s_b o) mod s_p o;
  acc_q : (mode = MODE_256 /\ 2 ^ 254 <= s_q o <= 2 ^ 256) \/ (mode = MODE_512 /\ 2 ^ 508 <= s_q o <= 2 ^ 512)
}.
Lemma canonical_size o o' : _edvards_to_canonical o = Ok o' -> s_size o' = s_size o /\ s_oid o' = s_oid o /\ s_p o' = s_p o /\ s_m o' = s_m o /\ s_q o' = s_q o.
Proof.
  unfold _edvards_to_canonical, py_mod. destruct (_ && _ && _ && _); [|intros E; injection E as <-; repeat match goal with |- _ /\ _ => split end; reflexivity].
  destruct (s_p o =? 0); cbn [bind]; [discriminate|]. intros E. injection E as <-. repeat match goal with |- _ /\ _ => split end; reflexivity.
Qed.
Lemma attrs_size mode c : known_mode mode -> s_size (sig_attrs mode c) = (if mode =? MODE_256 then 32 else 64).
Proof. reflexivity. Qed.
Lemma cube x : x ^ 3 = x * x * x.
Proof. lia. Qed.
Lemma in_range_iff mode o : known_mode mode -> s_size o = (if mode =? MODE_256 then 32 else 64) ->
  in_range o = true <-> (mode = MODE_256 /\ 2 ^ 254 <= s_q o <= 2 ^ 256) \/ (mode = MODE_512 /\ 2 ^ 508 <= s_q o <= 2 ^ 512).
Proof.
  intros K E. unfold in_range. rewrite E. rewrite andb_true_iff, !Z.leb_le. destruct K as [->| ->].
  - change (MODE_256 =? MODE_256) with true. cbv iota. change (32 * 8 - 32 / 16) with 254. change (32 * 8) with 256. unfold MODE_256, MODE_512. split; [intros H; left; split; [reflexivity | exact H] | intros [[_ H]|[H _]]; [exact H | discriminate H]].
  - change (MODE_512 =? MODE_256) with false. cbv iota. change (64 * 8 - 64 / 16) with 508. change (64 * 8) with 512. unfold MODE_256, MODE_512. split; [intros H; right; split; [reflexivity | exact H] | intros [[H _]|[_ H]]; [discriminate H | exact H]].
Qed.
Lemma sig_init_ok mode c o : known_mode mode -> (sig_init mode c = Ok o <-> _edvards_to_canonical (sig_attrs mode c) = Ok o /\ accepted mode o).
Proof.
  intros K. unfold sig_init. destruct (_edvards_to_canonical (sig_attrs mode c)) as [o'|e] eqn:EC; cbn [bind]; [|split; [discriminate | intros [E _]; discriminate E]].
  apply canonical_size in EC as ES. destruct ES as (ES & _). rewrite attrs_size in ES by exact K. rewrite check_curve_is.
  destruct (Z.eqb_spec (s_m o') (s_p o')) as [E1|N1]; cbn [bind negb]; [split; [discriminate|]; intros [E A]; injection E as <-; destruct A; contradiction|].
  destruct (Z.eqb_spec (s_p o') 0) as [E2|N2]; cbn [bind negb]; [split; [discriminate|]; intros [E A]; injection E as <-; destruct A; contradiction|].
  rewrite cube, (Z.mul_comm (s_x o') (s_a o')).
  destruct (Z.eqb_spec ((s_y o' * s_y o') mod s_p o') ((s_x o' * s_x o' * s_x o' + s_a o' * s_x o' + s_b o') mod s_p o')) as [E3|N3]; cbn [bind negb]; [|split; [discriminate|]; intros [E A]; injection E as <-; destruct A; contradiction].
  assert (HR := in_range_iff mode o' K ES).
  destruct (Z.eqb_spec (s_q o') 0) as [E4|N4]; cbn [bind negb].
  - split; [discriminate|]. intros [E A]. injection E as <-. destruct A as [_ _ _ A]. rewrite E4 in A. destruct A as [[_ A]|[_ A]]; exfalso; destruct A as [A _]; apply (Z.lt_irrefl 0); [apply (Z.lt_le_trans _ (2 ^ 254)) | apply (Z.lt_le_trans _ (2 ^ 508))]; (exact A || reflexivity).
  - destruct (in_range o'); cbn [negb].
    + split; [intros E; injection E as <-; split; [reflexivity|]; constructor; try assumption; now apply HR | intros [E _]; exact E].
    + split; [discriminate|]. intros [E A]. injection E as <-. destruct A as [_ _ _ A]. apply HR in A. discriminate A.
Qed.
(** The two kinds of exception. *)
Lemma sig_init_err mode c e : sig_init mode c = Err e -> e = bad_curve \/ (e = ZeroDivisionError /\ (s_p (sig_attrs mode c) = 0 \/ s_q (sig_attrs mode c) = 0)).
Proof.
  unfold sig_init. destruct (_edvards_to_canonical (sig_attrs mode c)) as [o'|e'] eqn:EC; cbn [bind].
  - apply canonical_size in EC as ES. destruct ES as (_ & _ & EP & _ & EQ). rewrite check_curve_is.
    destruct (s_m o' =? s_p o'); cbn [bind negb]; [intros E; injection E as <-; left; reflexivity|].
    destruct (Z.eqb_spec (s_p o') 0) as [E2|N2]; cbn [bind negb]; [intros E; injection E as <-; right; split; [reflexivity | left; congruence]|].
    destruct (_ mod _ =? _); cbn [bind negb]; [|intros E; injection E as <-; left; reflexivity].
    destruct (Z.eqb_spec (s_q o') 0) as [E4|N4]; cbn [bind negb]; [intros E; injection E as <-; right; split; [reflexivity | right; congruence]|].
    destruct (in_range o'); cbn [negb]; [discriminate | intros E; injection E as <-; left; reflexivity].
  - intros E. injection E as <-. right. revert EC. unfold _edvards_to_canonical, py_mod. destruct (_ && _ && _ && _); [|discriminate].
    destruct (Z.eqb_spec (s_p (sig_attrs mode c)) 0) as [E|N]; cbn [bind]; [intros E1; injection E1 as <-; split; [reflexivity | left; exact E] | discriminate].
Qed.
Lemma new_shaped mode c o : sig_new mode c = Ok o -> shaped o.
Proof.
  intros E. assert (K : known_mode mode).
  { unfold sig_new in E. destruct ((mode =? MODE_256) || (mode =? MODE_512)) eqn:EM; [|discriminate E]. apply orb_true_iff in EM. rewrite !Z.eqb_eq in EM. exact EM. }
  rewrite sig_new_known in E by exact K. apply (sig_init_ok mode c o K) in E. destruct E as [EC A]. apply canonical_size in EC. destruct EC as (ES & _). rewrite attrs_size in ES by exact K.
  destruct A as [_ _ _ [[-> [A1 A2]]|[-> [A1 A2]]]]; unfold shaped; rewrite ES.
  - change (MODE_256 =? MODE_256) with true. cbv iota. split; [reflexivity|]. split; [apply (Z.lt_le_trans _ (2 ^ 254)); [reflexivity | exact A1] | exact A2].
  - change (MODE_512 =? MODE_256) with false. cbv iota. split; [reflexivity|]. split; [apply (Z.lt_le_trans _ (2 ^ 508)); [reflexivity | exact A1] | exact A2].
Qed.

(** ** The conversion of a twisted Edwards curve *)

Definition is_edwards (o : sig_obj) : Prop := s_a o = 0 /\ s_b o = 0 /\ s_x o = 0 /\ s_y o = 0.
Section Edwards.
Variable o : sig_obj.
Notation p := (s_p o).
Hypothesis p_prime : prime p.
Hypothesis p_big : 3 < p.
Hypothesis E0 : is_edwards o.
(** The twisted Edwards curve [e u^2 + v^2 = 1 + d u^2 v^2]. *)
Definition edwards_point_of (p e d u v : Z) : Prop := (e * (u * u) + v * v) mod p = (1 + d * ((u * u) * (v * v))) mod p.
Notation F3 := (fp_add p (fp_add p (mk p 1) (mk p 1)) (mk p 1)).
Notation F2 := (fp_add p (mk p 1) (mk p 1)).
Lemma three_ne0 : F3 <> mk p 0.
Proof. rewrite <- !mk_add. intros E. apply mk_eq in E. rewrite !Z.mod_small in E by lia. discriminate E. Qed.

(** The numbers of the conversion, in the field. *)
Notation s := (fp_div p (fp_sub p (mk p (s_e o)) (mk p (s_d o))) (fp_mul p F2 F2)).
Notation t := (fp_div p (fp_add p (mk p (s_e o)) (mk p (s_d o))) (fp_mul p F2 F3)).
Notation u := (mk p (s_u o)).
Notation v := (mk p (s_v o)).
Notation one := (mk p 1).
Lemma canonical_is : exists o', _edvards_to_canonical o = Ok o' /\ s_size o' = s_size o /\ s_oid o' = s_oid o /\ s_p o' = p /\ s_m o' = s_m o /\ s_q o' = s_q o /\
  reduced p (s_a o') /\ reduced p (s_b o') /\ reduced p (s_x o') /\ reduced p (s_y o') /\
  mk p (s_a o') = fp_sub p (fp_mul p s s) (fp_mul p F3 (fp_mul p t t)) /\
  mk p (s_b o') = fp_sub p (fp_mul p F2 (fp_mul p (fp_mul p t t) t)) (fp_mul p t (fp_mul p s s)) /\
  mk p (s_x o') = fp_add p (fp_div p (fp_mul p s (fp_add p one v)) (fp_sub p one v)) t /\
  mk p (s_y o') = fp_div p (fp_mul p s (fp_add p one v)) (fp_mul p (fp_sub p one v) u).
Proof.
  destruct E0 as (A & B & X & Y). unfold _edvards_to_canonical, py_mod. rewrite A, B, X, Y. change ((0 =? 0) && (0 =? 0) && (0 =? 0) && (0 =? 0)) with true. cbv iota.
  replace (p =? 0) with false by lia. cbn [bind]. eexists. split; [reflexivity|]. cbn [s_size s_oid s_p s_m s_q s_a s_b s_x s_y].
  do 5 (split; [reflexivity|]). assert (MB : forall z, reduced p (z mod p)) by (intros z; apply Z.mod_pos_bound; lia). do 4 (split; [apply MB|]).
  assert (P2 : 2 < p) by lia.
  set (es := ((s_e o - s_d o) * _invert 4 p) mod p). set (et := ((s_e o + s_d o) * _invert 6 p) mod p).
  assert (ES : mk p es = s).
  { unfold es. rewrite mk_mod, mk_mul, (mk_invert p p_prime P2), mk_sub. unfold fp_div. f_equal. f_equal. rewrite <- !mk_add, <- mk_mul. reflexivity. }
  assert (ET : mk p et = t).
  { unfold et. rewrite mk_mod, mk_mul, (mk_invert p p_prime P2), mk_add. unfold fp_div. f_equal. f_equal. rewrite <- !mk_add, <- mk_mul. reflexivity. }
  assert (T3 : mk p 3 = F3) by (rewrite <- !mk_add; reflexivity). assert (T2 : mk p 2 = F2) by (rewrite <- !mk_add; reflexivity).
  split; [|split; [|split]].
  - rewrite mk_mod, mk_sub, !Z.pow_2_r, !mk_mul, ES, ET, T3. reflexivity.
  - rewrite mk_mod, mk_sub, cube, Z.pow_2_r, !mk_mul, ES, ET, T2. reflexivity.
  - rewrite mk_mod, mk_add, !mk_mul, (mk_invert p p_prime P2), mk_add, mk_sub, ES, ET. reflexivity.
  - rewrite mk_mod, !mk_mul, (mk_invert p p_prime P2), mk_mul, mk_add, mk_sub, ES. reflexivity.
Qed.
Lemma canonical_on : edwards_point_of p (s_e o) (s_d o) (s_u o) (s_v o) -> s_u o mod p <> 0 -> s_v o mod p <> 1 ->
  exists o', _edvards_to_canonical o = Ok o' /\ ec_on p (s_a o') (s_b o') (aff p (s_x o') (s_y o')).
Proof.
  intros HE NU NV. destruct canonical_is as (o' & EO & _ & _ & _ & _ & _ & _ & _ & _ & _ & EA & EB & EX & EY). exists o'. split; [exact EO|].
  assert (HF : fp_add p (fp_mul p (mk p (s_e o)) (fp_mul p u u)) (fp_mul p v v) = fp_add p one (fp_mul p (mk p (s_d o)) (fp_mul p (fp_mul p u u) (fp_mul p v v)))).
  { rewrite <- !mk_mul, <- !mk_add. apply mk_eq. exact HE. }
  assert (NU' : u <> mk p 0) by (intros E; apply mk_eq in E; rewrite Z.mod_0_l in E by lia; contradiction).
  assert (NV' : v <> one) by (intros E; apply mk_eq in E; rewrite (Z.mod_small 1) in E by lia; contradiction).
  pose proof (edwards_point _ _ _ _ _ _ _ _ _ (fp_field p p_prime) (fp_two p ltac:(lia)) three_ne0 _ _ _ _ HF NU' NV') as H. cbv zeta in H.
  unfold ec_on, aff, on_curve. rewrite EA, EB, EX, EY. exact H.
Qed.
End Edwards.
