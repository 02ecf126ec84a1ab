(** * Accepted signatures: from the equations of the standard to the answers of [verify] *)
From Coq Require Import ZArith Znumtheory Lia String.
From Verif Require Import PyBase PyFacts PyLoop Utils UtilsFacts Euclid Fp SpecCurve CurveGroup SpecModes SpecSign SigCurves Sig SigLemmas SigArith SigProps SigSign SigFinal SigMore.
Open Scope list_scope.
Open Scope Z_scope.

Section More2.
Variable o : sig_obj.
Hypothesis U : usable o.
Notation p := (s_p o).
Notation q := (s_q o).
Notation a := (s_a o).
Notation b := (s_b o).
Notation G := (base o).
Notation size := (s_size o).
Let p_prime := g_p_prime _ _ _ _ _ _ _ U.
Let p_odd := g_p_odd _ _ _ _ _ _ _ U.
Let p_fits := g_p_fits _ _ _ _ _ _ _ U.
Let disc := g_disc _ _ _ _ _ _ _ U.
Let q_prime := g_q_prime _ _ _ _ _ _ _ U.
Let q_odd := g_q_odd _ _ _ _ _ _ _ U.
Let q_fits := g_q_fits _ _ _ _ _ _ _ U.
Let GM : member p a b q G := key_member p a b q G (G_key o U).

Definition key_pair (X Y : Z) : Prop := 0 < X < p /\ 0 < Y < p /\ gost_key p a b q (aff p X Y).
Notation checks X Y dg r s := (fun n => verify o n (VBytes (encode size X Y)) (VBytes dg) (VBytes (encode size r s))).
Notation accepted X Y e r s := (gost_accepts p a q G (aff p X Y) e r s \/ infinity_accepts p a q G (aff p X Y) e r s).

Lemma checks_iff X Y dg r s : key_pair X Y -> len dg = size -> fits o r -> fits o s ->
  exists t, eventually (checks X Y dg r s) (Returns t) /\ (t = true <-> accepted X Y (gost_e q (number dg)) r s).
Proof.
  intros (HX & HY & HK) Hd Hr Hs.
  assert (UP : used_point o X Y = aff p X Y) by (unfold used_point; replace (X =? 0) with false by lia; replace (Y =? 0) with false by lia; reflexivity).
  destruct (verify_exact o U X Y dg r s ltac:(unfold fits; lia) ltac:(unfold fits; lia) Hd Hr Hs) as (t & ET & HT).
  - rewrite UP. exact HK.
  - left. lia.
  - rewrite UP in HT. exists t. split; [exists (iters o); exact ET | exact HT].
Qed.
Lemma checks_same X Y X' Y' dg dg' r s : key_pair X Y -> key_pair X' Y' -> len dg = size -> len dg' = size -> fits o r -> fits o s ->
  (accepted X Y (gost_e q (number dg)) r s <-> accepted X' Y' (gost_e q (number dg')) r s) ->
  forall t, eventually (checks X Y dg r s) (Returns t) <-> eventually (checks X' Y' dg' r s) (Returns t).
Proof.
  intros K K' D D' Hr Hs HA t. destruct (checks_iff X Y dg r s K D Hr Hs) as (t1 & E1 & H1). destruct (checks_iff X' Y' dg' r s K' D' Hr Hs) as (t2 & E2 & H2).
  assert (E : t1 = t2) by (apply Bool.eq_iff_eq_true; tauto). subst t2.
  split; intros ET; [pose proof (eventually_unique _ _ _ ET E1) as F | pose proof (eventually_unique _ _ _ ET E2) as F]; injection F as ->; assumption.
Qed.

Lemma gost_e_ne alpha : alpha mod q <> 0 -> gost_e q alpha = alpha mod q.
Proof. intros H. unfold gost_e. destruct (Z.eqb_spec (alpha mod q) 0); [contradiction | reflexivity]. Qed.
Lemma opposite_e x y : (x + y) mod q = 0 -> x mod q <> 0 -> y mod q <> 0 /\ (gost_e q x + gost_e q y) mod q = 0.
Proof.
  intros H N. assert (N' : y mod q <> 0).
  { intros E. apply N. rewrite <- Zplus_mod_idemp_r, E, Z.add_0_r in H. exact H. }
  split; [exact N'|]. rewrite !gost_e_ne by assumption. now rewrite <- Zplus_mod.
Qed.

Lemma opposite_digest X Y dg dg' r s : key_pair X Y -> len dg = size -> len dg' = size -> fits o r -> fits o s ->
  (number dg + number dg') mod q = 0 -> number dg mod q <> 0 ->
  forall t, eventually (checks X Y dg r s) (Returns t) <-> eventually (checks X Y dg' r s) (Returns t).
Proof.
  intros K D D' Hr Hs HE HN. apply checks_same; try assumption.
  destruct (opposite_e _ _ HE HN) as [_ H1]. assert (H2 := H1). rewrite Z.add_comm in H2.
  assert (QM : member p a b q (aff p X Y)) by apply key_member, K.
  split; (intros [H|H]; [left | right]).
  - now apply (accepts_opposite p a b q p_prime p_odd disc q_prime q_odd) with (1 := GM) (2 := QM) (3 := H1).
  - now apply (infinity_opposite p a b q p_prime p_odd disc q_prime q_odd) with (1 := GM) (2 := QM) (3 := H1).
  - now apply (accepts_opposite p a b q p_prime p_odd disc q_prime q_odd) with (1 := GM) (2 := QM) (3 := H2).
  - now apply (infinity_opposite p a b q p_prime p_odd disc q_prime q_odd) with (1 := GM) (2 := QM) (3 := H2).
Qed.

(** The digest [q - e] in octets. *)
Lemma opposite_exists dg : number dg mod q <> 0 -> exists dg', len dg' = size /\ bytes_ok dg' /\ (number dg + number dg') mod q = 0 /\ number dg' mod q <> number dg mod q.
Proof.
  intros N. pose proof (size_ge o U) as HS. assert (B := Z.mod_pos_bound (number dg) q ltac:(lia)).
  exists (octets o (q - number dg mod q)). split; [apply octets_len; exact HS|]. split; [apply int_to_bytearray_ok|].
  rewrite (number_eq (octets _ _)). unfold octets. rewrite to_int_of_int_small by lia. split.
  - pose proof (Z.div_mod (number dg) q ltac:(lia)) as DM. replace (number dg + (q - number dg mod q)) with ((number dg / q + 1) * q) by lia. apply Z.mod_mul. lia.
  - rewrite Z.mod_small by lia. intros E. assert (E2 : q = 2 * (number dg mod q)) by lia.
    assert (D : (2 | q)) by (exists (number dg mod q); lia). apply (prime_divisors _ q_prime) in D. lia.
Qed.

Lemma other_key X Y X' Y' w dg r s : key_pair X Y -> 0 < X' < p -> 0 < Y' < p -> (r * w) mod q = 1 ->
  aff p X' Y' = ec_add p a (ec_neg p (aff p X Y)) (ec_mul p a ((2 * s * w) mod q) G) ->
  len dg = size -> gost_accepts p a q G (aff p X Y) (gost_e q (number dg)) r s ->
  eventually (checks X' Y' dg r s) (Returns true) /\ (X', Y') <> (X, Y).
Proof.
  intros K HX' HY' Hw EQ D HA. assert (HA' := HA). destruct HA' as (Hr & Hs & _).
  assert (QM : member p a b q (aff p X Y)) by apply key_member, K.
  assert (QM' : member p a b q (aff p X' Y')).
  { rewrite EQ. apply (member_add p a b q p_prime p_odd disc); [lia| |].
    - apply (member_neg p a b q p_prime p_odd disc q_prime q_odd). exact QM.
    - apply (member_zmul p a b q p_prime p_odd disc q_odd). exact GM. }
  assert (K' : key_pair X' Y') by (split; [exact HX'|]; split; [exact HY'|]; split; [discriminate | exact QM']).
  split.
  - destruct (checks_iff X' Y' dg r s K' D ltac:(unfold fits; lia) ltac:(unfold fits; lia)) as (t & ET & HT).
    replace true with t; [exact ET|]. apply HT. left.
    now apply (accepts_other_key p a b q p_prime p_odd disc q_prime q_odd) with (1 := GM) (2 := QM) (3 := Hw) (4 := EQ).
  - intros E. injection E as -> ->. revert HA.
    intros HA. now apply (other_key_ne p a b q p_prime p_odd disc q_prime q_odd) with (1 := GM) (2 := QM) (3 := Hw) (4 := EQ) (5 := HA).
Qed.

Lemma forged X Y u w x y e r s dg : key_pair X Y -> ec_add p a (ec_mul p a (u mod q) G) (ec_mul p a (w mod q) (aff p X Y)) = Aff x y ->
  r = val p x mod q -> r <> 0 -> 0 < s < q -> (e * w + r) mod q = 0 -> s = (u * e) mod q -> len dg = size -> number dg = e mod q ->
  eventually (checks X Y dg r s) (Returns true).
Proof.
  intros K EC Er Nr Hs He Es D ED. assert (QM : member p a b q (aff p X Y)) by apply key_member, K.
  assert (HR : 0 <= r < q) by (rewrite Er; apply Z.mod_pos_bound; lia).
  pose proof (forged_accepted p a b q q_prime q_odd G (aff p X Y) u w x y e r s GM QM EC Er Nr Hs He Es) as HA.
  assert (EE : gost_e q (number dg) = e mod q).
  { rewrite ED. rewrite gost_e_ne; rewrite Z.mod_mod by lia; [reflexivity|]. intros E0. destruct HA as (_ & _ & v & Hv & _).
    rewrite <- Zmult_mod_idemp_l, E0 in Hv. rewrite Z.mul_0_l, Z.mod_0_l in Hv by lia. discriminate Hv. }
  destruct (checks_iff X Y dg r s K D ltac:(unfold fits; lia) ltac:(unfold fits; lia)) as (t & ET & HT).
  replace true with t; [exact ET|]. apply HT. left. rewrite EE.
  destruct HA as (A1 & A2 & v & Hv & A3). split; [exact A1|]. split; [exact A2|]. exists v. split; [rewrite Zmult_mod_idemp_l; exact Hv | exact A3].
Qed.

(** A key with coordinates that are not reduced. *)
Lemma unreduced_key X Y X' Y' dg r s : key_pair X Y -> fits o X' -> fits o Y' -> X' mod p = X -> Y' mod p = Y -> len dg = size -> fits o r -> fits o s ->
  (r + gost_e q (number dg)) mod q <> 0 ->
  forall t, eventually (checks X Y dg r s) (Returns t) <-> eventually (checks X' Y' dg r s) (Returns t).
Proof.
  intros K FX FY EX EY D Hr Hs NZ t. destruct (checks_iff X Y dg r s K D Hr Hs) as (t1 & E1 & H1).
  destruct K as (HX & HY & HK).
  assert (X' <> 0) by (intros ->; rewrite Z.mod_0_l in EX by lia; lia).
  assert (Y' <> 0) by (intros ->; rewrite Z.mod_0_l in EY by lia; lia).
  assert (EA : used_point o X' Y' = aff p X Y).
  { unfold used_point. replace (X' =? 0) with false by lia. replace (Y' =? 0) with false by lia. cbn [orb]. unfold aff. rewrite <- (mk_mod p X'), <- (mk_mod p Y'), EX, EY. reflexivity. }
  destruct (verify_exact o U X' Y' dg r s FX FY D Hr Hs) as (t2 & ET & H2).
  - rewrite EA. exact HK.
  - right. exact NZ.
  - rewrite EA in H2. assert (E2 : eventually (checks X' Y' dg r s) (Returns t2)) by (exists (iters o); exact ET).
    assert (E : t1 = t2) by (apply Bool.eq_iff_eq_true; tauto). subst t2.
    split; intros ET'; [pose proof (eventually_unique _ _ _ ET' E1) as F | pose proof (eventually_unique _ _ _ ET' E2) as F]; injection F as ->; assumption.
Qed.

(** [verify] ends on any arguments. *)
Lemma verify_ends pk dg sg :
  exists r, r <> OutOfFuel /\ eventually (fun n => verify o n pk dg sg) r.
Proof.
  unfold verify. pose proof (size_ge o U) as HS.
  destruct (check_value pk (size * 2)) eqn:E1; [|eexists; split; [|exists O; reflexivity]; discriminate].
  destruct pk as [pk| | |]; try discriminate E1.
  destruct (check_value sg (size * 2)) eqn:E2; [|eexists; split; [|exists O; reflexivity]; discriminate].
  destruct sg as [sg| | |]; try discriminate E2.
  destruct (check_value dg size) eqn:E3; [|eexists; split; [|exists O; reflexivity]; discriminate].
  destruct dg as [dg| | |]; try discriminate E3.
  destruct (_verify_step_1 o _ _) eqn:ES; cbn [negb]; [|eexists; split; [|exists O; reflexivity]; discriminate].
  unfold _verify_step_1 in ES. set (r := bytearray_to_int (py_upto sg size)) in *. set (s := bytearray_to_int (py_from sg size)) in *.
  assert (Hr : 0 < r < q) by (destruct (_ || _) eqn:EB in ES; [discriminate ES|]; lia).
  assert (Hs : 0 < s < q) by (destruct (_ || _) eqn:EB in ES; [discriminate ES|]; lia).
  rewrite (set_e_is o dg (usable_shaped o U)). cbn [liftO bindO].
  set (e := gost_e q (bytearray_to_int dg)). assert (He : 0 < e < q) by (apply gost_e_range; lia).
  destruct (inverse_ne o U e He) as [HV HI]. set (v := _invert e q) in *.
  assert (Z1 : 0 < (s * v) mod q < q) by now apply (product_ne o U).
  assert (Z2 : 0 < (r * v) mod q < q) by now apply (product_ne o U).
  destruct (mul_point_ends o ((s * v) mod q) (-1) (-1) HS ltac:(lia)) as (P1 & H1).
  destruct (mul_point_ends o (q - (r * v) mod q) (bytearray_to_int (py_upto pk size)) (bytearray_to_int (py_from pk size)) HS ltac:(lia)) as (P2 & H2).
  destruct (add_total o (fst P1) (fst P2) (snd P1) (snd P2) HS) as (x3 & y3 & E4).
  eexists. split; cycle 1.
  - exists (iters o). intros n Hn. rewrite H1 by exact Hn. cbn [bindO]. rewrite H2 by exact Hn. cbn [bindO]. rewrite E4. cbn [liftO bindO fst].
    apply (compare_octets o U). exact Hr.
  - discriminate.
Qed.
End More2.
