(** * Accepted signatures: other digests, other keys, and the signatures that [sign] makes *)
From Coq Require Import ZArith Znumtheory Lia String.
From Verif Require Import PyBase PyFacts PyLoop Utils UtilsFacts Euclid Fp SpecCurve CurveGroup SpecModes SpecSign SigCurves Sig SigLemmas SigArith SigProps SigSign SigFinal.
Open Scope list_scope.
Open Scope Z_scope.

Section More.
Variables p a b q : Z.
Hypothesis p_prime : prime p.
Hypothesis p_odd : 2 < p.
Hypothesis disc : ec_disc p a b <> mk p 0.
Hypothesis q_prime : prime q.
Hypothesis q_odd : 2 < q.
Notation on := (ec_on p a b).
Notation add := (ec_add p a).
Notation neg := (ec_neg p).

(** The multiple of a point of the subgroup by any integer. *)
Definition zmul (k : Z) (P : Pt p) : Pt p := ec_mul p a (k mod q) P.
Definition member (P : Pt p) : Prop := on P /\ ec_mul p a q P = Inf.

Let pos k : 0 <= k mod q.
Proof. apply Z.mod_pos_bound. lia. Qed.

Lemma mod_mul_member P k : member P -> 0 <= k -> ec_mul p a k P = ec_mul p a (k mod q) P.
Proof. intros [H1 H2] Hk. apply (mul_mod_q p a b p_prime p_odd disc q q_prime P H1 H2 k Hk). Qed.
Lemma zmul_mod k l P : k mod q = l mod q -> zmul k P = zmul l P.
Proof. unfold zmul. now intros ->. Qed.
Lemma zmul_on k P : on P -> on (zmul k P).
Proof. apply (ec_mul_on p a b p_prime p_odd). Qed.
Lemma zmul_0 P : zmul 0 P = Inf.
Proof. unfold zmul. rewrite Z.mod_0_l by lia. reflexivity. Qed.
Lemma zmul_1 P : zmul 1 P = P.
Proof. unfold zmul. rewrite Z.mod_small by lia. apply ec_mul_1. Qed.
Lemma zmul_add k l P : member P -> zmul (k + l) P = add (zmul k P) (zmul l P).
Proof.
  intros HM. pose proof (pos k). pose proof (pos l). unfold zmul. rewrite Zplus_mod, <- (mod_mul_member P) by (assumption || lia).
  apply (ec_mul_add p a b p_prime p_odd disc); [lia | lia | apply HM].
Qed.
Lemma zmul_mul k l P : member P -> zmul (k * l) P = zmul k (zmul l P).
Proof.
  intros HM. pose proof (pos k). pose proof (pos l). unfold zmul. rewrite Zmult_mod, <- (mod_mul_member P) by (assumption || now apply Z.mul_nonneg_nonneg).
  apply (ec_mul_mul p a b p_prime p_odd disc); [lia | lia | apply HM].
Qed.
Lemma neg_on P : on P -> on (neg P).
Proof.
  destruct P as [|x y]; [auto|]. unfold ec_on, ec_neg. cbn [pneg on_curve]. intros <-.
  rewrite <- (mk_val p y), <- mk_opp, <- !mk_mul. apply mk_eq. f_equal. lia.
Qed.
Lemma neg_neg P : neg (neg P) = P.
Proof.
  destruct P as [|x y]; [reflexivity|]. unfold ec_neg. cbn [pneg]. f_equal.
  rewrite <- (mk_val p y), <- !mk_opp. f_equal. lia.
Qed.
Lemma neg_unique P Q : on P -> on Q -> add P Q = Inf -> P = neg Q.
Proof. apply (ec_sum_inf p a b p_prime p_odd). Qed.
Lemma add_on P Q : on P -> on Q -> on (add P Q).
Proof. apply (ec_add_on p a b p_prime p_odd). Qed.
Lemma assoc P Q R : on P -> on Q -> on R -> add (add P Q) R = add P (add Q R).
Proof. apply (ec_assoc p a b p_prime p_odd disc). Qed.
Lemma comm P Q : on P -> on Q -> add P Q = add Q P.
Proof. apply (ec_comm p a b p_prime p_odd). Qed.
Lemma add_inf_r P : add P Inf = P.
Proof. destruct P; reflexivity. Qed.
Lemma swap4 P Q R S : on P -> on Q -> on R -> on S -> add (add P Q) (add R S) = add (add P R) (add Q S).
Proof.
  intros. rewrite !assoc by auto using add_on. f_equal. rewrite <- !assoc by auto. f_equal. now apply comm.
Qed.
Lemma neg_add P Q : on P -> on Q -> neg (add P Q) = add (neg P) (neg Q).
Proof.
  intros HP HQ. symmetry. apply neg_unique; auto using add_on, neg_on.
  rewrite swap4 by auto using neg_on. now rewrite !ec_neg_sum.
Qed.
Lemma zmul_neg k P : member P -> zmul (- k) P = neg (zmul k P).
Proof.
  intros HM. apply neg_unique; [apply zmul_on, HM | apply zmul_on, HM|].
  rewrite <- zmul_add by exact HM. rewrite Z.add_opp_diag_l. apply zmul_0.
Qed.
Lemma nat_mul_add n P Q : on P -> on Q -> ec_mul p a (Z.of_nat n) (add P Q) = add (ec_mul p a (Z.of_nat n) P) (ec_mul p a (Z.of_nat n) Q).
Proof.
  intros HP HQ. induction n as [|n IH]; [reflexivity|].
  rewrite Nat2Z.inj_succ, <- Z.add_1_l. rewrite !(ec_mul_add p a b p_prime p_odd disc) by (lia || auto using add_on). rewrite !ec_mul_1, IH.
  apply swap4; auto; apply (ec_mul_on p a b p_prime p_odd); auto.
Qed.
Lemma mul_add_points k P Q : 0 <= k -> on P -> on Q -> ec_mul p a k (add P Q) = add (ec_mul p a k P) (ec_mul p a k Q).
Proof. intros Hk. rewrite <- (Z2Nat.id k Hk). apply nat_mul_add. Qed.
Lemma zmul_points k P Q : on P -> on Q -> zmul k (add P Q) = add (zmul k P) (zmul k Q).
Proof. intros. apply mul_add_points; auto. Qed.
Lemma member_add P Q : member P -> member Q -> member (add P Q).
Proof.
  intros [H1 H2] [H3 H4]. split; [now apply add_on|]. rewrite mul_add_points by (lia || auto). now rewrite H2, H4.
Qed.
Lemma mul_Inf k : ec_mul p a k Inf = Inf.
Proof. unfold ec_mul. induction (Z.to_nat k) as [|n IH]; [reflexivity|]. cbn [pmul]. now rewrite IH. Qed.
Lemma member_zmul k P : member P -> member (zmul k P).
Proof.
  intros HM. split; [apply zmul_on, HM|]. unfold zmul. rewrite <- (ec_mul_mul p a b p_prime p_odd disc) by (lia || apply pos || apply HM).
  rewrite Z.mul_comm, (ec_mul_mul p a b p_prime p_odd disc) by (lia || apply pos || apply HM). rewrite (proj2 HM). apply mul_Inf.
Qed.
Lemma member_neg P : member P -> member (neg P).
Proof. intros HM. rewrite <- (zmul_1 P), <- zmul_neg by exact HM. now apply member_zmul. Qed.
Lemma key_member Q : gost_key p a b q Q -> member Q.
Proof. intros (_ & H). exact H. Qed.
Lemma x_neg (P : Pt p) : x_coord (neg P) = x_coord P.
Proof. now destruct P. Qed.
Lemma neg_inf P : neg P = Inf -> P = Inf.
Proof. destruct P; [auto | discriminate]. Qed.
Lemma zmul_inf k P : gost_key p a b q P -> (zmul k P = Inf <-> k mod q = 0).
Proof.
  intros (H1 & H2 & H3). unfold zmul. rewrite (mul_inf_q p a b p_prime p_odd disc q q_prime P H2 H1 H3 (k mod q) (pos k)).
  now rewrite Z.mod_mod by lia.
Qed.

(** The sum that is compared with [r]. *)
Definition check_sum (G Q : Pt p) (v r s : Z) : Pt p := add (zmul (s * v) G) (zmul (- r * v) Q).

Lemma sum_opposite G Q v v' r s : member G -> member Q -> (v + v') mod q = 0 -> check_sum G Q v' r s = neg (check_sum G Q v r s).
Proof.
  intros HG HQ Hv. unfold check_sum. rewrite neg_add by (apply zmul_on; (apply HG || apply HQ)). rewrite <- !zmul_neg by assumption.
  assert (E : forall c, (c * v') mod q = (- (c * v)) mod q).
  { intros c. apply Z.mod_divide in Hv; [|lia]. destruct Hv as [m Hm]. replace (c * v') with (- (c * v) + (c * m) * q).
    - now rewrite Z.mod_add by lia.
    - replace v' with (m * q - v) by lia. ring. }
  f_equal; apply zmul_mod, E.
Qed.

Lemma opposite_inverse e e' v : (e + e') mod q = 0 -> (e * v) mod q = 1 -> (e' * - v) mod q = 1.
Proof.
  intros He Hv. apply Z.mod_divide in He; [|lia]. destruct He as [m Hm]. replace (e' * - v) with (e * v + - (m * v) * q).
  - now rewrite Z.mod_add by lia.
  - replace e' with (m * q - e) by lia. ring.
Qed.

(** A digest and its opposite have the same signatures. *)
Lemma accepts_opposite G Q e e' r s : member G -> member Q -> (e + e') mod q = 0 ->
  gost_accepts p a q G Q e r s -> gost_accepts p a q G Q e' r s.
Proof.
  intros HG HQ He (Hr & Hs & v & Hv & x & Hx & Ex). split; [exact Hr|]. split; [exact Hs|].
  exists (- v). split; [exact (opposite_inverse _ _ _ He Hv)|]. exists x. split; [|exact Ex].
  change (x_coord (check_sum G Q (- v) r s) = Some x). rewrite (sum_opposite G Q v (- v)) by (assumption || now rewrite Z.add_opp_diag_r).
  rewrite x_neg. exact Hx.
Qed.
Lemma infinity_opposite G Q e e' r s : member G -> member Q -> (e + e') mod q = 0 ->
  infinity_accepts p a q G Q e r s -> infinity_accepts p a q G Q e' r s.
Proof.
  intros HG HQ He (Hr & Hs & v & Hv & HI & x & Hx & Ex). split; [exact Hr|]. split; [exact Hs|].
  exists (- v). split; [exact (opposite_inverse _ _ _ He Hv)|]. split.
  - change (check_sum G Q (- v) r s = Inf). rewrite (sum_opposite G Q v (- v)) by (assumption || now rewrite Z.add_opp_diag_r).
    unfold check_sum, zmul. now rewrite HI.
  - exists x. split; [|exact Ex]. change (x_coord (zmul (s * - v) G) = Some x). rewrite Z.mul_opp_r, zmul_neg by exact HG. rewrite x_neg. exact Hx.
Qed.

(** The key [2 (s / r) G - Q] accepts the same signature. *)
Lemma sum_other_key G Q Q' v r s w : member G -> member Q -> (r * w) mod q = 1 ->
  Q' = add (neg Q) (zmul (2 * s * w) G) -> check_sum G Q' v r s = neg (check_sum G Q v r s).
Proof.
  intros HG HQ Hw ->. assert (GO := proj1 HG). assert (QO := proj1 HQ).
  assert (W := zmul_on (2 * s * w) G GO).
  unfold check_sum. rewrite zmul_points by auto using neg_on.
  rewrite <- (zmul_mul (- r * v)) by exact HG.
  assert (E1 : zmul (- r * v) (neg Q) = neg (zmul (- r * v) Q)).
  { rewrite <- zmul_neg by exact HQ. rewrite <- (zmul_1 Q) at 1. rewrite <- zmul_neg by exact HQ. rewrite <- zmul_mul by exact HQ. f_equal. lia. }
  assert (E2 : zmul (- r * v * (2 * s * w)) G = zmul (- (2 * (s * v))) G).
  { apply zmul_mod. replace (- r * v * (2 * s * w)) with (- (2 * (s * v)) * (r * w)) by ring. rewrite <- Zmult_mod_idemp_r, Hw. f_equal. lia. }
  rewrite E1, E2. rewrite neg_add by auto using zmul_on. rewrite (comm (neg (zmul (- r * v) Q)) (zmul (- (2 * (s * v))) G)) by auto using neg_on, zmul_on.
  rewrite <- assoc by auto using neg_on, zmul_on. rewrite <- zmul_add by exact HG. rewrite <- (zmul_neg (s * v) G) by exact HG. f_equal. f_equal. lia.
Qed.
Lemma accepts_other_key G Q Q' e r s w : member G -> member Q -> (r * w) mod q = 1 -> Q' = add (neg Q) (zmul (2 * s * w) G) ->
  gost_accepts p a q G Q e r s -> gost_accepts p a q G Q' e r s.
Proof.
  intros HG HQ Hw EQ (Hr & Hs & v & Hv & x & Hx & Ex). split; [exact Hr|]. split; [exact Hs|].
  exists v. split; [exact Hv|]. exists x. split; [|exact Ex].
  change (x_coord (check_sum G Q' v r s) = Some x). rewrite (sum_other_key G Q Q' v r s w HG HQ Hw EQ), x_neg. exact Hx.
Qed.
(** And it is another key. *)
Lemma other_key_ne G Q Q' e r s w : member G -> member Q -> (r * w) mod q = 1 -> Q' = add (neg Q) (zmul (2 * s * w) G) ->
  gost_accepts p a q G Q e r s -> Q' <> Q.
Proof.
  intros HG HQ Hw EQ (_ & _ & v & Hv & x & Hx & _) E. pose proof (sum_other_key G Q Q' v r s w HG HQ Hw EQ) as H. rewrite E in H.
  set (C := check_sum G Q v r s) in *.
  assert (HC : member C) by (apply member_add; apply member_zmul; assumption).
  assert (NC : C <> Inf) by (intros EC; unfold C, check_sum, zmul in EC; rewrite EC in Hx; discriminate Hx).
  assert (D : zmul 2 C = Inf).
  { change 2 with (1 + 1). rewrite zmul_add by exact HC. rewrite !zmul_1. rewrite H at 1. apply ec_neg_sum. }
  apply zmul_inf in D; [|split; [exact NC | exact HC]]. rewrite Z.mod_small in D by lia. lia.
Qed.

(** Every signature that the standard accepts is one that the standard makes. *)
Lemma accepted_is_signature G Q d e r s : gost_key p a b q G -> Q = zmul d G -> gost_accepts p a q G Q e r s ->
  exists k, 0 < k < q /\ gost_signature p a q G d e k r s.
Proof.
  intros KG -> (Hr & Hs & v & Hv & x & Hx & Ex). pose proof (key_member G KG) as HG.
  set (k := ((s - r * d) * v) mod q).
  assert (ES : ec_add p a (ec_mul p a ((s * v) mod q) G) (ec_mul p a ((- r * v) mod q) (zmul d G)) = ec_mul p a k G).
  { change (add (zmul (s * v) G) (zmul (- r * v) (zmul d G)) = zmul ((s - r * d) * v) G).
    rewrite <- zmul_mul, <- zmul_add by exact HG. f_equal. lia. }
  rewrite ES in Hx. assert (HB : 0 <= k < q) by (apply Z.mod_pos_bound; lia).
  exists k. split.
  - destruct (Z.eq_dec k 0) as [E0|N0]; [|lia]. rewrite E0 in Hx. cbn in Hx. discriminate Hx.
  - split; [exists x; split; [exact Hx | symmetry; exact Ex]|]. split; [|split; lia].
    unfold k. rewrite <- Zplus_mod_idemp_r, Zmult_mod_idemp_l, Zplus_mod_idemp_r.
    replace (r * d + (s - r * d) * v * e) with (r * d + (s - r * d) * (e * v)) by ring.
    rewrite <- Zplus_mod_idemp_r, <- Zmult_mod_idemp_r, Hv, Z.mul_1_r, Zplus_mod_idemp_r.
    replace (r * d + (s - r * d)) with s by ring. symmetry. apply Z.mod_small. lia.
Qed.

(** A digest and a signature from the public key alone. *)
Lemma forged_accepted G Q u w x y e r s : member G -> member Q ->
  add (zmul u G) (zmul w Q) = Aff x y -> r = val p x mod q -> r <> 0 -> 0 < s < q ->
  (e * w + r) mod q = 0 -> s = (u * e) mod q -> gost_accepts p a q G Q e r s.
Proof.
  intros HG HQ EC Er Nr Hs He Es. assert (HR : 0 <= r < q) by (rewrite Er; apply Z.mod_pos_bound; lia).
  assert (Ne : e mod q <> 0).
  { intros E. apply Nr. rewrite <- (Z.mod_small r q HR), <- He, <- Zplus_mod_idemp_l, <- Zmult_mod_idemp_l, E. f_equal. }
  pose proof (invert_inverse e q q_prime Ne) as HI. set (v := _invert e q) in *.
  split; [lia|]. split; [exact Hs|]. exists v. split; [exact HI|].
  assert (E1 : (s * v) mod q = u mod q).
  { rewrite Es, Zmult_mod_idemp_l. replace (u * e * v) with (u * (e * v)) by ring. now rewrite <- Zmult_mod_idemp_r, HI, Z.mul_1_r. }
  assert (E2 : (- r * v) mod q = w mod q).
  { apply Z.mod_divide in He; [|lia]. destruct He as [m Hm]. replace (- r * v) with (w * (e * v) + (- (m * v)) * q).
    - rewrite Z.mod_add by lia. now rewrite <- Zmult_mod_idemp_r, HI, Z.mul_1_r.
    - replace r with (m * q - e * w) by lia. ring. }
  rewrite E1, E2. exists (val p x). split; [|symmetry; exact Er].
  change (x_coord (add (zmul u G) (zmul w Q)) = Some (val p x)). now rewrite EC.
Qed.
End More.
