(** * The signature object: arithmetic *)
From Coq Require Import ZArith Znumtheory Field_theory Field Lia.
From Verif Require Import PyBase PyFacts PyLoop Utils UtilsFacts Euclid Fp SpecCurve CurveGroup SpecSign SigCurves Sig.
Open Scope Z_scope.

(** ** Inverses *)

Lemma gcdex_eq n a b : gcdex n a b = egcd n a b.
Proof. revert a b. induction n as [|n IH]; intros a b; [reflexivity|]. cbn [gcdex egcd]. now rewrite IH. Qed.
Lemma invert_coeff v n : _invert v n = if coeff v n <? 0 then coeff v n + n else coeff v n.
Proof. unfold _invert, coeff, steps_for. now rewrite gcdex_eq. Qed.
Lemma invert_range v n : prime n -> 0 <= _invert v n < n.
Proof.
  intros HP. pose proof (prime_ge_2 n HP). rewrite invert_coeff. destruct (Z.eq_dec (v mod n) 0) as [E|E].
  - rewrite coeff_zero by lia. cbn. lia.
  - destruct (coeff_prime v n HP E) as [_ HA]. destruct (Z.ltb_spec (coeff v n) 0); lia.
Qed.
Lemma invert_zero v n : 0 < n -> v mod n = 0 -> _invert v n = 0.
Proof. intros Hn E. rewrite invert_coeff, coeff_zero by assumption. reflexivity. Qed.
Lemma invert_inverse v n : prime n -> v mod n <> 0 -> (v * _invert v n) mod n = 1.
Proof.
  intros HP E. pose proof (prime_ge_2 n HP). rewrite invert_coeff. destruct (coeff_prime v n HP E) as [HA _]. destruct (coeff v n <? 0); [|exact HA].
  replace (v * (coeff v n + n)) with (v * coeff v n + v * n) by lia. now rewrite Z.mod_add by lia.
Qed.

(** ** The curve group of an object *)

Section Group.
Variables p a b : Z.
Hypothesis p_prime : prime p.
Hypothesis p_odd : 2 < p.

Notation on := (ec_on p a b).
Notation add := (ec_add p a).
Notation mul := (ec_mul p a).
Notation neg := (ec_neg p).
Add Field fp_f : (fp_field p p_prime).

Lemma mk_invert v : mk p (_invert v p) = fp_inv p (mk p v).
Proof.
  pose proof (prime_ge_2 p p_prime). destruct (Z.eq_dec (v mod p) 0) as [E|E].
  - rewrite invert_zero by (assumption || lia). apply val_inj. unfold fp_inv. rewrite !val_mk, E. rewrite coeff_zero by (try rewrite Z.mod_0_l; lia). reflexivity.
  - assert (N : mk p v <> mk p 0) by (intros E'; apply mk_eq in E'; rewrite Z.mod_0_l in E' by lia; contradiction).
    assert (H1 : fp_mul p (mk p v) (mk p (_invert v p)) = mk p 1) by (rewrite <- mk_mul; apply mk_eq; rewrite (Z.mod_small 1) by lia; now apply invert_inverse).
    transitivity (fp_mul p (fp_mul p (mk p v) (mk p (_invert v p))) (fp_inv p (mk p v))); [field; exact N | rewrite H1; field; exact N].
Qed.

Hypothesis disc : ec_disc p a b <> mk p 0.

Definition two_ne := fp_two p p_odd.
Notation FF := (fp_field p p_prime).
Lemma ec_add_on P Q : on P -> on Q -> on (add P Q).
Proof. exact (add_on _ _ _ _ _ _ _ _ _ FF _ _ two_ne P Q). Qed.
Lemma ec_mul_on k P : on P -> on (mul k P).
Proof. exact (mul_on _ _ _ _ _ _ _ _ _ FF _ _ two_ne (Z.to_nat k) P). Qed.
Lemma ec_assoc P Q R : on P -> on Q -> on R -> add (add P Q) R = add P (add Q R).
Proof. exact (add_assoc _ _ _ _ _ _ _ _ _ FF _ _ two_ne disc P Q R). Qed.
Lemma ec_comm P Q : on P -> on Q -> add P Q = add Q P.
Proof. exact (add_comm _ _ _ _ _ _ _ _ _ FF _ _ two_ne P Q). Qed.
Lemma ec_mul_add k l P : 0 <= k -> 0 <= l -> on P -> mul (k + l) P = add (mul k P) (mul l P).
Proof. intros Hk Hl HP. unfold ec_mul. rewrite Z2Nat.inj_add by assumption. exact (mul_add _ _ _ _ _ _ _ _ _ FF _ _ two_ne disc _ _ P HP). Qed.
Lemma ec_mul_mul k l P : 0 <= k -> 0 <= l -> on P -> mul (k * l) P = mul k (mul l P).
Proof. intros Hk Hl HP. unfold ec_mul. rewrite Z2Nat.inj_mul by assumption. exact (mul_mul _ _ _ _ _ _ _ _ _ FF _ _ two_ne disc _ _ P HP). Qed.
Lemma ec_mul_1 P : mul 1 P = P.
Proof. exact (mul_one _ _ _ _ _ _ _ _ P). Qed.
Lemma ec_sum_inf P Q : on P -> on Q -> add P Q = Inf -> P = neg Q.
Proof. exact (sum_inf _ _ _ _ _ _ _ _ _ FF _ _ two_ne P Q). Qed.
Lemma ec_neg_sum P : add (neg P) P = Inf.
Proof. exact (add_neg_l _ _ _ _ _ _ _ _ P). Qed.

(** A point of prime order. *)
Variable q : Z.
Hypothesis q_prime : prime q.
Variable P : Pt p.
Hypothesis P_on : on P.
Hypothesis P_ne : P <> Inf.
Hypothesis P_order : mul q P = Inf.
Lemma q_inverses d : (0 < d < Z.to_nat q)%nat -> exists i j, (i * d = 1 + j * Z.to_nat q)%nat.
Proof.
  intros H. pose proof (prime_ge_2 q q_prime). assert (HD : Z.of_nat d mod q <> 0) by (rewrite Z.mod_small; lia).
  pose proof (invert_inverse (Z.of_nat d) q q_prime HD) as HI. pose proof (invert_range (Z.of_nat d) q q_prime) as HR. set (i := _invert (Z.of_nat d) q) in *.
  exists (Z.to_nat i), (Z.to_nat (Z.of_nat d * i / q)). pose proof (Z.div_mod (Z.of_nat d * i) q ltac:(lia)) as DM. rewrite HI in DM.
  apply Nat2Z.inj. rewrite Nat2Z.inj_add, !Nat2Z.inj_mul, !Z2Nat.id; try lia.
Qed.
Lemma mul_mod_q k : 0 <= k -> mul k P = mul (k mod q) P.
Proof.
  intros Hk. pose proof (prime_ge_2 q q_prime). unfold ec_mul. rewrite Z2Nat.inj_mod by lia.
  apply (mul_mod _ _ _ _ _ _ _ _ _ FF _ _ two_ne disc (Z.to_nat q) P P_on P_order). lia.
Qed.
Lemma mul_inf_q k : 0 <= k -> (mul k P = Inf <-> k mod q = 0).
Proof.
  intros Hk. pose proof (prime_ge_2 q q_prime). unfold ec_mul.
  pose proof (mul_inf_iff _ _ _ _ _ _ _ _ _ FF _ _ two_ne disc (Z.to_nat q) q_inverses P P_on P_ne P_order (Z.to_nat k) ltac:(lia)) as HI.
  assert (HM : (Z.to_nat k mod Z.to_nat q = 0)%nat <-> k mod q = 0) by (rewrite <- Z2Nat.inj_mod by lia; assert (HB := Z.mod_pos_bound k q ltac:(lia)); lia).
  tauto.
Qed.
Lemma mul_opposite_q k l : 0 <= k -> 0 <= l -> (mul k P = neg (mul l P) <-> (k + l) mod q = 0).
Proof.
  intros Hk Hl. rewrite <- mul_inf_q by lia. rewrite ec_mul_add by assumption. split.
  - intros ->. apply ec_neg_sum.
  - apply ec_sum_inf; now apply ec_mul_on.
Qed.
Lemma mul_inj_q k l : 0 <= k -> 0 <= l -> (mul k P = mul l P <-> k mod q = l mod q).
Proof.
  intros Hk Hl. pose proof (prime_ge_2 q q_prime). split.
  - intros E. assert (HO : mul k P = neg (mul (q * (1 + l) - l) P)).
    { rewrite E. apply mul_opposite_q; [lia | nia|]. replace (l + (q * (1 + l) - l)) with ((1 + l) * q) by lia. apply Z.mod_mul. lia. }
    apply mul_opposite_q in HO; [|lia|nia]. replace (k + (q * (1 + l) - l)) with ((k - l) + (1 + l) * q) in HO by lia. rewrite Z.mod_add in HO by lia.
    apply Z.mod_divide in HO; [|lia]. destruct HO as [c Hc]. replace k with (l + c * q) by lia. now rewrite Z.mod_add by lia.
  - intros E. rewrite (mul_mod_q k), (mul_mod_q l) by assumption. now rewrite E.
Qed.
End Group.
