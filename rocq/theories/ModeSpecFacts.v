(** * Properties of the modes of the specification *)
From Coq Require Import List ZArith Lia.
From Verif Require Import PyBase PyFacts UtilsFacts SpecModes CipherObjFacts ModeFacts CtrFacts.
Import ListNotations.

Lemma hd_forall (P : bytes -> Prop) R : R <> [] -> Forall P R -> P (hd [] R).
Proof. intros Hne HF. destruct R; [contradiction|]. now inversion HF. Qed.
Lemma tl_snoc_forall (P : bytes -> Prop) R (c : bytes) : Forall P R -> P c -> Forall P (tl R ++ [c]).
Proof. intros HR Hc. apply Forall_app. split; [destruct R; [constructor|]; now inversion HR | now constructor]. Qed.
Lemma tl_snoc_ne R (c : bytes) : tl R ++ [c] <> [].
Proof. now destruct (tl R). Qed.

(** ** Functions that agree on blocks give the same modes *)
Section Ext.
  Variables (blk : bytes -> Prop) (E E' : bytes -> bytes).
  Hypothesis agree : forall b, blk b -> E b = E' b.
  Hypothesis stays : forall b, blk b -> blk (E b).
  Hypothesis bx : forall a b, blk a -> blk b -> blk (bxor a b).

  Lemma cbc_enc_ext R ps : R <> [] -> Forall blk R -> Forall blk ps -> cbc_enc E R ps = cbc_enc E' R ps.
  Proof.
    intros Hne HR HP. revert R Hne HR; induction HP as [|p ps Hp _ IH]; intros R Hne HR; [reflexivity|].
    cbn [cbc_enc]. assert (Hb : blk (bxor p (hd [] R))) by (apply bx; [exact Hp | now apply hd_forall]).
    rewrite <- agree by exact Hb. f_equal. apply IH; auto using tl_snoc_forall, tl_snoc_ne.
  Qed.
  Lemma cbc_dec_ext R ps : Forall blk ps -> cbc_dec E R ps = cbc_dec E' R ps.
  Proof.
    intros HP. revert R; induction HP as [|p ps Hp _ IH]; intros R; [reflexivity|].
    cbn [cbc_dec]. rewrite <- agree by exact Hp. f_equal. apply IH.
  Qed.
  Lemma cfb_enc_ext R ps t : R <> [] -> Forall blk R -> Forall blk ps ->
    cfb_enc E R (ps ++ opt_block t) = cfb_enc E' R (ps ++ opt_block t).
  Proof.
    intros Hne HR HP. revert R Hne HR; induction HP as [|p ps Hp _ IH]; intros R Hne HR.
    - assert (Hh := hd_forall blk R Hne HR). destruct t; [reflexivity|]. cbn [app opt_block cfb_enc]. now rewrite agree.
    - assert (Hh := hd_forall blk R Hne HR). cbn [app cfb_enc].
      rewrite <- agree by exact Hh. f_equal. apply IH; auto using tl_snoc_forall, tl_snoc_ne.
  Qed.
  Lemma cfb_dec_ext R ps t : R <> [] -> Forall blk R -> Forall blk ps ->
    cfb_dec E R (ps ++ opt_block t) = cfb_dec E' R (ps ++ opt_block t).
  Proof.
    intros Hne HR HP. revert R Hne HR; induction HP as [|p ps Hp _ IH]; intros R Hne HR.
    - assert (Hh := hd_forall blk R Hne HR). destruct t; [reflexivity|]. cbn [app opt_block cfb_dec]. now rewrite agree.
    - assert (Hh := hd_forall blk R Hne HR). cbn [app cfb_dec].
      rewrite <- agree by exact Hh. f_equal. apply IH; auto using tl_snoc_forall, tl_snoc_ne.
  Qed.
  Lemma ofb_gamma_ext R k : R <> [] -> Forall blk R -> ofb_gamma E R k = ofb_gamma E' R k.
  Proof.
    revert R; induction k as [|k IH]; intros R Hne HR; [reflexivity|].
    assert (Hh := hd_forall blk R Hne HR). cbn [ofb_gamma]. rewrite <- agree by exact Hh. f_equal.
    apply IH; auto using tl_snoc_forall, tl_snoc_ne.
  Qed.
  Lemma ofb_ext R ps : R <> [] -> Forall blk R -> ofb E R ps = ofb E' R ps.
  Proof. intros. unfold ofb. now rewrite ofb_gamma_ext. Qed.
  Lemma ofb_gamma_blk R k : R <> [] -> Forall blk R -> Forall blk (ofb_gamma E R k).
  Proof.
    revert R; induction k as [|k IH]; intros R Hne HR; [constructor|].
    assert (Hh := hd_forall blk R Hne HR). cbn [ofb_gamma].
    constructor; [auto|]. apply IH; auto using tl_snoc_forall, tl_snoc_ne.
  Qed.
  Lemma cfb_enc_blk R ps : R <> [] -> Forall blk R -> Forall blk ps -> Forall blk (cfb_enc E R ps).
  Proof.
    intros Hne HR HP. revert R Hne HR; induction HP as [|p ps Hp _ IH]; intros R Hne HR; [constructor|].
    assert (Hh := hd_forall blk R Hne HR). cbn [cfb_enc]. constructor; [auto|].
    apply IH; auto using tl_snoc_forall, tl_snoc_ne.
  Qed.
  Lemma ctr_run_ext c j ps : (forall k, blk (ctr_next c k)) -> ctr_run E c j ps = ctr_run E' c j ps.
  Proof.
    intros Hc. revert j; induction ps as [|p ps IH]; intros j; [reflexivity|].
    rewrite !ctr_run_cons. rewrite agree by auto. now rewrite IH.
  Qed.
End Ext.

(** ** Decryption inverts encryption *)

Lemma bxor_cancel (a g : bytes) : (List.length a <= List.length g)%nat -> bxor (bxor a g) g = a.
Proof.
  intros H. rewrite !bxor_eq. rewrite (add_xor_comm a g), add_xor_comm. now apply add_xor_cancel_le.
Qed.
Lemma bxor_length a b : List.length (bxor a b) = Nat.min (List.length a) (List.length b).
Proof. rewrite bxor_eq. apply add_xor_length. Qed.

Section Inverse.
  Variables (n : nat) (blk : bytes -> Prop) (E D : bytes -> bytes).
  Hypothesis blk_len : forall b, blk b -> List.length b = n.
  Hypothesis stays : forall b, blk b -> blk (E b).
  Hypothesis bx : forall a b, blk a -> blk b -> blk (bxor a b).
  Hypothesis inv : forall b, blk b -> D (E b) = b.

  Lemma ecb_inv ps : Forall blk ps -> ecb_dec D (ecb_enc E ps) = ps.
  Proof. induction 1 as [|p ps Hp _ IH]; [reflexivity|]. cbn. unfold ecb_dec, ecb_enc in IH. now rewrite IH, inv. Qed.

  Lemma cbc_inv R ps : R <> [] -> Forall blk R -> Forall blk ps -> cbc_dec D R (cbc_enc E R ps) = ps.
  Proof.
    intros Hne HR HP. revert R Hne HR; induction HP as [|p ps Hp _ IH]; intros R Hne HR; [reflexivity|].
    cbn [cbc_enc cbc_dec]. assert (Hh := hd_forall blk R Hne HR). rewrite inv by auto.
    rewrite bxor_cancel by (rewrite !blk_len by auto; lia). f_equal.
    apply IH; auto using tl_snoc_forall, tl_snoc_ne.
  Qed.

  Lemma cfb_inv R ps t : R <> [] -> Forall blk R -> Forall blk ps -> (List.length t < n)%nat ->
    cfb_dec E R (cfb_enc E R (ps ++ opt_block t)) = ps ++ opt_block t.
  Proof.
    intros Hne HR HP Ht. revert R Hne HR; induction HP as [|p ps Hp _ IH]; intros R Hne HR.
    - assert (Hh := hd_forall blk R Hne HR). destruct t; [reflexivity|]. cbn [app opt_block cfb_enc cfb_dec].
      rewrite bxor_cancel; [reflexivity|]. rewrite (blk_len (E _)) by auto. lia.
    - assert (Hh := hd_forall blk R Hne HR). cbn [app cfb_enc cfb_dec].
      rewrite bxor_cancel by (rewrite !blk_len by auto; lia). f_equal.
      apply IH; auto using tl_snoc_forall, tl_snoc_ne.
  Qed.

  Lemma ofb_inv R ps t : R <> [] -> Forall blk R -> Forall blk ps -> (List.length t < n)%nat ->
    ofb E R (ofb E R (ps ++ opt_block t)) = ps ++ opt_block t.
  Proof.
    intros Hne HR HP Ht. revert R Hne HR; induction HP as [|p ps Hp _ IH]; intros R Hne HR.
    - assert (Hh := hd_forall blk R Hne HR). destruct t; [reflexivity|]. cbn [app opt_block]. rewrite !ofb_cons.
      rewrite bxor_cancel; [reflexivity|]. rewrite (blk_len (E _)) by auto. lia.
    - assert (Hh := hd_forall blk R Hne HR). cbn [app]. rewrite !ofb_cons.
      rewrite bxor_cancel by (rewrite !blk_len by auto; lia). f_equal.
      apply IH; auto using tl_snoc_forall, tl_snoc_ne.
  Qed.

  Lemma ctr_inv c ps t j : (forall k, blk (ctr_next c k)) -> Forall blk ps -> (List.length t < n)%nat ->
    ctr_run E c j (ctr_run E c j (ps ++ opt_block t)) = ps ++ opt_block t.
  Proof.
    intros Hc HP Ht. revert j; induction HP as [|p ps Hp _ IH]; intros j.
    - destruct t; [reflexivity|]. cbn [app opt_block]. rewrite !ctr_run_cons.
      rewrite bxor_cancel; [reflexivity|]. rewrite (blk_len (E _)) by auto. lia.
    - cbn [app]. rewrite !ctr_run_cons. rewrite bxor_cancel by (rewrite !blk_len by auto; lia). f_equal. apply IH.
  Qed.
End Inverse.

(** ** Shapes of the outputs *)

Definition piece_of (p : bytes) (q : bytes) : Prop := List.length p = List.length q.

Section Shape.
  Variables (n : nat) (blk : bytes -> Prop) (E D : bytes -> bytes).
  Hypothesis blk_len : forall b, blk b -> List.length b = n.
  Hypothesis stays : forall b, blk b -> blk (E b).
  Hypothesis staysD : forall b, blk b -> blk (D b).
  Hypothesis bx : forall a b, blk a -> blk b -> blk (bxor a b).

  Lemma cbc_enc_blk R ps : R <> [] -> Forall blk R -> Forall blk ps -> Forall blk (cbc_enc E R ps).
  Proof.
    intros Hne HR HP. revert R Hne HR; induction HP as [|p ps Hp _ IH]; intros R Hne HR; [constructor|].
    assert (Hh := hd_forall blk R Hne HR). cbn [cbc_enc]. constructor; [auto|].
    apply IH; auto using tl_snoc_forall, tl_snoc_ne.
  Qed.
  Lemma cbc_dec_blk R ps : R <> [] -> Forall blk R -> Forall blk ps -> Forall blk (cbc_dec D R ps).
  Proof.
    intros Hne HR HP. revert R Hne HR; induction HP as [|p ps Hp _ IH]; intros R Hne HR; [constructor|].
    assert (Hh := hd_forall blk R Hne HR). cbn [cbc_dec]. constructor; [auto|].
    apply IH; auto using tl_snoc_forall, tl_snoc_ne.
  Qed.
  Lemma cfb_dec_blk R ps : R <> [] -> Forall blk R -> Forall blk ps -> Forall blk (cfb_dec E R ps).
  Proof.
    intros Hne HR HP. revert R Hne HR; induction HP as [|p ps Hp _ IH]; intros R Hne HR; [constructor|].
    assert (Hh := hd_forall blk R Hne HR). cbn [cfb_dec]. constructor; [auto|].
    apply IH; auto using tl_snoc_forall, tl_snoc_ne.
  Qed.
  Lemma ofb_blk R ps : R <> [] -> Forall blk R -> Forall blk ps -> Forall blk (ofb E R ps).
  Proof.
    intros Hne HR HP. revert R Hne HR; induction HP as [|p ps Hp _ IH]; intros R Hne HR; [constructor|].
    assert (Hh := hd_forall blk R Hne HR). rewrite ofb_cons. constructor; [auto|].
    apply IH; auto using tl_snoc_forall, tl_snoc_ne.
  Qed.
  Lemma ctr_run_blk c j ps : (forall k, blk (ctr_next c k)) -> Forall blk ps -> Forall blk (ctr_run E c j ps).
  Proof.
    intros Hc HP. revert j; induction HP as [|p ps Hp _ IH]; intros j; [constructor|].
    rewrite ctr_run_cons. constructor; auto.
  Qed.
End Shape.
