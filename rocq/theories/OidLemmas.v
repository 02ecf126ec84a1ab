(** * Lemmas for C05-C09 at the level of the object identifier's string *)
From Coq Require Import Ascii DecimalString.
From Verif Require Import PyBase PyFacts Utils UtilsFacts OidTable Oid SpecDer SpecOidErr OidFacts OidFacts2.

Lemma int_to_octet_len v o : 0 <= v -> _int_to_octet v = Ok o -> len o <= Z.log2 v + 1.
Proof.
  intros Hv Ho. pose proof (Z.log2_nonneg v) as Hl. destruct (Z_lt_le_dec v 128) as [Hs|Hb].
  - rewrite int_to_octet_small in Ho by lia. injection Ho as <-. cbn; lia.
  - destruct (int_to_octet_big v Hb) as (d & ds & _ & _ & _ & _ & Hlen & Ho').
    rewrite Ho' in Ho. injection Ho as <-. rewrite len_cons. unfold len. rewrite Hlen.
    destruct (len_int_spec v 7) as (H1 & H2 & _); [lia|lia|].
    assert (7 * (_len_int v 7 - 1) <= Z.log2 v).
    { apply Z.log2_le_pow2; [lia|]. now rewrite Z.pow_mul_r by lia. }
    lia.
Qed.

Lemma encode_rest_len rest acc o :
  for_ rest acc (fun iter_value result =>
     let* o := _int_to_octet iter_value in Ok (result ++ o)) = Ok o ->
  Forall (fun v => 0 <= v) rest ->
  len o <= len acc + fold_right (fun v n => (Z.log2 v + 1) + n) 0 rest.
Proof.
  revert acc; induction rest as [|v rest IH]; intros acc E H; cbn [for_ fold_right] in *.
  - injection E as <-. lia.
  - inversion H as [|? ? Hv Hr]; subst.
    destruct (_int_to_octet v) as [ov|] eqn:Ev; cbn [bind] in E; [|discriminate].
    apply int_to_octet_len in Ev; [|auto]. apply IH in E; [|auto]. rewrite len_app in E. lia.
Qed.

Lemma encode_octet_len arcs body :
  oid_error arcs = None -> _encode_octet arcs = Ok body -> len body <= oid_bits arcs.
Proof.
  intros He Hb. destruct arcs as [|a [|b rest]]; cbn [oid_error] in He; try discriminate.
  { destruct ((a <? 0) || (2 <? a)); discriminate. }
  destruct ((a <? 0) || (2 <? a)) eqn:E; [discriminate|].
  destruct ((a <? 2) && (40 <=? b)) eqn:E2; [discriminate|].
  destruct (40 * a + b <? 0) eqn:E3; [discriminate|].
  destruct (existsb (fun v => v <? 0) rest) eqn:E4; [discriminate|].
  apply existsb_neg_false in E4.
  assert (Ha : a = 0 \/ a = 1 \/ a = 2) by lia.
  unfold _encode_octet in Hb.
  rewrite (py_get_nth (a :: b :: rest) 0 0) in Hb by (rewrite !len_cons; pose proof (len_nonneg rest); lia).
  rewrite (py_get_nth (a :: b :: rest) 1 0) in Hb by (rewrite !len_cons; pose proof (len_nonneg rest); lia).
  change (Z.to_nat 0) with 0%nat in Hb; change (Z.to_nat 1) with 1%nat in Hb. cbn [nth bind] in Hb.
  rewrite py_from_skipn in Hb by lia. change (Z.to_nat 2) with 2%nat in Hb. cbn [skipn] in Hb.
  assert (Hf : (if a =? 0 then (if b <? 40 then Ok b else Err (GOSTOIDError "invalid second SID value"))
     else if a =? 1 then (if b <? 40 then Ok (b + 40) else Err (GOSTOIDError "invalid second SID value"))
     else if a =? 2 then Ok (b + 80) else Err (GOSTOIDError "invalid first SID value")) = Ok (40 * a + b)).
  { destruct Ha as [-> | [-> | ->]]; cbn in *; try (replace (b <? 40) with true by lia); f_equal; lia. }
  rewrite Hf in Hb; cbn [bind] in Hb.
  destruct (_int_to_octet (40 * a + b)) as [o|] eqn:Eo; cbn [bind] in Hb; [|discriminate].
  apply int_to_octet_len in Eo; [|lia]. apply encode_rest_len in Hb; [|auto].
  unfold oid_bits; cbn [oid_subids fold_right]. lia.
Qed.

Lemma oid_octet_digit s arcs : oid_digit s = Ok arcs -> oid_octet s = octet_of_digit arcs.
Proof. unfold oid_octet. now intros ->. Qed.

Lemma legal_nonneg arcs : legal_oid arcs -> arcs <> [] /\ Forall (fun v => 0 <= v) arcs.
Proof.
  destruct arcs as [|a [|b rest]]; cbn [legal_oid]; try tauto.
  intros (Ha & Hb & _ & Hr). split; [discriminate|]. repeat constructor; auto. lia.
Qed.

Lemma oid_octet_small arcs :
  legal_oid arcs -> Forall (fun v => v < 2 ^ 14) (oid_subids arcs) -> len arcs < 256 ^ 126 ->
  exists o, oid_digit (dotted arcs) = Ok arcs /\ oid_octet (dotted arcs) = Ok o /\ der_oid o = Some arcs.
Proof.
  intros Hl Hs Hn. destruct (legal_nonneg arcs Hl) as [Hne Hnn].
  destruct (octet_small arcs Hl Hs Hn) as (o & Ho & Hd). exists o.
  pose proof (digit_dotted arcs Hne Hnn) as Hdig. split; [exact Hdig|].
  rewrite (oid_octet_digit _ _ Hdig). auto.
Qed.

(** The full claim of C06. *)
Definition oid_octets_are_der : Prop :=
  forall arcs o, legal_oid arcs -> len o < 256 ^ 127 -> oid_octet (dotted arcs) = Ok o -> der_oid o = Some arcs.
Definition oid_octets_injective : Prop :=
  forall a b o, legal_oid a -> legal_oid b ->
    oid_octet (dotted a) = Ok o -> oid_octet (dotted b) = Ok o -> a = b.

Lemma oid_octets_not_der : ~ oid_octets_are_der.
Proof.
  intros H. specialize (H [1; 2; 113549] [6; 4; 42; 134; 119; 13]).
  assert (E : der_oid [6; 4; 42; 134; 119; 13] = Some [1; 2; 887; 13]) by reflexivity.
  rewrite H in E; [discriminate | cbn; repeat split; try lia; auto; repeat constructor; lia | reflexivity | reflexivity].
Qed.

Lemma oid_octets_not_injective : ~ oid_octets_injective.
Proof.
  intros H. specialize (H [1; 2; 113549] [1; 2; 887; 13] [6; 4; 42; 134; 119; 13]).
  discriminate H; try reflexivity; cbn; repeat split; auto; try lia; repeat constructor; lia.
Qed.

Lemma oid_octets_der_iff arcs o :
  legal_oid arcs -> len o < 256 ^ 127 -> oid_octet (dotted arcs) = Ok o ->
  (der_oid o = Some arcs <-> Forall (fun v => v < 2 ^ 14) (oid_subids arcs)).
Proof.
  intros Hl Hn Ho. destruct (legal_nonneg arcs Hl) as [Hne Hnn].
  rewrite (oid_octet_digit _ _ (digit_dotted arcs Hne Hnn)) in Ho.
  now apply octet_correct_iff.
Qed.

(** The full claim of C07: the only exception is GOSTOIDError, and it is raised exactly for the
    tuples that are not legal. *)
Definition illegal_oids_raise_oid_error : Prop :=
  forall s arcs, oid_digit s = Ok arcs ->
    (~ legal_oid arcs <-> exists m, oid_octet s = Err (GOSTOIDError m)).

Lemma illegal_oids_not_oid_error : ~ illegal_oids_raise_oid_error.
Proof.
  intros H. destruct (H "1" [1] eq_refl)%string as [H1 _].
  destruct H1 as (m & Hm); [cbn; auto|]. vm_compute in Hm. discriminate.
Qed.

Lemma oid_octet_exn s arcs :
  oid_digit s = Ok arcs -> oid_bits arcs < 256 ^ 127 ->
  match oid_error arcs with
  | Some e => oid_octet s = Err e
  | None => exists o, oid_octet s = Ok o
  end.
Proof.
  intros Hs Hb. rewrite (oid_octet_digit _ _ Hs).
  pose proof (octet_error arcs) as H. pose proof (encode_octet_error arcs) as He.
  destruct (oid_error arcs) as [e|] eqn:E.
  - apply H. intros body Hbody. rewrite He in Hbody. discriminate.
  - apply H. intros body Hbody. pose proof (encode_octet_len arcs body E Hbody). lia.
Qed.

Lemma oid_digit_exn s e : oid_digit s = Err e -> e = GOSTOIDError "invalid OID value" /\ oid_octet s = Err e.
Proof.
  unfold oid_octet, oid_digit. destruct (py_ints (split_dot s)); intros [= <-]. auto.
Qed.

(** Illegal tuples that are nevertheless encoded. *)
Lemma oid_error_none_iff arcs :
  oid_error arcs = None <->
  match arcs with
  | a :: b :: rest => (a = 0 \/ a = 1 \/ a = 2) /\ 0 <= 40 * a + b /\ (a < 2 -> b < 40) /\
      Forall (fun v => 0 <= v) rest
  | _ => False
  end.
Proof.
  destruct arcs as [|a [|b rest]]; cbn [oid_error].
  - split; [discriminate | tauto].
  - split; [|tauto]. destruct ((a <? 0) || (2 <? a)); discriminate.
  - destruct ((a <? 0) || (2 <? a)) eqn:E.
    { split; [discriminate | intros (Ha & _); lia]. }
    destruct ((a <? 2) && (40 <=? b)) eqn:E2.
    { split; [discriminate | intros (_ & _ & Hb & _); lia]. }
    destruct (40 * a + b <? 0) eqn:E3.
    { split; [discriminate | intros (_ & H0 & _); lia]. }
    destruct (existsb (fun v => v <? 0) rest) eqn:E4.
    + split; [discriminate | intros (_ & _ & _ & Hf)].
      apply existsb_exists in E4 as (v & Hv & Hn). rewrite Forall_forall in Hf.
      specialize (Hf v Hv). lia.
    + apply existsb_neg_false in E4. split; [intros _ | reflexivity]. repeat split; auto; lia.
Qed.

Lemma der_length_minimal n :
  0 <= n < 256 ^ 127 ->
  exists ln, _len_oid_octet n = Ok ln /\ forall rest, der_length (ln ++ rest) = Some (n, rest).
Proof. exact (der_len_ok n). Qed.
