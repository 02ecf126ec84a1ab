(** * [int(str)] and the dotted string: exactly which texts are read, and as what *)
From Coq Require Import Ascii.
From Verif Require Import PyBase PyFacts OidTable Oid SpecDer SpecInt OidFacts2 OidLemmas.

Open Scope string_scope.
Open Scope Z_scope.

Lemma digit_of_some c d : digit_of c = Some d <-> 48 <= code c <= 57 /\ d = code c - 48.
Proof.
  unfold digit_of, code. destruct ((48 <=? _) && (_ <=? 57)) eqn:E.
  - split; [intros [= <-]; lia | intros [_ ->]; reflexivity].
  - split; [discriminate | intros [H _]; lia].
Qed.
Lemma digit_of_none c : digit_of c = None <-> ~ 48 <= code c <= 57.
Proof.
  unfold digit_of, code. destruct ((48 <=? _) && (_ <=? 57)) eqn:E; split; try discriminate; try lia; auto.
Qed.
Lemma is_space_blank c : is_space c = true <-> blank c.
Proof.
  unfold is_space, blank, code. rewrite orb_true_iff, andb_true_iff, !Nat.leb_le, Nat.eqb_eq. lia.
Qed.
Lemma skip_blanks s : blanks s -> skip_spaces s = "".
Proof.
  induction s as [|c s IH]; [reflexivity|]. cbn [blanks skip_spaces]. intros [Hc Hs].
  apply is_space_blank in Hc. now rewrite Hc, IH.
Qed.
Lemma skip_blanks_app s r : blanks s -> skip_spaces (s ++ r) = skip_spaces r.
Proof.
  induction s as [|c s IH]; [reflexivity|]. cbn [blanks skip_spaces append]. intros [Hc Hs].
  apply is_space_blank in Hc. now rewrite Hc, IH.
Qed.
Lemma skip_split s : exists sp, s = (sp ++ skip_spaces s) /\ blanks sp.
Proof.
  induction s as [|c s (sp & E & H)]; [now exists ""|]. cbn [skip_spaces].
  destruct (is_space c) eqn:Ec.
  - exists (String c sp). cbn [append blanks]. apply is_space_blank in Ec. split; [now rewrite <- E | auto].
  - now exists "".
Qed.

(** The digits are read from left to right. *)
Lemma parse_numeral body n : numeral body n ->
  forall rest, parse_digits (body ++ rest) 0 false = parse_digits rest n true.
Proof.
  assert (D : forall c s acc prev, 48 <= code c <= 57 ->
    parse_digits (String c s) acc prev = parse_digits s (10 * acc + (code c - 48)) true).
  { intros c s acc prev Hc. cbn [parse_digits].
    now rewrite (proj2 (digit_of_some c (code c - 48)) (conj Hc eq_refl)). }
  induction 1 as [c Hc | s v c Hs IH Hc | s v c Hs IH Hc]; intros rest.
  - cbn [append]. rewrite D by auto. f_equal.
  - rewrite string_app_assoc, IH. cbn [append]. apply D, Hc.
  - rewrite string_app_assoc, IH. cbn [append]. cbn [parse_digits].
    change (digit_of "_") with (@None Z). change (Ascii.eqb "_" "_") with true. cbn iota. apply (D c rest v false Hc).
Qed.

Lemma parse_blanks s n : blanks s -> parse_digits s n true = Some n.
Proof.
  destruct s as [|c s]; [reflexivity|]. cbn [blanks parse_digits]. intros [Hc Hs].
  assert (E : digit_of c = None) by (apply digit_of_none; unfold blank in Hc; lia). rewrite E.
  assert (Eu : Ascii.eqb c "_" = false).
  { apply Ascii.eqb_neq. intros ->. unfold blank, code in Hc. cbn in Hc. lia. }
  rewrite Eu. rewrite skip_blanks; [reflexivity | cbn [blanks]; auto].
Qed.

Lemma parse_sound rest : forall p n v, numeral p n ->
  (parse_digits rest n true = Some v ->
     exists body sp, p ++ rest = body ++ sp /\ numeral body v /\ blanks sp) /\
  (parse_digits rest n false = Some v ->
     exists body sp, p ++ "_" ++ rest = body ++ sp /\ numeral body v /\ blanks sp).
Proof.
  induction rest as [|c rest IH]; intros p n v Hp.
  - split; cbn [parse_digits]; [|discriminate]. intros [= <-]. now exists p, "".
  - cbn [parse_digits]. destruct (digit_of c) as [d|] eqn:Ed.
    + apply digit_of_some in Ed as [Hc ->]. split; intros H.
      * destruct (IH _ _ v (num_more _ _ c Hp Hc)) as [I _]. specialize (I H).
        rewrite string_app_assoc in I. exact I.
      * destruct (IH _ _ v (num_under _ _ c Hp Hc)) as [I _]. specialize (I H).
        rewrite string_app_assoc in I. exact I.
    + destruct (Ascii.eqb c "_") eqn:Eu.
      * apply Ascii.eqb_eq in Eu. subst c. split; [|discriminate]. intros H.
        now apply (IH p n v Hp).
      * split; [|discriminate]. destruct (skip_spaces (String c rest)) eqn:Es; [|discriminate].
        intros [= <-]. exists p, (String c rest). split; [reflexivity|]. split; [auto|].
        destruct (skip_split (String c rest)) as (sp & E & H). rewrite Es, string_app_nil_r in E. now rewrite E.
Qed.

Lemma parse_iff s v : parse_digits s 0 false = Some v <->
  exists body sp, s = body ++ sp /\ numeral body v /\ blanks sp.
Proof.
  split.
  - destruct s as [|c s]; [discriminate|]. cbn [parse_digits].
    destruct (digit_of c) as [d|] eqn:Ed; [|destruct (Ascii.eqb c "_"); discriminate].
    apply digit_of_some in Ed as [Hc ->]. intros H.
    destruct (parse_sound s _ _ v (num_digit c Hc)) as [I _]. exact (I H).
  - intros (body & sp & -> & Hb & Hs). rewrite (parse_numeral _ _ Hb). now apply parse_blanks.
Qed.

Lemma numeral_head body n : numeral body n -> exists c s, body = String c s /\ 48 <= code c <= 57.
Proof.
  induction 1 as [c Hc | s v c Hs (c' & s' & -> & H') Hc | s v c Hs (c' & s' & -> & H') Hc];
    cbn [append]; eauto.
Qed.

Lemma skip_head c s : is_space c = false -> skip_spaces (String c s) = String c s.
Proof. intros H. cbn [skip_spaces]. now rewrite H. Qed.

Lemma py_int_iff s v : py_int s = Some v <-> int_text s v.
Proof.
  split.
  - unfold py_int. destruct (skip_split s) as (sp & E & Hsp). intros H.
    destruct (skip_spaces s) as [|c s']; [discriminate|].
    destruct (Ascii.eqb c "-") eqn:Em; [|destruct (Ascii.eqb c "+") eqn:Epl].
    + apply Ascii.eqb_eq in Em; subst c. destruct (parse_digits s' 0 false) as [n|] eqn:Ep; [|discriminate].
      apply parse_iff in Ep as (body & sp2 & -> & Hb & H2). injection H as <-.
      exists sp, "-", body, sp2, (-1), n. split; [exact E|]. unfold sign. intuition lia.
    + apply Ascii.eqb_eq in Epl; subst c.
      apply parse_iff in H as (body & sp2 & -> & Hb & H2).
      exists sp, "+", body, sp2, 1, v. split; [exact E|]. unfold sign. intuition lia.
    + apply parse_iff in H as (body & sp2 & Es & Hb & H2).
      exists sp, "", body, sp2, 1, v. split; [rewrite E, Es; reflexivity|]. unfold sign. intuition lia.
  - intros (sp & sg & body & sp2 & f & n & -> & H1 & Hsg & Hb & H2 & ->). unfold py_int.
    rewrite skip_blanks_app by auto.
    assert (P : parse_digits (body ++ sp2) 0 false = Some n) by (apply parse_iff; eauto).
    destruct Hsg as [[[-> | ->] ->] | [-> ->]].
    + cbn [append]. destruct (numeral_head _ _ Hb) as (c & s' & -> & Hc). cbn [append] in P |- *.
      assert (N1 : is_space c = false).
      { destruct (is_space c) eqn:E; [|reflexivity]. apply is_space_blank in E. unfold blank in E. lia. }
      rewrite skip_head by exact N1.
      assert (N2 : Ascii.eqb c "-" = false).
      { apply Ascii.eqb_neq. intros ->. unfold code in Hc. cbn in Hc. lia. }
      assert (N3 : Ascii.eqb c "+" = false).
      { apply Ascii.eqb_neq. intros ->. unfold code in Hc. cbn in Hc. lia. }
      rewrite N2, N3, P. now rewrite Z.mul_1_l.
    + change ("+" ++ body ++ sp2) with (String "+" (body ++ sp2)). rewrite skip_head by reflexivity.
      change (Ascii.eqb "+" "-") with false. change (Ascii.eqb "+" "+") with true. cbn iota.
      rewrite P. now rewrite Z.mul_1_l.
    + change ("-" ++ body ++ sp2) with (String "-" (body ++ sp2)). rewrite skip_head by reflexivity.
      change (Ascii.eqb "-" "-") with true. cbn iota.
      rewrite P. cbn [option_map]. now rewrite Z.opp_eq_mul_m1, Z.mul_comm.
Qed.

Lemma py_ints_iff cs vs : py_ints cs = Some vs <-> Forall2 int_text cs vs.
Proof.
  revert vs; induction cs as [|c cs IH]; intros vs; cbn [py_ints].
  - split; [intros [= <-]; constructor | inversion 1; reflexivity].
  - destruct (py_int c) as [v|] eqn:Ev.
    + apply py_int_iff in Ev. destruct (py_ints cs) as [vs'|] eqn:Es.
      * split.
        -- intros [= <-]. constructor; [auto | now apply IH].
        -- inversion 1 as [|? v' ? vs'' Hv Hs]; subst. apply IH in Hs. apply py_int_iff in Hv, Ev. congruence.
      * split; [discriminate|]. inversion 1 as [|? v' ? vs'' Hv Hs]; subst. apply IH in Hs. congruence.
    + split; [discriminate|]. inversion 1 as [|? v' ? vs'' Hv Hs]; subst. apply py_int_iff in Hv. congruence.
Qed.

Lemma digit_exact cs vs : cs <> [] -> Forall (fun c => all_chars not_dot c = true) cs ->
  (oid_digit (join_dot cs) = Ok vs <-> Forall2 int_text cs vs).
Proof.
  intros Hne Hcs. unfold oid_digit. rewrite split_join by auto. rewrite <- py_ints_iff.
  destruct (py_ints cs); split; intros H; congruence.
Qed.

(** Every string is a list of components joined with dots. *)
Lemma string_components s : exists cs, cs <> [] /\ Forall (fun c => all_chars not_dot c = true) cs /\ s = join_dot cs.
Proof.
  induction s as [|c s (cs & Hne & Hcs & ->)].
  - exists [""]. repeat split; [discriminate|]. now repeat constructor.
  - destruct (not_dot c) eqn:Ec.
    + destruct cs as [|d cs]; [congruence|]. exists (String c d :: cs). split; [discriminate|].
      inversion Hcs as [|? ? Hd Hr]; subst. split.
      * constructor; [|auto]. cbn [all_chars]. now rewrite Ec, Hd.
      * destruct cs; reflexivity.
    + exists ("" :: cs). split; [discriminate|]. split; [constructor; auto|].
      assert (c = "."%char) as ->.
      { unfold not_dot in Ec. apply negb_false_iff, Nat.eqb_eq in Ec. rewrite <- (ascii_nat_embedding c), Ec. reflexivity. }
      destruct cs; [congruence|]. reflexivity.
Qed.
