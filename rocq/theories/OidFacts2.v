(** * OID exceptions and strings *)
From Coq Require Import Ascii DecimalString DecimalN.
From Verif Require Import PyBase PyFacts Utils UtilsFacts OidTable Oid SpecDer SpecOidErr OidFacts.

Lemma encode_rest_neg rest acc :
  existsb (fun v => v <? 0) rest = true ->
  for_ rest acc (fun iter_value result =>
     let* o := _int_to_octet iter_value in Ok (result ++ o)) = Err OverflowError.
Proof.
  revert acc; induction rest as [|v rest IH]; intros acc H; cbn in *; [discriminate|].
  destruct (v <? 0) eqn:E; cbn in H.
  - rewrite int_to_octet_neg by lia. reflexivity.
  - destruct (int_to_octet_ok v ltac:(lia)) as (o & -> & _). cbn [bind]. now apply IH.
Qed.

Lemma existsb_neg_false rest : existsb (fun v => v <? 0) rest = false -> Forall (fun v => 0 <= v) rest.
Proof.
  induction rest as [|v rest IH]; cbn; intros H; constructor; [lia | apply IH].
  destruct (v <? 0); [discriminate | exact H].
Qed.

Lemma encode_octet_error arcs :
  match oid_error arcs with
  | Some e => _encode_octet arcs = Err e
  | None => exists o, _encode_octet arcs = Ok o
  end.
Proof.
  destruct arcs as [|a rest]; [reflexivity|]. unfold oid_error, _encode_octet.
  rewrite (py_get_nth (a :: rest) 0 0) by (rewrite len_cons; pose proof (len_nonneg rest); lia).
  change (Z.to_nat 0) with 0%nat. cbn [nth bind].
  destruct ((a <? 0) || (2 <? a)) eqn:E.
  { replace (a =? 0) with false by lia. replace (a =? 1) with false by lia.
    replace (a =? 2) with false by lia. reflexivity. }
  assert (Ha : a = 0 \/ a = 1 \/ a = 2) by lia.
  destruct rest as [|b rest].
  { rewrite (py_get_out [a] 1) by (cbn; lia).
    destruct Ha as [-> | [-> | ->]]; reflexivity. }
  rewrite (py_get_nth (a :: b :: rest) 1 0) by (rewrite !len_cons; pose proof (len_nonneg rest); lia).
  change (Z.to_nat 1) with 1%nat. cbn [nth bind].
  rewrite py_from_skipn by lia. change (Z.to_nat 2) with 2%nat. cbn [skipn].
  destruct ((a <? 2) && (40 <=? b)) eqn:E2.
  { destruct Ha as [-> | [-> | ->]]; cbn in *; try discriminate;
      replace (b <? 40) with false by lia; reflexivity. }
  assert (Hf : (if a =? 0 then (if b <? 40 then Ok b else Err (GOSTOIDError "invalid second SID value"))
     else if a =? 1 then (if b <? 40 then Ok (b + 40) else Err (GOSTOIDError "invalid second SID value"))
     else if a =? 2 then Ok (b + 80) else Err (GOSTOIDError "invalid first SID value")) = Ok (40 * a + b)).
  { destruct Ha as [-> | [-> | ->]]; cbn in *; try (replace (b <? 40) with true by lia); f_equal; lia. }
  rewrite Hf; cbn [bind].
  destruct (40 * a + b <? 0) eqn:E3.
  { now rewrite int_to_octet_neg by lia. }
  destruct (int_to_octet_ok (40 * a + b) ltac:(lia)) as (o & -> & _). cbn [bind].
  destruct (existsb (fun v => v <? 0) rest) eqn:E4.
  - now apply encode_rest_neg.
  - apply existsb_neg_false in E4. destruct (encode_rest rest o E4) as (o' & -> & _). eauto.
Qed.

Lemma octet_error arcs :
  (forall body, _encode_octet arcs = Ok body -> len body < 256 ^ 127) ->
  match oid_error arcs with
  | Some e => octet_of_digit arcs = Err e
  | None => exists o, octet_of_digit arcs = Ok o
  end.
Proof.
  intros Hlen. pose proof (encode_octet_error arcs) as H. unfold octet_of_digit.
  destruct (oid_error arcs) as [e|]; [now rewrite H|].
  destruct H as (body & Hb). rewrite Hb. cbn [bind]. unfold to_bytes_1.
  change ((0 <=? 6) && (6 <? 256)) with true. cbn [bind].
  destruct (der_len_ok (len body)) as (ln & -> & _).
  { split; [apply len_nonneg | auto]. }
  cbn [bind]. eauto.
Qed.

(** ** Strings *)

Fixpoint uint_val (u : Decimal.uint) (acc : Z) : Z :=
  match u with
  | Decimal.Nil => acc
  | Decimal.D0 u => uint_val u (10 * acc)
  | Decimal.D1 u => uint_val u (10 * acc + 1)
  | Decimal.D2 u => uint_val u (10 * acc + 2)
  | Decimal.D3 u => uint_val u (10 * acc + 3)
  | Decimal.D4 u => uint_val u (10 * acc + 4)
  | Decimal.D5 u => uint_val u (10 * acc + 5)
  | Decimal.D6 u => uint_val u (10 * acc + 6)
  | Decimal.D7 u => uint_val u (10 * acc + 7)
  | Decimal.D8 u => uint_val u (10 * acc + 8)
  | Decimal.D9 u => uint_val u (10 * acc + 9)
  end.

Lemma parse_uint u acc : parse_digits (NilEmpty.string_of_uint u) acc true = Some (uint_val u acc).
Proof.
  revert acc; induction u as [|u IH|u IH|u IH|u IH|u IH|u IH|u IH|u IH|u IH|u IH];
    intros acc; cbn [NilEmpty.string_of_uint parse_digits uint_val]; [reflexivity|..];
    match goal with |- context [digit_of ?c] =>
      let v := eval compute in (digit_of c) in change (digit_of c) with v end;
    cbv iota; rewrite IH; f_equal; f_equal; lia.
Qed.

Lemma pos_of_uint_acc u acc : Zpos (Pos.of_uint_acc u acc) = uint_val u (Zpos acc).
Proof.
  revert acc; induction u as [|u IH|u IH|u IH|u IH|u IH|u IH|u IH|u IH|u IH|u IH];
    intros acc; cbn [Pos.of_uint_acc uint_val]; [reflexivity|..];
    rewrite IH; f_equal; lia.
Qed.

Lemma N_of_uint_val u : Z.of_N (N.of_uint u) = uint_val u 0.
Proof.
  unfold N.of_uint.
  induction u as [|u IH|u IH|u IH|u IH|u IH|u IH|u IH|u IH|u IH|u IH];
    cbn [Pos.of_uint uint_val]; [reflexivity | exact IH |..];
    cbn [Z.of_N]; rewrite pos_of_uint_acc; f_equal.
Qed.

Definition is_digit_char (c : ascii) : bool := match digit_of c with Some _ => true | None => false end.

Lemma uint_string_digits u : all_chars is_digit_char (NilEmpty.string_of_uint u) = true.
Proof. induction u; cbn [NilEmpty.string_of_uint all_chars]; auto; rewrite IHu; reflexivity. Qed.

Lemma to_uint_nonnil n : N.to_uint n <> Decimal.Nil.
Proof.
  intros E. destruct n as [|p].
  - discriminate.
  - assert (H : N.of_uint (N.to_uint (Npos p)) = Npos p) by apply Unsigned.of_to.
    rewrite E in H; discriminate.
Qed.

Lemma decimal_digits v : all_chars is_digit_char (decimal v) = true.
Proof. apply uint_string_digits. Qed.

Lemma py_int_digits c s :
  is_digit_char c = true -> py_int (String c s) = parse_digits (String c s) 0 false.
Proof.
  intros H. unfold py_int.
  assert (Hsp : is_space c = false).
  { unfold is_digit_char, digit_of in H. unfold is_space.
    destruct ((48 <=? Z.of_nat (nat_of_ascii c)) && (Z.of_nat (nat_of_ascii c) <=? 57)) eqn:E; [|discriminate].
    clear H. generalize dependent (nat_of_ascii c). intros n E.
    destruct (9 <=? n)%nat eqn:E1, (n <=? 13)%nat eqn:E2, (n =? 32)%nat eqn:E3; cbn; try reflexivity;
      rewrite ?Nat.leb_le, ?Nat.eqb_eq in *; lia. }
  cbn [skip_spaces]. rewrite Hsp.
  assert (Hm : Ascii.eqb c "-" = false) by (destruct (Ascii.eqb_spec c "-"); [subst; discriminate | reflexivity]).
  assert (Hp : Ascii.eqb c "+" = false) by (destruct (Ascii.eqb_spec c "+"); [subst; discriminate | reflexivity]).
  now rewrite Hm, Hp.
Qed.

Lemma parse_first c s : is_digit_char c = true ->
  parse_digits (String c s) 0 false = parse_digits (String c s) 0 true.
Proof. unfold is_digit_char; cbn. now destruct (digit_of c). Qed.

Lemma py_int_decimal v : 0 <= v -> py_int (decimal v) = Some v.
Proof.
  intros Hv. unfold decimal.
  pose proof (to_uint_nonnil (Z.to_N v)) as Hn.
  pose proof (uint_string_digits (N.to_uint (Z.to_N v))) as Hd.
  assert (Hp : parse_digits (NilEmpty.string_of_uint (N.to_uint (Z.to_N v))) 0 true = Some v).
  { rewrite parse_uint, <- N_of_uint_val. f_equal.
    rewrite Unsigned.of_to. lia. }
  destruct (NilEmpty.string_of_uint (N.to_uint (Z.to_N v))) as [|c s] eqn:E.
  { destruct (N.to_uint (Z.to_N v)); cbn in E; congruence. }
  cbn [all_chars] in Hd. apply andb_prop in Hd as [Hc _].
  rewrite py_int_digits, parse_first by auto. exact Hp.
Qed.

Lemma string_app_assoc a b c : ((a ++ b) ++ c = a ++ (b ++ c))%string.
Proof. induction a as [|x a IH]; cbn; [reflexivity | now rewrite IH]. Qed.

Lemma string_app_nil_r a : (a ++ "" = a)%string.
Proof. induction a as [|x a IH]; cbn; [reflexivity | now rewrite IH]. Qed.

Lemma not_dot_eqb c : not_dot c = negb (Ascii.eqb c ".").
Proof. destruct c as [[] [] [] [] [] [] [] []]; reflexivity. Qed.

Lemma split_last c cur :
  all_chars not_dot c = true -> split_dot_aux c cur = [(cur ++ c)%string].
Proof.
  revert cur; induction c as [|x c IH]; intros cur H; cbn [split_dot_aux].
  - now rewrite string_app_nil_r.
  - cbn [all_chars] in H. apply andb_prop in H as [Hx Hc].
    rewrite not_dot_eqb in Hx. apply negb_true_iff in Hx. rewrite Hx.
    rewrite IH by auto. now rewrite string_app_assoc.
Qed.

Lemma split_first_comp c rest cur :
  all_chars not_dot c = true ->
  split_dot_aux (c ++ "." ++ rest) cur = (cur ++ c)%string :: split_dot_aux rest EmptyString.
Proof.
  revert cur; induction c as [|x c IH]; intros cur H.
  - cbn. now rewrite string_app_nil_r.
  - cbn [all_chars] in H. apply andb_prop in H as [Hx Hc].
    rewrite not_dot_eqb in Hx. apply negb_true_iff in Hx.
    change ((String x c ++ "." ++ rest)%string) with (String x (c ++ "." ++ rest)%string).
    cbn [split_dot_aux]. rewrite Hx, IH by auto. now rewrite string_app_assoc.
Qed.

Lemma digits_no_dot s : all_chars is_digit_char s = true -> all_chars not_dot s = true.
Proof.
  induction s as [|c s IH]; cbn; auto. intros H; apply andb_prop in H as [Hc Hs].
  rewrite IH by auto. rewrite not_dot_eqb.
  destruct (Ascii.eqb_spec c "."); [subst; discriminate | reflexivity].
Qed.

Lemma split_dotted arcs : arcs <> [] -> split_dot (dotted arcs) = map decimal arcs.
Proof.
  unfold split_dot. induction arcs as [|a arcs IH]; [congruence|]. intros _.
  destruct arcs as [|b arcs].
  - cbn [dotted map]. rewrite split_last by apply digits_no_dot, decimal_digits. reflexivity.
  - change (dotted (a :: b :: arcs)) with (decimal a ++ "." ++ dotted (b :: arcs))%string.
    rewrite split_first_comp by apply digits_no_dot, decimal_digits.
    rewrite IH by discriminate. reflexivity.
Qed.

Lemma digit_dotted arcs :
  arcs <> [] -> Forall (fun v => 0 <= v) arcs -> oid_digit (dotted arcs) = Ok arcs.
Proof.
  intros Hne H. unfold oid_digit. rewrite split_dotted by auto. clear Hne.
  assert (E : py_ints (map decimal arcs) = Some arcs).
  { induction H as [|v arcs Hv Ha IH]; cbn [map py_ints]; [reflexivity|].
    now rewrite py_int_decimal, IH. }
  now rewrite E.
Qed.

(** A component that is not an integer literal makes the whole string invalid. *)
Lemma digit_bad_component s c :
  In c (split_dot s) -> py_int c = None -> oid_digit s = Err (GOSTOIDError "invalid OID value").
Proof.
  intros Hin Hc. unfold oid_digit.
  assert (E : py_ints (split_dot s) = None).
  { induction (split_dot s) as [|d l IH]; [contradiction|].
    destruct Hin as [->|Hin]; cbn [py_ints]; [now rewrite Hc|].
    rewrite (IH Hin). now destruct (py_int d). }
  now rewrite E.
Qed.

(** Characters that may occur in an integer literal. *)
Definition literal_char (c : ascii) : bool :=
  is_digit_char c || is_space c || Ascii.eqb c "_" || Ascii.eqb c "+" || Ascii.eqb c "-".

Lemma skip_spaces_all s : skip_spaces s = EmptyString -> all_chars is_space s = true.
Proof.
  induction s as [|c s IH]; cbn; auto. destruct (is_space c); cbn; [auto | discriminate].
Qed.

Lemma all_chars_impl (p q : ascii -> bool) s :
  (forall c, p c = true -> q c = true) -> all_chars p s = true -> all_chars q s = true.
Proof.
  intros H; induction s as [|c s IH]; cbn; auto. intros E; apply andb_prop in E as [E1 E2].
  rewrite H, IH by auto. reflexivity.
Qed.

Lemma parse_digits_chars s acc prev v :
  parse_digits s acc prev = Some v -> all_chars literal_char s = true.
Proof.
  revert acc prev; induction s as [|c s IH]; intros acc prev; cbn [parse_digits all_chars]; auto.
  unfold literal_char, is_digit_char at 1.
  destruct (digit_of c) as [d|]; cbn [orb].
  - apply IH.
  - destruct (Ascii.eqb c "_") eqn:E; cbn [orb].
    + rewrite orb_true_r; cbn [orb]. destruct prev; [apply IH | discriminate].
    + destruct prev; [|discriminate].
      destruct (skip_spaces (String c s)) eqn:Es; [|discriminate]. intros _.
      apply skip_spaces_all in Es. cbn [all_chars] in Es. apply andb_prop in Es as [Ec Es].
      rewrite Ec. cbn. eapply all_chars_impl; [|exact Es].
      intros c' H. unfold literal_char. rewrite H. now rewrite orb_true_r.
Qed.

Lemma skip_spaces_suffix s : all_chars literal_char (skip_spaces s) = true -> all_chars literal_char s = true.
Proof.
  induction s as [|c s IH]; cbn; auto. destruct (is_space c) eqn:E; auto.
  intros H; rewrite IH by auto. unfold literal_char. rewrite E. now rewrite orb_true_r.
Qed.

Lemma py_int_chars s v : py_int s = Some v -> s <> EmptyString /\ all_chars literal_char s = true.
Proof.
  intros H; split; [intros ->; discriminate|]. apply skip_spaces_suffix.
  unfold py_int in H. destruct (skip_spaces s) as [|c s']; [discriminate|].
  cbn [all_chars].
  destruct (Ascii.eqb c "-") eqn:Em.
  - destruct (parse_digits s' 0 false) eqn:Ep; [|discriminate]. apply parse_digits_chars in Ep.
    unfold literal_char at 1. rewrite Em, Ep. now rewrite !orb_true_r.
  - destruct (Ascii.eqb c "+") eqn:Epl.
    + apply parse_digits_chars in H. unfold literal_char at 1. rewrite Epl, H. now rewrite !orb_true_r.
    + apply parse_digits_chars in H. exact H.
Qed.

Lemma literal_numeral c : literal_char c = numeral_char c.
Proof. destruct c as [[] [] [] [] [] [] [] []]; vm_compute; reflexivity. Qed.

Lemma split_join cs : cs <> [] -> Forall (fun c => all_chars not_dot c = true) cs -> split_dot (join_dot cs) = cs.
Proof.
  unfold split_dot. induction cs as [|c cs IH]; [congruence|]. intros _ H.
  inversion H as [|? ? Hc Hcs]; subst. destruct cs as [|d cs].
  - cbn [join_dot]. now rewrite split_last.
  - change (join_dot (c :: d :: cs)) with (c ++ "." ++ join_dot (d :: cs))%string.
    rewrite split_first_comp by auto. rewrite IH by (auto; discriminate). reflexivity.
Qed.

(** An empty component, or one with a foreign character, is rejected. *)
Lemma digit_rejects cs c :
  Forall (fun c => all_chars not_dot c = true) cs -> In c cs ->
  c = EmptyString \/ all_chars numeral_char c = false ->
  oid_digit (join_dot cs) = Err (GOSTOIDError "invalid OID value").
Proof.
  intros Hcs Hin Hc. apply (digit_bad_component _ c).
  { rewrite split_join; auto. intros ->; contradiction. }
  destruct (py_int c) as [v|] eqn:E; [|reflexivity].
  apply py_int_chars in E as [E1 E2]. destruct Hc as [Hc|Hc]; [congruence|].
  erewrite all_chars_impl in Hc; [discriminate| |exact E2].
  intros x Hx. now rewrite <- literal_numeral.
Qed.

Lemma oid_table_nodup : NoDup (map fst OBJECT_IDENTIFIER_TC26).
Proof.
  cbv [OBJECT_IDENTIFIER_TC26 map fst].
  repeat (constructor; [intros H; repeat (destruct H as [H|H]; [discriminate|]); exact H|]).
  constructor.
Qed.

Lemma assoc_get_nodup {V} (d : list (string * V)) k v dflt :
  NoDup (map fst d) -> In (k, v) d -> assoc_get d k dflt = v.
Proof.
  induction d as [|[k' v'] d IH]; cbn [map fst assoc_get]; intros Hn Hin; [contradiction|].
  inversion Hn as [|? ? Hk Hd]; subst. destruct Hin as [[= -> ->]|Hin].
  - now rewrite String.eqb_refl.
  - destruct (String.eqb_spec k k') as [->|]; [|auto].
    exfalso; apply Hk. apply in_map_iff. now exists (k', v).
Qed.

Lemma oid_table_ok k v :
  In (k, v) OBJECT_IDENTIFIER_TC26 ->
  oid_name k = v /\ exists arcs o, oid_digit k = Ok arcs /\ dotted arcs = k /\ oid_octet k = Ok o /\
    der_oid o = Some arcs.
Proof.
  intros Hin. split; [apply assoc_get_nodup; [apply oid_table_nodup | exact Hin]|].
  revert Hin. unfold OBJECT_IDENTIFIER_TC26.
  assert (G : forall d : list (string * string),
    forallb (fun p => match oid_digit (fst p) with
       | Ok arcs => String.eqb (dotted arcs) (fst p) &&
          match oid_octet (fst p) with
          | Ok o => match der_oid o with
                    | Some a => if list_eq_dec Z.eq_dec a arcs then true else false
                    | None => false end
          | Err _ => false end
       | Err _ => false end) d = true ->
    In (k, v) d -> exists arcs o, oid_digit k = Ok arcs /\ dotted arcs = k /\ oid_octet k = Ok o /\
    der_oid o = Some arcs).
  { intros d Hd Hin. rewrite forallb_forall in Hd. specialize (Hd _ Hin). cbn [fst] in Hd.
    destruct (oid_digit k) as [arcs|]; [|discriminate]. apply andb_prop in Hd as [H1 H2].
    apply String.eqb_eq in H1. destruct (oid_octet k) as [o|]; [|discriminate].
    destruct (der_oid o) as [a|] eqn:Ed; [|discriminate].
    destruct (list_eq_dec Z.eq_dec a arcs); [subst a|discriminate].
    exists arcs, o. auto. }
  apply G. vm_compute. reflexivity.
Qed.
