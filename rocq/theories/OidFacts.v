(** * Facts about the model of oid.py *)
From Coq Require Import Ascii.
From Verif Require Import PyBase PyFacts Utils UtilsFacts OidTable Oid SpecDer.
Arguments Z.pow : simpl never.
Arguments Z.add : simpl never.
Arguments Z.mul : simpl never.
Arguments Z.sub : simpl never.

(** ** Fixed-width big-endian digits *)
Fixpoint be_digits (base : Z) (k : nat) (v : Z) : list Z :=
  match k with
  | O => []
  | S k' => be_digits base k' (v / base) ++ [v mod base]
  end.

Lemma be_digits_length base k v : List.length (be_digits base k v) = k.
Proof. revert v; induction k as [|k IH]; intros v; cbn; auto. rewrite app_length, IH; cbn; lia. Qed.

Lemma be_digits_range base k v :
  0 < base -> Forall (fun d => 0 <= d < base) (be_digits base k v).
Proof.
  intros Hb; revert v; induction k as [|k IH]; intros v; cbn; [constructor|].
  apply Forall_app; split; auto. repeat constructor; apply Z.mod_pos_bound; lia.
Qed.

Lemma be_digits_cons base k v :
  0 < base -> 0 <= v < base ^ Z.of_nat (S k) ->
  be_digits base (S k) v = v / base ^ Z.of_nat k :: be_digits base k (v mod base ^ Z.of_nat k).
Proof.
  intros Hb. revert v; induction k as [|k IH]; intros v Hv.
  - cbn. change (Z.of_nat 1) with 1 in Hv. rewrite Z.pow_1_r in Hv. change (Z.of_nat 0) with 0.
    rewrite Z.pow_0_r, Z.div_1_r, Z.mod_small by lia. reflexivity.
  - change (be_digits base (S (S k)) v) with (be_digits base (S k) (v / base) ++ [v mod base]).
    assert (Hp : 0 < base ^ Z.of_nat k) by (apply Z.pow_pos_nonneg; lia).
    rewrite Nat2Z.inj_succ, Z.pow_succ_r in Hv by lia.
    rewrite IH.
    2: { split; [apply Z.div_pos; lia|]. apply Z.div_lt_upper_bound; lia. }
    cbn [app be_digits]. rewrite Nat2Z.inj_succ, Z.pow_succ_r by lia.
    rewrite Z.div_div by lia. f_equal.
    f_equal.
    + f_equal. rewrite Z.rem_mul_r by lia.
      rewrite Z.add_comm, Z.mul_comm, Z.div_add_l by lia.
      rewrite (Z.div_small (v mod base)) by (apply Z.mod_pos_bound; lia). lia.
    + f_equal. rewrite Z.rem_mul_r by lia. rewrite Z.add_comm, Z.mul_comm, Z.add_comm, Z.mod_add by lia.
      symmetry; apply Z.mod_mod; lia.
Qed.

(** The digit-filling loop of [_int_to_octet] and [_len_oid_octet]. *)
Lemma digit_loop w k (pre mid : bytes) v :
  0 <= w <= 8 -> List.length mid = k ->
  for_ (py_range (len pre + Z.of_nat k - 1) (len pre - 1) (-1)) (pre ++ mid, v)
    (fun i '(result, value) =>
       let* result' := py_set result i (Z.land value (Z.ones w)) in
       Ok (result', Z.shiftr value w))
  = Ok (pre ++ be_digits (2 ^ w) k v, v / (2 ^ w) ^ Z.of_nat k).
Proof.
  intros Hw Hk.
  assert (Gen : forall k mid post v, List.length mid = k ->
    for_ (py_range (len pre + Z.of_nat k - 1) (len pre - 1) (-1)) (pre ++ mid ++ post, v)
    (fun i '(result, value) =>
       let* result' := py_set result i (Z.land value (Z.ones w)) in
       Ok (result', Z.shiftr value w))
    = Ok (pre ++ be_digits (2 ^ w) k v ++ post, v / (2 ^ w) ^ Z.of_nat k)).
  { clear k mid v Hk. intros k; induction k as [|k IH]; intros mid post v Hk.
    - destruct mid; [|discriminate]. unfold py_range.
      change (-1 >? 0) with false; change (-1 <? 0) with true; cbn match.
      replace ((len pre + Z.of_nat 0 - 1 - (len pre - 1) - -1 - 1) / - -1) with 0 by lia.
      cbn. now rewrite Z.div_1_r.
    - destruct (exists_last (l := mid)) as (mid' & x & ->); [intros ->; discriminate|].
      rewrite app_length in Hk; cbn in Hk.
      assert (E : py_range (len pre + Z.of_nat (S k) - 1) (len pre - 1) (-1) =
              (len pre + Z.of_nat k) :: py_range (len pre + Z.of_nat k - 1) (len pre - 1) (-1)).
      { unfold py_range. change (-1 >? 0) with false; change (-1 <? 0) with true; cbn match.
        replace (Z.to_nat ((len pre + Z.of_nat (S k) - 1 - (len pre - 1) - -1 - 1) / - -1)) with (S k) by lia.
        replace (Z.to_nat ((len pre + Z.of_nat k - 1 - (len pre - 1) - -1 - 1) / - -1)) with k by lia.
        cbn [seq map]. f_equal; [lia|]. rewrite <- seq_shift, map_map. apply map_ext; intros; lia. }
      rewrite E; cbn [for_].
      assert (Hp : 0 < 2 ^ w <= 2 ^ 8) by (split; [apply Z.pow_pos_nonneg; lia | apply Z.pow_le_mono_r; lia]).
      change (2 ^ 8) with 256 in Hp.
      assert (Hl : Z.land v (Z.ones w) = v mod 2 ^ w) by (apply Z.land_ones; lia).
      assert (Hb : byte_ok (v mod 2 ^ w)).
      { unfold byte_ok. pose proof (Z.mod_pos_bound v (2 ^ w)). lia. }
      rewrite Hl. rewrite py_set_ok; auto.
      2: { rewrite !len_app. unfold len; cbn [List.length]. lia. }
      cbn [bind].
      replace (upd (pre ++ (mid' ++ [x]) ++ post) (Z.to_nat (len pre + Z.of_nat k)) (v mod 2 ^ w))
        with (pre ++ mid' ++ (v mod 2 ^ w :: post)).
      2: { rewrite <- app_assoc. cbn [app]. rewrite !app_assoc.
           rewrite <- (upd_app_mid (pre ++ mid') post x). f_equal. rewrite app_length; unfold len; lia. }
      rewrite IH by lia. rewrite Z.shiftr_div_pow2 by lia. f_equal. f_equal.
      + cbn [be_digits]. now rewrite <- app_assoc.
      + rewrite Nat2Z.inj_succ, Z.pow_succ_r by lia. rewrite Z.div_div; [reflexivity | lia |].
        apply Z.pow_pos_nonneg; lia. }
  specialize (Gen k mid [] v Hk). now rewrite !app_nil_r in Gen.
Qed.

(** ** Number of digits *)
Lemma len_int_spec v w :
  0 < v -> 0 < w ->
  1 <= _len_int v w /\ (2 ^ w) ^ (_len_int v w - 1) <= v < (2 ^ w) ^ _len_int v w.
Proof.
  intros Hv Hw. unfold _len_int, bit_length.
  destruct (v =? 0) eqn:E0; [lia|].
  rewrite Z.abs_eq by lia.
  destruct (Z.log2_spec v Hv) as [L1 L2]. pose proof (Z.log2_nonneg v) as L0.
  set (L := Z.log2 v) in *.
  assert (Hmono : forall a b, 0 <= a -> w * a <= L -> L + 1 <= w * b -> 0 <= b ->
     (2 ^ w) ^ a <= v < (2 ^ w) ^ b).
  { intros a b Ha H1 H2 Hb. rewrite <- !Z.pow_mul_r by lia. split.
    - eapply Z.le_trans; [|exact L1]. apply Z.pow_le_mono_r; lia.
    - eapply Z.lt_le_trans; [exact L2|]. apply Z.pow_le_mono_r; lia. }
  pose proof (Z.div_mod (L + 1) w) as Hdm. pose proof (Z.mod_pos_bound (L + 1) w Hw) as Hmb.
  assert (Hq : 0 <= (L + 1) / w) by (apply Z.div_pos; lia).
  set (q := (L + 1) / w) in *. set (m := (L + 1) mod w) in *. clearbody q m.
  destruct (q =? 0) eqn:E1.
  - split; [lia|]. apply Hmono; try lia; nia.
  - destruct (m =? 0) eqn:E2; cbn [negb].
    + split; [lia|]. apply Hmono; try lia; nia.
    + split; [lia|]. apply Hmono; try lia; nia.
Qed.

Lemma lor_128 d : 0 <= d < 128 -> Z.lor 128 d = 128 + d.
Proof.
  intros H. assert (Hl : Z.land 128 d = 0).
  { rewrite <- (Z.mod_small d (2 ^ 7)) by (change (2 ^ 7) with 128; lia).
    rewrite <- Z.land_ones by lia.
    rewrite (Z.land_comm d), Z.land_assoc.
    change (Z.land 128 (Z.ones 7)) with 0. apply Z.land_0_l. }
  rewrite <- Z.lxor_lor by auto. symmetry; apply Z.add_nocarry_lxor; auto.
Qed.

(** ** Subidentifiers *)

Definition sub_digits (v : Z) : list Z := be_digits 128 (Z.to_nat (_len_int v 7)) v.

Lemma int_to_octet_small v : 0 <= v < 128 -> _int_to_octet v = Ok [v].
Proof.
  intros H; unfold _int_to_octet, to_bytes_1.
  replace (v <? 128) with true by lia. now replace ((0 <=? v) && (v <? 256)) with true by lia.
Qed.

Lemma int_to_octet_neg v : v < 0 -> _int_to_octet v = Err OverflowError.
Proof.
  intros H; unfold _int_to_octet, to_bytes_1.
  replace (v <? 128) with true by lia. now replace ((0 <=? v) && (v <? 256)) with false by lia.
Qed.

Lemma int_to_octet_big v :
  128 <= v -> exists d ds, sub_digits v = d :: ds /\ 1 <= d < 128 /\ ds <> [] /\
    Forall (fun d => 0 <= d < 128) ds /\
    Z.of_nat (List.length ds) = _len_int v 7 - 1 /\
    _int_to_octet v = Ok (128 + d :: ds).
Proof.
  intros H. destruct (len_int_spec v 7) as (H1 & H2 & H3); [lia|lia|].
  change (2 ^ 7) with 128 in *.
  assert (Hk : 2 <= _len_int v 7).
  { destruct (Z.eq_dec (_len_int v 7) 1) as [E|]; [|lia]. rewrite E in H3. change (128 ^ 1) with 128 in H3; lia. }
  destruct (Z.to_nat (_len_int v 7)) as [|k'] eqn:Ek; [lia|].
  assert (Hlen : _len_int v 7 = Z.of_nat (S k')) by lia.
  exists (v / 128 ^ Z.of_nat k'), (be_digits 128 k' (v mod 128 ^ Z.of_nat k')).
  assert (Hp : 0 < 128 ^ Z.of_nat k') by (apply Z.pow_pos_nonneg; lia).
  assert (HS : sub_digits v = v / 128 ^ Z.of_nat k' :: be_digits 128 k' (v mod 128 ^ Z.of_nat k')).
  { unfold sub_digits. rewrite Ek. apply be_digits_cons; [lia|]. rewrite <- Hlen; lia. }
  assert (Hd : 1 <= v / 128 ^ Z.of_nat k' < 128).
  { rewrite Hlen in H2, H3. replace (Z.of_nat (S k') - 1) with (Z.of_nat k') in H2 by lia.
    rewrite Nat2Z.inj_succ, Z.pow_succ_r in H3 by lia. split.
    - apply Z.div_le_lower_bound; lia.
    - apply Z.div_lt_upper_bound; lia. }
  split; [exact HS|]. split; [exact Hd|].
  split. { intros E; apply (f_equal (@List.length Z)) in E. rewrite be_digits_length in E; cbn in E; lia. }
  split. { apply be_digits_range; lia. }
  split. { rewrite be_digits_length; lia. }
  unfold _int_to_octet. replace (v <? 128) with false by lia.
  pose proof (digit_loop 7 (S k') [] (py_repeat 0 (_len_int v 7)) v ltac:(lia)) as HL.
  change (len (@nil Z)) with 0 in HL. replace (0 + Z.of_nat (S k') - 1) with (_len_int v 7 - 1) in HL by lia.
  change (0 - 1) with (-1) in HL. change (2 ^ 7) with 128 in HL. change (Z.ones 7) with 127 in HL.
  cbn [app] in HL. rewrite HL.
  2: { unfold py_repeat; rewrite repeat_length; lia. }
  cbn [bind fst]. unfold sub_digits in HS. rewrite Ek in HS. rewrite HS.
  rewrite (py_get_nth _ 0 0) by (rewrite len_cons; pose proof (len_nonneg (be_digits 128 k' (v mod 128 ^ Z.of_nat k'))); lia).
  change (Z.to_nat 0) with 0%nat. cbn [nth bind].
  rewrite py_set_ok.
  - rewrite Z.lor_comm, lor_128 by lia. reflexivity.
  - rewrite len_cons; pose proof (len_nonneg (be_digits 128 k' (v mod 128 ^ Z.of_nat k'))); lia.
  - rewrite Z.lor_comm, lor_128 by lia. unfold byte_ok; lia.
Qed.

(** What a standard decoder reads from the octets of one subidentifier. *)
Definition read_back (v : Z) : list Z :=
  if v <? 128 then [v]
  else match sub_digits v with
       | d0 :: d1 :: ds => d0 * 128 + d1 :: ds
       | _ => []
       end.

Lemma subids_small ds rest :
  Forall (fun d => 0 <= d < 128) ds ->
  subids (ds ++ rest) 0 true = option_map (fun r => ds ++ r) (subids rest 0 true).
Proof.
  induction ds as [|d ds IH]; intros H; cbn [app].
  - now destruct (subids rest 0 true).
  - inversion H; subst. cbn [subids andb].
    replace (d =? 128) with false by lia. replace (d <? 128) with true by lia.
    rewrite IH by auto. destruct (subids rest 0 true); cbn; [f_equal; f_equal; lia | reflexivity].
Qed.

Lemma int_to_octet_read v o rest :
  0 <= v -> _int_to_octet v = Ok o ->
  subids (o ++ rest) 0 true = option_map (fun r => read_back v ++ r) (subids rest 0 true).
Proof.
  intros Hv Ho. unfold read_back. destruct (v <? 128) eqn:E.
  - rewrite int_to_octet_small in Ho by lia. injection Ho as <-.
    rewrite (subids_small [v]); [reflexivity | repeat constructor; lia].
  - destruct (int_to_octet_big v ltac:(lia)) as (d & ds & HS & Hd & Hne & Hds & _ & Hoct).
    rewrite Hoct in Ho; injection Ho as <-. rewrite HS.
    destruct ds as [|d1 ds]; [congruence|]. inversion Hds; subst.
    cbn [app subids andb]. replace (128 + d =? 128) with false by lia.
    replace (128 + d <? 128) with false by lia. replace (d1 <? 128) with true by lia.
    rewrite subids_small by auto. destruct (subids rest 0 true); cbn; [|reflexivity].
    do 2 f_equal. lia.
Qed.

Lemma read_back_small v : 0 <= v < 2 ^ 14 -> read_back v = [v].
Proof.
  intros Hv; unfold read_back. destruct (v <? 128) eqn:E; [reflexivity|].
  unfold sub_digits.
  destruct (len_int_spec v 7) as (H1 & H2 & H3); [lia|lia|]. change (2 ^ 7) with 128 in *.
  assert (_len_int v 7 = 2) as ->.
  { assert (Hlt : _len_int v 7 - 1 < 2).
    { apply (Z.pow_lt_mono_r_iff 128); [lia | lia |]. change (128 ^ 2) with (2 ^ 14). lia. }
    destruct (Z.eq_dec (_len_int v 7) 1) as [E1|]; [|lia]. rewrite E1 in H3. change (128 ^ 1) with 128 in H3; lia. }
  change (Z.to_nat 2) with 2%nat. cbn [be_digits app].
  f_equal. change (2 ^ 14) with 16384 in Hv. clear -Hv E.
  rewrite (Z.mod_small (v / 128)) by lia. lia.
Qed.

Lemma read_back_big v : 2 ^ 14 <= v -> (2 <= List.length (read_back v))%nat.
Proof.
  intros Hv; change (2 ^ 14) with 16384 in Hv. unfold read_back. replace (v <? 128) with false by lia.
  destruct (int_to_octet_big v ltac:(lia)) as (d & ds & HS & Hd & Hne & Hds & Hlen & _).
  rewrite HS. destruct (len_int_spec v 7) as (H1 & H2 & H3); [lia|lia|]. change (2 ^ 7) with 128 in *.
  assert (3 <= _len_int v 7).
  { assert (Hlt : 2 < _len_int v 7).
    { apply (Z.pow_lt_mono_r_iff 128); [lia | lia |]. change (128 ^ 2) with 16384. lia. }
    lia. }
  destruct ds as [|d1 ds]; [cbn in Hlen; lia|]. cbn [List.length] in *. lia.
Qed.

Lemma read_back_pos v : 0 <= v -> (1 <= List.length (read_back v))%nat.
Proof.
  intros Hv. destruct (Z_lt_le_dec v (2 ^ 14)).
  - rewrite read_back_small by lia; cbn; lia.
  - pose proof (read_back_big v); lia.
Qed.

Lemma int_to_octet_ok v : 0 <= v -> exists o, _int_to_octet v = Ok o /\ o <> [].
Proof.
  intros Hv. destruct (Z_lt_le_dec v 128).
  - rewrite int_to_octet_small by lia. eexists; split; [reflexivity|discriminate].
  - destruct (int_to_octet_big v) as (d & ds & _ & _ & _ & _ & _ & ->); auto.
    eexists; split; [reflexivity|discriminate].
Qed.

(** ** The body *)

Lemma encode_rest rest acc :
  Forall (fun v => 0 <= v) rest ->
  exists o, for_ rest acc (fun iter_value result =>
              let* o := _int_to_octet iter_value in Ok (result ++ o)) = Ok (acc ++ o) /\
    subids o 0 true = Some (flat_map read_back rest).
Proof.
  revert acc; induction rest as [|v rest IH]; intros acc H.
  - exists []. cbn. now rewrite app_nil_r.
  - inversion H as [|? ? Hv Hr]; subst. cbn [for_].
    destruct (int_to_octet_ok v Hv) as (o & Ho & _). rewrite Ho; cbn [bind].
    destruct (IH (acc ++ o) Hr) as (o' & E & Hs).
    exists (o ++ o'). rewrite E, app_assoc. split; auto.
    rewrite (int_to_octet_read v o o' Hv Ho), Hs. reflexivity.
Qed.

Lemma encode_octet_legal arcs :
  legal_oid arcs ->
  exists body, _encode_octet arcs = Ok body /\ body <> [] /\
    subids body 0 true = Some (flat_map read_back (oid_subids arcs)).
Proof.
  destruct arcs as [|a [|b rest]]; cbn [legal_oid]; try tauto.
  intros (Ha & Hb & Hab & Hr). unfold _encode_octet.
  rewrite (py_get_nth (a :: b :: rest) 0 0) by (rewrite !len_cons; pose proof (len_nonneg rest); lia).
  rewrite (py_get_nth (a :: b :: rest) 1 0) by (rewrite !len_cons; pose proof (len_nonneg rest); lia).
  change (Z.to_nat 0) with 0%nat; change (Z.to_nat 1) with 1%nat. cbn [nth bind].
  rewrite py_from_skipn by lia. change (Z.to_nat 2) with 2%nat. cbn [skipn].
  assert (Hf : (if a =? 0 then (if b <? 40 then Ok b else Err (GOSTOIDError "invalid second SID value"))
     else if a =? 1 then (if b <? 40 then Ok (b + 40) else Err (GOSTOIDError "invalid second SID value"))
     else if a =? 2 then Ok (b + 80) else Err (GOSTOIDError "invalid first SID value")) = Ok (40 * a + b)).
  { destruct Ha as [-> | [-> | ->]]; cbn; try (replace (b <? 40) with true by lia); f_equal; lia. }
  rewrite Hf; cbn [bind].
  assert (H0 : 0 <= 40 * a + b) by (destruct Ha as [-> | [-> | ->]]; lia).
  destruct (int_to_octet_ok (40 * a + b) H0) as (o & Ho & Hne). rewrite Ho; cbn [bind].
  destruct (encode_rest rest o Hr) as (o' & E & Hs).
  exists (o ++ o'). rewrite E. split; [reflexivity|]. split; [destruct o; [congruence|discriminate]|].
  cbn [oid_subids flat_map]. rewrite (int_to_octet_read _ _ o' H0 Ho), Hs. reflexivity.
Qed.

(** ** The length prefix *)

Lemma be_digits_value k v :
  0 <= v < 256 ^ Z.of_nat k -> be_value (be_digits 256 k v) = v.
Proof.
  unfold be_value. revert v; induction k as [|k IH]; intros v Hv; cbn [be_digits].
  - change (256 ^ Z.of_nat 0) with 1 in Hv. cbn; lia.
  - rewrite fold_left_app, IH.
    + cbn [fold_left]. lia.
    + rewrite Nat2Z.inj_succ, Z.pow_succ_r in Hv by lia. lia.
Qed.

Lemma der_len_ok n :
  0 <= n < 256 ^ 127 ->
  exists ln, _len_oid_octet n = Ok ln /\ forall rest, der_length (ln ++ rest) = Some (n, rest).
Proof.
  intros Hn. unfold _len_oid_octet. destruct (n <? 128) eqn:E.
  - unfold to_bytes_1. replace ((0 <=? n) && (n <? 256)) with true by lia.
    exists [n]; split; [reflexivity|]. intros rest. cbn [app der_length]. now rewrite E.
  - destruct (len_int_spec n 8) as (H1 & H2 & H3); [lia|lia|].
    change (2 ^ 8) with 256 in *.
    set (k := _len_int n 8) in *.
    assert (Hk : 1 <= k <= 127).
    { split; [lia|]. assert (k - 1 < 127); [|lia]. apply (Z.pow_lt_mono_r_iff 256); lia. }
    assert (Hk' : exists k', k = Z.of_nat (S k')) by (exists (Z.to_nat (k - 1)); lia).
    destruct Hk' as (k' & Ek).
    rewrite py_set_ok.
    2: { rewrite len_repeat; lia. }
    2: { rewrite lor_128 by lia. unfold byte_ok; lia. }
    cbn [bind]. rewrite lor_128 by lia.
    replace (upd (py_repeat 0 (k + 1)) (Z.to_nat 0) (128 + k)) with ([128 + k] ++ py_repeat 0 k).
    2: { unfold py_repeat. replace (Z.to_nat (k + 1)) with (S (Z.to_nat k)) by lia. reflexivity. }
    pose proof (digit_loop 8 (S k') [128 + k] (py_repeat 0 k) n ltac:(lia)) as HL.
    change (len [128 + k]) with 1 in HL.
    replace (1 + Z.of_nat (S k') - 1) with k in HL by lia. change (1 - 1) with 0 in HL.
    change (2 ^ 8) with 256 in HL. change (Z.ones 8) with 255 in HL.
    rewrite HL by (unfold py_repeat; rewrite repeat_length; lia).
    cbn [bind fst].
    exists ([128 + k] ++ be_digits 256 (S k') n). split; [reflexivity|].
    intros rest. cbn [app der_length]. replace (128 + k <? 128) with false by lia.
    replace (128 + k - 128) with k by lia. replace (Z.to_nat k) with (S k') by lia.
    assert (HD := be_digits_length 256 (S k') n).
    replace (Nat.eqb (S k') 0) with false by (symmetry; apply Nat.eqb_neq; lia).
    replace (Nat.ltb (List.length (be_digits 256 (S k') n ++ rest)) (S k')) with false.
    2: { symmetry; apply Nat.ltb_ge. rewrite app_length, HD; lia. }
    cbn [orb].
    rewrite firstn_app, HD, Nat.sub_diag, firstn_O, app_nil_r, firstn_all2 by lia.
    rewrite be_digits_value by (rewrite <- Ek; lia).
    rewrite E; cbn [orb].
    rewrite be_digits_cons by (try rewrite <- Ek; lia). cbn [app hd].
    assert (Hd0 : 1 <= n / 256 ^ Z.of_nat k').
    { apply Z.div_le_lower_bound; [apply Z.pow_pos_nonneg; lia|].
      replace (k - 1) with (Z.of_nat k') in H2 by lia. lia. }
    replace (n / 256 ^ Z.of_nat k' =? 0) with false by lia.
    cbn [skipn]. f_equal. f_equal.
    rewrite skipn_app, be_digits_length, Nat.sub_diag. cbn [skipn].
    rewrite skipn_all2; [reflexivity | rewrite be_digits_length; lia].
Qed.

(** ** Whole encodings *)

Lemma flat_read_back_small l :
  Forall (fun v => 0 <= v < 2 ^ 14) l -> flat_map read_back l = l.
Proof.
  induction 1 as [|v l Hv Hl IH]; cbn [flat_map]; [reflexivity|].
  now rewrite read_back_small, IH.
Qed.

Lemma flat_read_back_length l :
  Forall (fun v => 0 <= v) l ->
  (List.length l <= List.length (flat_map read_back l))%nat /\
  (~ Forall (fun v => v < 2 ^ 14) l -> (List.length l < List.length (flat_map read_back l))%nat).
Proof.
  induction 1 as [|v l Hv Hl IH]; cbn [flat_map List.length].
  - split; [lia|]. intros H; exfalso; apply H; constructor.
  - rewrite app_length. pose proof (read_back_pos v Hv). split; [lia|].
    intros Hn. destruct (Z_lt_le_dec v (2 ^ 14)).
    + assert (~ Forall (fun v => v < 2 ^ 14) l) by (intros F; apply Hn; now constructor). destruct IH as [_ IH]. specialize (IH H0). lia.
    + pose proof (read_back_big v l0). lia.
Qed.

Lemma split_first_inv a b :
  (a = 0 \/ a = 1 \/ a = 2) -> 0 <= b -> (a < 2 -> b < 40) -> split_first (40 * a + b) = (a, b).
Proof.
  intros Ha Hb Hab; unfold split_first.
  destruct Ha as [-> | [-> | ->]].
  - replace (40 * 0 + b <? 40) with true by lia. f_equal; lia.
  - replace (40 * 1 + b <? 40) with false by lia. replace (40 * 1 + b <? 80) with true by lia. f_equal; lia.
  - replace (40 * 2 + b <? 40) with false by lia. replace (40 * 2 + b <? 80) with false by lia. f_equal; lia.
Qed.

Lemma legal_subids_nonneg arcs : legal_oid arcs -> Forall (fun v => 0 <= v) (oid_subids arcs).
Proof.
  destruct arcs as [|a [|b rest]]; cbn; try tauto. intros (Ha & Hb & _ & Hr).
  constructor; auto. destruct Ha as [-> | [-> | ->]]; lia.
Qed.

Lemma octet_legal arcs o :
  legal_oid arcs -> len o < 256 ^ 127 -> octet_of_digit arcs = Ok o ->
  der_oid o =
    match flat_map read_back (oid_subids arcs) with
    | v :: vs => let '(a, b) := split_first v in Some (a :: b :: vs)
    | [] => None
    end.
Proof.
  intros Hlegal Hlen Ho. destruct (encode_octet_legal arcs Hlegal) as (body & Hb & _ & Hs).
  unfold octet_of_digit in Ho. rewrite Hb in Ho; cbn [bind] in Ho.
  unfold to_bytes_1 in Ho. change ((0 <=? 6) && (6 <? 256)) with true in Ho. cbn [bind] in Ho.
  destruct (_len_oid_octet (len body)) as [ln|e] eqn:El; cbn [bind] in Ho; [|discriminate].
  injection Ho as <-.
  assert (Hbl : 0 <= len body < 256 ^ 127).
  { cbn [app] in Hlen. rewrite len_cons, len_app in Hlen.
    pose proof (len_nonneg body); pose proof (len_nonneg ln). lia. }
  destruct (der_len_ok (len body) Hbl) as (ln' & El' & Hd). rewrite El in El'; injection El' as <-.
  cbn [app der_oid]. change (6 =? 6) with true. cbn match. rewrite Hd.
  change (Z.of_nat (List.length body)) with (len body). rewrite Z.eqb_refl.
  unfold body_arcs. now rewrite Hs.
Qed.

Lemma octet_exists arcs :
  legal_oid arcs -> (forall body, _encode_octet arcs = Ok body -> len body < 256 ^ 127) ->
  exists o, octet_of_digit arcs = Ok o.
Proof.
  intros Hlegal Hlen. destruct (encode_octet_legal arcs Hlegal) as (body & Hb & _ & _).
  unfold octet_of_digit. rewrite Hb; cbn [bind]. unfold to_bytes_1.
  change ((0 <=? 6) && (6 <? 256)) with true. cbn [bind].
  destruct (der_len_ok (len body)) as (ln & -> & _).
  { split; [apply len_nonneg | auto]. }
  cbn [bind]. eauto.
Qed.

(** The octets decode to the OID exactly when all subidentifiers are below 2^14. *)
Lemma octet_correct_iff arcs o :
  legal_oid arcs -> len o < 256 ^ 127 -> octet_of_digit arcs = Ok o ->
  (der_oid o = Some arcs <-> Forall (fun v => v < 2 ^ 14) (oid_subids arcs)).
Proof.
  intros Hlegal Hlen Ho. rewrite (octet_legal arcs o) by auto.
  pose proof (legal_subids_nonneg arcs Hlegal) as Hnn.
  split.
  - intros H.
    assert (Hdec : Forall (fun v => v < 2 ^ 14) (oid_subids arcs) \/ ~ Forall (fun v => v < 2 ^ 14) (oid_subids arcs)).
    { destruct (Forall_dec (fun v => v < 2 ^ 14)) with (l := oid_subids arcs); auto. intros; apply Z_lt_dec. }
    destruct Hdec as [|Hn]; auto. exfalso.
    destruct (flat_read_back_length _ Hnn) as [_ Hgt]. specialize (Hgt Hn).
    destruct (flat_map read_back (oid_subids arcs)) as [|v vs]; [discriminate|].
    destruct (split_first v) as [a b]. injection H as H.
    apply (f_equal (@List.length Z)) in H.
    destruct arcs as [|a' [|b' rest]]; cbn in *; try tauto. lia.
  - intros H.
    rewrite flat_read_back_small.
    2: { rewrite Forall_forall in *. intros v Hv; split; auto. }
    destruct arcs as [|a [|b rest]]; cbn in Hlegal; try tauto.
    destruct Hlegal as (Ha & Hb & Hab & _). cbn [oid_subids].
    rewrite split_first_inv by auto. reflexivity.
Qed.

(** Small arcs: the encoding exists. *)
Lemma encode_small_len rest acc o :
  Forall (fun v => 0 <= v < 2 ^ 14) rest ->
  for_ rest acc (fun iter_value result =>
              let* o := _int_to_octet iter_value in Ok (result ++ o)) = Ok o ->
  len o <= len acc + 2 * len rest.
Proof.
  revert acc; induction rest as [|v rest IH]; intros acc Hr E; cbn [for_] in E.
  - injection E as <-. unfold len; cbn [List.length]; lia.
  - inversion Hr as [|? ? Hv Hr']; subst.
    destruct (int_to_octet_ok v ltac:(lia)) as (ov & Hov & _). rewrite Hov in E; cbn [bind] in E.
    apply IH in E; auto. rewrite len_app in E. rewrite len_cons.
    assert (len ov <= 2); [|lia]. clear -Hv Hov.
    destruct (Z_lt_le_dec v 128).
    + rewrite int_to_octet_small in Hov by lia. injection Hov as <-. cbn; lia.
    + destruct (int_to_octet_big v) as (d & ds & _ & _ & _ & _ & Hl & E); auto.
      rewrite E in Hov; injection Hov as <-. rewrite len_cons. unfold len; rewrite Hl.
      destruct (len_int_spec v 7) as (H1 & H2 & H3); [lia|lia|]. change (2 ^ 7) with 128 in *.
      assert (_len_int v 7 - 1 < 2); [|lia].
      apply (Z.pow_lt_mono_r_iff 128); [lia | lia |]. change (128 ^ 2) with (2 ^ 14). lia.
Qed.

Lemma octet_small arcs :
  legal_oid arcs -> Forall (fun v => v < 2 ^ 14) (oid_subids arcs) -> len arcs < 256 ^ 126 ->
  exists o, octet_of_digit arcs = Ok o /\ der_oid o = Some arcs.
Proof.
  intros Hlegal Hs Hlen.
  assert (Hbody : forall body, _encode_octet arcs = Ok body -> len body <= 2 * len arcs).
  { intros body Hb. destruct arcs as [|a [|b rest]]; cbn [legal_oid] in Hlegal; try tauto.
    destruct Hlegal as (Ha & Hb0 & Hab & Hr). cbn [oid_subids] in Hs.
    inversion Hs as [|? ? Hs1 Hs2]; subst. unfold _encode_octet in Hb.
    rewrite (py_get_nth (a :: b :: rest) 0 0) in Hb by (rewrite !len_cons; pose proof (len_nonneg rest); lia).
    rewrite (py_get_nth (a :: b :: rest) 1 0) in Hb by (rewrite !len_cons; pose proof (len_nonneg rest); lia).
    change (Z.to_nat 0) with 0%nat in Hb; change (Z.to_nat 1) with 1%nat in Hb. cbn [nth bind] in Hb.
    rewrite py_from_skipn in Hb by lia. change (Z.to_nat 2) with 2%nat in Hb. cbn [skipn] in Hb.
    assert (Hf : (if a =? 0 then (if b <? 40 then Ok b else Err (GOSTOIDError "invalid second SID value"))
       else if a =? 1 then (if b <? 40 then Ok (b + 40) else Err (GOSTOIDError "invalid second SID value"))
       else if a =? 2 then Ok (b + 80) else Err (GOSTOIDError "invalid first SID value")) = Ok (40 * a + b)).
    { destruct Ha as [-> | [-> | ->]]; cbn; try (replace (b <? 40) with true by lia); f_equal; lia. }
    rewrite Hf in Hb; cbn [bind] in Hb.
    assert (H0 : 0 <= 40 * a + b) by (destruct Ha as [-> | [-> | ->]]; lia).
    destruct (int_to_octet_ok (40 * a + b) H0) as (o & Ho & _). rewrite Ho in Hb; cbn [bind] in Hb.
    assert (H1 : len o <= len (@nil Z) + 2 * len [40 * a + b]).
    { apply (encode_small_len [40 * a + b] []); [repeat constructor; lia|]. cbn [for_]. rewrite Ho. reflexivity. }
    apply encode_small_len in Hb.
    2: { rewrite Forall_forall in *; intros v Hv; split; auto. }
    rewrite !len_cons, !len_nil in *. lia. }
  destruct (octet_exists arcs Hlegal) as (o & Ho).
  { intros body Hb. apply Hbody in Hb.
    assert (256 ^ 127 = 256 * 256 ^ 126) by reflexivity. lia. }
  exists o; split; auto. apply octet_correct_iff; auto.
  unfold octet_of_digit in Ho.
  destruct (_encode_octet arcs) as [body|] eqn:Eb; cbn [bind] in Ho; [|discriminate].
  unfold to_bytes_1 in Ho. change ((0 <=? 6) && (6 <? 256)) with true in Ho. cbn [bind] in Ho.
  specialize (Hbody _ eq_refl).
  assert (Hll : forall ln, _len_oid_octet (len body) = Ok ln -> len ln <= 128).
  { intros ln. unfold _len_oid_octet. pose proof (len_nonneg body) as Hb0.
    assert (Hlt : len body < 256 ^ 127) by (assert (256 ^ 127 = 256 * 256 ^ 126) by reflexivity; lia).
    destruct (len body <? 128) eqn:E.
    - unfold to_bytes_1. destruct ((0 <=? len body) && (len body <? 256)); intros [= <-]. cbn; lia.
    - destruct (len_int_spec (len body) 8) as (H1 & H2 & H3); [lia|lia|].
      change (2 ^ 8) with 256 in *. set (k := _len_int (len body) 8) in *.
      assert (Hk : 1 <= k <= 127).
      { split; [lia|]. assert (k - 1 < 127); [|lia]. apply (Z.pow_lt_mono_r_iff 256); lia. }
      destruct (py_set (py_repeat 0 (k + 1)) 0 (Z.lor 128 k)) as [r|] eqn:Er; cbn [bind]; [|discriminate].
      assert (Hr : len r = k + 1).
      { unfold py_set, py_set_list in Er. rewrite len_repeat in Er. change (0 <? 0) with false in Er. cbn match in Er.
        destruct ((0 <=? 0) && (0 <? Z.max 0 (k + 1))); cbn [bind] in Er; [|discriminate].
        destruct ((0 <=? Z.lor 128 k) && (Z.lor 128 k <? 256)); [|discriminate].
        injection Er as <-. unfold len. rewrite upd_length. unfold py_repeat; rewrite repeat_length; lia. }
      clear Er. clearbody k.
      generalize (len body) as v. generalize (py_range k 0 (-1)) as rg.
      intros rg; revert r Hr; induction rg as [|i rg IH]; intros r Hr v; cbn [for_ bind fst].
      + intros [= <-]; lia.
      + destruct (py_set r i (Z.land v 255)) as [r'|] eqn:Er; cbn [bind]; [|discriminate].
        apply IH. unfold py_set, py_set_list in Er.
        set (j := if i <? 0 then i + len r else i) in *.
        destruct ((0 <=? j) && (j <? len r)); cbn [bind] in Er; [|discriminate].
        destruct ((0 <=? Z.land v 255) && (Z.land v 255 <? 256)); [|discriminate].
        injection Er as <-. unfold len in *. now rewrite upd_length. }
  destruct (_len_oid_octet (len body)) as [ln|] eqn:El; cbn [bind] in Ho; [|discriminate].
  injection Ho as <-. specialize (Hll _ eq_refl). cbn [app]. rewrite len_cons, len_app.
  assert (E : 256 ^ 127 = 256 * 256 ^ 126) by reflexivity.
  assert (1000 < 256 ^ 126) by reflexivity. lia.
Qed.
