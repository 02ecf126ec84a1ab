(** * Kuznechik: the model refines the specification *)
From Verif Require Import PyBase PyFacts Utils UtilsFacts CipherTables Kuznechik SpecKuznechik.

Lemma byte_range x : byte_ok x <-> In x (map Z.of_nat (seq 0 256)).
Proof.
  unfold byte_ok. rewrite in_map_iff. split.
  - intros H. exists (Z.to_nat x). rewrite in_seq. lia.
  - intros (n & <- & Hn). apply in_seq in Hn. lia.
Qed.

(** Lifting a check over all 256 byte values. *)
Lemma byte_check (P : Z -> bool) :
  forallb P (map Z.of_nat (seq 0 256)) = true -> forall x, byte_ok x -> P x = true.
Proof. rewrite forallb_forall. intros H x Hx. now apply H, byte_range. Qed.

Definition byteb (x : Z) : bool := (0 <=? x) && (x <? 256).
Lemma byteb_ok x : byteb x = true <-> byte_ok x.
Proof. unfold byteb, byte_ok. lia. Qed.

Definition get_is (l : list Z) (x v : Z) : bool :=
  match py_get l x with Ok y => (y =? v) && byteb v | Err _ => false end.

Lemma get_is_ok l x v : get_is l x v = true -> py_get l x = Ok v /\ byte_ok v.
Proof.
  unfold get_is. destruct (py_get l x) as [y|]; [|discriminate]. intros H.
  apply andb_prop in H as [H1 H2]. apply byteb_ok in H2. apply Z.eqb_eq in H1. now subst.
Qed.

(** ** The tables of the code are the functions of the specification *)

Lemma sbox_table x : byte_ok x -> py_get _S_BOX_KUZNECHIK x = Ok (sbox x) /\ byte_ok (sbox x).
Proof.
  intros Hx. apply get_is_ok. revert x Hx.
  apply (byte_check (fun x => get_is _S_BOX_KUZNECHIK x (sbox x))). vm_compute. reflexivity.
Qed.

Lemma sbox_inv_table x :
  byte_ok x -> py_get _S_BOX_REVERSE_KUZNECHIK x = Ok (sbox_inv x) /\ byte_ok (sbox_inv x).
Proof.
  intros Hx. apply get_is_ok. revert x Hx.
  apply (byte_check (fun x => get_is _S_BOX_REVERSE_KUZNECHIK x (sbox_inv x))). vm_compute. reflexivity.
Qed.

Lemma sbox_inv_l x : byte_ok x -> sbox_inv (sbox x) = x.
Proof.
  intros Hx. apply Z.eqb_eq. revert x Hx.
  apply (byte_check (fun x => sbox_inv (sbox x) =? x)). vm_compute. reflexivity.
Qed.

Lemma sbox_inv_r x : byte_ok x -> sbox (sbox_inv x) = x.
Proof.
  intros Hx. apply Z.eqb_eq. revert x Hx.
  apply (byte_check (fun x => sbox (sbox_inv x) =? x)). vm_compute. reflexivity.
Qed.

(** Row [i] of [_GF] multiplies by the coefficient of a_0, a_15, a_14, ... *)
Definition gf_coef (i : Z) : Z := nth (Z.to_nat i) (1 :: lin_coefs) 0.
Definition gf_row (i : Z) : list Z := nth (Z.to_nat i) _GF [].

Lemma gf_row_get i : 0 <= i < 16 -> py_get _GF i = Ok (gf_row i).
Proof. intros H. apply py_get_nth. change (len _GF) with 16. exact H. Qed.

Lemma gf_table i x :
  0 <= i < 16 -> byte_ok x ->
  py_get (gf_row i) x = Ok (gf_mul (gf_coef i) x) /\ byte_ok (gf_mul (gf_coef i) x).
Proof.
  intros Hi Hx. apply get_is_ok.
  assert (Hc : forallb (fun i => forallb (fun x => get_is (gf_row i) x (gf_mul (gf_coef i) x))
            (map Z.of_nat (seq 0 256))) (map Z.of_nat (seq 0 16)) = true) by (vm_compute; reflexivity).
  rewrite forallb_forall in Hc.
  assert (Hin : In i (map Z.of_nat (seq 0 16))).
  { apply in_map_iff. exists (Z.to_nat i). rewrite in_seq. lia. }
  specialize (Hc i Hin). revert x Hx. apply byte_check. exact Hc.
Qed.

Lemma gf_mul_1 x : byte_ok x -> gf_mul 1 x = x.
Proof.
  intros Hx. apply Z.eqb_eq. revert x Hx.
  apply (byte_check (fun x => gf_mul 1 x =? x)). vm_compute. reflexivity.
Qed.

Global Opaque gf_row gf_mul sbox sbox_inv.

(** ** Blocks *)

Definition block16 (b : bytes) : Prop := len b = 16 /\ bytes_ok b.

Lemma block16_explicit b : block16 b ->
  exists x0 x1 x2 x3 x4 x5 x6 x7 x8 x9 x10 x11 x12 x13 x14 x15,
    b = [x0; x1; x2; x3; x4; x5; x6; x7; x8; x9; x10; x11; x12; x13; x14; x15].
Proof.
  intros [Hl _]. unfold len in Hl.
  do 16 (destruct b as [|? b]; [cbn in Hl; lia|]). destruct b; [|cbn in Hl; lia].
  repeat eexists.
Qed.

(** ** S *)

Lemma cipher_s_with_ok sb f data :
  (forall x, byte_ok x -> py_get sb x = Ok (f x) /\ byte_ok (f x)) ->
  bytes_ok data -> 16 <= len data ->
  cipher_s_with sb data = Ok (map f (firstn 16 data)).
Proof.
  intros Hsb Hd Hl. unfold cipher_s_with, _BLOCK_SIZE_KUZNECHIK.
  assert (Hnth : forall i, 0 <= i < 16 -> byte_ok (nth (Z.to_nat i) data 0)).
  { intros i Hi. unfold bytes_ok in Hd. rewrite Forall_forall in Hd. apply Hd, nth_In. unfold len in Hl. lia. }
  rewrite (for_set_loop 16 (fun i => f (nth (Z.to_nat i) data 0))).
  - assert (E : len (firstn 16 data) = 16) by (unfold len in *; rewrite firstn_length; lia).
    rewrite <- (map_nth_range f (firstn 16 data) 0), E. f_equal. apply map_ext_in.
    intros i Hi. apply in_py_range in Hi. f_equal.
    rewrite <- (firstn_skipn 16 data) at 1. rewrite app_nth1; [reflexivity|].
    unfold len in E. lia.
  - reflexivity.
  - intros i l Hi Hll. rewrite (py_get_nth data i 0) by lia. cbn [bind].
    destruct (Hsb _ (Hnth i Hi)) as [-> _]. reflexivity.
  - intros i Hi. apply (Hsb _ (Hnth i Hi)).
Qed.

Lemma for_err {A S} (xs ys : list A) x (s s' : S) body e :
  for_ xs s body = Ok s' -> body x s' = Err e -> for_ (xs ++ x :: ys) s body = Err e.
Proof. intros H1 H2. rewrite for_app, H1. cbn [bind for_]. now rewrite H2. Qed.

Lemma for_out xs ys x {S} (s : S) (P : S -> Prop) body e :
  P s -> (forall i s, In i xs -> P s -> exists s', body i s = Ok s' /\ P s') ->
  (forall s, P s -> body x s = Err e) ->
  for_ (xs ++ x :: ys : list Z) s body = Err e.
Proof.
  intros Hs Hstep Hx. revert s Hs. induction xs as [|i xs IH]; intros s Hs; cbn [app for_].
  - now rewrite Hx.
  - destruct (Hstep i s (or_introl eq_refl) Hs) as (s' & -> & Hs'). cbn [bind].
    apply IH; auto. intros j t Hj; apply Hstep; now right.
Qed.

Lemma cipher_s_with_short sb f data :
  (forall x, byte_ok x -> py_get sb x = Ok (f x) /\ byte_ok (f x)) ->
  bytes_ok data -> len data < 16 ->
  cipher_s_with sb data = Err IndexError.
Proof.
  intros Hsb Hd Hl. unfold cipher_s_with, _BLOCK_SIZE_KUZNECHIK.
  pose proof (len_nonneg data) as H0.
  assert (E : py_range 0 16 1 = py_range 0 (len data) 1 ++ len data :: py_range (len data + 1) 16 1).
  { rewrite <- (py_range_cons (len data) 16) by lia.
    rewrite !py_range_up_from.
    replace (Z.to_nat (16 - 0)) with (Z.to_nat (len data - 0) + Z.to_nat (16 - len data))%nat by lia.
    rewrite seq_app, map_app. f_equal. cbn [plus].
    rewrite <- (map_map Z.of_nat (fun i => 0 + i)), <- (map_map Z.of_nat (fun i => len data + i)).
    generalize (Z.to_nat (16 - len data)). replace (len data) with (Z.of_nat (Z.to_nat (len data))) by lia.
    intros m. replace (Z.to_nat (Z.of_nat (Z.to_nat (len data)) - 0)) with (Z.to_nat (len data) + 0)%nat by lia.
    generalize (Z.to_nat (len data)) as n, 0%nat as k. induction m as [|m IH]; intros n k; [reflexivity|].
    cbn [seq map]. f_equal; [lia|]. rewrite <- IH. do 3 f_equal. lia. }
  rewrite E.
  apply (for_out _ _ _ _ (fun l => len l = 16)).
  - reflexivity.
  - intros i l Hi Hll. apply in_py_range in Hi.
    rewrite (py_get_nth data i 0) by lia. cbn [bind].
    destruct (Hsb (nth (Z.to_nat i) data 0)) as [-> Hb].
    { unfold bytes_ok in Hd; rewrite Forall_forall in Hd. apply Hd, nth_In. unfold len in *. lia. }
    cbn [bind]. rewrite py_set_ok by (auto; lia). eexists; split; [reflexivity|].
    unfold len in *. now rewrite upd_length.
  - intros l _. now rewrite py_get_out by lia.
Qed.

Lemma cipher_s_ok data : bytes_ok data -> 16 <= len data -> _cipher_s data = Ok (kS (firstn 16 data)).
Proof. intros. apply cipher_s_with_ok; auto using sbox_table. Qed.

Lemma cipher_s_reverse_ok data :
  bytes_ok data -> 16 <= len data -> _cipher_s_reverse data = Ok (kS_inv (firstn 16 data)).
Proof. intros. apply cipher_s_with_ok; auto using sbox_inv_table. Qed.

Lemma cipher_s_short data : bytes_ok data -> len data < 16 -> _cipher_s data = Err IndexError.
Proof. intros. apply (cipher_s_with_short _ sbox); auto using sbox_table. Qed.

(** ** R and L *)

Ltac bytes_split H :=
  repeat match type of H with
  | bytes_ok (_ :: _) => let Hx := fresh "Hb" in apply bytes_ok_cons in H as [Hx H]
  end.

Ltac gf_step :=
  match goal with
  | |- context [bind (py_get _GF ?i) ?k] => rewrite (gf_row_get i) by lia; cbn [bind]
  | |- context [bind (py_get (gf_row ?i) ?x) ?k] =>
      rewrite (proj1 (gf_table i x ltac:(lia) ltac:(assumption))); cbn [bind]
  | |- context [bind (py_get ?l ?i) ?k] =>
      let v := eval cbv - [gf_row gf_mul] in (py_get l i) in
      change (py_get l i) with v; cbn [bind]
  end.

Ltac set_step :=
  match goal with
  | |- context [py_set ?l ?i ?v] =>
      first [ rewrite (py_set_ok l i v) by (try assumption; unfold len; cbn [List.length]; lia)
            | (* negative index *)
              change (py_set l i v) with (py_set l (i + len l) v);
              rewrite (py_set_ok l (i + len l) v) by (try assumption; unfold len; cbn [List.length]; lia) ];
      match goal with |- context [upd ?l' ?n ?v'] =>
        let u := eval cbv - [gf_row gf_mul Z.lxor] in (upd l' n v') in change (upd l' n v') with u end;
      cbn [bind]
  end.

Lemma lin_byte a : block16 a -> byte_ok (lin a).
Proof.
  intros Ha. destruct (block16_explicit a Ha) as (x0&x1&x2&x3&x4&x5&x6&x7&x8&x9&x10&x11&x12&x13&x14&x15&->).
  destruct Ha as [_ Hb]. bytes_split Hb. unfold lin, lin_coefs, xor_sum. cbn [combine map fold_right fst snd].
  repeat match goal with
  | |- byte_ok (Z.lxor _ _) => apply lxor_byte
  | |- byte_ok 0 => unfold byte_ok; lia
  end.
  - exact (proj2 (gf_table 1 x0 ltac:(lia) ltac:(assumption))).
  - exact (proj2 (gf_table 2 x1 ltac:(lia) ltac:(assumption))).
  - exact (proj2 (gf_table 3 x2 ltac:(lia) ltac:(assumption))).
  - exact (proj2 (gf_table 4 x3 ltac:(lia) ltac:(assumption))).
  - exact (proj2 (gf_table 5 x4 ltac:(lia) ltac:(assumption))).
  - exact (proj2 (gf_table 6 x5 ltac:(lia) ltac:(assumption))).
  - exact (proj2 (gf_table 7 x6 ltac:(lia) ltac:(assumption))).
  - exact (proj2 (gf_table 8 x7 ltac:(lia) ltac:(assumption))).
  - exact (proj2 (gf_table 9 x8 ltac:(lia) ltac:(assumption))).
  - exact (proj2 (gf_table 10 x9 ltac:(lia) ltac:(assumption))).
  - exact (proj2 (gf_table 11 x10 ltac:(lia) ltac:(assumption))).
  - exact (proj2 (gf_table 12 x11 ltac:(lia) ltac:(assumption))).
  - exact (proj2 (gf_table 13 x12 ltac:(lia) ltac:(assumption))).
  - exact (proj2 (gf_table 14 x13 ltac:(lia) ltac:(assumption))).
  - exact (proj2 (gf_table 15 x14 ltac:(lia) ltac:(assumption))).
  - rewrite gf_mul_1; assumption.
Qed.

Lemma cipher_r_ok data : block16 data -> _cipher_r data = Ok (kR data).
Proof.
  intros Hd. pose proof (lin_byte data Hd) as Hlin.
  destruct (block16_explicit data Hd) as (x0&x1&x2&x3&x4&x5&x6&x7&x8&x9&x10&x11&x12&x13&x14&x15&->).
  destruct Hd as [_ Hb]. bytes_split Hb.
  unfold _cipher_r, _BLOCK_SIZE_KUZNECHIK.
  change (py_range 0 16 1) with [0; 1; 2; 3; 4; 5; 6; 7; 8; 9; 10; 11; 12; 13; 14; 15].
  change (py_repeat 0 16) with [0; 0; 0; 0; 0; 0; 0; 0; 0; 0; 0; 0; 0; 0; 0; 0].
  cbn [for_]. 
  repeat (gf_step || set_step).
  match goal with |- py_set _ _ ?v = _ => assert (E : v = lin [x0; x1; x2; x3; x4; x5; x6; x7; x8; x9; x10; x11; x12; x13; x14; x15]) end.
  { unfold lin, lin_coefs, xor_sum, gf_coef. cbn [combine map fold_right fst snd].
    cbn [nth Z.to_nat Pos.to_nat Pos.iter_op Nat.add lin_coefs].
    rewrite Z.lxor_0_l, Z.lxor_0_r. rewrite <- !Z.lxor_assoc. 
    rewrite (Z.lxor_comm _ (gf_mul 1 x15)). now rewrite !Z.lxor_assoc. }
  rewrite E. rewrite py_set_ok by (auto; cbn; lia). reflexivity.
Qed.

Lemma firstn_16_explicit data : 16 <= len data -> bytes_ok data ->
  exists b r, data = b ++ r /\ block16 b /\ firstn 16 data = b.
Proof.
  intros Hl Hb. exists (firstn 16 data), (skipn 16 data). split; [now rewrite firstn_skipn|].
  split; [|reflexivity]. split; [unfold len in *; rewrite firstn_length; lia | now apply bytes_ok_firstn].
Qed.

Lemma py_get_app1 {A} (l m : list A) i d : 0 <= i < len l -> py_get (l ++ m) i = Ok (nth (Z.to_nat i) l d).
Proof.
  intros H. rewrite (py_get_nth _ i d) by (rewrite len_app; pose proof (len_nonneg m); lia).
  f_equal. apply app_nth1. unfold len in H. lia.
Qed.

Lemma lin_rot_byte a : block16 a -> byte_ok (lin (tl a ++ [hd 0 a])).
Proof.
  intros Ha. apply lin_byte.
  destruct (block16_explicit a Ha) as (x0&x1&x2&x3&x4&x5&x6&x7&x8&x9&x10&x11&x12&x13&x14&x15&->).
  destruct Ha as [_ Hb]. split; [reflexivity|]. bytes_split Hb.
  cbn [tl hd app]. repeat (apply Forall_cons; [assumption|]). constructor.
Qed.

Lemma cipher_r_reverse_ok data :
  bytes_ok data -> 16 <= len data -> _cipher_r_reverse data = Ok (kR_inv (firstn 16 data)).
Proof.
  intros Hdb Hdl. destruct (firstn_16_explicit data Hdl Hdb) as (b & r & -> & Hb16 & ->).
  clear Hdb Hdl.
  pose proof (lin_rot_byte b Hb16) as Hlin. 
  destruct (block16_explicit b Hb16) as (x0&x1&x2&x3&x4&x5&x6&x7&x8&x9&x10&x11&x12&x13&x14&x15&->).
  destruct Hb16 as [_ Hb]. bytes_split Hb.
  unfold _cipher_r_reverse, _BLOCK_SIZE_KUZNECHIK.
  change (py_range (16 - 1) (-1) (-1)) with [15; 14; 13; 12; 11; 10; 9; 8; 7; 6; 5; 4; 3; 2; 1; 0].
  change (py_repeat 0 16) with [0; 0; 0; 0; 0; 0; 0; 0; 0; 0; 0; 0; 0; 0; 0; 0].
  cbn [for_].
  repeat (match goal with
  | |- context [bind (py_get (?l ++ r) ?i) ?k] =>
      rewrite (py_get_app1 l r i 0) by (unfold len; cbn [List.length]; lia);
      match goal with |- context [nth (Z.to_nat i) l 0] =>
        let v := eval cbv in (nth (Z.to_nat i) l 0) in change (nth (Z.to_nat i) l 0) with v end;
      cbn [bind]
  end || gf_step || set_step).
  match goal with |- py_set _ _ ?v = _ => assert (E : v = lin ([x1; x2; x3; x4; x5; x6; x7; x8; x9; x10; x11; x12; x13; x14; x15; x0])) end.
  { unfold lin, lin_coefs, xor_sum. cbn [combine map fold_right fst snd].
    repeat match goal with |- context [gf_coef ?i] =>
      let v := eval cbv in (gf_coef i) in change (gf_coef i) with v end.
    rewrite Z.lxor_0_l, Z.lxor_0_r.
    repeat match goal with |- context [gf_mul ?c ?x] => generalize (gf_mul c x); intros ? end.
    match goal with |- Z.lxor ?A ?t = _ => rewrite (Z.lxor_comm A t) end.
    match goal with |- Z.lxor ?t ?A = ?R => transitivity (Z.lxor t (Z.lxor t R)) end.
    2: { rewrite <- Z.lxor_assoc, Z.lxor_nilpotent. apply Z.lxor_0_l. }
    f_equal.
    repeat match goal with
      |- Z.lxor ?A ?t = Z.lxor ?u (Z.lxor ?t ?B) =>
         rewrite (Z.lxor_comm A t), <- (Z.lxor_assoc u t B), (Z.lxor_comm u t), (Z.lxor_assoc t u B);
         f_equal
    end.
    match goal with |- ?a = Z.lxor ?u (Z.lxor ?a ?u) =>
      rewrite (Z.lxor_comm a u), <- Z.lxor_assoc, Z.lxor_nilpotent; symmetry; apply Z.lxor_0_l end. }
  rewrite E. cbn [tl hd app] in Hlin. rewrite py_set_ok by (auto; cbn; lia). reflexivity.
Qed.
