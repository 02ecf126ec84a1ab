(** * Facts about the Python fragment. *)
From Verif Require Import PyBase.

Lemma len_nonneg {A} (l : list A) : 0 <= len l.
Proof. unfold len; lia. Qed.

Lemma len_app {A} (l m : list A) : len (l ++ m) = len l + len m.
Proof. unfold len; rewrite app_length; lia. Qed.

Lemma len_cons {A} (x : A) l : len (x :: l) = 1 + len l.
Proof. unfold len; cbn [List.length]; lia. Qed.

Lemma len_nil {A} : len (@nil A) = 0.
Proof. reflexivity. Qed.

Lemma len_repeat {A} (x : A) n : len (py_repeat x n) = Z.max 0 n.
Proof. unfold len, py_repeat; rewrite repeat_length; lia. Qed.

Lemma len_map {A B} (f : A -> B) l : len (map f l) = len l.
Proof. unfold len; now rewrite map_length. Qed.

Lemma len_0_nil {A} (l : list A) : len l = 0 -> l = [].
Proof. destruct l; [reflexivity | rewrite len_cons; pose proof (len_nonneg l); lia]. Qed.

Lemma bytes_ok_app l m : bytes_ok (l ++ m) <-> bytes_ok l /\ bytes_ok m.
Proof. unfold bytes_ok; apply Forall_app. Qed.

Lemma bytes_ok_firstn n l : bytes_ok l -> bytes_ok (firstn n l).
Proof.
  unfold bytes_ok; intros H; rewrite Forall_forall in *; intros x Hx; apply H.
  rewrite <- (firstn_skipn n l); apply in_or_app; now left.
Qed.

Lemma bytes_ok_skipn n l : bytes_ok l -> bytes_ok (skipn n l).
Proof.
  unfold bytes_ok; intros H; rewrite Forall_forall in *; intros x Hx; apply H.
  rewrite <- (firstn_skipn n l); apply in_or_app; now right.
Qed.

Lemma bytes_ok_repeat b n : byte_ok b -> bytes_ok (py_repeat b n).
Proof.
  unfold py_repeat, bytes_ok; intros Hb; apply Forall_forall; intros x Hx.
  apply repeat_spec in Hx; now subst.
Qed.

Lemma bytes_ok_nil : bytes_ok [].
Proof. constructor. Qed.

Lemma bytes_ok_cons b l : bytes_ok (b :: l) <-> byte_ok b /\ bytes_ok l.
Proof. unfold bytes_ok; split; [intros H; inversion H; auto | intros [? ?]; now constructor]. Qed.

Lemma bytes_ok_slice l a b : bytes_ok l -> bytes_ok (py_slice l a b).
Proof. intros; unfold py_slice; now apply bytes_ok_firstn, bytes_ok_skipn. Qed.

Lemma bytes_ok_from l a : bytes_ok l -> bytes_ok (py_from l a).
Proof. intros; unfold py_from; now apply bytes_ok_skipn. Qed.

Lemma bytes_ok_upto l a : bytes_ok l -> bytes_ok (py_upto l a).
Proof. intros; unfold py_upto; now apply bytes_ok_firstn. Qed.

(** ** Indexing *)

Lemma py_get_nth {A} (l : list A) i d :
  0 <= i < len l -> py_get l i = Ok (nth (Z.to_nat i) l d).
Proof.
  unfold py_get; intros H.
  destruct (i <? 0) eqn:E; [lia|].
  replace ((0 <=? i) && (i <? len l)) with true by lia.
  rewrite (nth_error_nth' l d); [reflexivity | unfold len in H; lia].
Qed.

Lemma py_get_out {A} (l : list A) i : len l <= i -> py_get l i = Err IndexError.
Proof.
  unfold py_get; intros H; pose proof (len_nonneg l).
  destruct (i <? 0) eqn:E; [lia|].
  now replace ((0 <=? i) && (i <? len l)) with false by lia.
Qed.

Lemma py_get_neg {A} (l : list A) i d :
  - len l <= i < 0 -> py_get l i = Ok (nth (Z.to_nat (i + len l)) l d).
Proof.
  unfold py_get; intros H.
  destruct (i <? 0) eqn:E; [|lia].
  replace ((0 <=? i + len l) && (i + len l <? len l)) with true by lia.
  rewrite (nth_error_nth' l d); [reflexivity | unfold len in *; lia].
Qed.

Lemma upd_length {A} (l : list A) n v : List.length (upd l n v) = List.length l.
Proof. revert n; induction l as [|x l IH]; intros [|n]; cbn; auto. Qed.

Lemma upd_app_mid {A} (l m : list A) x v :
  upd (l ++ x :: m) (List.length l) v = l ++ v :: m.
Proof. induction l as [|y l IH]; cbn; [reflexivity | now rewrite IH]. Qed.

Lemma nth_upd_same {A} (l : list A) n v d :
  (n < List.length l)%nat -> nth n (upd l n v) d = v.
Proof. revert n; induction l as [|x l IH]; intros [|n]; cbn; intros; try lia; auto; apply IH; lia. Qed.

Lemma nth_upd_other {A} (l : list A) n m v d :
  n <> m -> nth n (upd l m v) d = nth n l d.
Proof.
  revert n m; induction l as [|x l IH]; intros [|n] [|m]; cbn; intros; try lia; auto.
Qed.

Lemma py_set_ok l i v :
  0 <= i < len l -> byte_ok v -> py_set l i v = Ok (upd l (Z.to_nat i) v).
Proof.
  unfold py_set, py_set_list, byte_ok; intros H Hv.
  destruct (i <? 0) eqn:E; [lia|].
  replace ((0 <=? i) && (i <? len l)) with true by lia.
  cbn; now replace ((0 <=? v) && (v <? 256)) with true by lia.
Qed.

(** ** Slicing *)

Lemma py_slice_0 {A} (l : list A) n :
  0 <= n <= len l -> py_slice l 0 n = firstn (Z.to_nat n) l.
Proof.
  intros H; unfold py_slice, clamp.
  destruct (0 <? 0) eqn:E0; [lia|].
  destruct (len l <? 0) eqn:E1; [lia|].
  destruct (n <? 0) eqn:E2; [lia|].
  rewrite ?E2. destruct (len l <? n) eqn:E3; [lia|].
  cbn [Z.to_nat skipn]. now rewrite Z.sub_0_r.
Qed.

Lemma py_slice_mid {A} (l : list A) a b :
  0 <= a <= b -> b <= len l ->
  py_slice l a b = firstn (Z.to_nat (b - a)) (skipn (Z.to_nat a) l).
Proof.
  intros H Hb; unfold py_slice, clamp.
  destruct (a <? 0) eqn:E0; [lia|]. rewrite ?E0.
  destruct (len l <? a) eqn:E1; [lia|].
  destruct (b <? 0) eqn:E2; [lia|]. rewrite ?E2.
  destruct (len l <? b) eqn:E3; [lia|].
  reflexivity.
Qed.

Lemma py_from_skipn {A} (l : list A) a :
  0 <= a -> py_from l a = skipn (Z.to_nat a) l.
Proof.
  intros H; unfold py_from, clamp.
  destruct (a <? 0) eqn:E; [lia|]. rewrite ?E.
  destruct (len l <? a) eqn:E1; [|reflexivity].
  unfold len in *. rewrite !skipn_all2; [reflexivity | lia | lia].
Qed.

Lemma py_upto_firstn {A} (l : list A) b :
  0 <= b -> py_upto l b = firstn (Z.to_nat b) l.
Proof.
  intros H; unfold py_upto, clamp.
  destruct (b <? 0) eqn:E; [lia|]. rewrite ?E.
  destruct (len l <? b) eqn:E1; [|reflexivity].
  unfold len in *. rewrite !firstn_all2; [reflexivity | lia | lia].
Qed.

(** ** Ranges *)

Lemma py_range_up n : py_range 0 n 1 = map Z.of_nat (seq 0 (Z.to_nat n)).
Proof.
  unfold py_range. replace (1 >? 0) with true by lia.
  replace (Z.to_nat ((n - 0 + 1 - 1) / 1)) with (Z.to_nat n).
  - apply map_ext; intros; lia.
  - rewrite Z.div_1_r; f_equal; lia.
Qed.

Lemma py_range_up_from a n :
  py_range a n 1 = map (fun i => a + Z.of_nat i) (seq 0 (Z.to_nat (n - a))).
Proof.
  unfold py_range. replace (1 >? 0) with true by lia.
  replace (Z.to_nat ((n - a + 1 - 1) / 1)) with (Z.to_nat (n - a)).
  - apply map_ext; intros; lia.
  - rewrite Z.div_1_r; f_equal; lia.
Qed.

Lemma py_range_empty a n : n <= a -> py_range a n 1 = [].
Proof. intros; rewrite py_range_up_from; now replace (Z.to_nat (n - a)) with 0%nat by lia. Qed.

Lemma py_range_snoc a n : a <= n -> py_range a (n + 1) 1 = py_range a n 1 ++ [n].
Proof.
  intros H; rewrite !py_range_up_from.
  replace (Z.to_nat (n + 1 - a)) with (S (Z.to_nat (n - a))) by lia.
  rewrite seq_S, map_app; cbn. repeat f_equal; lia.
Qed.

Lemma py_range_cons a n : a < n -> py_range a n 1 = a :: py_range (a + 1) n 1.
Proof.
  intros H; rewrite !py_range_up_from.
  replace (Z.to_nat (n - a)) with (S (Z.to_nat (n - (a + 1)))) by lia.
  cbn [seq map]; f_equal; [lia|].
  rewrite <- seq_shift, map_map; apply map_ext; intros; lia.
Qed.

Lemma in_py_range a n x : In x (py_range a n 1) <-> a <= x < n.
Proof.
  rewrite py_range_up_from, in_map_iff; split.
  - intros (y & <- & Hy); apply in_seq in Hy; lia.
  - intros; exists (Z.to_nat (x - a)); split; [lia | apply in_seq; lia].
Qed.

(** ** Loops *)

Lemma for_app {A S} (xs ys : list A) (s : S) body :
  for_ (xs ++ ys) s body = let* s' := for_ xs s body in for_ ys s' body.
Proof.
  revert s; induction xs as [|x xs IH]; intros s; cbn [app for_]; [reflexivity|].
  destruct (body x s) as [s'|e]; cbn [bind]; auto.
Qed.

Lemma for_ext {A S} (xs : list A) (s : S) body body' :
  (forall x s, In x xs -> body x s = body' x s) -> for_ xs s body = for_ xs s body'.
Proof.
  revert s; induction xs as [|x xs IH]; intros s H; cbn [for_]; [reflexivity|].
  rewrite H by now left. destruct (body' x s) as [s'|e]; cbn [bind]; auto.
  apply IH; intros; apply H; now right.
Qed.

(** A loop whose body never fails is a fold. *)
Lemma for_fold {A S} (xs : list A) (s : S) body f (P : S -> Prop) :
  P s -> (forall x s, In x xs -> P s -> body x s = Ok (f s x) /\ P (f s x)) ->
  for_ xs s body = Ok (fold_left f xs s) /\ P (fold_left f xs s).
Proof.
  revert s; induction xs as [|x xs IH]; intros s Hs H; cbn [for_ fold_left]; [auto|].
  destruct (H x s (or_introl eq_refl) Hs) as [E Hp]; rewrite E; cbn [bind].
  apply IH; auto. intros; apply H; auto; now right.
Qed.

(** [for i in range(n): result[i] = h(i)] on a bytearray of size [n]. *)
Lemma for_set_loop n (h : Z -> Z) body (l0 : bytes) :
  len l0 = n ->
  (forall i l, 0 <= i < n -> len l = n -> body i l = py_set l i (h i)) ->
  (forall i, 0 <= i < n -> byte_ok (h i)) ->
  for_ (py_range 0 n 1) l0 body = Ok (map h (py_range 0 n 1)).
Proof.
  intros Hl Hb Hh.
  assert (G : forall k, 0 <= k <= n ->
     for_ (py_range 0 k 1) l0 body = Ok (map h (py_range 0 k 1) ++ skipn (Z.to_nat k) l0)).
  { intros k Hk. replace k with (Z.of_nat (Z.to_nat k)) by lia.
    assert (Hk' : (Z.to_nat k <= Z.to_nat n)%nat) by lia.
    induction (Z.to_nat k) as [|m IH].
    - rewrite !py_range_empty by lia. reflexivity.
    - rewrite Nat2Z.inj_succ. unfold Z.succ.
      rewrite py_range_snoc by lia. rewrite for_app, IH by lia; cbn [bind for_].
      assert (Hm : len (map h (py_range 0 (Z.of_nat m) 1)) = Z.of_nat m).
      { rewrite len_map, py_range_up. unfold len; rewrite map_length, seq_length; lia. }
      assert (Hm' : List.length (map h (py_range 0 (Z.of_nat m) 1)) = m) by (unfold len in Hm; lia).
      assert (Hs : exists x t, skipn m l0 = x :: t).
      { destruct (skipn m l0) as [|x t] eqn:E; eauto.
        apply (f_equal (@List.length Z)) in E. rewrite skipn_length in E; cbn in E.
        unfold len in Hl; lia. }
      destruct Hs as (x & t & Hs).
      assert (Ht : skipn (S m) l0 = t).
      { clear - Hs. revert l0 Hs; induction m as [|m IH]; intros l0 Hs.
        - cbn in *; subst; reflexivity.
        - destruct l0 as [|y l0]; [discriminate|]. cbn in Hs |- *. now apply IH. }
      rewrite Nat2Z.id, Hs.
      rewrite Hb; [| lia |].
      2: { rewrite len_app, Hm. rewrite <- Hs. unfold len; rewrite skipn_length. unfold len in Hl; lia. }
      rewrite py_set_ok; [| | apply Hh; lia].
      2: { rewrite len_app, Hm, len_cons. pose proof (len_nonneg t); lia. }
      cbn [bind]. rewrite Nat2Z.id.
      rewrite <- Hm' at 2. rewrite upd_app_mid.
      rewrite map_app, <- app_assoc; cbn [map app].
      replace (Z.to_nat (Z.of_nat m + 1)) with (S m) by lia. now rewrite Ht. }
  rewrite (G n); [| unfold len in Hl; lia].
  rewrite skipn_all2 by (unfold len in Hl; lia). now rewrite app_nil_r.
Qed.

(** Mapping over indices is mapping over the elements. *)
Lemma map_nth_range {A B} (f : A -> B) (l : list A) d :
  map (fun i => f (nth (Z.to_nat i) l d)) (py_range 0 (len l) 1) = map f l.
Proof.
  rewrite py_range_up, map_map. unfold len; rewrite Nat2Z.id.
  induction l as [|x l IH]; [reflexivity|].
  cbn [List.length seq map]. f_equal.
  rewrite <- seq_shift, map_map.
  rewrite <- IH. apply map_ext; intros. rewrite !Nat2Z.id. reflexivity.
Qed.
