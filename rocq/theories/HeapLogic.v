(** * Rules relating a computation with buffers to one with values *)
From Verif Require Import PyBase PyState PyFacts Heap.

(** The first [n] buffers, except those in [W], are as before, and none disappeared. *)
Definition keeps (n : nat) (W : list nat) (h h' : heap) : Prop :=
  (List.length h <= List.length h')%nat /\
  forall a, (a < n)%nat -> ~ In a W -> nth_error h' a = nth_error h a.

Definition same (h h' : heap) : Prop := keeps (List.length h) [] h h'.

Lemma keeps_refl n W h : keeps n W h h.
Proof. split; auto. Qed.
Lemma keeps_trans n W h1 h2 h3 : keeps n W h1 h2 -> keeps n W h2 h3 -> keeps n W h1 h3.
Proof. intros [L1 K1] [L2 K2]. split; [lia|]. intros a A NW. rewrite K2 by assumption. now apply K1. Qed.
Lemma same_keeps n W h h' : same h h' -> (n <= List.length h)%nat -> keeps n W h h'.
Proof. intros [L K] N. split; [exact L|]. intros a A _. apply K; [lia|intros []]. Qed.
Lemma same_refl h : same h h.
Proof. apply keeps_refl. Qed.
Lemma same_trans h1 h2 h3 : same h1 h2 -> same h2 h3 -> same h1 h3.
Proof.
  intros [L1 K1] [L2 K2]. split; [lia|]. intros a A N. rewrite K2 by (auto; lia). apply K1; auto.
Qed.
Lemma same_app h l : same h (h ++ l).
Proof.
  split; [rewrite app_length; lia|]. intros a A _. now rewrite nth_error_app1.
Qed.
Lemma same_len h h' : same h h' -> (List.length h <= List.length h')%nat.
Proof. now intros [L _]. Qed.

Lemma content_lt h a l : content h (Ref a) = Some l -> (a < List.length h)%nat.
Proof. cbn. intros E. apply nth_error_Some. now rewrite E. Qed.
Lemma content_same h h' v l : same h h' -> content h v = Some l -> content h' v = Some l.
Proof.
  intros [L K]. destruct v as [x|a]; [auto|]. intros E. pose proof (content_lt _ _ _ E). cbn in *.
  now rewrite K by auto.
Qed.
Lemma content_alloc h l : content (h ++ [l]) (Ref (List.length h)) = Some l.
Proof. cbn. rewrite nth_error_app2, Nat.sub_diag by lia. reflexivity. Qed.

Lemma upd_length {A} (l : list A) i v : List.length (upd l i v) = List.length l.
Proof. revert i. induction l; intros [|i]; cbn; auto. Qed.
Lemma nth_upd_same {A} (l : list A) i v : (i < List.length l)%nat -> nth_error (upd l i v) i = Some v.
Proof. revert i. induction l; intros [|i]; cbn; intros; try lia; auto. apply IHl. lia. Qed.
Lemma nth_upd_other {A} (l : list A) i j v : i <> j -> nth_error (upd l i v) j = nth_error l j.
Proof. revert i j. induction l; intros [|i] [|j]; cbn; intros; try congruence; auto. Qed.

Lemma content_wr_same h a l : (a < List.length h)%nat -> content (upd h a l) (Ref a) = Some l.
Proof. apply nth_upd_same. Qed.
Lemma content_wr_other h a l v : v <> Ref a -> content (upd h a l) v = content h v.
Proof. destruct v as [x|b]; [reflexivity|]. intros N. cbn. apply nth_upd_other. congruence. Qed.

(** [m], run in [h], gives what [r] gives, related by [Q]; the first [n] buffers outside [W] are
    not changed, also when an exception is raised. *)
Definition sim {A B} (n : nat) (W : list nat) (h : heap) (m : M heap A) (r : res B) (Q : heap -> A -> B -> Prop) : Prop :=
  let (x, h') := m h in
  keeps n W h h' /\
  match x, r with
  | Ok a, Ok b => Q h' a b
  | Err e, Err e' => e = e'
  | _, _ => False
  end.

(** The calls that change no existing buffer. *)
Definition psim {A B} (h : heap) (m : M heap A) (r : res B) (Q : heap -> A -> B -> Prop) : Prop :=
  sim (List.length h) [] h m r Q.

Section Rules.
Context {A B A' B' : Type}.
Implicit Types (m : M heap A) (r : res B) (Q : heap -> A -> B -> Prop).

Lemma sim_ret n W h (a : A) (b : B) (Q : heap -> A -> B -> Prop) : Q h a b -> sim n W h (retM a) (Ok b) Q.
Proof. intros H. split; [apply keeps_refl|exact H]. Qed.
Lemma sim_raise n W h e (Q : heap -> A -> B -> Prop) : sim n W h (raiseM e) (Err e) Q.
Proof. split; [apply keeps_refl|reflexivity]. Qed.
Lemma sim_conseq n W h m r Q Q' : sim n W h m r Q -> (forall h' a b, Q h' a b -> keeps n W h h' -> Q' h' a b) -> sim n W h m r Q'.
Proof.
  unfold sim. destruct (m h) as [x h']. intros [K H] C. split; [exact K|].
  destruct x as [a|e], r as [b|e']; auto.
Qed.
Lemma sim_of_psim n W h m r Q : psim h m r Q -> (n <= List.length h)%nat ->
  sim n W h m r (fun h' a b => same h h' /\ Q h' a b).
Proof.
  unfold psim, sim. destruct (m h) as [x h']. intros [K H] N. split; [now apply same_keeps|].
  destruct x as [a|e], r as [b|e']; auto.
Qed.

Lemma sim_bind n W h m r (k : A -> M heap A') (f : B -> res B') Q (Q' : heap -> A' -> B' -> Prop) :
  sim n W h m r Q ->
  (forall h' a b, keeps n W h h' -> Q h' a b -> sim n W h' (k a) (f b) Q') ->
  sim n W h (bindM m k) (bind r f) Q'.
Proof.
  unfold sim, bindM, bind. destruct (m h) as [x h1]. intros [K H] C.
  destruct x as [a|e], r as [b|e']; try contradiction; [|now split].
  specialize (C h1 a b K H). destruct (k a h1) as [y h2]. destruct C as [K2 C]. split; [now apply (keeps_trans _ _ _ h1)|exact C].
Qed.
(** Steps that have no counterpart among the values. *)
Lemma sim_bind_l n W h m (b : B) (k : A -> M heap A') (r' : res B') Q (Q' : heap -> A' -> B' -> Prop) :
  sim n W h m (Ok b) Q ->
  (forall h' a, keeps n W h h' -> Q h' a b -> sim n W h' (k a) r' Q') ->
  sim n W h (bindM m k) r' Q'.
Proof.
  unfold sim, bindM. destruct (m h) as [x h1]. intros [K H] C.
  destruct x as [a|e]; [|contradiction].
  specialize (C h1 a K H). destruct (k a h1) as [y h2]. destruct C as [K2 C]. split; [now apply (keeps_trans _ _ _ h1)|exact C].
Qed.
(** Calls. *)
Lemma sim_call n W h m r (k : A -> M heap A') (f : B -> res B') Q (Q' : heap -> A' -> B' -> Prop) :
  psim h m r Q -> (n <= List.length h)%nat ->
  (forall h' a b, same h h' -> Q h' a b -> sim n W h' (k a) (f b) Q') ->
  sim n W h (bindM m k) (bind r f) Q'.
Proof.
  intros P N C. eapply sim_bind; [apply sim_of_psim; eassumption|]. intros h' a b _ [S H]. now apply C.
Qed.
Lemma sim_call_l n W h m (b : B) (k : A -> M heap A') (r' : res B') Q (Q' : heap -> A' -> B' -> Prop) :
  psim h m (Ok b) Q -> (n <= List.length h)%nat ->
  (forall h' a, same h h' -> Q h' a b -> sim n W h' (k a) r' Q') ->
  sim n W h (bindM m k) r' Q'.
Proof.
  intros P N C. eapply sim_bind_l; [apply sim_of_psim; eassumption|]. intros h' a _ [S H]. now apply C.
Qed.
Lemma sim_tail n W h m r Q Q' : psim h m r Q -> (n <= List.length h)%nat ->
  (forall h' a b, same h h' -> Q h' a b -> Q' h' a b) -> sim n W h m r Q'.
Proof.
  intros P N C. eapply sim_conseq; [apply sim_of_psim; eassumption|]. intros h' a b [S H] _. now apply C.
Qed.
End Rules.

Lemma sim_rd {A B} n W h v l (k : bytes -> M heap A) (r : res B) Q :
  content h v = Some l -> sim n W h (k l) r Q -> sim n W h (bindM (rd v) k) r Q.
Proof. intros E. unfold sim, bindM, rd. now rewrite E. Qed.
Lemma sim_alloc {A B} n W h l (k : buf -> M heap A) (r : res B) Q :
  (n <= List.length h)%nat ->
  (forall h', same h h' -> List.length h' = S (List.length h) -> content h' (Ref (List.length h)) = Some l -> sim n W h' (k (Ref (List.length h))) r Q) ->
  sim n W h (bindM (alloc l) k) r Q.
Proof.
  intros N C. specialize (C (h ++ [l]) (same_app h [l])). rewrite app_length in C. cbn [List.length] in C.
  specialize (C ltac:(lia) (content_alloc h l)).
  unfold sim, bindM, alloc. unfold sim in C. destruct (k (Ref (List.length h)) (h ++ [l])) as [x h'].
  destruct C as [K C]. split; [|exact C]. apply (keeps_trans _ _ _ (h ++ [l])); [|exact K].
  now apply same_keeps; [apply same_app|].
Qed.
Lemma sim_wr {A B} n W h a l (k : unit -> M heap A) (r : res B) Q :
  (n <= a \/ In a W)%nat ->
  sim n W (upd h a l) (k tt) r Q -> sim n W h (bindM (wr a l) k) r Q.
Proof.
  intros N C. unfold sim, bindM, wr. unfold sim in C. destruct (k tt (upd h a l)) as [x h'].
  destruct C as [K C]. split; [|exact C]. apply (keeps_trans _ _ _ (upd h a l)); [|exact K].
  split; [now rewrite upd_length|]. intros b B' NW. apply nth_upd_other. intros ->. destruct N; [lia|contradiction].
Qed.
Lemma sim_lift {A B C} n W h (x : res C) (k : C -> M heap A) (f : C -> res B) Q :
  (forall c, x = Ok c -> sim n W h (k c) (f c) Q) -> sim n W h (bindM (liftM x) k) (bind x f) Q.
Proof.
  intros H. destruct x as [c|e]; [now apply H|]. split; [apply keeps_refl|reflexivity].
Qed.
(** Loops. *)
Lemma sim_for {X A B} n W (Inv : heap -> A -> B -> Prop) (body : X -> A -> M heap A) (fbody : X -> B -> res B) :
  forall xs h a b,
  Inv h a b ->
  (forall x h a b, In x xs -> Inv h a b -> sim n W h (body x a) (fbody x b) Inv) ->
  sim n W h (forM xs a body) (for_ xs b fbody) Inv.
Proof.
  induction xs as [|x xs IH]; intros h a b I C; cbn [forM for_].
  - now apply sim_ret.
  - eapply sim_bind; [apply C; [now left|exact I]|]. intros h' a' b' _ I'. apply IH; [exact I'|].
    intros y h2 a2 b2 Y I2. apply C; [now right|exact I2].
Qed.

(** ** Buffers with a known content *)
Definition has (h : heap) (v : buf) (l : bytes) : Prop := content h v = Some l /\ bytes_ok l.
(** A bytearray that did not exist in [h]. *)
Definition fresh (h h' : heap) (v : buf) (l : bytes) : Prop :=
  exists a, v = Ref a /\ (List.length h <= a)%nat /\ has h' (Ref a) l.

(** A [bytes] object, or a bytearray that is not among the first [n]. *)
Definition newer (n : nat) (v : buf) : Prop := match v with Imm _ => True | Ref a => (n <= a)%nat end.

Lemma newer_le n n' v : (n' <= n)%nat -> newer n v -> newer n' v.
Proof. destruct v; cbn; [auto|lia]. Qed.
Lemma has_same h h' v l : same h h' -> has h v l -> has h' v l.
Proof. intros S [E O]. split; [now apply (content_same h)|exact O]. Qed.
Lemma has_imm h l : bytes_ok l -> has h (Imm l) l.
Proof. intros O. now split. Qed.
Lemma has_fun h v l l' : has h v l -> has h v l' -> l = l'.
Proof. intros [E _] [E' _]. congruence. Qed.
Lemma has_lt h a l : has h (Ref a) l -> (a < List.length h)%nat.
Proof. intros [E _]. now apply content_lt in E. Qed.
Lemma fresh_has h h' v l : fresh h h' v l -> has h' v l.
Proof. now intros (a & -> & _ & H). Qed.
Lemma has_keeps n W h h' v l : keeps n W h h' -> has h v l ->
  match v with Imm _ => True | Ref a => (a < n)%nat /\ ~ In a W end -> has h' v l.
Proof.
  intros [_ K] [E O]. destruct v as [x|a]; intros V; [now split|].
  split; [|exact O]. cbn in *. destruct V as [V1 V2]. now rewrite K.
Qed.

Lemma py_set_bytes l i x l' : bytes_ok l -> py_set l i x = Ok l' -> bytes_ok l' /\ len l' = len l.
Proof.
  unfold py_set, py_set_list. intros O.
  destruct ((0 <=? (if i <? 0 then i + len l else i)) && ((if i <? 0 then i + len l else i) <? len l)); [|discriminate].
  cbn [bind]. destruct ((0 <=? x) && (x <? 256)) eqn:X; [|discriminate].
  intros [= <-]. split; [|unfold len; now rewrite upd_length].
  set (j := Z.to_nat _). assert (BX : byte_ok x) by (unfold byte_ok; lia). clear X. clearbody j. revert j.
  induction O as [|y l Y O IH]; intros [|j]; cbn; constructor; auto. apply IH.
Qed.
Lemma bytes_ok_slice_set l a b v : bytes_ok l -> bytes_ok v -> bytes_ok (py_slice_set l a b v).
Proof.
  intros O V. unfold py_slice_set. rewrite !bytes_ok_app. repeat split; auto using bytes_ok_firstn, bytes_ok_skipn.
Qed.

Section BufRules.
Context {A B : Type}.
Variables (n : nat) (W : list nat) (h : heap).
Implicit Types (r : res B) (Q : heap -> A -> B -> Prop).

Lemma s_rd v l (k : bytes -> M heap A) r Q : has h v l -> sim n W h (k l) r Q -> sim n W h (bindM (rd v) k) r Q.
Proof. intros [E _]. now apply sim_rd. Qed.
Lemma s_len v l (k : Z -> M heap A) r Q : has h v l -> sim n W h (k (len l)) r Q -> sim n W h (bindM (h_len v) k) r Q.
Proof. intros [E _]. unfold sim, h_len, bindM, rd. now rewrite E. Qed.
Lemma s_get v l i (k : Z -> M heap A) (f : Z -> res B) Q : has h v l ->
  (forall x, py_get l i = Ok x -> sim n W h (k x) (f x) Q) -> sim n W h (bindM (h_get v i) k) (bind (py_get l i) f) Q.
Proof.
  intros [E _] C. unfold sim, h_get, bindM, rd. rewrite E. unfold liftM.
  destruct (py_get l i) as [x|e]; [exact (C x eq_refl)|]. split; [apply keeps_refl|reflexivity].
Qed.
Lemma s_alloc l (k : buf -> M heap A) r Q : (n <= List.length h)%nat -> bytes_ok l ->
  (forall h' a, same h h' -> (List.length h <= a)%nat -> has h' (Ref a) l -> (forall v l', has h v l' -> v <> Ref a) ->
     sim n W h' (k (Ref a)) r Q) ->
  sim n W h (bindM (alloc l) k) r Q.
Proof.
  intros N O C. apply sim_alloc; [exact N|]. intros h' S _ E. apply C; auto; [now split|].
  intros v l' V ->. apply has_lt in V. lia.
Qed.
Lemma s_like w lw l (k : buf -> M heap A) r Q : (n <= List.length h)%nat -> bytes_ok l -> has h w lw ->
  (forall h' v, same h h' -> has h' v l -> newer (List.length h) v -> sim n W h' (k v) r Q) ->
  sim n W h (bindM (like w l) k) r Q.
Proof.
  intros N O Hw C. destruct w as [x|a]; cbn [like].
  - apply (C h (Imm l)); [apply same_refl|now apply has_imm|exact I].
  - apply s_alloc; auto.
Qed.
Lemma s_bytearray v l (k : buf -> M heap A) r Q : (n <= List.length h)%nat -> has h v l ->
  (forall h' a, same h h' -> (List.length h <= a)%nat -> has h' (Ref a) l -> (forall v l', has h v l' -> v <> Ref a) ->
     sim n W h' (k (Ref a)) r Q) ->
  sim n W h (bindM (h_bytearray v) k) r Q.
Proof.
  intros N Hv C.
  assert (X : sim n W h (bindM (alloc l) k) r Q) by (apply s_alloc; auto; apply Hv).
  unfold sim, bindM, h_bytearray, bindM, rd in *. destruct Hv as [E _]. rewrite E. exact X.
Qed.
Lemma s_add v a w b (k : buf -> M heap A) r Q : (n <= List.length h)%nat -> has h v a -> has h w b ->
  (forall h' x, same h h' -> has h' x (a ++ b) -> newer (List.length h) x -> sim n W h' (k x) r Q) ->
  sim n W h (bindM (h_add v w) k) r Q.
Proof.
  intros N Hv Hw C.
  assert (X : sim n W h (bindM (like v (a ++ b)) k) r Q).
  { eapply s_like; eauto. apply bytes_ok_app. split; [apply Hv|apply Hw]. }
  unfold sim, bindM, h_add, bindM, rd in *. destruct Hv as [-> _], Hw as [-> _]. exact X.
Qed.
(** A sum with a bytearray on the left is a new bytearray. *)
Lemma s_add_ref p a w b (k : buf -> M heap A) r Q : (n <= List.length h)%nat -> has h (Ref p) a -> has h w b ->
  (forall h' x, same h h' -> fresh h h' x (a ++ b) -> sim n W h' (k x) r Q) ->
  sim n W h (bindM (h_add (Ref p) w) k) r Q.
Proof.
  intros N Hv Hw C.
  assert (X : sim n W h (bindM (alloc (a ++ b)) k) r Q).
  { apply s_alloc; [exact N|apply bytes_ok_app; split; [apply Hv|apply Hw]|].
    intros h' q S L F _. apply C; [exact S|]. exists q. auto. }
  unfold sim, bindM, h_add, bindM, rd in *. destruct Hv as [-> _], Hw as [-> _]. exact X.
Qed.
Lemma s_slice v l i j (k : buf -> M heap A) r Q : (n <= List.length h)%nat -> has h v l ->
  (forall h' x, same h h' -> has h' x (py_slice l i j) -> newer (List.length h) x -> sim n W h' (k x) r Q) ->
  sim n W h (bindM (h_slice v i j) k) r Q.
Proof.
  intros N Hv C.
  assert (X : sim n W h (bindM (like v (py_slice l i j)) k) r Q).
  { eapply s_like; eauto. apply bytes_ok_slice, Hv. }
  unfold sim, bindM, h_slice, bindM, rd in *. destruct Hv as [-> _]. exact X.
Qed.
Lemma s_from v l i (k : buf -> M heap A) r Q : (n <= List.length h)%nat -> has h v l ->
  (forall h' x, same h h' -> has h' x (py_from l i) -> newer (List.length h) x -> sim n W h' (k x) r Q) ->
  sim n W h (bindM (h_from v i) k) r Q.
Proof.
  intros N Hv C.
  assert (X : sim n W h (bindM (like v (py_from l i)) k) r Q).
  { eapply s_like; eauto. apply bytes_ok_from, Hv. }
  unfold sim, bindM, h_from, bindM, rd in *. destruct Hv as [-> _]. exact X.
Qed.
Lemma s_upto v l i (k : buf -> M heap A) r Q : (n <= List.length h)%nat -> has h v l ->
  (forall h' x, same h h' -> has h' x (py_upto l i) -> newer (List.length h) x -> sim n W h' (k x) r Q) ->
  sim n W h (bindM (h_upto v i) k) r Q.
Proof.
  intros N Hv C.
  assert (X : sim n W h (bindM (like v (py_upto l i)) k) r Q).
  { eapply s_like; eauto. apply bytes_ok_upto, Hv. }
  unfold sim, bindM, h_upto, bindM, rd in *. destruct Hv as [-> _]. exact X.
Qed.
(** Assignments to a buffer that may be written. *)
Lemma s_set a l i x (k : unit -> M heap A) (f : bytes -> res B) Q : (n <= a \/ In a W)%nat -> has h (Ref a) l ->
  (forall h' l', has h' (Ref a) l' -> len l' = len l -> (forall v l0, has h v l0 -> v <> Ref a -> has h' v l0) -> List.length h' = List.length h ->
     sim n W h' (k tt) (f l') Q) ->
  sim n W h (bindM (h_set (Ref a) i x) k) (bind (py_set l i x) f) Q.
Proof.
  intros N Ha C. unfold h_set.
  assert (X : forall l', py_set l i x = Ok l' -> sim n W h (bindM (wr a l') k) (f l') Q).
  { intros l' E. destruct (py_set_bytes l i x l' (proj2 Ha) E) as [O L]. apply sim_wr; [exact N|].
    apply C; [|exact L| |apply upd_length].
    - split; [|exact O]. apply content_wr_same. now apply has_lt in Ha.
    - intros v l0 [E0 O0] V. split; [|exact O0]. now rewrite content_wr_other. }
  destruct (py_set l i x) as [l'|e] eqn:E.
  - specialize (X l' eq_refl). unfold sim, bindM, rd, liftM in X |- *. destruct Ha as [-> _]. rewrite E. exact X.
  - unfold sim, bindM, rd, liftM. destruct Ha as [-> _]. rewrite E. split; [apply keeps_refl|reflexivity].
Qed.
Lemma s_slice_set a l i j w lw (k : unit -> M heap A) r Q : (n <= a \/ In a W)%nat -> has h (Ref a) l -> has h w lw ->
  (forall h', has h' (Ref a) (py_slice_set l i j lw) -> (forall v l0, has h v l0 -> v <> Ref a -> has h' v l0) -> List.length h' = List.length h ->
     sim n W h' (k tt) r Q) ->
  sim n W h (bindM (h_slice_set (Ref a) i j w) k) r Q.
Proof.
  intros N Ha Hw C. unfold h_slice_set.
  assert (X : sim n W h (bindM (wr a (py_slice_set l i j lw)) k) r Q).
  { apply sim_wr; [exact N|]. apply C; [| |apply upd_length].
    - split; [|apply bytes_ok_slice_set; [apply Ha|apply Hw]]. apply content_wr_same. now apply has_lt in Ha.
    - intros v l0 [E0 O0] V. split; [|exact O0]. now rewrite content_wr_other. }
  unfold sim, bindM, rd in *. destruct Ha as [-> _], Hw as [-> _]. exact X.
Qed.
End BufRules.

Lemma bind_ok {A} (r : res A) : bind r Ok = r.
Proof. now destruct r. Qed.

(** Lists of buffers. *)
Definition has_all (h : heap) (vs : list buf) (ls : list bytes) : Prop := Forall2 (has h) vs ls.

Lemma has_all_same h h' vs ls : same h h' -> has_all h vs ls -> has_all h' vs ls.
Proof. intros S H. induction H; constructor; [now apply (has_same h)|assumption]. Qed.
Lemma has_all_len h vs ls : has_all h vs ls -> List.length vs = List.length ls.
Proof. intros H. induction H; cbn; congruence. Qed.
Lemma has_all_nth h vs ls i : has_all h vs ls ->
  match nth_error vs i, nth_error ls i with
  | Some v, Some l => has h v l
  | None, None => True
  | _, _ => False
  end.
Proof.
  intros H. revert i. induction H as [|v l vs ls V H IH]; intros [|i]; cbn; auto. apply IH.
Qed.
Lemma has_all_upd h vs ls i v l : has_all h vs ls -> has h v l -> has_all h (upd vs i v) (upd ls i l).
Proof.
  intros H V. revert i. induction H as [|v' l' vs ls V' H IH]; intros [|i]; cbn; constructor; auto. apply IH.
Qed.
Lemma has_all_app h vs ls vs' ls' : has_all h vs ls -> has_all h vs' ls' -> has_all h (vs ++ vs') (ls ++ ls').
Proof. apply Forall2_app. Qed.
Lemma has_all_one h v l : has h v l -> has_all h [v] [l].
Proof. intros H. constructor; [exact H|constructor]. Qed.

Lemma s_getk {A B} n W h vs ls i (k : buf -> M heap A) (f : bytes -> res B) Q : has_all h vs ls ->
  (forall v l, has h v l -> sim n W h (k v) (f l) Q) -> sim n W h (bindM (liftM (py_get vs i)) k) (bind (py_get ls i) f) Q.
Proof.
  intros H C. unfold py_get. unfold len. rewrite (has_all_len _ _ _ H).
  set (j := if i <? 0 then _ else _). destruct ((0 <=? j) && (j <? Z.of_nat (List.length ls))).
  - pose proof (has_all_nth h vs ls (Z.to_nat j) H) as N.
    destruct (nth_error vs (Z.to_nat j)) as [v|], (nth_error ls (Z.to_nat j)) as [l|]; try contradiction.
    + exact (C v l N).
    + split; [apply keeps_refl|reflexivity].
  - split; [apply keeps_refl|reflexivity].
Qed.
Lemma sim_setk {A} n W h (vs : list A) (ls : list bytes) i v l (Q : heap -> list A -> list bytes -> Prop) :
  List.length vs = List.length ls -> (forall j, Q h (upd vs j v) (upd ls j l)) ->
  sim n W h (liftM (py_set_list vs i v)) (py_set_list ls i l) Q.
Proof.
  intros L C. unfold py_set_list, len. rewrite L.
  set (j := if i <? 0 then _ else _). destruct ((0 <=? j) && (j <? Z.of_nat (List.length ls))).
  - split; [apply keeps_refl|apply C].
  - split; [apply keeps_refl|reflexivity].
Qed.

Definition ne_all (a : nat) (vs : list buf) : Prop := Forall (fun v => v <> Ref a) vs.
Lemma has_all_ne h a vs ls : (forall v l', has h v l' -> v <> Ref a) -> has_all h vs ls -> ne_all a vs.
Proof. intros N H. induction H as [|v l vs ls V H IH]; constructor; [now apply (N v l)|exact IH]. Qed.
Lemma has_all_wr h h' a vs ls : (forall v l0, has h v l0 -> v <> Ref a -> has h' v l0) -> has_all h vs ls -> ne_all a vs -> has_all h' vs ls.
Proof.
  intros K H N. induction H as [|v l vs ls V H IH]; constructor; [apply K; [exact V|now inversion N]|apply IH; now inversion N].
Qed.

(** Known contents are still known after a call, or after a write to another buffer. *)
Ltac carry S :=
  pose proof (same_len _ _ S);
  repeat match goal with
  | H : has ?h ?v ?l |- _ => match type of S with same h ?h' => apply (has_same h h' v l S) in H end
  | H : has_all ?h ?v ?l |- _ => match type of S with same h ?h' => apply (has_all_same h h' v l S) in H end
  end.
Ltac carry_wr K :=
  repeat match goal with
  | H : has ?h ?v ?l |- _ => match type of K with (forall v l0, has h v l0 -> v <> _ -> _) => apply K in H; [|solve [auto | congruence | discriminate]] end
  | H : has_all ?h ?v ?l |- _ => match type of K with (forall v l0, has h v l0 -> v <> _ -> _) => apply (has_all_wr _ _ _ _ _ K) in H; [|solve [auto]] end
  end.
Ltac others N :=
  repeat match goal with
  | H : has ?h ?v ?l |- _ =>
      match type of N with (forall v l', has h v l' -> v <> Ref ?a) =>
        lazymatch goal with
        | _ : v <> Ref a |- _ => fail
        | _ => pose proof (N v l H)
        end
      end
  | H : has_all ?h ?vs ?ls |- _ =>
      match type of N with (forall v l', has h v l' -> v <> Ref ?a) =>
        lazymatch goal with
        | _ : ne_all a vs |- _ => fail
        | _ => pose proof (has_all_ne _ _ _ _ N H)
        end
      end
  end.

(** A loop that runs at least once. *)
Lemma sim_for1 {X A B} n W (I0 I1 : heap -> A -> B -> Prop) (body : X -> A -> M heap A) (fbody : X -> B -> res B) xs h a b :
  xs <> [] -> I0 h a b -> (forall h a b, I1 h a b -> I0 h a b) ->
  (forall x h a b, I0 h a b -> sim n W h (body x a) (fbody x b) I1) ->
  sim n W h (forM xs a body) (for_ xs b fbody) I1.
Proof.
  destruct xs as [|x xs]; [congruence|]. intros _ I W1 C. cbn [forM for_].
  eapply sim_bind; [apply C, I|]. intros h' a' b' _ I'. apply (sim_for n W I1); [exact I'|].
  intros y h2 a2 b2 _ I2. apply C, W1, I2.
Qed.
