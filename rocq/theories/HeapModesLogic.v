(** * Rules for methods of objects whose attributes are buffers *)
From Verif Require Import PyBase PyState PyFacts Utils UtilsFacts Heap HeapLogic HeapCipher HeapCipherFacts HeapModes.

Lemma psim_of_bind {A B} h (m : M heap A) (r : res B) Q : sim (List.length h) [] h (bindM m retM) r Q -> psim h m r Q.
Proof. unfold psim, sim, bindM. destruct (m h) as [[a|e] h']; auto. Qed.

(** A value that existed before, or a new one. *)
Definition built (h h' : heap) (v : buf) (l : bytes) : Prop := has h' v l /\ newer (List.length h) v.

Lemma p_rd h v l : has h v l -> psim h (rd v) (Ok l) (fun h' a b => h' = h /\ a = b).
Proof. intros H. apply psim_of_bind. eapply s_rd; [exact H|]. now apply sim_ret. Qed.
Lemma p_len h v l : has h v l -> psim h (h_len v) (Ok (len l)) (fun h' a b => h' = h /\ a = b).
Proof. intros H. apply psim_of_bind. eapply s_len; [exact H|]. now apply sim_ret. Qed.
Lemma p_alloc h l : bytes_ok l -> psim h (alloc l) (Ok l) (fresh h).
Proof. intros O. apply psim_of_bind. apply s_alloc; [lia|exact O|]. new_buf. apply sim_ret. now apply fresh_mk. Qed.
Lemma p_slice h v l i j : has h v l -> psim h (h_slice v i j) (Ok (py_slice l i j)) (built h).
Proof. intros H. apply psim_of_bind. eapply s_slice; [lia|exact H|]. intros. apply sim_ret. now split. Qed.
Lemma p_from h v l i : has h v l -> psim h (h_from v i) (Ok (py_from l i)) (built h).
Proof. intros H. apply psim_of_bind. eapply s_from; [lia|exact H|]. intros. apply sim_ret. now split. Qed.
Lemma p_add h v a w b : has h v a -> has h w b -> psim h (h_add v w) (Ok (a ++ b)) (built h).
Proof. intros H H2. apply psim_of_bind. eapply s_add; [lia|exact H|exact H2|]. intros. apply sim_ret. now split. Qed.
Lemma p_add_ref h p a w b : has h (Ref p) a -> has h w b -> psim h (h_add (Ref p) w) (Ok (a ++ b)) (fresh h).
Proof. intros H H2. apply psim_of_bind. eapply s_add_ref; [lia|exact H|exact H2|]. intros. now apply sim_ret. Qed.
Lemma p_ret {A B} h (a : A) (b : B) (Q : heap -> A -> B -> Prop) : Q h a b -> psim h (retM a) (Ok b) Q.
Proof. intros H. now apply sim_ret. Qed.
Lemma p_conseq {A B} h (m : M heap A) (r : res B) (Q Q' : heap -> A -> B -> Prop) : psim h m r Q -> (forall h' a b, same h h' -> Q h' a b -> Q' h' a b) -> psim h m r Q'.
Proof. intros P C. eapply sim_tail; [exact P|lia|exact C]. Qed.
Lemma fresh_built h h' v l : fresh h h' v l -> built h h' v l.
Proof. intros F. split; [now apply fresh_has in F|now apply fresh_newer in F]. Qed.

(** The method [m] of the object [s], run in [h], does what the method [f] of the value object [o]
    does: [Rel] holds between the objects afterwards (also after an exception), the results are
    related by [Q], and the first [n] buffers outside [W] are not changed. *)
Definition msim {S O A B} (Rel : heap -> S -> O -> Prop) (n : nat) (W : list nat) (s : S) (h : heap) (m : M (S * heap) A) (o : O) (f : M O B) (Q : heap -> A -> B -> Prop) : Prop :=
  let '(x, (s', h')) := m (s, h) in
  let '(y, o') := f o in
  keeps n W h h' /\ Rel h' s' o' /\
  match x, y with
  | Ok a, Ok b => Q h' a b
  | Err e, Err e' => e = e'
  | _, _ => False
  end.

Lemma keeps_le n n' W h h' : (n <= n')%nat -> keeps n' W h h' -> keeps n W h h'.
Proof. intros L [K1 K2]. split; [exact K1|]. intros a A N. apply K2; [lia|exact N]. Qed.
Lemma keeps_mono n W W' h h' : incl W W' -> keeps n W h h' -> keeps n W' h h'.
Proof. intros I [K1 K2]. split; [exact K1|]. intros a A N. apply K2; [exact A|]. intros X. apply N, I, X. Qed.
Lemma keeps_len n W h h' : keeps n W h h' -> (List.length h <= List.length h')%nat.
Proof. now intros [L _]. Qed.

Section Rules.
Context {S O : Type} (Rel : heap -> S -> O -> Prop).
(** Allocation does not break the relation. *)
Hypothesis Rel_same : forall h h' s o, same h h' -> Rel h s o -> Rel h' s o.

Lemma m_ret {A B} n W s h (a : A) o (b : B) (Q : heap -> A -> B -> Prop) : Rel h s o -> Q h a b -> msim Rel n W s h (retM a) o (retM b) Q.
Proof. intros R H. split; [apply keeps_refl|]. now split. Qed.
Lemma m_raise {A B} n W s h o e (Q : heap -> A -> B -> Prop) : Rel h s o -> msim Rel n W s h (raiseM e) o (raiseM e) Q.
Proof. intros R. split; [apply keeps_refl|]. now split. Qed.
Lemma m_get {A B} n W s h (k : S -> M (S * heap) A) o (f : O -> M O B) Q :
  msim Rel n W s h (k s) o (f o) Q -> msim Rel n W s h (bindM getO k) o (bindM getM f) Q.
Proof. exact (fun H => H). Qed.
Lemma m_put {A B} n W s h s' (k : unit -> M (S * heap) A) o o' (f : unit -> M O B) Q :
  msim Rel n W s' h (k tt) o' (f tt) Q -> msim Rel n W s h (bindM (putO s') k) o (bindM (putM o') f) Q.
Proof. exact (fun H => H). Qed.
Lemma m_put_end n W s h s' o o' (Q : heap -> unit -> unit -> Prop) :
  Rel h s' o' -> Q h tt tt -> msim Rel n W s h (putO s') o (putM o') Q.
Proof. intros R H. split; [apply keeps_refl|]. now split. Qed.

Lemma m_bind {A B A' B'} n W s h (m : M (S * heap) A) (k : A -> M (S * heap) A') o (f : M O B) (g : B -> M O B') Q Q' :
  msim Rel (List.length h) W s h m o f Q -> (n <= List.length h)%nat ->
  (forall h' s' o' a b, keeps (List.length h) W h h' -> Rel h' s' o' -> Q h' a b -> msim Rel n W s' h' (k a) o' (g b) Q') ->
  msim Rel n W s h (bindM m k) o (bindM f g) Q'.
Proof.
  unfold msim, bindM. destruct (m (s, h)) as [x [s1 h1]], (f o) as [y o1]. intros (K & R & H) N C.
  destruct x as [a|e], y as [b|e']; try contradiction.
  - specialize (C h1 s1 o1 a b K R H). destruct (k a (s1, h1)) as [x2 [s2 h2]], (g b o1) as [y2 o2].
    destruct C as (K2 & C). split; [|exact C]. apply (keeps_trans _ _ _ h1); [now apply (keeps_le _ (List.length h))|exact K2].
  - split; [now apply (keeps_le _ (List.length h))|]. now split.
Qed.
Lemma m_tail {A B} n W s h (m : M (S * heap) A) o (f : M O B) (Q Q' : heap -> A -> B -> Prop) :
  msim Rel (List.length h) W s h m o f Q -> (n <= List.length h)%nat ->
  (forall h' s' o' a b, keeps (List.length h) W h h' -> Rel h' s' o' -> Q h' a b -> Q' h' a b) ->
  msim Rel n W s h m o f Q'.
Proof.
  unfold msim. destruct (m (s, h)) as [x [s1 h1]], (f o) as [y o1]. intros (K & R & H) N C.
  split; [now apply (keeps_le _ (List.length h))|]. split; [exact R|].
  destruct x as [a|e], y as [b|e']; try contradiction; [now apply (C h1 s1 o1)|assumption].
Qed.
(** A function that uses only the heap. *)
Lemma m_call {A B A' B'} n W s h (m : M heap A) r (k : A -> M (S * heap) A') o (g : B -> M O B') Q Q' :
  Rel h s o -> psim h m r Q -> (n <= List.length h)%nat ->
  (forall h' a b, same h h' -> Rel h' s o -> Q h' a b -> msim Rel n W s h' (k a) o (g b) Q') ->
  msim Rel n W s h (bindM (onheap m) k) o (bindM (liftM r) g) Q'.
Proof.
  unfold psim, sim, msim, bindM, onheap, liftM. destruct (m h) as [x h1]. intros R [K H] N C.
  destruct x as [a|e], r as [b|e']; try contradiction.
  - pose proof (Rel_same h h1 s o K R) as R1. specialize (C h1 a b K R1 H). destruct (k a (s, h1)) as [x2 [s2 h2]], (g b o) as [y2 o2].
    destruct C as (K2 & C). split; [|exact C]. apply (keeps_trans _ _ _ h1); [now apply same_keeps|exact K2].
  - split; [now apply same_keeps|]. split; [now apply (Rel_same h)|assumption].
Qed.
Lemma m_call_l {A B A' B'} n W s h (m : M heap A) (b : B) (k : A -> M (S * heap) A') o (f : M O B') Q Q' :
  Rel h s o -> psim h m (Ok b) Q -> (n <= List.length h)%nat ->
  (forall h' a, same h h' -> Rel h' s o -> Q h' a b -> msim Rel n W s h' (k a) o f Q') ->
  msim Rel n W s h (bindM (onheap m) k) o f Q'.
Proof.
  unfold psim, sim, msim, bindM, onheap. destruct (m h) as [x h1]. intros R [K H] N C.
  destruct x as [a|e]; [|contradiction].
  pose proof (Rel_same h h1 s o K R) as R1. specialize (C h1 a K R1 H). destruct (k a (s, h1)) as [x2 [s2 h2]], (f o) as [y2 o2].
  destruct C as (K2 & C). split; [|exact C]. apply (keeps_trans _ _ _ h1); [now apply same_keeps|exact K2].
Qed.
Lemma m_call_t {A B} n W s h (m : M heap A) r o (Q Q' : heap -> A -> B -> Prop) :
  Rel h s o -> psim h m r Q -> (n <= List.length h)%nat ->
  (forall h' a b, same h h' -> Q h' a b -> Q' h' a b) ->
  msim Rel n W s h (onheap m) o (liftM r) Q'.
Proof.
  unfold psim, sim, msim, onheap, liftM. destruct (m h) as [x h1]. intros R [K H] N C.
  split; [now apply same_keeps|]. split; [now apply (Rel_same h)|]. destruct x as [a|e], r as [b|e']; auto.
Qed.
(** The last statement, where the value model returns a value. *)
Lemma m_call_r {A B} n W s h (m : M heap A) (b : B) o (Q Q' : heap -> A -> B -> Prop) :
  Rel h s o -> psim h m (Ok b) Q -> (n <= List.length h)%nat ->
  (forall h' a, same h h' -> Q h' a b -> Q' h' a b) ->
  msim Rel n W s h (onheap m) o (retM b) Q'.
Proof.
  intros R P N C. change (retM (S := O) b) with (liftM (S := O) (Ok b)).
  unfold psim, sim, msim, onheap, liftM in *. destruct (m h) as [x h1]. destruct P as [K H].
  split; [now apply same_keeps|]. split; [now apply (Rel_same h)|]. destruct x as [a|e]; auto.
Qed.
Lemma m_for {X A B} n W (Inv : heap -> A -> B -> Prop) (body : X -> A -> M (S * heap) A) (fbody : X -> B -> M O B) :
  forall xs s h o a b,
  Rel h s o -> Inv h a b ->
  (forall x s h o a b, In x xs -> Rel h s o -> Inv h a b -> msim Rel n W s h (body x a) o (fbody x b) Inv) ->
  msim Rel n W s h (forM xs a body) o (forM xs b fbody) Inv.
Proof.
  induction xs as [|x xs IH]; intros s h o a b R I C; cbn [forM].
  - now apply m_ret.
  - specialize (C x s h o a b (or_introl eq_refl) R I) as D.
    unfold msim, bindM in *. destruct (body x a (s, h)) as [x1 [s1 h1]], (fbody x b o) as [y1 o1]. destruct D as (K & R1 & D).
    destruct x1 as [a1|e], y1 as [b1|e']; try contradiction; [|now split].
    specialize (IH s1 h1 o1 a1 b1 R1 D (fun y s h o a b Y => C y s h o a b (or_intror Y))).
    destruct (forM xs a1 body (s1, h1)) as [x2 [s2 h2]], (forM xs b1 fbody o1) as [y2 o2].
    destruct IH as (K2 & IH). split; [|exact IH]. now apply (keeps_trans _ _ _ h1).
Qed.
Lemma m_bind_for {A B A' B'} n W s h (m : M (S * heap) A) (k : A -> M (S * heap) A') o (f : M O B) (g : B -> M O B') Q Q' :
  msim Rel n W s h m o f Q ->
  (forall h' s' o' a b, keeps n W h h' -> Rel h' s' o' -> Q h' a b -> msim Rel n W s' h' (k a) o' (g b) Q') ->
  msim Rel n W s h (bindM m k) o (bindM f g) Q'.
Proof.
  unfold msim, bindM. destruct (m (s, h)) as [x [s1 h1]], (f o) as [y o1]. intros (K & R & H) C.
  destruct x as [a|e], y as [b|e']; try contradiction.
  - specialize (C h1 s1 o1 a b K R H). destruct (k a (s1, h1)) as [x2 [s2 h2]], (g b o1) as [y2 o2].
    destruct C as (K2 & C). split; [|exact C]. now apply (keeps_trans _ _ _ h1).
  - now split.
Qed.
Lemma m_conseq {A B} n W s h (m : M (S * heap) A) o (f : M O B) (Q Q' : heap -> A -> B -> Prop) :
  msim Rel n W s h m o f Q -> (forall h' a b, keeps n W h h' -> Q h' a b -> Q' h' a b) -> msim Rel n W s h m o f Q'.
Proof.
  unfold msim. destruct (m (s, h)) as [x [s1 h1]], (f o) as [y o1]. intros (K & R & H) C.
  split; [exact K|]. split; [exact R|]. destruct x as [a|e], y as [b|e']; auto.
Qed.
End Rules.

(** Buffers that a call may not write. *)
Definition outside (W : list nat) (v : buf) : Prop := match v with Imm _ => True | Ref a => ~ In a W end.
Lemma has_keep h h' W v l : keeps (List.length h) W h h' -> outside W v -> has h v l -> has h' v l.
Proof.
  intros K N H. eapply has_keeps; [exact K|exact H|]. destruct v as [x|a]; [exact I|]. split; [now apply has_lt in H|exact N].
Qed.
Lemma has_all_keep h h' W vs ls : keeps (List.length h) W h h' -> Forall (outside W) vs -> has_all h vs ls -> has_all h' vs ls.
Proof.
  intros K F H. revert F. induction H as [|v l vs ls V H IH]; intros F; constructor; inversion F; subst; [now apply (has_keep h h' W)|now apply IH].
Qed.
Lemma newer_outside n W v : (forall a, In a W -> (a < n)%nat) -> newer n v -> outside W v.
Proof. intros L. destruct v as [x|a]; cbn; [auto|]. intros N X. apply L in X. lia. Qed.
