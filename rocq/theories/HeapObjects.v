(** * Programs with objects: the common part

    The relation of HeapWorldFacts.v for any kind of object: [K] are the contents of the bytearrays of
    the module, [rep] relates an object with buffers to one with values, [foot] gives its buffers. *)
From Verif Require Import PyBase PyState PyFacts CipherObj Modes Mac Heap HeapLogic HeapCipher HeapCipherFacts HeapModes HeapModesLogic HeapModesFacts HeapMacFacts HeapWorld HeapWorldFacts AliasLemmas.
Open Scope list_scope.

Section Constants.
Context (K : heap).
Definition constsK (h : heap) : Prop := forall i, (i < List.length K)%nat -> nth_error h i = nth_error K i.
Lemma constsK_keep h h' W : keeps (List.length h) W h h' -> (forall a, In a W -> (List.length K <= a)%nat) -> (List.length K <= List.length h)%nat -> constsK h -> constsK h'.
Proof. intros [_ E] N L C i I. rewrite E; [now apply C|lia|]. intros X. apply N in X. lia. Qed.
Lemma constsK_len h : constsK h -> (List.length K <= List.length h)%nat.
Proof.
  intros C. destruct (List.length K) as [|n] eqn:E; [lia|]. specialize (C n). rewrite E in C. specialize (C ltac:(lia)).
  assert (nth_error K n <> None) by (apply nth_error_Some; lia). assert (nth_error h n <> None) by congruence. apply nth_error_Some in H0. lia.
Qed.
Lemma constsK_same h h' : same h h' -> constsK h -> constsK h'.
Proof. intros E C. apply (constsK_keep h h' []); [exact E|intros a []|now apply constsK_len|exact C]. Qed.
Lemma constsK_first h : constsK h -> firstn (List.length K) h = K.
Proof.
  intros C. pose proof (constsK_len h C) as L. apply nth_ext with (d := []) (d' := []); [rewrite firstn_length; lia|].
  intros n N. rewrite firstn_length in N. specialize (C n ltac:(lia)).
  rewrite <- (firstn_skipn (List.length K) h) in C. rewrite nth_error_app1 in C by (rewrite firstn_length; lia).
  rewrite (nth_error_nth' _ [] (n := n)) in C by (rewrite firstn_length; lia). rewrite (nth_error_nth' K [] (n := n)) in C by lia. congruence.
Qed.
End Constants.

Section Objects.
Context {S O : Type} (K : heap) (rep : heap -> S -> O -> Prop) (foot : S -> list nat).
Hypothesis rep_keep : forall h h' W s o, keeps (List.length h) W h h' -> apart W (foot s) -> rep h s o -> rep h' s o.
Hypothesis rep_lt : forall h s o a, rep h s o -> In a (foot s) -> (a < List.length h)%nat.

(** [f] gives, for each buffer of the program, its address in the common heap. *)
Record orel (f : list nat) (w : world S) (i : world O) : Prop := {
  or_consts : constsK K (w_heap w);
  or_bufs : has_all (w_heap w) (map Ref f) (w_heap i);
  or_nodup : NoDup f;
  or_low : forall b, In b f -> (List.length K <= b)%nat;
  or_vars : Forall2 (at_ f) (w_vars i) (w_vars w);
  or_objs : Forall2 (rep (w_heap w)) (w_objs w) (w_objs i);
  or_foot : forall k s a, nth_error (w_objs w) k = Some s -> In a (foot s) -> (List.length K <= a)%nat /\ ~ In a f;
  or_sep : forall k k' s s' a, nth_error (w_objs w) k = Some s -> nth_error (w_objs w) k' = Some s' -> In a (foot s) -> In a (foot s') -> k = k'
}.
Definition oagree (f : list nat) (p : out * world S) (q : out * world O) : Prop :=
  fst p = fst q /\ exists g, orel (f ++ g) (snd p) (snd q).

Lemma rep_same h h' s o : same h h' -> rep h s o -> rep h' s o.
Proof. intros E. apply (rep_keep h h' []); [exact E|intros a []]. Qed.
Lemma o_at_content f w i v x : orel f w i -> at_ f v x -> exists l, content (w_heap i) v = Some l /\ has (w_heap w) x l.
Proof.
  intros R A. destruct v as [l|a], x as [l'|b]; cbn in A; try contradiction.
  - destruct A as [-> Ok]. exists l'. split; [reflexivity|now apply has_imm].
  - destruct (bufs_nth _ _ _ _ _ (or_bufs _ _ _ R) A) as (l & N & X). eauto.
Qed.

Section Steps.
Context (f : list nat) (w : world S) (i : world O) (R : orel f w i).
Notation h := (w_heap w).
Notation n := (List.length K).

Lemma o_len : (n <= List.length h)%nat.
Proof. apply constsK_len, R. Qed.
Lemma o_obj_lt k s a : nth_error (w_objs w) k = Some s -> In a (foot s) -> (a < List.length h)%nat.
Proof.
  intros N I. pose proof (forall2_nth _ _ _ k (or_objs _ _ _ R)) as X. rewrite N in X.
  destruct (nth_error (w_objs i) k); [|contradiction]. eapply rep_lt; eassumption.
Qed.

(** One object is changed. *)
Lemma o_obj_step k s s' o' W h' : nth_error (w_objs w) k = Some s -> keeps (List.length h) W h h' -> incl W (foot s) ->
  rep h' s' o' -> (forall a, In a (foot s') -> In a (foot s) \/ (List.length h <= a)%nat) ->
  orel f (mkw h' (w_vars w) (upd (w_objs w) k s')) (mkw (w_heap i) (w_vars i) (upd (w_objs i) k o')).
Proof.
  intros N Kp I Y Ft. pose proof o_len as L7. pose proof R as [Rc Rb Rn Rl Rv Ro Rf Rs].
  assert (WF : forall a, In a W -> (n <= a)%nat /\ ~ In a f) by (intros a A; exact (Rf k s a N (I a A))).
  assert (KL : (k < List.length (w_objs w))%nat) by (apply nth_error_Some; congruence).
  constructor; cbn [mkw w_heap w_vars w_objs]; auto.
  - eapply constsK_keep; [exact Kp|apply WF|exact L7|exact Rc].
  - eapply has_all_keep; [exact Kp| |exact Rb]. apply Forall_forall. intros v V. apply in_map_iff in V. destruct V as (b & <- & B). cbn. intros A. now apply WF in A.
  - apply (forall2_upd (rep h)); [exact Ro| |exact Y]. intros j x y J Nx X. eapply rep_keep; [exact Kp| |exact X].
    intros a A B. apply J. symmetry. exact (Rs k j s x a N Nx (I a A) B).
  - intros j t a Nt A. destruct (Nat.eq_dec k j) as [<-|J].
    + rewrite nth_upd_same in Nt by exact KL. injection Nt as <-. destruct (Ft a A) as [A'|A']; [now apply (Rf k s)|].
      split; [lia|]. intros B. apply (bufs_lt _ _ _ _ Rb) in B. lia.
    + rewrite nth_upd_other in Nt by exact J. now apply (Rf j t).
  - intros j j' t t' a Nt Nt' A A'. destruct (Nat.eq_dec k j) as [E|J], (Nat.eq_dec k j') as [E'|J']; try congruence.
    + subst j. rewrite nth_upd_same in Nt by exact KL. injection Nt as <-. rewrite nth_upd_other in Nt' by exact J'.
      destruct (Ft a A) as [B|B]; [now apply (Rs k j' s t' a)|]. pose proof (o_obj_lt _ _ _ Nt' A'). lia.
    + subst j'. rewrite nth_upd_same in Nt' by exact KL. injection Nt' as <-. rewrite nth_upd_other in Nt by exact J.
      destruct (Ft a A') as [B|B]; [symmetry; now apply (Rs k j s t a)|]. pose proof (o_obj_lt _ _ _ Nt A). lia.
    + rewrite nth_upd_other in Nt by exact J. rewrite nth_upd_other in Nt' by exact J'. now apply (Rs j j' t t' a).
Qed.
(** An object is created. *)
Lemma o_obj_new s o h' : same h h' -> rep h' s o -> (forall a, In a (foot s) -> (List.length h <= a)%nat) ->
  orel f (mkw h' (w_vars w) (w_objs w ++ [s])) (mkw (w_heap i) (w_vars i) (w_objs i ++ [o])).
Proof.
  intros Sm Y Ft. pose proof o_len as L7. pose proof R as [Rc Rb Rn Rl Rv Ro Rf Rs].
  assert (CASE : forall j t, nth_error (w_objs w ++ [s]) j = Some t -> nth_error (w_objs w) j = Some t \/ (j = List.length (w_objs w) /\ t = s)).
  { intros j t N. destruct (Nat.lt_ge_cases j (List.length (w_objs w))) as [L|L]; [rewrite nth_error_app1 in N by exact L; auto|].
    rewrite nth_error_app2 in N by exact L. right. destruct (j - List.length (w_objs w))%nat as [|d] eqn:E; cbn in N; [split; [lia|congruence]|]. destruct d; discriminate. }
  constructor; cbn [mkw w_heap w_vars w_objs]; auto.
  - now apply (constsK_same K h).
  - now apply (has_all_same h).
  - apply Forall2_app; [|constructor; [exact Y|constructor]]. eapply forall2_impl; [exact Ro|]. intros a b. now apply rep_same.
  - intros j t a Nt A. destruct (CASE _ _ Nt) as [N|[-> ->]]; [now apply (Rf j t)|]. apply Ft in A. split; [lia|].
    intros B. apply (bufs_lt _ _ _ _ Rb) in B. lia.
  - intros j j' t t' a Nt Nt' A A'. destruct (CASE _ _ Nt) as [N|[-> ->]], (CASE _ _ Nt') as [N'|[-> ->]]; auto.
    + now apply (Rs j j' t t' a).
    + apply Ft in A'. pose proof (o_obj_lt _ _ _ N A). lia.
    + apply Ft in A. pose proof (o_obj_lt _ _ _ N' A'). lia.
Qed.
(** Allocation. *)
Lemma o_frame h' : same h h' -> orel f (mkw h' (w_vars w) (w_objs w)) i.
Proof.
  intros Sm. destruct R as [Rc Rb Rn Rl Rv Ro Rf Rs]. constructor; cbn [mkw w_heap w_vars w_objs]; auto.
  - now apply (constsK_same K h).
  - now apply (has_all_same h).
  - eapply forall2_impl; [exact Ro|]. intros a b. now apply rep_same.
Qed.
(** A buffer is given to the program. *)
Lemma o_give b l : has h (Ref b) l -> (n <= b)%nat -> ~ In b f -> (forall k s, nth_error (w_objs w) k = Some s -> ~ In b (foot s)) ->
  orel (f ++ [b]) (mkw h (w_vars w ++ [Ref b]) (w_objs w)) (mkw (w_heap i ++ [l]) (w_vars i ++ [Ref (List.length (w_heap i))]) (w_objs i)).
Proof.
  intros Hb B7 Bf Bo. pose proof R as [Rc Rb Rn Rl Rv Ro Rf Rs]. constructor; cbn [mkw w_heap w_vars w_objs]; auto.
  - rewrite map_app. apply has_all_app; [exact Rb|now apply has_all_one].
  - apply NoDup_rev in Rn. rewrite <- (rev_involutive (f ++ [b])), rev_app_distr. apply NoDup_rev. constructor; [now rewrite <- in_rev|exact Rn].
  - intros c C. apply in_app_or in C. destruct C as [C|[<-|[]]]; auto.
  - apply Forall2_app; [eapply forall2_impl; [exact Rv|]; intros; now apply at_app|]. constructor; [|constructor]. cbn.
    pose proof (has_all_len _ _ _ Rb) as L. rewrite map_length in L. rewrite <- L, nth_error_app2, Nat.sub_diag by lia. reflexivity.
  - intros k s a N A. split; [now apply (Rf k s)|]. intros C. apply in_app_or in C. destruct C as [C|[<-|[]]]; [now apply (Rf k s a N A)|].
    now apply (Bo k s N).
Qed.
Lemma o_var v x : at_ f v x -> orel f (mkw h (w_vars w ++ [x]) (w_objs w)) (mkw (w_heap i) (w_vars i ++ [v]) (w_objs i)).
Proof.
  intros A. destruct R as [Rc Rb Rn Rl Rv Ro Rf Rs]. constructor; cbn [mkw w_heap w_vars w_objs]; auto.
  apply Forall2_app; [exact Rv|]. constructor; [exact A|constructor].
Qed.
(** The program writes one of its buffers. *)
Lemma o_write a b l : nth_error f a = Some b -> bytes_ok l ->
  orel f (mkw (upd h b l) (w_vars w) (w_objs w)) (mkw (upd (w_heap i) a l) (w_vars i) (w_objs i)).
Proof.
  intros N Ok. pose proof o_len as L7. pose proof R as [Rc Rb Rn Rl Rv Ro Rf Rs].
  assert (Ib : In b f) by (eapply nth_error_In; exact N).
  assert (Kp : keeps (List.length h) [b] h (upd h b l)).
  { split; [now rewrite upd_length|]. intros c _ C. apply nth_upd_other. intros ->. apply C. now left. }
  constructor; cbn [mkw w_heap w_vars w_objs]; auto.
  - eapply constsK_keep; [exact Kp| |exact L7|exact Rc]. intros c [<-|[]]. now apply Rl.
  - pose proof (bufs_lt _ _ _ _ Rb Ib) as Lb. revert a N. clear - Rb Rn Lb Ok Kp. remember (map Ref f) as vs eqn:E. revert f E Rn.
    induction Rb as [|v x vs ls X Rb IH]; intros [|c g] E Rn a N; try discriminate; [now destruct a|].
    cbn [map] in E. injection E as -> ->. inversion Rn; subst. destruct a as [|a]; cbn in N; cbn [upd].
    + injection N as <-. constructor; [split; [now apply content_wr_same|exact Ok]|].
      eapply has_all_keep; [exact Kp| |exact Rb]. apply Forall_forall. intros v V. apply in_map_iff in V. destruct V as (d & <- & D). cbn. intros [->|[]]. contradiction.
    + constructor; [|now apply (IH g)]. eapply has_keep; [exact Kp| |exact X]. cbn. intros [->|[]]. apply nth_error_In in N. contradiction.
  - eapply forall2_impl_nth; [exact Ro|]. intros k s o Ns X. eapply rep_keep; [exact Kp| |exact X]. intros c [<-|[]] C. now apply (Rf k s b Ns C).
Qed.
End Steps.

(** A result is put in a new buffer. *)
Definition ogive (r : res bytes) (w : world O) (os : list O) : out * world O :=
  match r with
  | Ok l => (Some (Ok l), mkw (w_heap w ++ [l]) (w_vars w ++ [Ref (List.length (w_heap w))]) os)
  | Err e => (Some (Err e), mkw (w_heap w) (w_vars w) os)
  end.

Lemma o_obj_give f w i k s s' o' W h' b l : orel f w i -> nth_error (w_objs w) k = Some s -> keeps (List.length (w_heap w)) W (w_heap w) h' -> incl W (foot s) ->
  rep h' s' o' -> (forall a, In a (foot s') -> In a (foot s) \/ (List.length (w_heap w) <= a)%nat) ->
  has h' (Ref b) l -> (List.length (w_heap w) <= b)%nat -> ~ In b (foot s') ->
  oagree f (show h' (w_vars w) (upd (w_objs w) k s') (Ok (Ref b))) (ogive (Ok l) i (upd (w_objs i) k o')).
Proof.
  intros R N Kp I Y Ft Hb L Nb. pose proof (o_len _ _ _ R) as L7.
  pose proof (o_obj_step _ _ _ R k s s' o' W h' N Kp I Y Ft) as R1.
  assert (KL : (k < List.length (w_objs w))%nat) by (apply nth_error_Some; congruence).
  unfold show. split; [now rewrite (proj1 Hb)|]. rewrite (proj1 Hb). exists [b].
  apply (o_give _ _ _ R1); cbn [mkw w_heap w_objs]; [exact Hb|lia| |].
  - intros B. apply (bufs_lt _ _ _ _ (or_bufs _ _ _ R)) in B. lia.
  - intros j t Nt B. destruct (Nat.eq_dec k j) as [<-|J].
    + rewrite nth_upd_same in Nt by exact KL. injection Nt as <-. contradiction.
    + rewrite nth_upd_other in Nt by exact J. pose proof (o_obj_lt _ _ _ R _ _ _ Nt B). lia.
Qed.
Lemma oagree_nil f p q : fst p = fst q -> orel f (snd p) (snd q) -> oagree f p q.
Proof. intros E R. split; [exact E|]. exists []. now rewrite app_nil_r. Qed.
Lemma o_unknown f w i : orel f w i -> oagree f (None, w) (None, i).
Proof. intros R. now apply oagree_nil. Qed.

Lemma o_var_rep f w i k : orel f w i ->
  match nth_error (w_vars w) k, nth_error (w_vars i) k with
  | Some x, Some v => at_ f v x /\ exists l, content (w_heap i) v = Some l /\ has (w_heap w) x l
  | None, None => True
  | _, _ => False
  end.
Proof.
  intros R. pose proof (forall2_nth _ _ _ k (or_vars _ _ _ R)) as X.
  destruct (nth_error (w_vars w) k), (nth_error (w_vars i) k); try contradiction; [|exact I]. split; [exact X|]. now apply (o_at_content f w i).
Qed.
Lemma o_obj_rep f w i k : orel f w i ->
  match nth_error (w_objs w) k, nth_error (w_objs i) k with
  | Some s, Some o => rep (w_heap w) s o
  | None, None => True
  | _, _ => False
  end.
Proof.
  intros R. pose proof (forall2_nth _ _ _ k (or_objs _ _ _ R)) as X.
  destruct (nth_error (w_objs w) k), (nth_error (w_objs i) k); exact X.
Qed.
Lemma o_operand_rep f w i x : orel f w i -> operand_ok x ->
  match operand_arg (w_vars w) x, operand_val (w_heap i) (w_vars i) x with
  | Some a, Some p => arep (w_heap w) a p /\ forall W, apart W f -> aoutside W a
  | None, None => True
  | _, _ => False
  end.
Proof.
  intros R Ok. destruct x as [k|p]; cbn [operand_arg operand_val].
  - pose proof (o_var_rep f w i k R) as X. destruct (nth_error (w_vars w) k), (nth_error (w_vars i) k); try contradiction; [|exact I].
    destruct X as (A & l & E & H). rewrite E. split; [now apply arep_of|]. intros W. now apply (at_apart f W b0).
  - split; [|intros; exact I]. split; [reflexivity|exact Ok].
Qed.
Lemma o_opt_rep f w i x : orel f w i -> opt_ok x ->
  match opt_arg (w_vars w) x, opt_val (w_heap i) (w_vars i) x with
  | Some a, Some p => orep (w_heap w) a p
  | None, None => True
  | _, _ => False
  end.
Proof.
  intros R Ok. destruct x as [x|]; cbn [opt_arg opt_val]; [|exact I]. pose proof (o_operand_rep f w i x R Ok) as X.
  destruct (operand_arg (w_vars w) x), (operand_val (w_heap i) (w_vars i) x); try contradiction; [|exact I]. apply X.
Qed.

(** The statements that do not involve the library. *)
Lemma o_own_agree f w i c : orel f w i -> cmd_ok c -> oagree f (own_step c w) (own_step c i).
Proof.
  intros R Ok. destruct c; cbn [own_step]; try now apply o_unknown.
  - unfold alloc, show. rewrite !content_alloc. split; [reflexivity|]. exists [List.length (w_heap w)].
    apply (o_give f (mkw (w_heap w ++ [l]) (w_vars w) (w_objs w)) i); cbn [mkw w_heap w_vars w_objs snd].
    + apply o_frame; [exact R|apply same_app].
    + split; [apply content_alloc|exact Ok].
    + apply (o_len _ _ _ R).
    + intros B. apply (bufs_lt _ _ _ _ (or_bufs _ _ _ R)) in B. lia.
    + intros k s N B. pose proof (o_obj_lt _ _ _ R _ _ _ N B). lia.
  - apply oagree_nil; [reflexivity|]. cbn. apply o_var; [exact R|]. now split.
  - pose proof (o_var_rep f w i i0 R) as X. destruct (nth_error (w_vars w) i0) as [x|], (nth_error (w_vars i) i0) as [v|]; try contradiction; [|now apply o_unknown].
    destruct X as (A & l & E & H). unfold show. rewrite E, (proj1 H). apply oagree_nil; [reflexivity|]. cbn [snd]. now apply o_var.
  - pose proof (o_var_rep f w i i0 R) as X. destruct (nth_error (w_vars w) i0) as [x|], (nth_error (w_vars i) i0) as [v0|]; try contradiction; [|now apply o_unknown].
    destruct X as (A & l & E & H). destruct v0 as [l0|a], x as [l1|b]; cbn in A; try contradiction.
    + apply oagree_nil; [reflexivity|]. destruct w, i. exact R.
    + unfold h_set, bindM, rd. rewrite E, (proj1 H). unfold liftM. destruct (py_set l j v) as [l'|e] eqn:P.
      * apply oagree_nil; [reflexivity|]. cbn. apply o_write; auto. now apply py_set_bytes in P; [|apply H].
      * apply oagree_nil; [reflexivity|]. destruct w, i. exact R.
  - pose proof (o_var_rep f w i i0 R) as X. destruct (nth_error (w_vars w) i0) as [x|], (nth_error (w_vars i) i0) as [v0|]; try contradiction; [|now apply o_unknown].
    pose proof (o_var_rep f w i j R) as X2. destruct (nth_error (w_vars w) j) as [y|], (nth_error (w_vars i) j) as [v1|]; try contradiction; [|now apply o_unknown].
    destruct X as (A & l & E & H), X2 as (A2 & l2 & E2 & H2). destruct v0 as [l0|a0], x as [l1|b0]; cbn in A; try contradiction.
    + apply oagree_nil; [reflexivity|]. destruct w, i. exact R.
    + unfold h_slice_set, bindM, rd. rewrite E, (proj1 H), E2, (proj1 H2). apply oagree_nil; [reflexivity|]. cbn. apply o_write; auto.
      apply bytes_ok_slice_set; [apply H|apply H2].
  - pose proof (o_var_rep f w i i0 R) as X. destruct (nth_error (w_vars w) i0) as [x|], (nth_error (w_vars i) i0) as [v|]; try contradiction; [|now apply o_unknown].
    destruct X as (A & l & E & H). rewrite E, (proj1 H). now apply oagree_nil.
Qed.

(** ** What a call may add to the program's variables *)
Definition oadds (b : heap) (vs : list buf) (i : world O) : Prop :=
  (w_heap i = b /\ w_vars i = vs) \/ exists l, w_heap i = b ++ [l] /\ w_vars i = vs ++ [Ref (List.length b)].
Lemma ogive_adds r (w : world O) os : oadds (w_heap w) (w_vars w) (snd (ogive r w os)).
Proof. destruct r as [l|e]; cbn; [right; exists l; auto|left; auto]. Qed.

Lemma o_call_keeps f w i g w' i' : orel f w i -> orel (f ++ g) w' i' -> oadds (w_heap i) (w_vars i) i' -> grows (w_vars w) (w_vars w') ->
  (forall j x l, nth_error (w_vars w) j = Some x -> content (w_heap w) x = Some l ->
     nth_error (w_vars w') j = Some x /\ content (w_heap w') x = Some l) /\
  (forall x, nth_error (w_vars w') (List.length (w_vars w)) = Some x ->
     exists b, x = Ref b /\ ~ In (Ref b) (w_vars w)) /\
  (List.length (w_vars w') <= Datatypes.S (List.length (w_vars w)))%nat.
Proof.
  intros R R' A [vn G].
  assert (Lv : List.length (w_vars i) = List.length (w_vars w)).
  { pose proof (or_vars _ _ _ R) as H. clear - H. induction H; cbn; congruence. }
  assert (Lv' : List.length (w_vars i') = List.length (w_vars w')).
  { pose proof (or_vars _ _ _ R') as H. clear - H. induction H; cbn; congruence. }
  conj; [| |].
  - intros j x l Nx Cx. assert (Nx' : nth_error (w_vars w') j = Some x) by (rewrite G, nth_error_app1; [exact Nx|apply nth_error_Some; congruence]).
    split; [exact Nx'|]. pose proof (o_var_rep f w i j R) as V. rewrite Nx in V. destruct (nth_error (w_vars i) j) as [v|] eqn:Nv; [|contradiction].
    destruct V as (At & l0 & Ci & Hx). rewrite (proj1 Hx) in Cx. injection Cx as <-.
    pose proof (at_app f g v x At) as At'. destruct (o_at_content _ _ _ _ _ R' At') as (l1 & Ci' & Hx').
    assert (E : content (w_heap i') v = Some l0).
    { destruct A as [[-> _]|(e & -> & _)]; [exact Ci|]. exact (content_same _ _ _ _ (same_app (w_heap i) [e]) Ci). }
    rewrite E in Ci'. injection Ci' as <-. exact (proj1 Hx').
  - intros x Nx. pose proof (o_var_rep (f ++ g) w' i' (List.length (w_vars w)) R') as V. rewrite Nx in V.
    destruct A as [[_ A]|(e & Ah & A)].
    { rewrite A in V. rewrite (proj2 (nth_error_None (w_vars i) (List.length (w_vars w)))) in V by lia. contradiction. }
    rewrite A, nth_error_app2, Lv, Nat.sub_diag in V by lia. cbn [nth_error] in V. destruct V as (At & _).
    destruct x as [l|b]; [contradiction|]. exists b. split; [reflexivity|]. intros I. apply In_nth_error in I. destruct I as [j Nj].
    pose proof (o_var_rep f w i j R) as V. rewrite Nj in V. destruct (nth_error (w_vars i) j) as [v|] eqn:Nv; [|contradiction]. destruct V as (At0 & _).
    destruct (at_ref _ _ _ At0) as (a & -> & Na). cbn in At.
    pose proof (or_nodup _ _ _ R') as ND. rewrite NoDup_nth_error in ND.
    assert (La : (a < List.length f)%nat) by (apply nth_error_Some; congruence).
    assert (Lf : List.length f = List.length (w_heap i)).
    { pose proof (or_bufs _ _ _ R) as H. rewrite <- (map_length Ref f). unfold has_all in H. clear - H. induction H; cbn; congruence. }
    assert (X : a = List.length (w_heap i)); [|lia]. apply ND; [rewrite app_length; lia|]. rewrite nth_error_app1 by exact La. congruence.
  - rewrite <- Lv', <- Lv. destruct A as [[_ ->]|(e & _ & ->)]; rewrite ?app_length; cbn; lia.
Qed.
(** The buffers of the objects are not among those of the program. *)
Lemma o_apart f w i k s a : orel f w i -> nth_error (w_objs w) k = Some s -> In a (foot s) -> (List.length K <= a)%nat /\ ~ In (Ref a) (w_vars w).
Proof.
  intros R N I. destruct (or_foot _ _ _ R k s a N I) as [L NF]. split; [exact L|].
  intros V. apply In_nth_error in V. destruct V as [j Nj]. pose proof (o_var_rep _ _ _ j R) as V. rewrite Nj in V. destruct (nth_error (w_vars i) j) as [v|]; [|contradiction].
  destruct V as [At _]. destruct (at_ref _ _ _ At) as (b & -> & Nb). apply NF. now apply nth_error_In in Nb.
Qed.
Lemma orel_start : orel [] (mkw K [] []) (mkw [] [] []).
Proof.
  constructor; cbn [mkw w_heap w_vars w_objs].
  - intros i _. reflexivity.
  - constructor.
  - constructor.
  - intros b [].
  - constructor.
  - constructor.
  - intros [|k]; discriminate.
  - intros [|k]; discriminate.
Qed.
End Objects.
