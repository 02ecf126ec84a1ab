(** * The two meanings of a program agree *)
From Verif Require Import PyBase PyState PyFacts Utils UtilsFacts CipherObj Modes Mac Heap HeapLogic HeapCipher HeapCipherFacts HeapModes HeapModesLogic HeapModesFacts CipherObjFacts HeapMacFacts HeapWorld.
Open Scope string_scope.
Open Scope list_scope.
Open Scope Z_scope.

(** ** Methods that return do not replace the round keys *)
Definition pres {A} (m : HM A) : Prop := forall s h, match m (s, h) with (Ok _, (s', _)) => h_cipher s' = h_cipher s | (Err _, _) => True end.
Lemma pres_ret {A} (a : A) : pres (retM a).
Proof. intros s h. reflexivity. Qed.
Lemma pres_raise {A} e : pres (raiseM (A := A) e).
Proof. intros s h. exact I. Qed.
Lemma pres_get : pres getO.
Proof. intros s h. reflexivity. Qed.
Lemma pres_onheap {A} (m : M heap A) : pres (onheap m).
Proof. intros s h. unfold onheap. destruct (m h) as [[a|e] h']; auto. Qed.
Lemma pres_bind {A B} (m : HM A) (k : A -> HM B) : pres m -> (forall a, pres (k a)) -> pres (bindM m k).
Proof.
  intros P Q s h. unfold bindM. specialize (P s h). destruct (m (s, h)) as [[a|e] [s1 h1]]; [|exact I].
  specialize (Q a s1 h1). destruct (k a (s1, h1)) as [[b|e] [s2 h2]]; [congruence|exact I].
Qed.
Lemma pres_for {X A} (body : X -> A -> HM A) xs : (forall x a, pres (body x a)) -> forall a, pres (forM xs a body).
Proof. intros P. induction xs as [|x xs IH]; intros a; cbn [forM]; [apply pres_ret|apply pres_bind; auto]. Qed.
Lemma pres_fail {A B} (m : HM A) e : pres (m ;! raiseM (A := B) e).
Proof. intros s h. unfold bindM. destruct (m (s, h)) as [[a|x] [s' h']]; exact I. Qed.
Lemma pres_ctr_step : pres h_ctr_step.
Proof.
  intros s h. unfold h_ctr_step, bindM, getO, onheap, putO, retM. destruct (hc_encrypt (h_cipher s) (h_counter s) h) as [[g|e] h1]; [|exact I].
  destruct (h_inc_ctr (h_block_size s) (h_counter s) h1) as [[c|e] h2]; [reflexivity|exact I].
Qed.
Ltac pres_step :=
  match goal with
  | |- pres (retM _) => apply pres_ret
  | |- pres (raiseM _) => apply pres_raise
  | |- pres getO => apply pres_get
  | |- pres (onheap _) => apply pres_onheap
  | |- pres h_ctr_step => apply pres_ctr_step
  | |- pres (_ ;! raiseM _) => apply pres_fail
  | |- pres (bindM _ _) => apply pres_bind; [|intros ?]
  | |- pres (forM _ _ _) => apply pres_for; intros ? ?
  | |- pres (if ?b then _ else _) => destruct b
  | |- pres (match ?b with _ => _ end) => destruct b
  end.
Ltac pres_all := repeat (cbv zeta; pres_step).
Lemma pres_encrypt x : pres (h_encrypt x).
Proof.
  unfold h_encrypt, h_ecb_encrypt, h_cbc_encrypt, h_cfb_encrypt, h_ofb_encrypt, h_ctr_encrypt, h_padding_encrypt, h_check_plaintext, h_check, h_final_cipher, h_get_gamma, h_set_init_vect. pres_all.
Qed.
Lemma pres_decrypt x : pres (h_decrypt x).
Proof.
  unfold h_decrypt, h_ecb_decrypt, h_cbc_decrypt, h_cfb_decrypt, h_ofb_decrypt, h_ctr_decrypt, h_ofb_encrypt, h_ctr_encrypt, h_check_ciphertext, h_check_plaintext, h_check, h_final_cipher, h_get_gamma, h_set_init_vect. pres_all.
Qed.
Lemma pres_iv : pres h_iv.
Proof. unfold h_iv. pres_all. Qed.
Lemma digest_state z s h : fst (snd (hcm_digest z (s, h))) = s.
Proof.
  unfold hcm_digest, bindM, getO, onheap, on_temp, raiseM. destruct (hcm_copy s h) as [[t|e] h1]; [|reflexivity].
  destruct (z >? hcm_block_size t).
  - destruct (hcm_clear (t, h1)) as [[[]|e] [t' h2]]; reflexivity.
  - destruct (hcm_mac_final (t, h1)) as [[r|e] [t' h2]]; [|reflexivity]. cbn [snd]. destruct (h_slice r 0 z h2) as [r' h3]. reflexivity.
Qed.

(** ** Objects and the heap *)
Lemma nrep_same h h' x y : same h h' -> nrep h x y -> nrep h' x y.
Proof. destruct x, y; cbn; auto; intros S; [now apply hrep_same|now apply mrep_same]. Qed.
Definition apart (W F : list nat) : Prop := forall a, In a W -> ~ In a F.
Lemma apart_outside W vs : apart W (refs vs) -> Forall (outside W) vs.
Proof. intros A. apply Forall_forall. intros [l|a] I; cbn; [exact Logic.I|]. intros X. apply (A a X). now apply in_refs. Qed.
Lemma has_keep' h h' W v l vs : keeps (List.length h) W h h' -> apart W (refs vs) -> In v vs -> has h v l -> has h' v l.
Proof. intros K A I. apply has_keep with (W := W); [exact K|]. exact (proj1 (Forall_forall _ _) (apart_outside _ _ A) _ I). Qed.
Lemma refs_app vs ws : refs (vs ++ ws) = refs vs ++ refs ws.
Proof. apply flat_map_app. Qed.
Lemma nrep_keep h h' W x y : keeps (List.length h) W h h' -> apart W (nfoot x) -> nrep h x y -> nrep h' x y.
Proof.
  intros K. destruct x as [s|s], y as [o|m]; cbn [nrep nfoot]; try contradiction; intros A.
  - assert (A1 : apart W (refs [h_init_vect s; h_counter s])) by (intros a I X; apply (A a I), in_or_app; now left).
    assert (A2 : apart W (refs (hc_keys (h_cipher s)))) by (intros a I X; apply (A a I), in_or_app; now right).
    intros [C Cr P Iv T D Ks Wr]. constructor; auto.
    + eapply crep_keep; [exact K|now apply apart_outside|exact Cr].
    + eapply has_keep'; [exact K|exact A1|now left|exact Iv].
    + eapply has_keep'; [exact K|exact A1|right; now left|exact T].
  - unfold mfoot in A. rewrite refs_app in A.
    assert (A1 : apart W (refs (mfields s))) by (intros a I X; apply (A a I), in_or_app; now left).
    assert (A2 : apart W (refs (hc_keys (hcm_cipher s)))) by (intros a I X; apply (A a I), in_or_app; now right).
    intros []. constructor; auto; try (eapply has_keep'; [exact K|exact A1|unfold mfields; cbn; tauto|assumption]).
    eapply crep_keep; [exact K|now apply apart_outside|assumption].
Qed.
Lemma nrep_lt h x y a : nrep h x y -> In a (nfoot x) -> (a < List.length h)%nat.
Proof.
  destruct x as [s|s], y as [o|m]; cbn [nrep nfoot]; try contradiction.
  - intros [C Cr P Iv T D Ks Wr] I. apply in_app_or in I. destruct I as [I|I]; apply in_refs in I.
    + destruct I as [E|[E|[]]]; [rewrite E in Iv; now apply has_lt in Iv|rewrite E in T; now apply has_lt in T].
    + eapply keys_lt; eassumption.
  - intros [] I. unfold mfoot in I. rewrite refs_app in I. apply in_app_or in I. destruct I as [I|I]; apply in_refs in I.
    + unfold mfields in I. cbn in I. repeat destruct I as [E|I]; try contradiction; match goal with H : has _ ?v _ |- _ => rewrite E in H; now apply has_lt in H end.
    + eapply keys_lt; eassumption.
Qed.

(** ** The relation between the two states *)
Definition at_ (f : list nat) (v w : buf) : Prop :=
  match v, w with
  | Imm l, Imm l' => l = l' /\ bytes_ok l
  | Ref a, Ref b => nth_error f a = Some b
  | _, _ => False
  end.
(** [f] gives, for each buffer of the program, its address in the common heap. *)
Record wrel (f : list nat) (w : real) (i : ideal) : Prop := {
  wr_consts : consts (w_heap w);
  wr_bufs : has_all (w_heap w) (map Ref f) (w_heap i);
  wr_nodup : NoDup f;
  wr_low : forall b, In b f -> (7 <= b)%nat;
  wr_vars : Forall2 (at_ f) (w_vars i) (w_vars w);
  wr_objs : Forall2 (nrep (w_heap w)) (w_objs w) (w_objs i);
  wr_foot : forall k s a, nth_error (w_objs w) k = Some s -> In a (nfoot s) -> (7 <= a)%nat /\ ~ In a f;
  wr_sep : forall k k' s s' a, nth_error (w_objs w) k = Some s -> nth_error (w_objs w) k' = Some s' -> In a (nfoot s) -> In a (nfoot s') -> k = k'
}.
Definition agree (f : list nat) (p : out * real) (q : out * ideal) : Prop :=
  fst p = fst q /\ exists g, wrel (f ++ g) (snd p) (snd q).

Lemma forall2_nth {A B} (P : A -> B -> Prop) l l' k : Forall2 P l l' ->
  match nth_error l k, nth_error l' k with Some a, Some b => P a b | None, None => True | _, _ => False end.
Proof. intros H. revert k. induction H; intros [|k]; cbn; auto. apply IHForall2. Qed.
Lemma forall2_upd {A B} (P Q : A -> B -> Prop) l l' k a b : Forall2 P l l' ->
  (forall j x y, j <> k -> nth_error l j = Some x -> P x y -> Q x y) -> Q a b -> Forall2 Q (upd l k a) (upd l' k b).
Proof.
  intros H. revert k. induction H as [|x y l l' X H IH]; intros [|k] C D; cbn; constructor; auto.
  - assert (G : forall m m', Forall2 P m m' -> (forall j u v, nth_error m j = Some u -> P u v -> Q u v) -> Forall2 Q m m').
    { clear. intros m m' H. induction H; intros C; constructor; [now apply (C 0%nat)|apply IHForall2; intros j u v N; now apply (C (S j))]. }
    apply (G _ _ H). intros j u v N. apply (C (S j)); [lia|exact N].
  - now apply (C 0%nat).
  - apply IH; [|exact D]. intros j u v N. apply (C (S j)). lia.
Qed.
Lemma forall2_impl {A B} (P Q : A -> B -> Prop) l l' : Forall2 P l l' -> (forall a b, P a b -> Q a b) -> Forall2 Q l l'.
Proof. intros H C. induction H; constructor; auto. Qed.
Lemma forall2_impl_nth {A B} (P Q : A -> B -> Prop) l l' : Forall2 P l l' -> (forall k a b, nth_error l k = Some a -> P a b -> Q a b) -> Forall2 Q l l'.
Proof.
  intros H. induction H; intros C; constructor; [now apply (C 0%nat)|]. apply IHForall2. intros k a b N. now apply (C (S k)).
Qed.

Lemma bufs_nth h f ls a b : has_all h (map Ref f) ls -> nth_error f a = Some b -> exists l, nth_error ls a = Some l /\ has h (Ref b) l.
Proof.
  intros H N. pose proof (has_all_nth _ _ _ a H) as X. rewrite nth_error_map, N in X. cbn in X.
  destruct (nth_error ls a) as [l|]; [eauto|contradiction].
Qed.
Lemma bufs_lt h f ls b : has_all h (map Ref f) ls -> In b f -> (b < List.length h)%nat.
Proof.
  intros H I. apply In_nth_error in I. destruct I as [a N]. destruct (bufs_nth _ _ _ _ _ H N) as (l & _ & X). now apply has_lt in X.
Qed.
Lemma at_content f w i v x : wrel f w i -> at_ f v x -> exists l, content (w_heap i) v = Some l /\ has (w_heap w) x l.
Proof.
  intros R A. destruct v as [l|a], x as [l'|b]; cbn in A; try contradiction.
  - destruct A as [-> O]. exists l'. split; [reflexivity|now apply has_imm].
  - destruct (bufs_nth _ _ _ _ _ (wr_bufs _ _ _ R) A) as (l & N & X). eauto.
Qed.
Lemma at_app f g v x : at_ f v x -> at_ (f ++ g) v x.
Proof.
  destruct v, x; cbn; auto. intros N. rewrite nth_error_app1; [exact N|]. apply nth_error_Some. congruence.
Qed.

Section Steps.
Context (f : list nat) (w : real) (i : ideal) (R : wrel f w i).
Notation h := (w_heap w).

Lemma r_len : (7 <= List.length h)%nat.
Proof. apply consts_len, R. Qed.
Lemma r_obj_lt k s a : nth_error (w_objs w) k = Some s -> In a (nfoot s) -> (a < List.length h)%nat.
Proof.
  intros N I. pose proof (forall2_nth _ _ _ k (wr_objs _ _ _ R)) as X. rewrite N in X.
  destruct (nth_error (w_objs i) k); [|contradiction]. eapply nrep_lt; eassumption.
Qed.

(** One object is changed. *)
Lemma obj_step k s s' o' W h' : nth_error (w_objs w) k = Some s -> keeps (List.length h) W h h' -> incl W (nfoot s) ->
  nrep h' s' o' -> (forall a, In a (nfoot s') -> In a (nfoot s) \/ (List.length h <= a)%nat) ->
  wrel f (mkw h' (w_vars w) (upd (w_objs w) k s')) (mkw (w_heap i) (w_vars i) (upd (w_objs i) k o')).
Proof.
  intros N K I Y Ft. pose proof r_len as L7. pose proof R as [Rc Rb Rn Rl Rv Ro Rf Rs].
  assert (WF : forall a, In a W -> (7 <= a)%nat /\ ~ In a f) by (intros a A; exact (Rf k s a N (I a A))).
  assert (KL : (k < List.length (w_objs w))%nat) by (apply nth_error_Some; congruence).
  constructor; cbn [mkw w_heap w_vars w_objs]; auto.
  - eapply consts_keep; [exact L7|exact K|apply WF|exact Rc].
  - eapply has_all_keep; [exact K| |exact Rb]. apply Forall_forall. intros v V. apply in_map_iff in V. destruct V as (b & <- & B). cbn. intros A. now apply WF in A.
  - apply (forall2_upd (nrep h)); [exact Ro| |exact Y]. intros j x y J Nx X. eapply nrep_keep; [exact K| |exact X].
    intros a A B. apply J. symmetry. exact (Rs k j s x a N Nx (I a A) B).
  - intros j t a Nt A. destruct (Nat.eq_dec k j) as [<-|J].
    + rewrite nth_upd_same in Nt by exact KL. injection Nt as <-. destruct (Ft a A) as [A'|A']; [now apply (Rf k s)|].
      split; [lia|]. intros B. apply (bufs_lt _ _ _ _ Rb) in B. lia.
    + rewrite nth_upd_other in Nt by exact J. now apply (Rf j t).
  - intros j j' t t' a Nt Nt' A A'. destruct (Nat.eq_dec k j) as [E|J], (Nat.eq_dec k j') as [E'|J']; try congruence.
    + subst j. rewrite nth_upd_same in Nt by exact KL. injection Nt as <-. rewrite nth_upd_other in Nt' by exact J'.
      destruct (Ft a A) as [B|B]; [now apply (Rs k j' s t' a)|]. pose proof (r_obj_lt _ _ _ Nt' A'). lia.
    + subst j'. rewrite nth_upd_same in Nt' by exact KL. injection Nt' as <-. rewrite nth_upd_other in Nt by exact J.
      destruct (Ft a A') as [B|B]; [symmetry; now apply (Rs k j s t a)|]. pose proof (r_obj_lt _ _ _ Nt A). lia.
    + rewrite nth_upd_other in Nt by exact J. rewrite nth_upd_other in Nt' by exact J'. now apply (Rs j j' t t' a).
Qed.
(** An object is created. *)
Lemma obj_new s o h' : same h h' -> nrep h' s o -> (forall a, In a (nfoot s) -> (List.length h <= a)%nat) ->
  wrel f (mkw h' (w_vars w) (w_objs w ++ [s])) (mkw (w_heap i) (w_vars i) (w_objs i ++ [o])).
Proof.
  intros S Y Ft. pose proof r_len as L7. pose proof R as [Rc Rb Rn Rl Rv Ro Rf Rs].
  assert (CASE : forall j t, nth_error (w_objs w ++ [s]) j = Some t -> nth_error (w_objs w) j = Some t \/ (j = List.length (w_objs w) /\ t = s)).
  { intros j t N. destruct (Nat.lt_ge_cases j (List.length (w_objs w))) as [L|L]; [rewrite nth_error_app1 in N by exact L; auto|].
    rewrite nth_error_app2 in N by exact L. right. destruct (j - List.length (w_objs w))%nat as [|d] eqn:E; cbn in N; [split; [lia|congruence]|]. destruct d; discriminate. }
  constructor; cbn [mkw w_heap w_vars w_objs]; auto.
  - now apply (consts_same h).
  - now apply (has_all_same h).
  - apply Forall2_app; [|constructor; [exact Y|constructor]]. eapply forall2_impl; [exact Ro|]. intros a b. now apply nrep_same.
  - intros j t a Nt A. destruct (CASE _ _ Nt) as [N|[-> ->]]; [now apply (Rf j t)|]. apply Ft in A. split; [lia|].
    intros B. apply (bufs_lt _ _ _ _ Rb) in B. lia.
  - intros j j' t t' a Nt Nt' A A'. destruct (CASE _ _ Nt) as [N|[-> ->]], (CASE _ _ Nt') as [N'|[-> ->]]; auto.
    + now apply (Rs j j' t t' a).
    + apply Ft in A'. pose proof (r_obj_lt _ _ _ N A). lia.
    + apply Ft in A. pose proof (r_obj_lt _ _ _ N' A'). lia.
Qed.
(** Allocation. *)
Lemma frame_step h' : same h h' -> wrel f (mkw h' (w_vars w) (w_objs w)) i.
Proof.
  intros S. pose proof r_len as L7. destruct R as [Rc Rb Rn Rl Rv Ro Rf Rs]. constructor; cbn [mkw w_heap w_vars w_objs]; auto.
  - now apply (consts_same h).
  - now apply (has_all_same h).
  - eapply forall2_impl; [exact Ro|]. intros a b. now apply nrep_same.
Qed.
(** A buffer is given to the program. *)
Lemma give_step b l : has h (Ref b) l -> (7 <= b)%nat -> ~ In b f -> (forall k s, nth_error (w_objs w) k = Some s -> ~ In b (nfoot s)) ->
  wrel (f ++ [b]) (mkw h (w_vars w ++ [Ref b]) (w_objs w)) (mkw (w_heap i ++ [l]) (w_vars i ++ [Ref (List.length (w_heap i))]) (w_objs i)).
Proof.
  intros Hb B7 Bf Bo. pose proof R as [Rc Rb Rn Rl Rv Ro Rf Rs]. constructor; cbn [mkw w_heap w_vars w_objs]; auto.
  - rewrite map_app. apply has_all_app; [exact Rb|now apply has_all_one].
  - apply NoDup_rev in Rn. rewrite <- (rev_involutive (f ++ [b])), rev_app_distr. apply NoDup_rev. constructor; [now rewrite <- in_rev|exact Rn].
  - intros c C. apply in_app_or in C. destruct C as [C|[<-|[]]]; auto.
  - apply Forall2_app; [eapply forall2_impl; [exact Rv|]; intros; now apply at_app|]. constructor; [|constructor]. cbn.
    pose proof (has_all_len _ _ _ Rb) as L. rewrite map_length in L. rewrite <- L, nth_error_app2, Nat.sub_diag by lia. reflexivity.
  - intros k s a N A. split; [now apply (Rf k s)|]. intros C. apply in_app_or in C. destruct C as [C|[<-|[]]]; [now apply (Rf k s a N A)|].
    now apply (Bo k s N).
Qed.
Lemma var_step v x : at_ f v x -> wrel f (mkw h (w_vars w ++ [x]) (w_objs w)) (mkw (w_heap i) (w_vars i ++ [v]) (w_objs i)).
Proof.
  intros A. destruct R as [Rc Rb Rn Rl Rv Ro Rf Rs]. constructor; cbn [mkw w_heap w_vars w_objs]; auto.
  apply Forall2_app; [exact Rv|]. constructor; [exact A|constructor].
Qed.
(** The program writes one of its buffers. *)
Lemma write_step a b l : nth_error f a = Some b -> bytes_ok l ->
  wrel f (mkw (upd h b l) (w_vars w) (w_objs w)) (mkw (upd (w_heap i) a l) (w_vars i) (w_objs i)).
Proof.
  intros N O. pose proof r_len as L7. pose proof R as [Rc Rb Rn Rl Rv Ro Rf Rs].
  assert (Ib : In b f) by (eapply nth_error_In; exact N).
  assert (K : keeps (List.length h) [b] h (upd h b l)).
  { split; [now rewrite upd_length|]. intros c _ C. apply nth_upd_other. intros ->. apply C. now left. }
  constructor; cbn [mkw w_heap w_vars w_objs]; auto.
  - eapply consts_keep; [exact L7|exact K| |exact Rc]. intros c [<-|[]]. now apply Rl.
  - pose proof (bufs_lt _ _ _ _ Rb Ib) as Lb. revert a N. clear - Rb Rn Lb O K. remember (map Ref f) as vs eqn:E. revert f E Rn.
    induction Rb as [|v x vs ls X Rb IH]; intros [|c g] E Rn a N; try discriminate; [now destruct a|].
    cbn [map] in E. injection E as -> ->. inversion Rn; subst. destruct a as [|a]; cbn in N; cbn [upd].
    + injection N as <-. constructor; [split; [now apply content_wr_same|exact O]|].
      eapply has_all_keep; [exact K| |exact Rb]. apply Forall_forall. intros v V. apply in_map_iff in V. destruct V as (d & <- & D). cbn. intros [->|[]]. contradiction.
    + constructor; [|now apply (IH g)]. eapply has_keep; [exact K| |exact X]. cbn. intros [->|[]]. apply nth_error_In in N. contradiction.
  - eapply forall2_impl_nth; [exact Ro|]. intros k s o Ns X. eapply nrep_keep; [exact K| |exact X]. intros c [<-|[]] C. now apply (Rf k s b Ns C).
Qed.
End Steps.

(** ** Calls *)
Lemma upd_self {A} (l : list A) k x : nth_error l k = Some x -> upd l k x = l.
Proof. revert k. induction l as [|y l IH]; intros [|k]; cbn; intros E; try discriminate; [congruence|]. f_equal. now apply IH. Qed.

Lemma obj_give f w i k s s' o' W h' v l : wrel f w i -> nth_error (w_objs w) k = Some s -> keeps (List.length (w_heap w)) W (w_heap w) h' -> incl W (nfoot s) ->
  nrep h' s' o' -> incl (nfoot s') (nfoot s) -> fresh (w_heap w) h' v l ->
  agree f (show h' (w_vars w) (upd (w_objs w) k s') (Ok v)) (give (Ok l) i (upd (w_objs i) k o')).
Proof.
  intros R N K I Y Ft (b & -> & L & Hb). pose proof (r_len _ _ _ R) as L7.
  pose proof (obj_step _ _ _ R k s s' o' W h' N K I Y (fun a A => or_introl (Ft a A))) as R1.
  assert (KL : (k < List.length (w_objs w))%nat) by (apply nth_error_Some; congruence).
  unfold show. destruct (proj1 Hb). split; [now rewrite (proj1 Hb)|]. rewrite (proj1 Hb). exists [b].
  apply (give_step _ _ _ R1); cbn [mkw w_heap w_objs]; [exact Hb|lia| |].
  - intros B. apply (bufs_lt _ _ _ _ (wr_bufs _ _ _ R)) in B. lia.
  - intros j t Nt B. destruct (Nat.eq_dec k j) as [<-|J].
    + rewrite nth_upd_same in Nt by exact KL. injection Nt as <-. apply Ft in B. pose proof (r_obj_lt _ _ _ R _ _ _ N B). lia.
    + rewrite nth_upd_other in Nt by exact J. pose proof (r_obj_lt _ _ _ R _ _ _ Nt B). lia.
Qed.
Lemma agree_nil f p q : fst p = fst q -> wrel f (snd p) (snd q) -> agree f p q.
Proof. intros E R. split; [exact E|]. exists []. now rewrite app_nil_r. Qed.
Lemma unknown f w i : wrel f w i -> agree f (None, w) (None, i).
Proof. intros R. now apply agree_nil. Qed.

Lemma alloc_give f w i k s o l : wrel f w i -> nth_error (w_objs w) k = Some s -> nth_error (w_objs i) k = Some o -> bytes_ok l ->
  agree f (show (w_heap w ++ [l]) (w_vars w) (upd (w_objs w) k s) (Ok (Ref (List.length (w_heap w))))) (give (Ok l) i (w_objs i)).
Proof.
  intros R N No O. rewrite <- (upd_self _ _ _ No).
  apply (obj_give f w i k s s o []); auto.
  - apply same_app.
  - intros a [].
  - pose proof (forall2_nth _ _ _ k (wr_objs _ _ _ R)) as X. rewrite N, No in X. eapply nrep_same; [apply same_app|exact X].
  - apply incl_refl.
  - exists (List.length (w_heap w)). split; [reflexivity|]. split; [lia|]. split; [apply content_alloc|exact O].
Qed.

Section Objects.
Context (f : list nat) (w : real) (i : ideal) (R : wrel f w i).
Notation h := (w_heap w).

Lemma mode_rel k s o : nth_error (w_objs w) k = Some (HNewMode s) -> nth_error (w_objs i) k = Some (NewMode o) ->
  Rel (own s) (foot s) (List.length h) (h_class s) h s o /\ apart (own s) f.
Proof.
  intros N No. pose proof (forall2_nth _ _ _ k (wr_objs _ _ _ R)) as X. rewrite N, No in X. cbn in X. split.
  - split; [exact X|]. split; [reflexivity|]. split; [auto|]. split; [lia|]. split; [|reflexivity].
    intros a A. apply (r_obj_lt _ _ _ R _ _ _ N). apply in_or_app. now left.
  - intros a A B. refine (proj2 (wr_foot _ _ _ R k (HNewMode s) a N _) B). apply in_or_app. now left.
Qed.
Lemma mode_call k s o (m : HM buf) (g : M mode_obj bytes) :
  nth_error (w_objs w) k = Some (HNewMode s) -> nth_error (w_objs i) k = Some (NewMode o) -> pres m ->
  msim (Rel (own s) (foot s) (List.length h) (h_class s)) (List.length h) (own s) s h m o g (fresh h) ->
  agree f (on_mode k s m w) (i_mode k o g i).
Proof.
  intros N No P M. unfold msim in M. unfold on_mode, i_mode. specialize (P s h).
  destruct (m (s, h)) as [x [s' h']], (g o) as [y o']. destruct M as (K & (Y & Ow & Ft & _) & Q).
  assert (I : incl (own s) (nfoot (HNewMode s))) by (intros a A; apply in_or_app; now left).
  destruct x as [v|e], y as [l|e']; try contradiction.
  - apply (obj_give f w i k (HNewMode s) (HNewMode s') (NewMode o') (own s)); auto.
    cbn [nfoot]. unfold foot. rewrite Ow, P. apply incl_refl.
  - subst e'. apply agree_nil; [reflexivity|]. cbn [show give snd fst].
    now apply (obj_step _ _ _ R k (HNewMode s) (HNewMode s') (NewMode o') (own s)).
Qed.
Lemma mode_clear_call k s o :
  nth_error (w_objs w) k = Some (HNewMode s) -> nth_error (w_objs i) k = Some (NewMode o) ->
  agree f (on_mode_unit k s h_clear w) (i_mode_unit k o clear i).
Proof.
  intros N No. destruct (mode_rel k s o N No) as [X A]. pose proof (clear_msim _ _ _ _ _ _ _ X) as M. unfold msim in M. unfold on_mode_unit, i_mode_unit.
  destruct (h_clear (s, h)) as [x [s' h']], (clear o) as [y o']. destruct M as (K & (Y & Ow & Ft & _) & Q).
  assert (I : incl (own s) (nfoot (HNewMode s))) by (intros a B; apply in_or_app; now left).
  assert (G : wrel f (mkw h' (w_vars w) (upd (w_objs w) k (HNewMode s'))) (mkw (w_heap i) (w_vars i) (upd (w_objs i) k (NewMode o')))) by
    now apply (obj_step _ _ _ R k (HNewMode s) (HNewMode s') (NewMode o') (own s)).
  destruct x as [v|e], y as [l|e']; try contradiction; [|subst e']; now apply agree_nil.
Qed.
Lemma mac_rel k s o : nth_error (w_objs w) k = Some (HNewMac s) -> nth_error (w_objs i) k = Some (NewMac o) ->
  MRel (mfoot s) (List.length h) h s o.
Proof.
  intros N No. pose proof (forall2_nth _ _ _ k (wr_objs _ _ _ R)) as X. rewrite N, No in X. now apply MRel_all.
Qed.
Lemma mac_foot h' s s' o' : MRel (mfoot s) (List.length h) h' s' o' -> forall a, In a (nfoot (HNewMac s')) -> In a (nfoot (HNewMac s)) \/ (List.length h <= a)%nat.
Proof. intros (_ & Fr & _) a A. exact (in_refs_from _ _ _ _ Fr A). Qed.
Lemma mac_call_unit k s o (m : MM unit) (g : M mac_obj unit) :
  nth_error (w_objs w) k = Some (HNewMac s) -> nth_error (w_objs i) k = Some (NewMac o) ->
  msim (MRel (mfoot s) (List.length h)) (List.length h) [] s h m o g (fun _ _ _ => True) ->
  agree f (on_mac_unit k s m w) (i_mac_unit k o g i).
Proof.
  intros N No M. unfold msim in M. unfold on_mac_unit, i_mac_unit.
  destruct (m (s, h)) as [x [s' h']], (g o) as [y o']. destruct M as (K & Y & Q).
  assert (G : wrel f (mkw h' (w_vars w) (upd (w_objs w) k (HNewMac s'))) (mkw (w_heap i) (w_vars i) (upd (w_objs i) k (NewMac o')))).
  { apply (obj_step _ _ _ R k (HNewMac s) (HNewMac s') (NewMac o') []); auto; [intros a []|apply Y|]. now apply (mac_foot h' s s' o'). }
  destruct x as [v|e], y as [l|e']; try contradiction; [|subst e']; now apply agree_nil.
Qed.
Lemma mac_digest_call k s o z :
  nth_error (w_objs w) k = Some (HNewMac s) -> nth_error (w_objs i) k = Some (NewMac o) ->
  agree f (on_mac k s (hcm_digest z) w) (i_mac k o (mac_digest z) i).
Proof.
  intros N No. pose proof (mac_digest_msim _ _ _ _ _ z (mac_rel k s o N No)) as M. unfold msim in M. unfold on_mac, i_mac.
  pose proof (digest_state z s h) as P.
  destruct (hcm_digest z (s, h)) as [x [s' h']], (mac_digest z o) as [y o']. cbn in P. subst s'. destruct M as (K & Y & Q).
  destruct x as [v|e], y as [l|e']; try contradiction.
  - apply (obj_give f w i k (HNewMac s) (HNewMac s) (NewMac o') []); auto; [intros a []|apply Y|apply incl_refl].
  - subst e'. apply agree_nil; [reflexivity|]. cbn [show give snd fst].
    apply (obj_step _ _ _ R k (HNewMac s) (HNewMac s) (NewMac o') []); auto; [intros a []|apply Y].
Qed.
End Objects.

(** ** Statements *)
Lemma var_rep f w i k : wrel f w i ->
  match nth_error (w_vars w) k, nth_error (w_vars i) k with
  | Some x, Some v => at_ f v x /\ exists l, content (w_heap i) v = Some l /\ has (w_heap w) x l
  | None, None => True
  | _, _ => False
  end.
Proof.
  intros R. pose proof (forall2_nth _ _ _ k (wr_vars _ _ _ R)) as X.
  destruct (nth_error (w_vars w) k), (nth_error (w_vars i) k); try contradiction; [|exact I]. split; [exact X|]. now apply (at_content f w i).
Qed.
Lemma at_apart f W v x : at_ f v x -> apart W f -> aoutside W (arg_of x).
Proof. destruct v, x; cbn; try tauto. intros N A I. apply (A _ I). eapply nth_error_In, N. Qed.
Lemma operand_rep f w i x : wrel f w i -> operand_ok x ->
  match operand_arg (w_vars w) x, operand_val (w_heap i) (w_vars i) x with
  | Some a, Some p => arep (w_heap w) a p /\ forall W, apart W f -> aoutside W a
  | None, None => True
  | _, _ => False
  end.
Proof.
  intros R O. destruct x as [k|p]; cbn [operand_arg operand_val].
  - pose proof (var_rep f w i k R) as X. destruct (nth_error (w_vars w) k), (nth_error (w_vars i) k); try contradiction; [|exact I].
    destruct X as (A & l & E & H). rewrite E. split; [now apply arep_of|]. intros W. now apply (at_apart f W b0).
  - split; [|intros; exact I]. split; [reflexivity|exact O].
Qed.
Lemma opt_rep f w i x : wrel f w i -> opt_ok x ->
  match opt_arg (w_vars w) x, opt_val (w_heap i) (w_vars i) x with
  | Some a, Some p => orep (w_heap w) a p
  | None, None => True
  | _, _ => False
  end.
Proof.
  intros R O. destruct x as [x|]; cbn [opt_arg opt_val]; [|exact I]. pose proof (operand_rep f w i x R O) as X.
  destruct (operand_arg (w_vars w) x), (operand_val (w_heap i) (w_vars i) x); try contradiction; [|exact I]. apply X.
Qed.

Lemma own_agree f w i c : wrel f w i -> cmd_ok c -> agree f (own_step c w) (own_step c i).
Proof.
  intros R O. destruct c; cbn [own_step]; try now apply unknown.
  - unfold alloc, show. rewrite !content_alloc. split; [reflexivity|]. exists [List.length (w_heap w)].
    apply (give_step f (mkw (w_heap w ++ [l]) (w_vars w) (w_objs w)) i); cbn [mkw w_heap w_vars w_objs snd].
    + apply frame_step; [exact R|apply same_app].
    + split; [apply content_alloc|exact O].
    + apply (r_len _ _ _ R).
    + intros B. apply (bufs_lt _ _ _ _ (wr_bufs _ _ _ R)) in B. lia.
    + intros k s N B. pose proof (r_obj_lt _ _ _ R _ _ _ N B). lia.
  - apply agree_nil; [reflexivity|]. cbn. apply var_step; [exact R|]. now split.
  - pose proof (var_rep f w i i0 R) as X. destruct (nth_error (w_vars w) i0) as [x|], (nth_error (w_vars i) i0) as [v|]; try contradiction; [|now apply unknown].
    destruct X as (A & l & E & H). unfold show. rewrite E, (proj1 H). apply agree_nil; [reflexivity|]. cbn [snd]. now apply var_step.
  - pose proof (var_rep f w i i0 R) as X. destruct (nth_error (w_vars w) i0) as [x|], (nth_error (w_vars i) i0) as [v0|]; try contradiction; [|now apply unknown].
    destruct X as (A & l & E & H). destruct v0 as [l0|a], x as [l1|b]; cbn in A; try contradiction.
    + apply agree_nil; [reflexivity|]. destruct w, i. exact R.
    + unfold h_set, bindM, rd. rewrite E, (proj1 H). unfold liftM. destruct (py_set l j v) as [l'|e] eqn:P.
      * apply agree_nil; [reflexivity|]. cbn. apply write_step; auto. now apply py_set_bytes in P; [|apply H].
      * apply agree_nil; [reflexivity|]. destruct w, i. exact R.
  - pose proof (var_rep f w i i0 R) as X. destruct (nth_error (w_vars w) i0) as [x|], (nth_error (w_vars i) i0) as [v0|]; try contradiction; [|now apply unknown].
    pose proof (var_rep f w i j R) as X2. destruct (nth_error (w_vars w) j) as [y|], (nth_error (w_vars i) j) as [v1|]; try contradiction; [|now apply unknown].
    destruct X as (A & l & E & H), X2 as (A2 & l2 & E2 & H2). destruct v0 as [l0|a0], x as [l1|b0]; cbn in A; try contradiction.
    + apply agree_nil; [reflexivity|]. destruct w, i. exact R.
    + unfold h_slice_set, bindM, rd. rewrite E, (proj1 H), E2, (proj1 H2). apply agree_nil; [reflexivity|]. cbn. apply write_step; auto.
      apply bytes_ok_slice_set; [apply H|apply H2].
  - pose proof (var_rep f w i i0 R) as X. destruct (nth_error (w_vars w) i0) as [x|], (nth_error (w_vars i) i0) as [v|]; try contradiction; [|now apply unknown].
    destruct X as (A & l & E & H). rewrite E, (proj1 H). now apply agree_nil.
Qed.

Lemma obj_rep f w i k : wrel f w i ->
  match nth_error (w_objs w) k, nth_error (w_objs i) k with
  | Some (HNewMode s), Some (NewMode o) => hrep (w_heap w) s o
  | Some (HNewMac s), Some (NewMac m) => mrep (w_heap w) s m
  | None, None => True
  | _, _ => False
  end.
Proof.
  intros R. pose proof (forall2_nth _ _ _ k (wr_objs _ _ _ R)) as X.
  destruct (nth_error (w_objs w) k) as [[s|s]|], (nth_error (w_objs i) k) as [[o|m]|]; exact X.
Qed.
Theorem step_agree f w i c : wrel f w i -> cmd_ok c -> agree f (step c w) (istep c i).
Proof.
  intros R O. destruct c as [l|l|j|j a v|j a b j'|j|alg key mode iv data pad|k x|k x|k|k|k x|k n|k]; cbn [step istep]; try now apply own_agree.
  - destruct O as (O1 & O2 & O3). pose proof (operand_rep f w i key R O1) as X1. pose proof (opt_rep f w i iv R O2) as X2. pose proof (opt_rep f w i data R O3) as X3.
    destruct (operand_arg (w_vars w) key) as [xk|], (operand_val (w_heap i) (w_vars i) key) as [pk|]; try contradiction; [|now apply unknown].
    destruct (opt_arg (w_vars w) iv) as [xi|], (opt_val (w_heap i) (w_vars i) iv) as [pi|]; try contradiction; [|now apply unknown].
    destruct (opt_arg (w_vars w) data) as [xd|], (opt_val (w_heap i) (w_vars i) data) as [pd|]; try contradiction; [|now apply unknown].
    assert (KW : kwrep (w_heap w) {| hkw_init_vect := xi; hkw_data := xd; hkw_pad_mode := pad |} {| kw_init_vect := pi; kw_data := pd; kw_pad_mode := pad |}) by (constructor; auto).
    pose proof (new_sim (w_heap w) alg xk pk mode {| hkw_init_vect := xi; hkw_data := xd; hkw_pad_mode := pad |} {| kw_init_vect := pi; kw_data := pd; kw_pad_mode := pad |}
      (wr_consts _ _ _ R) (proj1 X1) KW) as S. unfold psim, sim in S.
    destruct (h_new _ _ _ _ _) as [[s|e] h'], (new _ _ _ _) as [o|e']; destruct S as [S Q]; try contradiction.
    + apply agree_nil; [reflexivity|]. cbn [snd]. now apply obj_new.
    + subst e'. apply agree_nil; [reflexivity|]. cbn [snd]. now apply frame_step.
  - pose proof (operand_rep f w i x R O) as X1. pose proof (obj_rep f w i k R) as Y.
    destruct (nth_error (w_objs w) k) as [[s|s]|] eqn:N, (nth_error (w_objs i) k) as [[o|o]|] eqn:No; try contradiction; try now apply unknown.
    destruct (operand_arg (w_vars w) x) as [xa|], (operand_val (w_heap i) (w_vars i) x) as [p|]; try contradiction; [|now apply unknown].
    destruct (mode_rel f w i R k s o N No) as [M A]. apply mode_call; auto using pres_encrypt. apply encrypt_msim; [exact M|apply X1|now apply X1].
  - pose proof (operand_rep f w i x R O) as X1. pose proof (obj_rep f w i k R) as Y.
    destruct (nth_error (w_objs w) k) as [[s|s]|] eqn:N, (nth_error (w_objs i) k) as [[o|o]|] eqn:No; try contradiction; try now apply unknown.
    destruct (operand_arg (w_vars w) x) as [xa|], (operand_val (w_heap i) (w_vars i) x) as [p|]; try contradiction; [|now apply unknown].
    destruct (mode_rel f w i R k s o N No) as [M A]. apply mode_call; auto using pres_decrypt. apply decrypt_msim; [exact M|apply X1|now apply X1].
  - pose proof (obj_rep f w i k R) as Y.
    destruct (nth_error (w_objs w) k) as [[s|s]|] eqn:N, (nth_error (w_objs i) k) as [[o|o]|] eqn:No; try contradiction; try now apply unknown.
    rewrite <- (hr_class _ _ _ Y). destruct (has_iv (h_class s)) eqn:C; [|now apply unknown].
    assert (W : exists a, h_init_vect s = Ref a) by (pose proof (hr_writable _ _ _ Y) as W; destruct (h_class s); try discriminate; exact W).
    destruct W as [a W]. pose proof (hr_iv _ _ _ Y) as V. rewrite W in V.
    unfold on_mode, h_iv, bindM, getO, onheap, h_len, h_from, bindM, rd. rewrite W, (proj1 V). cbn [retM]. rewrite (proj1 V). cbn [like alloc].
    replace (h_block_size s) with (block_size o) by (symmetry; eapply crep_bs, Y). apply (alloc_give f w i k (HNewMode s) (NewMode o)); auto. unfold Modes.iv. apply bytes_ok_from, V.
  - pose proof (obj_rep f w i k R) as Y.
    destruct (nth_error (w_objs w) k) as [[s|s]|] eqn:N, (nth_error (w_objs i) k) as [[o|o]|] eqn:No; try contradiction; try now apply unknown.
    rewrite <- (hr_class _ _ _ Y). destruct (has_counter (h_class s)) eqn:C; [|now apply unknown].
    pose proof (hr_counter _ _ _ Y) as V.
    unfold on_mode, h_get_counter, h_bytearray, bindM, getO, onheap, bindM, rd, retM. rewrite (proj1 V). cbn [alloc].
    apply (alloc_give f w i k (HNewMode s) (NewMode o)); auto. apply V.
  - pose proof (operand_rep f w i x R O) as X1. pose proof (obj_rep f w i k R) as Y.
    destruct (nth_error (w_objs w) k) as [[s|s]|] eqn:N, (nth_error (w_objs i) k) as [[o|o]|] eqn:No; try contradiction; try now apply unknown.
    destruct (operand_arg (w_vars w) x) as [xa|], (operand_val (w_heap i) (w_vars i) x) as [p|]; try contradiction; [|now apply unknown].
    apply mac_call_unit; auto. apply mac_update_msim; [now apply (mac_rel f w i R k)|apply X1].
  - pose proof (obj_rep f w i k R) as Y.
    destruct (nth_error (w_objs w) k) as [[s|s]|] eqn:N, (nth_error (w_objs i) k) as [[o|o]|] eqn:No; try contradiction; try now apply unknown.
    now apply mac_digest_call.
  - pose proof (obj_rep f w i k R) as Y.
    destruct (nth_error (w_objs w) k) as [[s|s]|] eqn:N, (nth_error (w_objs i) k) as [[o|o]|] eqn:No; try contradiction; try now apply unknown.
    + now apply mode_clear_call.
    + apply mac_call_unit; auto. apply mac_clear_msim. now apply (mac_rel f w i R k).
Qed.

Theorem run_agree cs : forall f w i, wrel f w i -> Forall cmd_ok cs ->
  fst (run step cs w) = fst (run istep cs i) /\ exists g, wrel (f ++ g) (snd (run step cs w)) (snd (run istep cs i)).
Proof.
  induction cs as [|c cs IH]; intros f w i R O; cbn [run].
  - split; [reflexivity|]. exists []. now rewrite app_nil_r.
  - inversion O; subst. destruct (step_agree f w i c R) as (E & g & R1); [assumption|].
    destruct (step c w) as [o w1], (istep c i) as [o' i1]. cbn in E, R1. subst o'.
    destruct (IH _ _ _ R1 ltac:(assumption)) as (E2 & g2 & R2).
    destruct (run step cs w1) as [os w2], (run istep cs i1) as [os' i2]. cbn in *. split; [congruence|]. exists (g ++ g2). now rewrite app_assoc.
Qed.
Lemma wrel_start : wrel [] start istart.
Proof.
  constructor; cbn [start istart mkw w_heap w_vars w_objs].
  - intros i _. reflexivity.
  - constructor.
  - constructor.
  - intros b [].
  - constructor.
  - constructor.
  - intros [|k]; discriminate.
  - intros [|k]; discriminate.
Qed.
