(** * The two meanings of HashWorld.v agree *)
From Verif Require Import PyBase PyState PyFacts Streebog Random CipherObj Modes Mac Heap HeapLogic HeapCipher HeapCipherFacts HeapModes HeapModesLogic HeapModesFacts HeapMacFacts HeapWorld HeapWorldFacts AliasLemmas HeapObjects HeapHash HeapHashFacts HashWorld.
Open Scope list_scope.

Definition wrep (h : heap) (x : h_object) (y : v_object) : Prop :=
  match x, y with
  | WHash s, WHash o => hsrep h s o
  | WRandom s, WRandom o => hgrep h s o
  | _, _ => False
  end.
(** The buffers of an object. *)
Definition wfoot (x : h_object) : list nat := match x with WHash s => hsfoot s | WRandom s => hgfoot s end.

Lemma hsrep_keep h h' W s o : keeps (List.length h) W h h' -> apart W (hsfoot s) -> hsrep h s o -> hsrep h' s o.
Proof.
  intros K A []. constructor; auto; (eapply has_keep'; [exact K|exact A|unfold hsfields; cbn; tauto|assumption]).
Qed.
Lemma hsrep_lt h s o a : hsrep h s o -> In a (hsfoot s) -> (a < List.length h)%nat.
Proof.
  intros [_ H1 _ _ H2 H3 H4 _ _] I. apply in_refs in I. unfold hsfields in I. cbn [In] in I.
  assert (G : exists l, has h (Ref a) l). { decompose [or] I; try contradiction; match goal with E : _ = Ref a |- _ => rewrite E in *; eauto end. }
  destruct G as [l G]. now apply has_lt in G.
Qed.
Lemma wrep_keep h h' W x y : keeps (List.length h) W h h' -> apart W (wfoot x) -> wrep h x y -> wrep h' x y.
Proof.
  intros K. destruct x as [s|s], y as [o|o]; cbn [wrep wfoot]; try contradiction; intros A; [now apply hsrep_keep with (W := W)|]. intros X.
  unfold hgfoot, hgfields in A. change (hg_rand_u s :: hsfields (hg_hash s)) with ([hg_rand_u s] ++ hsfields (hg_hash s)) in A. rewrite refs_app in A.
  destruct X. constructor; auto.
  - eapply (has_keep' _ _ _ _ _ [hg_rand_u s]); [exact K| |left; reflexivity|assumption]. intros a I X. apply (A a I). apply in_or_app. left. exact X.
  - eapply hsrep_keep; [exact K| |assumption]. intros a I X. apply (A a I), in_or_app. right. exact X.
Qed.
Lemma wrep_lt h x y a : wrep h x y -> In a (wfoot x) -> (a < List.length h)%nat.
Proof. destruct x as [s|s], y as [o|o]; cbn [wrep wfoot]; try contradiction; [apply hsrep_lt|apply hgfields_lt]. Qed.

Notation hrel := (orel hash_consts wrep wfoot).
Notation hagree := (oagree hash_consts wrep wfoot).

Section Calls.
Context (f : list nat) (w : world h_object) (i : world v_object) (R : hrel f w i).
Notation h := (w_heap w).

Lemma consts_now : constsK hash_consts h.
Proof. apply R. Qed.

(** Calls that give no result. *)
Lemma unit_call {A B} k (back : A -> h_object) (vback : B -> v_object) (s : A) (o : B) (Rel : heap -> A -> B -> Prop) m g :
  nth_error (w_objs w) k = Some (back s) -> nth_error (w_objs i) k = Some (vback o) ->
  (forall h' s' o', Rel h' s' o' -> wrep h' (back s') (vback o') /\ forall a, In a (wfoot (back s')) -> In a (wfoot (back s)) \/ (List.length h <= a)%nat) ->
  msim Rel (List.length h) [] s h m o g (fun _ _ _ => True) ->
  hagree f (on_object_unit k back s m w) (i_object_unit k vback o g i).
Proof.
  intros N No G M. unfold msim in M. unfold on_object_unit, i_object_unit.
  destruct (m (s, h)) as [x [s' h']], (g o) as [y o']. destruct M as (K & Y & Q). destruct (G _ _ _ Y) as [Y1 Y2].
  assert (Gl : hrel f (mkw h' (w_vars w) (upd (w_objs w) k (back s'))) (mkw (w_heap i) (w_vars i) (upd (w_objs i) k (vback o')))).
  { eapply (o_obj_step hash_consts wrep wfoot wrep_keep wrep_lt _ _ _ R k (back s) (back s') (vback o') []); auto. intros a []. }
  destruct x as [v|e], y as [l|e']; try contradiction; [|subst e']; now apply oagree_nil.
Qed.
(** Calls that give a buffer. *)
Lemma give_call {A B} k (back : A -> h_object) (vback : B -> v_object) (s : A) (o : B) (Rel : heap -> A -> B -> Prop) (m : M (A * heap) buf) (g : M B bytes) :
  nth_error (w_objs w) k = Some (back s) -> nth_error (w_objs i) k = Some (vback o) ->
  (forall h' s' o', Rel h' s' o' -> wrep h' (back s') (vback o') /\ forall a, In a (wfoot (back s')) -> In a (wfoot (back s)) \/ (List.length h <= a)%nat) ->
  (let '(x, (s', h')) := m (s, h) in let '(y, o') := g o in
   same h h' /\ Rel h' s' o' /\
   match x, y with
   | Ok v, Ok l => exists b, v = Ref b /\ (List.length h <= b)%nat /\ has h' (Ref b) l /\ ~ In b (wfoot (back s'))
   | Err e, Err e' => e = e'
   | _, _ => False
   end) ->
  hagree f (on_object k back s m w) (i_object k vback o g i).
Proof.
  intros N No G M. unfold on_object, i_object. destruct (m (s, h)) as [x [s' h']], (g o) as [y o']. destruct M as (K & Y & Q). destruct (G _ _ _ Y) as [Y1 Y2].
  destruct x as [v|e], y as [l|e']; try contradiction.
  - destruct Q as (b & -> & Lb & Hb & Nb).
    eapply (o_obj_give hash_consts wrep wfoot wrep_keep wrep_lt f w i k (back s) (back s') (vback o') []); eauto. intros a [].
  - subst e'. apply oagree_nil; [reflexivity|]. cbn [show ogive snd fst].
    eapply (o_obj_step hash_consts wrep wfoot wrep_keep wrep_lt _ _ _ R k (back s) (back s') (vback o') []); eauto. intros a [].
Qed.
(** Constructors. *)
Lemma add_call {A B} (back : A -> h_object) (vback : B -> v_object) (m : M heap A) (r : res B) (Q : heap -> A -> B -> Prop) :
  psim h m r Q -> (forall h' s o, Q h' s o -> wrep h' (back s) (vback o) /\ forall a, In a (wfoot (back s)) -> (List.length h <= a)%nat) ->
  hagree f (add_object back m w) (i_add vback r i).
Proof.
  intros P G. unfold psim, sim in P. unfold add_object, i_add. destruct (m h) as [[s|e] h'], r as [o|e']; destruct P as [K P]; try contradiction.
  - destruct (G _ _ _ P) as [G1 G2]. apply oagree_nil; [reflexivity|]. cbn [snd]. now apply (o_obj_new hash_consts wrep wfoot wrep_keep wrep_lt _ _ _ R).
  - subst e'. apply oagree_nil; [reflexivity|]. cbn [snd]. now apply (o_frame hash_consts wrep wfoot wrep_keep _ _ _ R).
Qed.

Lemma hash_rel k s o : nth_error (w_objs w) k = Some (WHash s) -> nth_error (w_objs i) k = Some (WHash o) -> SRel (hsfoot s) (List.length h) h s o.
Proof. intros N No. pose proof (o_obj_rep _ _ _ _ _ _ k R) as X. rewrite N, No in X. apply SRel_all; [exact X|apply consts_now]. Qed.
Lemma gen_rel k s o : nth_error (w_objs w) k = Some (WRandom s) -> nth_error (w_objs i) k = Some (WRandom o) -> GRel (hgfoot s) (List.length h) h s o.
Proof. intros N No. pose proof (o_obj_rep _ _ _ _ _ _ k R) as X. rewrite N, No in X. apply GRel_all; [exact X|apply consts_now]. Qed.
Lemma hash_back s h' s' o' : SRel (hsfoot s) (List.length h) h' s' o' ->
  wrep h' (WHash s') (WHash o') /\ forall a, In a (wfoot (WHash s')) -> In a (wfoot (WHash s)) \/ (List.length h <= a)%nat.
Proof. intros (X & A & _). split; [exact X|]. intros a I. exact (in_refs_from _ _ _ _ A I). Qed.
Lemma gen_back s h' s' o' : GRel (hgfoot s) (List.length h) h' s' o' ->
  wrep h' (WRandom s') (WRandom o') /\ forall a, In a (wfoot (WRandom s')) -> In a (wfoot (WRandom s)) \/ (List.length h <= a)%nat.
Proof. intros (X & A & _). split; [exact X|]. intros a I. exact (in_refs_from _ _ _ _ A I). Qed.
Lemma hash_new_back h' s o : SRel [] (List.length h) h' s o ->
  wrep h' (WHash s) (WHash o) /\ forall a, In a (wfoot (WHash s)) -> (List.length h <= a)%nat.
Proof. intros (X & A & _). split; [exact X|]. intros a I. destruct (in_refs_from _ _ _ _ A I) as [[]|L]. exact L. Qed.
Lemma gen_new_back h' s o : GRel [] (List.length h) h' s o ->
  wrep h' (WRandom s) (WRandom o) /\ forall a, In a (wfoot (WRandom s)) -> (List.length h <= a)%nat.
Proof. intros (X & A & _). split; [exact X|]. intros a I. destruct (in_refs_from _ _ _ _ A I) as [[]|L]. exact L. Qed.

(** A call that leaves the object as it is. *)
Lemma hash_give k s o (m : M (hs_obj * heap) buf) (g : M hash_obj bytes) :
  nth_error (w_objs w) k = Some (WHash s) -> nth_error (w_objs i) k = Some (WHash o) ->
  msim (SRel (hsfoot s) (List.length h)) (List.length h) [] s h m o g (fresh h) -> fst (snd (m (s, h))) = s ->
  hagree f (on_object k WHash s m w) (i_object k WHash o g i).
Proof.
  intros N No M E. eapply give_call; [exact N|exact No|apply hash_back|]. unfold msim in M. destruct (m (s, h)) as [x [s' h']], (g o) as [y o'].
  cbn in E. subst s'. destruct M as (K & Y & Q). split; [exact K|]. split; [exact Y|]. destruct x as [v|e], y as [l|e']; try contradiction; [|exact Q].
  destruct Q as (b & -> & Lb & Hb). exists b. split; [reflexivity|]. split; [exact Lb|]. split; [exact Hb|]. cbn [wfoot]. intros I.
  pose proof (hsrep_lt _ _ _ _ (proj1 (hash_rel k s o N No)) I). lia.
Qed.
End Calls.

Theorem hash_step_agree f w i c : hrel f w i -> hash_cmd_ok c -> hagree f (hash_step c w) (hash_istep c i).
Proof.
  intros R Oc. assert (NONE : hagree f (None, w) (None, i)) by now apply o_unknown.
  destruct c as [c|name data|k x|k|k|k|k|k|u n key size_s|k|k u x|k]; cbn [hash_step hash_istep].
  - now apply o_own_agree; [apply wrep_keep|apply wrep_lt|..].
  - pose proof (o_opt_rep _ _ _ _ _ _ data R Oc) as D. destruct (opt_arg (w_vars w) data) as [a|], (opt_val (w_heap i) (w_vars i) data) as [p|]; try contradiction; [|exact NONE].
    eapply (add_call f w i R); [apply hs_new_sim; [apply R|exact D]|apply hash_new_back].
  - pose proof (o_obj_rep _ _ _ _ _ _ k R) as X. pose proof (o_operand_rep _ _ _ _ _ _ x R Oc) as D.
    destruct (nth_error (w_objs w) k) as [[s|s]|] eqn:N, (nth_error (w_objs i) k) as [[o|o]|] eqn:No; try contradiction; try exact NONE.
    destruct (operand_arg (w_vars w) x) as [a|], (operand_val (w_heap i) (w_vars i) x) as [p|]; try contradiction; [|exact NONE].
    eapply (unit_call f w i R); [exact N|exact No|apply hash_back|]. apply hash_update_msim; [now apply (hash_rel f w i R k)|apply D].
  - pose proof (o_obj_rep _ _ _ _ _ _ k R) as X.
    destruct (nth_error (w_objs w) k) as [[s|s]|] eqn:N, (nth_error (w_objs i) k) as [[o|o]|] eqn:No; try contradiction; try exact NONE.
    eapply (unit_call f w i R); [exact N|exact No|apply hash_back|]. apply hash_final_msim. now apply (hash_rel f w i R k).
  - pose proof (o_obj_rep _ _ _ _ _ _ k R) as X.
    destruct (nth_error (w_objs w) k) as [[s|s]|] eqn:N, (nth_error (w_objs i) k) as [[o|o]|] eqn:No; try contradiction; try exact NONE.
    apply (hash_give f w i R); [exact N|exact No| |apply hs_digest_state]. apply digest_msim. now apply (hash_rel f w i R k).
  - pose proof (o_obj_rep _ _ _ _ _ _ k R) as X.
    destruct (nth_error (w_objs w) k) as [[s|s]|] eqn:N, (nth_error (w_objs i) k) as [[o|o]|] eqn:No; try contradiction; try exact NONE.
    pose proof (hash_give f w i R k s o hs_get_hash (fun o => (Ok (get_hash o), o)) N No) as G.
    unfold i_object in G. rewrite (upd_self _ _ _ No) in G. apply G.
    + apply get_hash_msim. now apply (hash_rel f w i R k).
    + unfold hs_get_hash, bindM, getO, onheap. destruct (h_from _ _ _). reflexivity.
  - pose proof (o_obj_rep _ _ _ _ _ _ k R) as X.
    destruct (nth_error (w_objs w) k) as [[s|s]|] eqn:N, (nth_error (w_objs i) k) as [[o|o]|] eqn:No; try contradiction; try exact NONE.
    eapply (unit_call f w i R); [exact N|exact No|apply hash_back|]. apply reset_msim. now apply (hash_rel f w i R k).
  - pose proof (o_obj_rep _ _ _ _ _ _ k R) as X.
    destruct (nth_error (w_objs w) k) as [[s|s]|] eqn:N, (nth_error (w_objs i) k) as [[o|o]|] eqn:No; try contradiction; try exact NONE.
    eapply (add_call f w i R); [apply hs_copy_sim; [exact X|apply R]|apply hash_new_back].
  - destruct Oc as [Ou Oc]. pose proof (o_opt_rep _ _ _ _ _ _ key R Oc) as D. destruct (opt_arg (w_vars w) key) as [a|], (opt_val (w_heap i) (w_vars i) key) as [p|]; try contradiction; [|exact NONE].
    eapply (add_call f w i R); [apply hg_new_sim; [apply R|exact Ou|exact D]|apply gen_new_back].
  - pose proof (o_obj_rep _ _ _ _ _ _ k R) as X.
    destruct (nth_error (w_objs w) k) as [[s|s]|] eqn:N, (nth_error (w_objs i) k) as [[o|o]|] eqn:No; try contradiction; try exact NONE.
    eapply (give_call f w i R); [exact N|exact No|apply gen_back|]. exact (random_gsim _ _ _ _ _ (gen_rel f w i R k s o N No)).
  - destruct Oc as [Ou Oc]. pose proof (o_obj_rep _ _ _ _ _ _ k R) as X. pose proof (o_operand_rep _ _ _ _ _ _ x R Oc) as D.
    destruct (nth_error (w_objs w) k) as [[s|s]|] eqn:N, (nth_error (w_objs i) k) as [[o|o]|] eqn:No; try contradiction; try exact NONE.
    destruct (operand_arg (w_vars w) x) as [a|], (operand_val (w_heap i) (w_vars i) x) as [p|]; try contradiction; [|exact NONE].
    eapply (unit_call f w i R); [exact N|exact No|apply gen_back|]. apply gen_reset_msim; [now apply (gen_rel f w i R k)|exact Ou|apply D].
  - pose proof (o_obj_rep _ _ _ _ _ _ k R) as X.
    destruct (nth_error (w_objs w) k) as [[s|s]|] eqn:N, (nth_error (w_objs i) k) as [[o|o]|] eqn:No; try contradiction; try exact NONE.
    eapply (unit_call f w i R); [exact N|exact No|apply gen_back|]. apply clear_msim. now apply (gen_rel f w i R k).
Qed.

Theorem hash_run_agree cs : forall f w i, hrel f w i -> Forall hash_cmd_ok cs ->
  fst (hash_run hash_step cs w) = fst (hash_run hash_istep cs i) /\ exists g, hrel (f ++ g) (snd (hash_run hash_step cs w)) (snd (hash_run hash_istep cs i)).
Proof.
  induction cs as [|c cs IH]; intros f w i R O.
  - split; [reflexivity|]. exists []. now rewrite app_nil_r.
  - inversion O; subst. pose proof (hash_step_agree f w i c R H1) as A. cbn [hash_run].
    destruct (hash_step c w) as [o w1], (hash_istep c i) as [o' i1]. destruct A as (E & g & R1). cbn [fst snd] in *. subst o'.
    destruct (IH _ _ _ R1 H2) as (E2 & g2 & R2). destruct (hash_run hash_step cs w1), (hash_run hash_istep cs i1). cbn [fst snd] in *.
    split; [congruence|]. exists (g ++ g2). now rewrite app_assoc.
Qed.
Lemma hrel_start : hrel [] hash_start hash_istart.
Proof. apply orel_start. Qed.

(** ** After a program *)
Definition hash_after (cs : list hash_cmd) : world h_object := snd (hash_run hash_step cs hash_start).
Definition hash_library (c : hash_cmd) : Prop := match c with HOwn _ => False | _ => True end.
Lemma hash_after_rel cs : Forall hash_cmd_ok cs -> exists f i, hrel f (hash_after cs) i.
Proof.
  intros O. destruct (hash_run_agree cs [] hash_start hash_istart hrel_start O) as (_ & g & R). exists ([] ++ g), (snd (hash_run hash_istep cs hash_istart)). exact R.
Qed.
Lemma hash_run_app {O} (st : hash_cmd -> world O -> out * world O) cs cs' w :
  hash_run st (cs ++ cs') w = (fst (hash_run st cs w) ++ fst (hash_run st cs' (snd (hash_run st cs w))), snd (hash_run st cs' (snd (hash_run st cs w)))).
Proof.
  revert w. induction cs as [|c cs IH]; intros w; cbn [app hash_run fst snd]; [now destruct (hash_run st cs' w)|].
  destruct (st c w) as [o w1]. rewrite IH. destruct (hash_run st cs w1) as [os w2]. reflexivity.
Qed.
Lemma hash_after_snoc cs c : hash_after (cs ++ [c]) = snd (hash_step c (hash_after cs)).
Proof. unfold hash_after. rewrite hash_run_app. cbn [snd hash_run]. destruct (hash_step c _) as [o w]. reflexivity. Qed.

Lemma i_object_adds {A} k (back : A -> v_object) o f i : oadds (w_heap i) (w_vars i) (snd (i_object k back o f i)).
Proof. unfold i_object. destruct (f o) as [r o']. apply ogive_adds. Qed.
Lemma i_unit_adds {A} k (back : A -> v_object) o f i : oadds (w_heap i) (w_vars i) (snd (i_object_unit k back o f i)).
Proof. unfold i_object_unit. destruct (f o) as [[u|e] o']; left; auto. Qed.
Lemma i_add_adds {A} (back : A -> v_object) r i : oadds (w_heap i) (w_vars i) (snd (i_add back r i)).
Proof. destruct r; left; auto. Qed.
Lemma hash_istep_adds c i : hash_library c -> oadds (w_heap i) (w_vars i) (snd (hash_istep c i)).
Proof.
  intros L. assert (N : oadds (w_heap i) (w_vars i) i) by (left; auto).
  destruct c as [c|name data|k x|k|k|k|k|k|u n key size_s|k|k u x|k]; try contradiction; cbn [hash_istep];
    repeat match goal with
    | |- context [match nth_error ?l ?k with _ => _ end] => destruct (nth_error l k) as [[o|o]|]
    | |- context [match opt_val ?a ?b ?c with _ => _ end] => destruct (opt_val a b c)
    | |- context [match operand_val ?a ?b ?c with _ => _ end] => destruct (operand_val a b c)
    end; try exact N; first [apply i_object_adds|apply i_unit_adds|apply i_add_adds|apply ogive_adds].
Qed.
Lemma on_object_grows {A} k (back : A -> h_object) s m w : grows (w_vars w) (w_vars (snd (on_object k back s m w))).
Proof. unfold on_object. destruct (m _) as [r [s' h]]. apply show_grows. Qed.
Lemma on_unit_grows {A} k (back : A -> h_object) s m w : grows (w_vars w) (w_vars (snd (on_object_unit k back s m w))).
Proof. unfold on_object_unit. destruct (m _) as [[u|e] [s' h]]; apply grows_refl. Qed.
Lemma add_grows {A} (back : A -> h_object) m w : grows (w_vars w) (w_vars (snd (add_object back m w))).
Proof. unfold add_object. destruct (m _) as [[u|e] h]; apply grows_refl. Qed.
Lemma hash_step_grows c w : hash_library c -> grows (w_vars w) (w_vars (snd (hash_step c w))).
Proof.
  intros L. destruct c as [c|name data|k x|k|k|k|k|k|u n key size_s|k|k u x|k]; try contradiction; cbn [hash_step];
    repeat match goal with
    | |- context [match nth_error ?l ?k with _ => _ end] => destruct (nth_error l k) as [[o|o]|]
    | |- context [match opt_arg ?a ?b with _ => _ end] => destruct (opt_arg a b)
    | |- context [match operand_arg ?a ?b with _ => _ end] => destruct (operand_arg a b)
    end; try apply grows_refl; first [apply on_object_grows|apply on_unit_grows|apply add_grows].
Qed.
