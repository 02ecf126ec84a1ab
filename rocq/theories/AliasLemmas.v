(** * Consequences for the buffers of a program *)
From Verif Require Import PyBase PyState PyFacts Utils CipherObj Modes Mac Heap HeapLogic HeapCipher HeapCipherFacts HeapModes HeapModesLogic HeapModesFacts HeapMacFacts HeapWorld HeapWorldFacts.
Open Scope string_scope.
Open Scope list_scope.
Open Scope Z_scope.

(** The world after a program. *)
Definition after (cs : list cmd) : real := snd (run step cs start).
(** The statements that call the library. *)
Definition library (c : cmd) : Prop :=
  match c with
  | CNew _ _ _ _ _ _ | CEncrypt _ _ | CDecrypt _ _ | CIv _ | CCounter _ | CUpdate _ _ | CDigest _ _ | CClear _ => True
  | _ => False
  end.

Lemma after_rel cs : Forall cmd_ok cs -> exists f i, wrel f (after cs) i.
Proof.
  intros O. destruct (run_agree cs [] start istart wrel_start O) as (_ & g & R). exists ([] ++ g), (snd (run istep cs istart)). exact R.
Qed.
Lemma run_app {O} (st : cmd -> world O -> out * world O) cs cs' w :
  run st (cs ++ cs') w = (fst (run st cs w) ++ fst (run st cs' (snd (run st cs w))), snd (run st cs' (snd (run st cs w)))).
Proof.
  revert w. induction cs as [|c cs IH]; intros w; cbn [app run fst snd]; [now destruct (run st cs' w)|].
  destruct (st c w) as [o w1]. rewrite IH. destruct (run st cs w1) as [os w2]. reflexivity.
Qed.
Lemma after_snoc cs c : after (cs ++ [c]) = snd (step c (after cs)).
Proof. unfold after. rewrite run_app. cbn [snd run]. destruct (step c (snd (run step cs start))) as [o w]. reflexivity. Qed.

(** ** What a call of the library adds *)
Definition adds (b : heap) (vs : list buf) (i : ideal) : Prop :=
  (w_heap i = b /\ w_vars i = vs) \/ exists l, w_heap i = b ++ [l] /\ w_vars i = vs ++ [Ref (List.length b)].
Lemma give_adds r (w : ideal) os : adds (w_heap w) (w_vars w) (snd (give r w os)).
Proof. destruct r as [l|e]; cbn; [right; exists l; auto|left; auto]. Qed.
Lemma show_unit_adds {O} (w : world O) r : snd (show_unit w r) = w.
Proof. now destruct r. Qed.
Lemma istep_adds c i : library c -> adds (w_heap i) (w_vars i) (snd (istep c i)).
Proof.
  intros L. assert (N : adds (w_heap i) (w_vars i) i) by (left; auto).
  destruct c as [l|l|j|j a v|j a b j'|j|alg key mode iv data pad|k x|k x|k|k|k x|k n|k]; try contradiction; cbn [istep].
  - destruct (operand_val (w_heap i) (w_vars i) key) as [pk|]; [|exact N]. destruct (opt_val (w_heap i) (w_vars i) iv) as [pi|]; [|exact N].
    destruct (opt_val (w_heap i) (w_vars i) data) as [pd|]; [|exact N]. destruct (new alg pk mode _) as [o|e]; [left; auto|exact N].
  - destruct (nth_error (w_objs i) k) as [[o|o]|]; try exact N. destruct (operand_val (w_heap i) (w_vars i) x) as [p|]; [|exact N].
    unfold i_mode. destruct (encrypt p o) as [r o']. apply give_adds.
  - destruct (nth_error (w_objs i) k) as [[o|o]|]; try exact N. destruct (operand_val (w_heap i) (w_vars i) x) as [p|]; [|exact N].
    unfold i_mode. destruct (decrypt p o) as [r o']. apply give_adds.
  - destruct (nth_error (w_objs i) k) as [[o|o]|]; try exact N. destruct (has_iv (o_class o)); [apply give_adds|exact N].
  - destruct (nth_error (w_objs i) k) as [[o|o]|]; try exact N. destruct (has_counter (o_class o)); [apply give_adds|exact N].
  - destruct (nth_error (w_objs i) k) as [[o|o]|]; try exact N. destruct (operand_val (w_heap i) (w_vars i) x) as [p|]; [|exact N].
    unfold i_mac_unit. destruct (mac_update p o) as [[u|e] o']; left; auto.
  - destruct (nth_error (w_objs i) k) as [[o|o]|]; try exact N. unfold i_mac. destruct (mac_digest n o) as [r o']. apply give_adds.
  - destruct (nth_error (w_objs i) k) as [[o|o]|]; try exact N.
    + unfold i_mode_unit. destruct (clear o) as [[u|e] o']; left; auto.
    + unfold i_mac_unit. destruct (mac_clear o) as [[u|e] o']; left; auto.
Qed.

Definition grows (vs vs' : list buf) : Prop := exists x, vs' = vs ++ x.
Lemma grows_refl vs : grows vs vs.
Proof. exists []. now rewrite app_nil_r. Qed.
Lemma show_grows {O} h vs (os : list O) r : grows vs (w_vars (snd (show h vs os r))).
Proof. destruct r as [v|e]; cbn [show]; [|apply grows_refl]. destruct (content h v); [now exists [v]|apply grows_refl]. Qed.
Lemma step_grows c w : library c -> grows (w_vars w) (w_vars (snd (step c w))).
Proof.
  intros L. assert (N := grows_refl (w_vars w)).
  destruct c as [l|l|j|j a v|j a b j'|j|alg key mode iv data pad|k x|k x|k|k|k x|k n|k]; try contradiction; cbn [step].
  - destruct (operand_arg (w_vars w) key) as [xk|]; [|exact N]. destruct (opt_arg (w_vars w) iv) as [xi|]; [|exact N].
    destruct (opt_arg (w_vars w) data) as [xd|]; [|exact N]. destruct (h_new alg xk mode _ (w_heap w)) as [[o|e] h]; exact N.
  - destruct (nth_error (w_objs w) k) as [[o|o]|]; try exact N. destruct (operand_arg (w_vars w) x) as [p|]; [|exact N].
    unfold on_mode. destruct (h_encrypt p (o, w_heap w)) as [r [s' h]]. apply show_grows.
  - destruct (nth_error (w_objs w) k) as [[o|o]|]; try exact N. destruct (operand_arg (w_vars w) x) as [p|]; [|exact N].
    unfold on_mode. destruct (h_decrypt p (o, w_heap w)) as [r [s' h]]. apply show_grows.
  - destruct (nth_error (w_objs w) k) as [[o|o]|]; try exact N. destruct (has_iv (h_class o)); [|exact N].
    unfold on_mode. destruct (h_iv (o, w_heap w)) as [r [s' h]]. apply show_grows.
  - destruct (nth_error (w_objs w) k) as [[o|o]|]; try exact N. destruct (has_counter (h_class o)); [|exact N].
    unfold on_mode. destruct ((let! c := h_get_counter in onheap (h_bytearray c)) (o, w_heap w)) as [r [s' h]]. apply show_grows.
  - destruct (nth_error (w_objs w) k) as [[o|o]|]; try exact N. destruct (operand_arg (w_vars w) x) as [p|]; [|exact N].
    unfold on_mac_unit. destruct (hcm_update p (o, w_heap w)) as [[u|e] [s' h]]; exact N.
  - destruct (nth_error (w_objs w) k) as [[o|o]|]; try exact N. unfold on_mac. destruct (hcm_digest n (o, w_heap w)) as [r [s' h]]. apply show_grows.
  - destruct (nth_error (w_objs w) k) as [[o|o]|]; try exact N.
    + unfold on_mode_unit. destruct (h_clear (o, w_heap w)) as [[u|e] [s' h]]; exact N.
    + unfold on_mac_unit. destruct (hcm_clear (o, w_heap w)) as [[u|e] [s' h]]; exact N.
Qed.

Lemma at_fun f v x y : at_ f v x -> at_ f v y -> x = y.
Proof. destruct v, x, y; cbn; try tauto; intuition congruence. Qed.
Lemma at_ref f v b : at_ f v (Ref b) -> exists a, v = Ref a /\ nth_error f a = Some b.
Proof. destruct v as [l|a]; cbn; [tauto|]. eauto. Qed.

(** One call. *)
Lemma call_keeps f w i c : wrel f w i -> cmd_ok c -> library c ->
  let w' := snd (step c w) in
  (forall j x l, nth_error (w_vars w) j = Some x -> content (w_heap w) x = Some l ->
     nth_error (w_vars w') j = Some x /\ content (w_heap w') x = Some l) /\
  (forall x, nth_error (w_vars w') (List.length (w_vars w)) = Some x ->
     exists b, x = Ref b /\ ~ In (Ref b) (w_vars w)) /\
  (List.length (w_vars w') <= S (List.length (w_vars w)))%nat.
Proof.
  intros R O L w'. destruct (step_agree f w i c R O) as (_ & g & R'). fold w' in R'. pose proof (istep_adds c i L) as A. destruct (step_grows c w L) as (vn & G). fold w' in G.
  set (i' := snd (istep c i)) in *.
  assert (Lv : List.length (w_vars i) = List.length (w_vars w)).
  { pose proof (wr_vars _ _ _ R) as H. clear - H. induction H; cbn; congruence. }
  assert (Lv' : List.length (w_vars i') = List.length (w_vars w')).
  { pose proof (wr_vars _ _ _ R') as H. clear - H. induction H; cbn; congruence. }
  conj; [| |].
  - intros j x l Nx Cx. assert (Nx' : nth_error (w_vars w') j = Some x) by (rewrite G, nth_error_app1; [exact Nx|apply nth_error_Some; congruence]).
    split; [exact Nx'|]. pose proof (var_rep f w i j R) as V. rewrite Nx in V. destruct (nth_error (w_vars i) j) as [v|] eqn:Nv; [|contradiction].
    destruct V as (At & l0 & Ci & Hx). rewrite (proj1 Hx) in Cx. injection Cx as <-.
    pose proof (at_app f g v x At) as At'. destruct (at_content _ _ _ _ _ R' At') as (l1 & Ci' & Hx').
    assert (E : content (w_heap i') v = Some l0).
    { destruct A as [[-> _]|(e & -> & _)]; [exact Ci|]. exact (content_same _ _ _ _ (same_app (w_heap i) [e]) Ci). }
    rewrite E in Ci'. injection Ci' as <-. exact (proj1 Hx').
  - intros x Nx. pose proof (var_rep (f ++ g) w' i' (List.length (w_vars w)) R') as V. rewrite Nx in V.
    destruct A as [[_ A]|(e & Ah & A)].
    { rewrite A in V. rewrite (proj2 (nth_error_None (w_vars i) (List.length (w_vars w)))) in V by lia. contradiction. }
    rewrite A, nth_error_app2, Lv, Nat.sub_diag in V by lia. cbn [nth_error] in V. destruct V as (At & _).
    destruct x as [l|b]; [contradiction|]. exists b. split; [reflexivity|]. intros I. apply In_nth_error in I. destruct I as [j Nj].
    pose proof (var_rep f w i j R) as V. rewrite Nj in V. destruct (nth_error (w_vars i) j) as [v|] eqn:Nv; [|contradiction]. destruct V as (At0 & _).
    destruct (at_ref _ _ _ At0) as (a & -> & Na). cbn in At.
    pose proof (wr_nodup _ _ _ R') as ND. rewrite NoDup_nth_error in ND.
    assert (La : (a < List.length f)%nat) by (apply nth_error_Some; congruence).
    assert (Lf : List.length f = List.length (w_heap i)).
    { pose proof (wr_bufs _ _ _ R) as H. rewrite <- (map_length Ref f). unfold has_all in H. clear - H. induction H; cbn; congruence. }
    assert (X : a = List.length (w_heap i)); [|lia]. apply ND; [rewrite app_length; lia|]. rewrite nth_error_app1 by exact La. congruence.
  - rewrite <- Lv', <- Lv. destruct A as [[_ ->]|(e & _ & ->)]; rewrite ?app_length; cbn; lia.
Qed.

Lemma consts_first h : consts h -> firstn 7 h = module_consts.
Proof.
  intros C. unfold consts in C. assert (E : forall j, (j < 7)%nat -> nth_error h j = nth_error module_consts j) by (intros j J; apply C; exact J).
  clear C. destruct h as [|x0 [|x1 [|x2 [|x3 [|x4 [|x5 [|x6 h]]]]]]]; try (specialize (E 6%nat); cbn in E; assert (6 < 7)%nat by lia; discriminate (E ltac:(lia))).
  pose proof (E 0%nat ltac:(lia)) as E0. pose proof (E 1%nat ltac:(lia)) as E1. pose proof (E 2%nat ltac:(lia)) as E2. pose proof (E 3%nat ltac:(lia)) as E3.
  pose proof (E 4%nat ltac:(lia)) as E4. pose proof (E 5%nat ltac:(lia)) as E5. pose proof (E 6%nat ltac:(lia)) as E6.
  unfold module_consts in *. cbn [nth_error firstn] in *. congruence.
Qed.

(** ** The counter of a CTR object *)
Lemma own_counter s s' a a' : own s' = own s -> h_counter s = Ref a -> h_counter s' = Ref a' -> h_counter s' = h_counter s.
Proof.
  unfold own, refs. intros E C1 C2. rewrite C1, C2 in *. cbn [flat_map app] in E. destruct (h_init_vect s), (h_init_vect s'); cbn in E; congruence.
Qed.
Lemma nth_upd_eq {A} (l : list A) k x : nth_error l k <> None -> nth_error (upd l k x) k = Some x.
Proof. intros N. apply nth_upd_same. now apply nth_error_Some. Qed.

Lemma ctr_call f w i k s x : wrel f w i -> operand_ok x -> nth_error (w_objs w) k = Some (HNewMode s) -> h_class s = CTR ->
  forall c, c = CEncrypt k x \/ c = CDecrypt k x ->
  exists s', nth_error (w_objs (snd (step c w))) k = Some (HNewMode s') /\ h_class s' = CTR /\ h_counter s' = h_counter s.
Proof.
  intros R O N Cl c Hc. pose proof (operand_rep f w i x R O) as X. pose proof (obj_rep f w i k R) as Y. rewrite N in Y.
  destruct (nth_error (w_objs i) k) as [[o|o]|] eqn:No; try contradiction. destruct (mode_rel f w i R k s o N No) as [MR A].
  assert (SAME : exists s', nth_error (w_objs w) k = Some (HNewMode s') /\ h_class s' = CTR /\ h_counter s' = h_counter s) by eauto.
  destruct (operand_arg (w_vars w) x) as [xa|] eqn:Ea, (operand_val (w_heap i) (w_vars i) x) as [p|]; try contradiction.
  2:{ destruct Hc as [->| ->]; cbn [step]; rewrite N, Ea; exact SAME. }
  assert (GO : forall m (g : M mode_obj bytes), msim (Rel (own s) (foot s) (List.length (w_heap w)) (h_class s)) (List.length (w_heap w)) (own s) s (w_heap w) m o g (fresh (w_heap w)) ->
    exists s', nth_error (w_objs (snd (on_mode k s m w))) k = Some (HNewMode s') /\ h_class s' = CTR /\ h_counter s' = h_counter s).
  { intros m g MS. unfold msim in MS. unfold on_mode. destruct (m (s, w_heap w)) as [r [s' h']], (g o) as [r' o']. destruct MS as (_ & (Y' & Ow & _ & _ & _ & Cl') & _).
    exists s'. split.
    - assert (NK : nth_error (w_objs w) k <> None) by congruence.
      destruct r as [v|e]; cbn [show]; [destruct (content h' v)|]; exact (nth_upd_eq _ _ _ NK).
    - split; [congruence|]. pose proof (hr_writable _ _ _ Y) as W1. pose proof (hr_writable _ _ _ Y') as W2. rewrite Cl in W1. rewrite Cl', Cl in W2.
      destruct W1 as [[a W1] _]. destruct W2 as [[a' W2] _]. exact (own_counter s s' a a' Ow W1 W2). }
  destruct Hc as [->| ->]; cbn [step]; rewrite N, Ea.
  - apply (GO _ (encrypt p)). apply encrypt_msim; [exact MR|apply X|now apply X].
  - apply (GO _ (decrypt p)). apply decrypt_msim; [exact MR|apply X|now apply X].
Qed.
