(** * The MAC object and the function [new] of HeapModes.v *)
From Verif Require Import PyBase PyState PyFacts Utils UtilsFacts Kuznechik Magma CipherObj Modes Mac Heap HeapLogic HeapCipher HeapCipherFacts HeapModes HeapModesLogic HeapModesFacts CipherLemmas CipherObjFacts.
Open Scope string_scope.
Open Scope list_scope.
Open Scope Z_scope.

Definition mfields (s : hcm_obj) : list buf :=
  [hcm_key_1 s; hcm_key_2 s; hcm_fin_buff s; hcm_iter_buf s; hcm_prev_mac s; hcm_cur_mac s].
Definition mfoot (s : hcm_obj) : list nat := refs (mfields s ++ hc_keys (hcm_cipher s)).

Record mrep (h : heap) (s : hcm_obj) (m : mac_obj) : Prop := {
  mr_cipher : crep h (hcm_cipher s) (m_cipher m);
  mr_key_1 : has h (hcm_key_1 s) (m_key_1 m);
  mr_key_2 : has h (hcm_key_2 s) (m_key_2 m);
  mr_fin_buff : has h (hcm_fin_buff s) (m_fin_buff m);
  mr_iter_buf : has h (hcm_iter_buf s) (m_iter_buf m);
  mr_prev_mac : has h (hcm_prev_mac s) (m_prev_mac m);
  mr_cur_mac : has h (hcm_cur_mac s) (m_cur_mac m);
  mr_ok : co_ok (m_cipher m)
}.
Lemma mrep_same h h' s m : same h h' -> mrep h s m -> mrep h' s m.
Proof. intros S []. constructor; eauto using crep_same, has_same. Qed.

Definition from (F : list nat) (n0 : nat) (v : buf) : Prop := match v with Imm _ => True | Ref a => In a F \/ (n0 <= a)%nat end.
Lemma from_newer F n0 n v : (n0 <= n)%nat -> newer n v -> from F n0 v.
Proof. destruct v; cbn; auto. lia. Qed.

Definition MRel (F : list nat) (n0 : nat) (h : heap) (s : hcm_obj) (m : mac_obj) : Prop :=
  mrep h s m /\ Forall (from F n0) (mfields s ++ hc_keys (hcm_cipher s)) /\ (n0 <= List.length h)%nat.

Lemma in_refs_from F n0 vs a : Forall (from F n0) vs -> In a (refs vs) -> In a F \/ (n0 <= a)%nat.
Proof. intros A I. apply in_refs in I. exact (proj1 (Forall_forall _ _) A _ I). Qed.
Lemma refs_from F n0 vs : (forall a, In a (refs vs) -> In a F \/ (n0 <= a)%nat) -> Forall (from F n0) vs.
Proof. intros A. apply Forall_forall. intros [l|a] I; cbn; [exact Logic.I|]. apply A. now apply in_refs. Qed.
Lemma kept_from F n0 n vs vs' : (n0 <= n)%nat -> kept_or_new n vs vs' -> Forall (from F n0) vs -> Forall (from F n0) vs'.
Proof.
  intros L K. induction K as [|v v' vs vs' V K IH]; intros A; constructor; inversion A; subst; auto.
  destruct V as [->|V]; [assumption|now apply (from_newer F n0 n)].
Qed.

Ltac fields := repeat (constructor; [first [eassumption | eapply from_newer; [|eassumption]; lia]|]).

Lemma m_assoc {S O A B C D} (Rel : heap -> S -> O -> Prop) n W s h (m : M (S * heap) A) (f : A -> M (S * heap) B) (g : B -> M (S * heap) C) o (r : M O D) Q :
  msim Rel n W s h (bindM m (fun x => bindM (f x) g)) o r Q -> msim Rel n W s h (bindM (bindM m f) g) o r Q.
Proof. unfold msim, bindM. destruct (m (s, h)) as [[a|e] st]; auto. Qed.

Section Methods.
Context (F : list nat) (n0 : nat).
Notation R := (MRel F n0).

Lemma MRel_same h h' s o : same h h' -> R h s o -> R h' s o.
Proof. intros S (X & A & N). pose proof (same_len _ _ S). split; [now apply (mrep_same h)|]. split; [exact A|lia]. Qed.
Lemma MRel_bs h s o : R h s o -> hcm_block_size s = mac_block_size o.
Proof. intros (X & _). eapply crep_bs, (mr_cipher _ _ _ X). Qed.

Lemma mac_clear_msim h s o : R h s o -> msim R (List.length h) [] s h hcm_clear o mac_clear (fun _ _ _ => True).
Proof.
  intros X. unfold hcm_clear, mac_clear. apply m_get.
  pose proof (hc_clear_sim _ _ _ (mr_cipher _ _ _ (proj1 X))) as P.
  destruct (co_clear_ok _ (mr_ok _ _ _ (proj1 X))) as (c' & E & Ok' & _). rewrite E in *.
  match goal with |- msim _ _ _ _ _ _ _ (bindM (liftM (Ok ?x)) ?g) _ => change (bindM (liftM (Ok x)) g) with (g x) end. cbv beta.
  eapply m_call_l; [apply MRel_same|exact X|exact P|lia|].
  intros h' c S (X' & A & N) (C & K & Eb). apply m_put_end; [|exact I].
  split; [|split; [|exact N]].
  - destruct X'. constructor; cbn; auto.
  - apply Forall_app in A. destruct A as [A1 A2]. apply Forall_app. split; [exact A1|]. cbn [hcm_cipher].
    eapply kept_from; [|exact K|exact A2]. apply X.
Qed.

Lemma fields_of h s o : R h s o ->
  Forall (from F n0) (hc_keys (hcm_cipher s)) /\ from F n0 (hcm_key_1 s) /\ from F n0 (hcm_key_2 s) /\ from F n0 (hcm_fin_buff s) /\
  from F n0 (hcm_iter_buf s) /\ from F n0 (hcm_prev_mac s) /\ from F n0 (hcm_cur_mac s).
Proof.
  intros (_ & A & _). apply Forall_app in A. destruct A as [A1 A2]. split; [exact A2|].
  repeat match goal with H : Forall _ (_ :: _) |- _ => inversion H; clear H; subst end.
  unfold mfields in A1. repeat match goal with H : Forall _ (_ :: _) |- _ => inversion H; clear H; subst end. auto 10.
Qed.

Lemma mac_update_msim h s o x p : R h s o -> arep h x p ->
  msim R (List.length h) [] s h (hcm_update x) o (mac_update p) (fun _ _ _ => True).
Proof.
  intros X A. pose proof (arep_buf _ _ _ A) as B. unfold hcm_update, mac_update.
  destruct (as_buf x) as [v|].
  2:{ assert (G : msim R (List.length h) [] s h (hcm_clear ;! raiseM (GOSTCipherError "GOSTCipherError: invalid text data")) o
                    (mac_clear ;! raiseM (GOSTCipherError "GOSTCipherError: invalid text data")) (fun _ (_ _ : unit) => True)).
      { eapply m_bind; [now apply mac_clear_msim|lia|]. intros h' s' o' _ _ _ X' _. now apply m_raise. }
      destruct p; try contradiction; exact G. }
  destruct p as [d0| | |]; try contradiction. rename B into V. apply m_get. cbv zeta.
  rewrite (MRel_bs _ _ _ X). set (bs := mac_block_size o). clearbody bs.
  pose proof (fields_of _ _ _ X) as (Fk & F1 & F2 & F3 & F4 & F5 & F6). pose proof (proj2 (proj2 X)) as N0.
  eapply m_call_l; [apply MRel_same|exact X|apply p_add; [apply (mr_iter_buf _ _ _ (proj1 X))|exact V]|lia|].
  intros h1 w S1 X1 [Hw Nw]. set (d := m_iter_buf o ++ d0) in *. clearbody d. pose proof (same_len _ _ S1) as L1.
  eapply m_call_l; [apply MRel_same|exact X1|apply p_rd, Hw|lia|]. intros h2 d' S2 _ [-> ->].
  set (Inv := fun h' v l => (List.length h1 <= List.length h')%nat /\ has h' v l /\ from F n0 v /\ has h' w d /\ mrep h' s o).
  eapply (m_bind_for _ _ _ _ _ _ _ _ _ _ Inv).
  { apply (m_for _ _ _ Inv); [exact X1|unfold Inv; conj; auto; apply X1|].
    intros i s' h' o' v' l _ X' (L & V' & Fv & W' & Y).
    eapply m_call_l; [apply MRel_same|exact X'|apply get_block_sim, W'|lia|]. intros h3 b S3 X3 [Hb _]. carry S3.
    eapply m_call_l; [apply MRel_same|exact X3|apply add_xor_sim; [exact V'|exact Hb]|lia|]. intros h4 t S4 X4 Ft. carry S4.
    eapply m_call_t; [apply MRel_same|exact X4|apply hc_encrypt_sim; [|eapply fresh_has, Ft]|lia|].
    + eapply crep_same; [exact S4|]. eapply crep_same; [exact S3|]. apply (mr_cipher _ _ _ Y).
    + intros h5 c cl S5 Fc. carry S5. unfold Inv. conj; [lia|eapply fresh_has, Fc|eapply (from_newer _ _ (List.length h4)); [lia|eapply fresh_newer, Fc]|assumption|].
      eauto using mrep_same. }
  intros h3 s3 o3 pb pl K3 X3 (L3 & Pb & Fp & W3 & Y). pose proof (mr_cipher _ _ _ Y) as C.
  destruct (_get_pad_size bs d =? 0).
  - eapply m_call_l; [apply MRel_same|exact X3|apply p_slice, W3|lia|]. intros h4 b S4 X4 [Hb _]. carry S4. apply (crep_same _ _ _ _ S4) in C. apply (mrep_same _ _ _ _ S4) in Y.
    eapply m_call_l; [apply MRel_same|exact X4|apply add_xor_sim; [exact Pb|exact Hb]|lia|]. intros h5 t S5 X5 Ft. carry S5. apply (crep_same _ _ _ _ S5) in C. apply (mrep_same _ _ _ _ S5) in Y.
    eapply m_call; [apply MRel_same|exact X5|apply hc_encrypt_sim; [exact C|eapply fresh_has, Ft]|lia|]. intros h6 c cl S6 X6 Fc. carry S6. apply (mrep_same _ _ _ _ S6) in Y.
    eapply m_call_l; [apply MRel_same|exact X6|apply p_alloc; constructor|lia|]. intros h7 ib S7 X7 Fi. carry S7. apply (mrep_same _ _ _ _ S7) in Y.
    eapply m_call_l; [apply MRel_same|exact X7|apply p_from, W3|lia|]. intros h8 fb S8 X8 [Hf Nf]. carry S8. apply (mrep_same _ _ _ _ S8) in Y.
    apply m_put_end; [|exact I]. pose proof (fresh_newer _ _ _ _ Fi) as Ni. pose proof (fresh_newer _ _ _ _ Fc) as Nc. split; [|split; [|apply X8]].
    + destruct Y. constructor; cbn; auto; [eauto using has_same, fresh_has|eauto using has_same, fresh_has].
    + apply Forall_app. split; [|exact Fk]. unfold mfields. cbn. fields. constructor.
  - eapply m_call_l; [apply MRel_same|exact X3|apply p_slice, W3|lia|]. intros h4 b S4 X4 [Hb _]. carry S4. apply (crep_same _ _ _ _ S4) in C. apply (mrep_same _ _ _ _ S4) in Y.
    eapply m_call_l; [apply MRel_same|exact X4|apply add_xor_sim; [exact Pb|exact Hb]|lia|]. intros h5 t S5 X5 Ft. carry S5. apply (crep_same _ _ _ _ S5) in C. apply (mrep_same _ _ _ _ S5) in Y.
    eapply m_call; [apply MRel_same|exact X5|apply hc_encrypt_sim; [exact C|eapply fresh_has, Ft]|lia|]. intros h6 c cl S6 X6 Fc. carry S6. apply (mrep_same _ _ _ _ S6) in Y.
    eapply m_call_l; [apply MRel_same|exact X6|apply p_from, W3|lia|]. intros h7 ib S7 X7 [Hi Ni]. carry S7. apply (mrep_same _ _ _ _ S7) in Y.
    eapply m_call_l; [apply MRel_same|exact X7|apply p_from, W3|lia|]. intros h8 fb S8 X8 [Hf Nf]. carry S8. apply (mrep_same _ _ _ _ S8) in Y.
    apply m_put_end; [|exact I]. pose proof (fresh_newer _ _ _ _ Fc) as Nc. split; [|split; [|apply X8]].
    + destruct Y. constructor; cbn; auto; eauto using has_same, fresh_has.
    + apply Forall_app. split; [|exact Fk]. unfold mfields. cbn. fields. constructor.
Qed.

Lemma pad3_sim h v d bs : has h v d -> psim h (h_set_pad_mode_3 bs v) (Ok (_set_pad_mode_3 bs d)) (fun h' x l => has h' x l /\ (x = v \/ newer (List.length h) x)).
Proof.
  intros H. unfold psim, h_set_pad_mode_3, _set_pad_mode_3. eapply s_rd; [exact H|].
  destruct (_get_pad_size bs d =? 0); [apply sim_ret; auto|].
  assert (O : bytes_ok [0x80]) by (constructor; [unfold byte_ok; lia|constructor]).
  eapply s_add; [lia|exact H|apply has_imm, O|]. intros h1 x S1 X N. carry S1.
  rewrite app_assoc. eapply sim_tail; [apply p_add; [exact X|apply has_imm; auto]|lia|].
  intros h2 y l S2 [Y N2]. split; [exact Y|]. right. eapply newer_le; [|exact N2]. lia.
Qed.

Lemma mac_final_msim h s o : R h s o -> msim R (List.length h) [] s h hcm_mac_final o mac_final (fresh h).
Proof.
  intros X. unfold hcm_mac_final, mac_final. apply m_get. cbv zeta. rewrite (MRel_bs _ _ _ X). set (bs := mac_block_size o). clearbody bs.
  pose proof (fields_of _ _ _ X) as (Fk & F1 & F2 & F3 & F4 & F5 & F6). pose proof (proj2 (proj2 X)) as N0. pose proof (proj1 X) as Y.
  eapply m_call_l; [apply MRel_same|exact X|apply p_rd, (mr_fin_buff _ _ _ Y)|lia|]. intros h1 f' S1 _ [-> ->].
  assert (TAIL : forall h2 fk fkl fb fbl, same h h2 -> R h2 s o -> has h2 fk fkl -> has h2 fb fbl -> from F n0 fb ->
    msim R (List.length h) [] s h2
      (putO {| hcm_cipher := hcm_cipher s; hcm_key_1 := hcm_key_1 s; hcm_key_2 := hcm_key_2 s; hcm_fin_buff := fb; hcm_iter_buf := hcm_iter_buf s; hcm_prev_mac := hcm_prev_mac s; hcm_cur_mac := hcm_cur_mac s |} ;!
       let! x := onheap (h_add_xor fb (hcm_prev_mac s)) in let! x := onheap (h_add_xor x fk) in onheap (hc_encrypt (hcm_cipher s) x)) o
      (putM {| m_cipher := m_cipher o; m_key_1 := m_key_1 o; m_key_2 := m_key_2 o; m_fin_buff := fbl; m_iter_buf := m_iter_buf o; m_prev_mac := m_prev_mac o; m_cur_mac := m_cur_mac o |} ;!
       liftM (co_encrypt (m_cipher o) (add_xor (add_xor fbl (m_prev_mac o)) fkl))) (fresh h)).
  { intros h2 fk fkl fb fbl S2 X2 Hk Hb Ff. pose proof (proj1 X2) as Y2. pose proof (same_len _ _ S2). apply m_put.
    assert (X3 : R h2 {| hcm_cipher := hcm_cipher s; hcm_key_1 := hcm_key_1 s; hcm_key_2 := hcm_key_2 s; hcm_fin_buff := fb; hcm_iter_buf := hcm_iter_buf s; hcm_prev_mac := hcm_prev_mac s; hcm_cur_mac := hcm_cur_mac s |}
                      {| m_cipher := m_cipher o; m_key_1 := m_key_1 o; m_key_2 := m_key_2 o; m_fin_buff := fbl; m_iter_buf := m_iter_buf o; m_prev_mac := m_prev_mac o; m_cur_mac := m_cur_mac o |}).
    { split; [destruct Y2; constructor; cbn; auto|]. split; [|lia]. apply Forall_app. split; [unfold mfields; cbn; fields; constructor|exact Fk]. }
    eapply m_call_l; [apply MRel_same|exact X3|apply add_xor_sim; [exact Hb|apply (mr_prev_mac _ _ _ Y2)]|lia|]. intros h4 t S4 X4 Ft. carry S4.
    eapply m_call_l; [apply MRel_same|exact X4|apply add_xor_sim; [eapply fresh_has, Ft|exact Hk]|lia|]. intros h5 u S5 X5 Fu. carry S5.
    eapply m_call_t; [apply MRel_same|exact X5|apply hc_encrypt_sim; [apply (mr_cipher _ _ _ (proj1 X5))|eapply fresh_has, Fu]|lia|].
    intros h6 r rl S6 Fr. eapply fresh_le; [|exact Fr]. lia. }
  destruct (_get_pad_size bs (m_fin_buff o) =? 0).
  - apply TAIL; auto using same_refl; [apply (mr_key_1 _ _ _ Y)|apply (mr_fin_buff _ _ _ Y)].
  - apply m_assoc. eapply m_call_l; [apply MRel_same|exact X|apply p_from, (mr_fin_buff _ _ _ Y)|lia|]. intros h2 z S2 X2 [Z NZ]. pose proof (same_len _ _ S2).
    apply m_assoc. eapply m_call_l; [apply MRel_same|exact X2|apply pad3_sim, Z|lia|]. intros h3 y S3 X3 [Hy Ny]. pose proof (same_len _ _ S3).
    apply TAIL; [eapply same_trans; eassumption|exact X3|apply (mr_key_2 _ _ _ (proj1 X3))|exact Hy|].
    destruct Ny as [->|Ny]; [eapply from_newer; [|exact NZ]; lia|eapply from_newer; [|exact Ny]; lia].
Qed.
End Methods.

(** Copies. *)
Lemma copy_sim h v l : has h v l -> psim h (h_copy v) (Ok l) (built h).
Proof.
  intros H. destruct v as [x|a]; cbn [h_copy].
  - apply p_ret. split; [|exact I]. destruct H as [[= ->] O]. now apply has_imm.
  - eapply p_conseq; [now apply bytearray_sim|]. intros h' y m _. apply fresh_built.
Qed.
Lemma copy_all_sim vs : forall ls ws wl h, has_all h vs ls -> has_all h ws wl ->
  psim h (forM vs ws (fun v ws => let! w := h_copy v in retM (ws ++ [w]))) (Ok (wl ++ ls)) has_all.
Proof.
  induction vs as [|v vs IH]; intros ls ws wl h A B; inversion A; subst; cbn [forM].
  - rewrite app_nil_r. now apply p_ret.
  - unfold psim. eapply (sim_bind_l _ _ _ _ (wl ++ [y]) _ _ (fun h' x y => same h h' /\ has_all h' x y)).
    + eapply (sim_call_l (B := bytes)); [apply copy_sim; eassumption|lia|]. intros h1 w S [Hw _]. apply sim_ret. split; [exact S|].
      apply has_all_app; [eapply has_all_same; eassumption|now apply has_all_one].
    + intros h1 ws' _ [S1 A1]. change (y :: l') with ([y] ++ l'). rewrite app_assoc. cbv beta in A1.
      eapply sim_tail; [apply IH; [eapply has_all_same; eassumption|exact A1]|now apply same_len|auto].
Qed.
Lemma hc_copy_sim h c co : crep h c co -> psim h (hc_copy c) (Ok co) crep.
Proof.
  destruct c as [vs|vs], co as [ls|ls]; cbn [crep hc_copy]; try contradiction; intros A; unfold psim.
  - eapply (sim_call_l (B := list bytes)); [apply (copy_all_sim vs ls [] [] h A); constructor|lia|]. intros h' ws _ B. now apply sim_ret.
  - eapply (sim_call_l (B := list bytes)); [apply (copy_all_sim vs ls [] [] h A); constructor|lia|]. intros h' ws _ B. now apply sim_ret.
Qed.
Lemma mac_copy_sim h s o : mrep h s o -> psim h (hcm_copy s) (Ok o) mrep.
Proof.
  intros Y. unfold psim, hcm_copy.
  eapply sim_call_l; [apply hc_copy_sim, (mr_cipher _ _ _ Y)|lia|]. intros h1 c S1 C. apply (mrep_same _ _ _ _ S1) in Y. pose proof (same_len _ _ S1).
  eapply sim_call_l; [apply copy_sim, (mr_key_1 _ _ _ Y)|lia|]. intros h2 a1 S2 [Hb1 _]. apply (mrep_same _ _ _ _ S2) in Y. apply (crep_same _ _ _ _ S2) in C. pose proof (same_len _ _ S2).
  eapply sim_call_l; [apply copy_sim, (mr_key_2 _ _ _ Y)|lia|]. intros h3 a2 S3 [Hb2 _]. apply (mrep_same _ _ _ _ S3) in Y. apply (crep_same _ _ _ _ S3) in C. carry S3.
  eapply sim_call_l; [apply copy_sim, (mr_fin_buff _ _ _ Y)|lia|]. intros h4 a3 S4 [Hb3 _]. apply (mrep_same _ _ _ _ S4) in Y. apply (crep_same _ _ _ _ S4) in C. carry S4.
  eapply sim_call_l; [apply copy_sim, (mr_iter_buf _ _ _ Y)|lia|]. intros h5 a4 S5 [Hb4 _]. apply (mrep_same _ _ _ _ S5) in Y. apply (crep_same _ _ _ _ S5) in C. carry S5.
  eapply sim_call_l; [apply copy_sim, (mr_prev_mac _ _ _ Y)|lia|]. intros h6 a5 S6 [Hb5 _]. apply (mrep_same _ _ _ _ S6) in Y. apply (crep_same _ _ _ _ S6) in C. carry S6.
  eapply sim_call_l; [apply copy_sim, (mr_cur_mac _ _ _ Y)|lia|]. intros h7 a6 S7 [Hb6 _]. apply (crep_same _ _ _ _ S7) in C. carry S7.
  apply sim_ret. constructor; try assumption. apply (mr_ok _ _ _ Y).
Qed.

Lemma MRel_all h s o : mrep h s o -> MRel (mfoot s) (List.length h) h s o.
Proof.
  intros Y. split; [exact Y|]. split; [|lia]. apply refs_from. intros a A. now left.
Qed.


Lemma p_slice_ref h a l i j : has h (Ref a) l -> psim h (h_slice (Ref a) i j) (Ok (py_slice l i j)) (fresh h).
Proof.
  intros [E O]. unfold psim, sim, h_slice, bindM, rd. rewrite E. cbn [like alloc]. split; [apply same_app|].
  exists (List.length h). split; [reflexivity|]. split; [lia|]. split; [apply content_alloc|now apply bytes_ok_slice].
Qed.
Lemma mac_digest_msim F n0 h s o z : MRel F n0 h s o ->
  msim (MRel F n0) (List.length h) [] s h (hcm_digest z) o (mac_digest z) (fresh h).
Proof.
  intros X. unfold hcm_digest.
  pose proof (mac_copy_sim h s o (proj1 X)) as P. unfold psim, sim in P.
  unfold msim. unfold bindM at 1. unfold getO at 1. unfold bindM at 1. unfold onheap at 1.
  destruct (hcm_copy s h) as [[t|e] h1]; [|destruct P as [_ []]]. destruct P as [K Y].
  pose proof (same_len _ _ K) as L1. pose proof (MRel_same F n0 _ _ _ _ K X) as X1.
  pose proof (MRel_all _ _ _ Y) as XT. pose proof (MRel_bs _ _ _ _ _ XT) as Eb. rewrite Eb. unfold mac_digest. cbv zeta.
  destruct (z >? mac_block_size o).
  - pose proof (mac_clear_msim _ _ _ _ _ XT) as C. unfold msim in C. unfold bindM, on_temp, raiseM.
    destruct (co_clear_ok _ (mr_ok _ _ _ Y)) as (c' & E & _).
    assert (E' : exists o', mac_clear o = (Ok tt, o')) by (unfold mac_clear, bindM, getM, liftM, putM; rewrite E; eauto).
    destruct E' as [o' E']. rewrite E' in C.
    destruct (hcm_clear (t, h1)) as [[[]|e] [t' h2]]; destruct C as (K2 & _ & C); [|contradiction].
    split; [apply (same_trans _ _ _ K K2)|]. split; [now apply (MRel_same F n0 h1)|reflexivity].
  - pose proof (mac_final_msim _ _ _ _ _ XT) as C. unfold msim in C. unfold bindM, on_temp.
    destruct (hcm_mac_final (t, h1)) as [[r|e] [t' h2]], (mac_final o) as [[rl|e'] o']; destruct C as (K2 & _ & C); try contradiction.
    + pose proof (same_len _ _ K2) as L2. destruct C as (ra & -> & _ & Hr). pose proof (p_slice_ref h2 ra rl 0 z Hr) as P. unfold psim, sim in P. unfold onheap. cbn [snd bind].
      destruct (h_slice (Ref ra) 0 z h2) as [[w|e] h3]; destruct P as [K3 P]; [|contradiction].
      assert (K13 : same h1 h3) by (eapply same_trans; eassumption).
      split; [apply (same_trans _ _ _ K K13)|]. split; [now apply (MRel_same F n0 h1)|].
      eapply fresh_le; [|exact P]. lia.
    + cbn [snd bind]. split; [apply (same_trans _ _ _ K K2)|]. split; [now apply (MRel_same F n0 h1)|exact C].
Qed.

(** ** Constructors *)
Lemma s_assoc {A B C D} n W h (m : M heap A) (f : A -> M heap B) (g : B -> M heap C) (r : res D) Q :
  sim n W h (bindM m (fun x => bindM (f x) g)) r Q -> sim n W h (bindM (bindM m f) g) r Q.
Proof. unfold sim, bindM. destruct (m h) as [[a|e] st]; auto. Qed.
Lemma s_ret_l {A B C} n W h (a : A) (g : A -> M heap B) (r : res C) Q : sim n W h (g a) r Q -> sim n W h (bindM (retM a) g) r Q.
Proof. exact (fun H => H). Qed.

Definition consts (h : heap) : Prop := forall i, (i < 7)%nat -> nth_error h i = nth_error module_consts i.
Lemma consts_same h h' : (7 <= List.length h)%nat -> same h h' -> consts h -> consts h'.
Proof. intros L [_ K] C i I. rewrite K by (auto; lia). now apply C. Qed.
Lemma consts_keep h h' W : (7 <= List.length h)%nat -> keeps (List.length h) W h h' -> (forall a, In a W -> (7 <= a)%nat) -> consts h -> consts h'.
Proof. intros L [_ K] N C i I. rewrite K; [now apply C|lia|]. intros X. apply N in X. lia. Qed.

Ltac bytes := unfold bytes_ok; repeat (constructor; [unfold byte_ok; lia|]); constructor.
Lemma const_has h i l : consts h -> (i < 7)%nat -> nth_error module_consts i = Some l -> bytes_ok l -> has h (Ref i) l.
Proof. intros C I E O. split; [cbn; now rewrite C|exact O]. Qed.

Lemma zero_arg_sim h x p : arep h x p -> psim h (h_zero_arg x) (Ok tt) (fun _ _ _ => True).
Proof.
  intros A. pose proof (arep_buf _ _ _ A) as B. unfold h_zero_arg. destruct (as_buf x) as [v|].
  - destruct p; try contradiction. pose proof (zero_fill_sim h v b B) as Z. unfold psim, sim in *. destruct (h_zero_fill v h) as [[y|e] h']; destruct Z as [K Z]; auto.
  - now apply p_ret.
Qed.
Definition newc (n : nat) (c : hcipher) : Prop := all_new n (hc_keys c).
Lemma base_init_sim h alg x p : arep h x p ->
  psim h (h_base_init alg x) (base_init alg p) (fun h' c co => crep h' c co /\ newc (List.length h) c /\ co_ok co).
Proof.
  intros A. pose proof (arep_buf _ _ _ A) as B. unfold psim, h_base_init, base_init. cbv zeta.
  destruct (negb _) eqn:T.
  { eapply sim_call_l; [now apply (zero_arg_sim _ _ p)|lia|]. intros. apply sim_raise. }
  assert (G : sim (List.length h) [] h (match as_buf x with Some v => let! n := h_len v in retM (n =? _KEY_SIZE_13) | None => retM false end)
                (Ok (check_value p _KEY_SIZE_13)) (fun h' a b => h' = h /\ a = b)).
  { destruct (as_buf x) as [v|], p; try contradiction; try (apply sim_ret; now split).
    eapply s_len; [exact B|]. apply sim_ret. split; [reflexivity|]. cbn. now destruct (len b =? _KEY_SIZE_13). }
  eapply sim_bind_l; [exact G|]. intros h' ok _ [-> ->]. clear G.
  destruct (negb (check_value p _KEY_SIZE_13)) eqn:CK.
  { eapply sim_call_l; [now apply (zero_arg_sim _ _ p)|lia|]. intros. apply sim_raise. }
  assert (CE : check_value p _KEY_SIZE_13 = true) by (destruct (check_value p _KEY_SIZE_13); [reflexivity|discriminate]).
  destruct (as_buf x) as [v|], p as [k| | |]; try contradiction; try discriminate.
  destruct alg as [|a| |]; try discriminate.
  assert (KL : bytes_len 32 k).
  { split; [|apply B]. cbn in CE. destruct (len k =? _KEY_SIZE_13) eqn:E; [|discriminate]. unfold _KEY_SIZE_13 in E. lia. }
  destruct (String.eqb a "kuznechik").
  - destruct (kuz_new k) as [ks|e] eqn:E; [|destruct (kuz_new_total k KL); congruence].
    pose proof (kuz_new_sim h v k B) as P. rewrite E in P. rewrite <- (bind_ok (let* keys := Ok ks in Ok (KuzObj keys))). cbn [bind].
    eapply sim_call_l; [exact P|lia|]. intros h' vs _ [V N]. apply sim_ret. split; [exact V|]. split; [exact N|]. eapply kuz_new_good; eassumption.
  - destruct (magma_new k) as [ks|e] eqn:E; [|destruct (magma_new_total k KL); congruence].
    pose proof (magma_new_sim h v k B) as P. rewrite E in P. rewrite <- (bind_ok (let* keys := Ok ks in Ok (MagmaObj keys))). cbn [bind].
    eapply sim_call_l; [exact P|lia|]. intros h' vs _ [V N]. apply sim_ret. split; [exact V|]. split; [exact N|]. eapply magma_new_good; eassumption.
Qed.
Lemma clear_raise {A B} n h c co e (Q : heap -> A -> B -> Prop) : crep h c co -> co_ok co -> (n <= List.length h)%nat ->
  sim n [] h (let! _ := hc_clear c in raiseM e) (Err e) Q.
Proof.
  intros C O N. pose proof (hc_clear_sim _ _ _ C) as P. destruct (co_clear_ok _ O) as (c' & E & _). rewrite E in P.
  eapply sim_call_l; [exact P|exact N|]. intros. apply sim_raise.
Qed.
Lemma padding_init_sim h alg x p pm : arep h x p ->
  psim h (h_padding_init alg x pm) (padding_init alg p pm) (fun h' '(c, a) '(co, b) => a = b /\ crep h' c co /\ newc (List.length h) c /\ co_ok co).
Proof.
  intros A. unfold psim, h_padding_init, padding_init.
  eapply sim_call; [now apply (base_init_sim _ _ _ p)|lia|]. intros h1 c co S (C & N & O). pose proof (same_len _ _ S).
  destruct pm as [| |z|]; try (eapply clear_raise; eauto; lia).
  destruct (_ || _); [|eapply clear_raise; eauto; lia]. apply sim_ret. auto.
Qed.
Lemma keys_lt h c co k : crep h c co -> In (Ref k) (hc_keys c) -> (k < List.length h)%nat.
Proof.
  assert (G : forall vs ls, has_all h vs ls -> In (Ref k) vs -> (k < List.length h)%nat).
  { intros vs ls A. induction A as [|v l vs ls V A IH]; [intros []|]. intros [->|I]; [now apply has_lt in V|now apply IH]. }
  destruct c, co; cbn; try contradiction; apply G.
Qed.
Definition newer_than_keys (c : hcipher) (v : buf) : Prop := exists a, v = Ref a /\ forall k, In (Ref k) (hc_keys c) -> (k < a)%nat.
Lemma feedback_init_sim h alg x p y q : arep h x p -> arep h y q ->
  psim h (h_feedback_init alg x y) (feedback_init alg p q)
    (fun h' '(c, v) '(co, l) => crep h' c co /\ newc (List.length h) c /\ co_ok co /\ newer_than_keys c v /\ newer (List.length h) v /\ has h' v l).
Proof.
  intros A A2. unfold psim, h_feedback_init, feedback_init.
  eapply sim_call; [now apply (base_init_sim _ _ _ p)|lia|]. intros h1 c co S (C & N & O). pose proof (same_len _ _ S).
  apply (arep_same _ _ _ _ S) in A2. pose proof (arep_buf _ _ _ A2) as B. destruct (as_buf y) as [v|], q as [l| | |]; try contradiction; try (eapply clear_raise; eauto; lia).
  eapply s_len; [exact B|]. rewrite (crep_bs _ _ _ C). destruct (negb _); [eapply clear_raise; eauto; lia|].
  eapply s_bytearray; [lia|exact B|]. intros h2 a S2 L2 I2 _. apply sim_ret. conj; auto; [now apply (crep_same h1)| |cbn; lia].
  exists a. split; [reflexivity|]. intros k K. pose proof (keys_lt _ _ _ _ C K). lia.
Qed.
Lemma ctr_init_sim h alg x p y q : arep h x p -> arep h y q ->
  psim h (h_ctr_init alg x y) (ctr_init alg p q)
    (fun h' '(c, v, w) '(co, l, m) => crep h' c co /\ newc (List.length h) c /\ co_ok co /\ newer_than_keys c v /\ newer (List.length h) v /\ has h' v l /\
       newer_than_keys c w /\ newer (List.length h) w /\ has h' w m /\ v <> w /\ len m = co_block_size co).
Proof.
  intros A A2. unfold psim, h_ctr_init, ctr_init.
  eapply sim_call; [now apply (base_init_sim _ _ _ p)|lia|]. intros h1 c co S (C & N & O). pose proof (same_len _ _ S).
  apply (arep_same _ _ _ _ S) in A2. pose proof (arep_buf _ _ _ A2) as B. destruct (as_buf y) as [v|], q as [l| | |]; try contradiction; try (eapply clear_raise; eauto; lia).
  eapply s_len; [exact B|]. rewrite (crep_bs _ _ _ C). destruct (negb _) eqn:E; [eapply clear_raise; eauto; lia|].
  eapply s_bytearray; [lia|exact B|]. intros h2 a S2 L2 I2 _. carry S2.
  eapply s_add; [lia|exact B|apply has_imm; auto|]. intros h3 w S3 W3 N3. carry S3.
  eapply s_bytearray; [lia|exact W3|]. intros h4 b S4 L4 I4 D4. pose proof (D4 _ _ I2) as DAB. carry S4. apply sim_ret.
  assert (C' : crep h4 c co) by eauto using crep_same.
  conj; auto; [|cbn; lia| |cbn; lia|].
  - exists a. split; [reflexivity|]. intros k K. pose proof (keys_lt _ _ _ _ C K). lia.
  - exists b. split; [reflexivity|]. intros k K. pose proof (keys_lt _ _ _ _ C K). lia.
  - destruct co; cbn [co_block_size] in *; unfold _BLOCK_SIZE_KUZNECHIK, _BLOCK_SIZE_MAGMA in *; unfold len in *; rewrite app_length; unfold py_repeat; rewrite repeat_length; lia.
Qed.
Lemma cbc_init_sim h alg x p y q pm : arep h x p -> arep h y q ->
  psim h (h_cbc_init alg x y pm) (cbc_init alg p q pm)
    (fun h' '(c, a, v) '(co, b, l) => a = b /\ crep h' c co /\ newc (List.length h) c /\ co_ok co /\ newer_than_keys c v /\ newer (List.length h) v /\ has h' v l).
Proof.
  intros A A2. unfold psim, h_cbc_init, cbc_init.
  eapply sim_call; [now apply (padding_init_sim _ _ _ p)|lia|]. intros h1 [c0 a] [co0 b] S (E & _). pose proof (same_len _ _ S).
  eapply sim_call; [apply (feedback_init_sim _ _ _ p _ q); eapply arep_same; eassumption|lia|].
  intros h2 [c v] [co l] S2 (C & N & O & K & NV & V). apply sim_ret. conj; auto.
  - unfold newc, all_new in *. eapply Forall_impl; [|exact N]. intros u U. eapply newer_le; [|exact U]. lia.
  - eapply newer_le; [|exact NV]. lia.
Qed.

Lemma mac_double_sim h bs vb b v l : has h vb b -> has h v l -> psim h (h_mac_double bs vb v) (mac_double bs b l) (fresh h).
Proof.
  intros B V. unfold psim, h_mac_double, mac_double. eapply s_rd; [exact V|]. apply sim_lift. intros m _. destruct (m =? 0).
  - eapply sim_tail; [apply int_to_bytearray_sim|lia|]. auto.
  - eapply sim_call_l; [apply int_to_bytearray_sim|lia|]. intros h1 x S1 X. carry S1.
    eapply sim_tail; [apply add_xor_sim; [eapply fresh_has, X|exact B]|lia|]. intros h2 y m' S2 Y. eapply fresh_le; [|exact Y]. lia.
Qed.
Lemma get_mac_key_sim h bs v l : consts h -> has h v l ->
  psim h (h_get_mac_key bs v) (_get_mac_key bs l) (fun h' '(a, b) '(x, y) => has h' a x /\ has h' b y /\ newer (List.length h) a /\ newer (List.length h) b).
Proof.
  intros K V. unfold psim, h_get_mac_key, _get_mac_key. cbv zeta.
  assert (B : has h (if bs =? 16 then Ref a_B_128 else if bs =? 8 then Ref a_B_64 else Imm []) (if bs =? 16 then _B_128 else if bs =? 8 then _B_64 else [])).
  { destruct (bs =? 16); [|destruct (bs =? 8)].
    - apply const_has; [exact K|unfold a_B_128; lia|reflexivity|unfold _B_128; bytes].
    - apply const_has; [exact K|unfold a_B_64; lia|reflexivity|unfold _B_64; bytes].
    - apply has_imm. constructor. }
  eapply sim_call; [now apply mac_double_sim|lia|]. intros h1 a x S1 X. pose proof (fresh_has _ _ _ _ X) as HX. carry S1.
  eapply sim_call; [now apply mac_double_sim|lia|]. intros h2 b y S2 Y. carry S2. apply sim_ret. conj; auto.
  - now apply fresh_has in Y.
  - now apply fresh_newer in X.
  - apply fresh_newer in Y. eapply newer_le; [|exact Y]. lia.
Qed.

Definition mnew (n : nat) (s : hcm_obj) : Prop := forall a, In a (mfoot s) -> (n <= a)%nat.
Lemma consts_len h : consts h -> (7 <= List.length h)%nat.
Proof. intros C. assert (L : (6 < List.length h)%nat); [|lia]. apply nth_error_Some. rewrite C by lia. discriminate. Qed.
Lemma newer_all_from n vs : all_new n vs -> Forall (from [] n) vs.
Proof. intros A. eapply Forall_impl; [|exact A]. intros [l|a] N; cbn in *; auto. Qed.
Lemma mac_init_sim h alg x p y q : consts h -> arep h x p -> arep h y q ->
  psim h (hcm_init alg x y) (mac_init alg p q) (fun h' s m => mrep h' s m /\ mnew (List.length h) s).
Proof.
  intros K A A2. unfold psim, hcm_init, mac_init. pose proof (consts_len _ K) as L7.
  eapply sim_call; [now apply (base_init_sim _ _ _ p)|lia|]. intros h1 c co S1 (C & N & O). pose proof (same_len _ _ S1).
  apply (arep_same _ _ _ _ S1) in A2. apply (consts_same _ _ L7 S1) in K. rewrite (crep_bs _ _ _ C). set (bs := co_block_size co). clearbody bs.
  apply s_alloc; [lia|apply bytes_ok_repeat; unfold byte_ok; lia|]. intros h2 z S2 L2 Z _. carry S2.
  apply (arep_same _ _ _ _ S2) in A2. apply consts_same with (h' := h2) in K; [|lia|exact S2]. apply (crep_same _ _ _ _ S2) in C.
  eapply sim_call; [apply hc_encrypt_sim; eassumption|lia|]. intros h3 r rl S3 FR. pose proof (fresh_has _ _ _ _ FR) as HR. carry S3.
  apply (arep_same _ _ _ _ S3) in A2. apply consts_same with (h' := h3) in K; [|lia|exact S3]. apply (crep_same _ _ _ _ S3) in C.
  eapply sim_call; [apply get_mac_key_sim; eassumption|lia|]. intros h4 [k1 k2] [l1 l2] S4 (Hk1 & Hk2 & N1 & N2). carry S4.
  apply (arep_same _ _ _ _ S4) in A2. apply (crep_same _ _ _ _ S4) in C. cbv zeta.
  apply s_alloc; [lia|constructor|]. intros h5 fb S5 L5 FB _. carry S5. apply (arep_same _ _ _ _ S5) in A2. apply (crep_same _ _ _ _ S5) in C.
  apply s_alloc; [lia|constructor|]. intros h6 ib S6 L6 IB _. carry S6. apply (arep_same _ _ _ _ S6) in A2. apply (crep_same _ _ _ _ S6) in C.
  apply s_alloc; [lia|apply bytes_ok_repeat; unfold byte_ok; lia|]. intros h7 pm S7 L7' PM _. carry S7. apply (arep_same _ _ _ _ S7) in A2. apply (crep_same _ _ _ _ S7) in C.
  apply s_alloc; [lia|apply bytes_ok_repeat; unfold byte_ok; lia|]. intros h8 cm S8 L8 CM _. carry S8. apply (arep_same _ _ _ _ S8) in A2. apply (crep_same _ _ _ _ S8) in C.
  set (s := {| hcm_cipher := c |}). set (o := {| m_cipher := co |}).
  assert (Y : mrep h8 s o) by (constructor; assumption).
  assert (X : MRel [] (List.length h) h8 s o).
  { split; [exact Y|]. split; [|lia]. apply newer_all_from. apply Forall_app. split; [|exact N]. unfold mfields, s; cbn.
    repeat (constructor; [first [cbn; lia | eapply newer_le; [|eassumption]; lia]|]). constructor. }
  assert (MN : forall h' s' o', MRel [] (List.length h) h' s' o' -> mnew (List.length h) s').
  { intros h' s' o' (_ & Fr & _) a I. destruct (in_refs_from _ _ _ _ Fr I) as [[]|]; assumption. }
  pose proof (arep_buf _ _ _ A2) as B.
  assert (FIN : sim (List.length h) [] h8 (fun h0 => match hcm_update y (s, h0) with (Ok _, (s', h')) => (Ok s', h') | (Err e, (_, h')) => (Err e, h') end)
                  (match mac_update q o with (Ok _, o') => Ok o' | (Err e, _) => Err e end) (fun h' s m => mrep h' s m /\ mnew (List.length h) s)).
  { pose proof (mac_update_msim [] (List.length h) h8 s o y q X A2) as U. unfold msim, sim in *.
    destruct (hcm_update y (s, h8)) as [[u|e] [s' h']], (mac_update q o) as [[u'|e'] o']; destruct U as (U1 & U2 & U3); try contradiction.
    - split; [eapply keeps_le; [|exact U1]; lia|]. split; [apply U2|eapply MN, U2].
    - split; [eapply keeps_le; [|exact U1]; lia|exact U3]. }
  destruct (as_buf y) as [v|].
  - destruct q as [l| | |]; try contradiction.
    apply s_assoc. eapply s_len; [exact B|]. apply s_ret_l. destruct l as [|z0 l].
    + cbn [len]. apply sim_ret. split; [exact Y|eapply MN, X].
    + replace (len (z0 :: l) =? 0) with false by (unfold len; cbn [List.length]; lia). exact FIN.
  - apply s_ret_l. destruct q; try contradiction; exact FIN.
Qed.

(** What [new] returns. *)
Definition nrep (h : heap) (x : hnew_obj) (y : new_obj) : Prop :=
  match x, y with
  | HNewMode s, NewMode o => hrep h s o
  | HNewMac s, NewMac m => mrep h s m
  | _, _ => False
  end.
Definition nfoot (x : hnew_obj) : list nat := match x with HNewMode s => foot s | HNewMac s => mfoot s end.
Definition orep (h : heap) (x : option arg) (y : option pyval) : Prop :=
  match x, y with Some x, Some y => arep h x y | None, None => True | _, _ => False end.
Record kwrep (h : heap) (k : hkwargs) (v : kwargs) : Prop := {
  kr_init_vect : orep h (hkw_init_vect k) (kw_init_vect v);
  kr_data : orep h (hkw_data k) (kw_data v);
  kr_pad_mode : hkw_pad_mode k = kw_pad_mode v
}.

Lemma refs_new n vs a : all_new n vs -> In a (refs vs) -> (n <= a)%nat.
Proof. intros A I. apply in_refs in I. exact (proj1 (Forall_forall _ _) A _ I). Qed.
Lemma ntk_outside c v : newer_than_keys c v -> forall k, In (Ref k) (hc_keys c) -> v <> Ref k.
Proof. intros (a & -> & L) k K [= ->]. apply L in K. lia. Qed.
Lemma keys_outside c vs : (forall v, In v vs -> forall k, In (Ref k) (hc_keys c) -> v <> Ref k) -> Forall (outside (refs vs)) (hc_keys c).
Proof.
  intros D. apply Forall_forall. intros [l|k] I; [exact Logic.I|]. cbn. intros X. apply in_refs in X. exact (D _ X k I eq_refl).
Qed.

Lemma new_sim h alg key p mode kw kv : consts h -> arep h key p -> kwrep h kw kv ->
  psim h (h_new alg key mode kw) (new alg p mode kv) (fun h' x y => nrep h' x y /\ forall a, In a (nfoot x) -> (List.length h <= a)%nat).
Proof.
  intros K A [KI KD KP]. unfold psim, h_new, new. cbv zeta.
  assert (UN : sim (List.length h) [] h (let! _ := h_zero_arg key in raiseM (GOSTCipherError "GOSTCipherError: unsupported cipher mode"))
                 (Err (GOSTCipherError "GOSTCipherError: unsupported cipher mode")) (fun h' x y => nrep h' x y /\ forall a, In a (nfoot x) -> (List.length h <= a)%nat)).
  { eapply sim_call_l; [now apply (zero_arg_sim _ _ p)|lia|]. intros. apply sim_raise. }
  assert (IV : forall i l, (i < 7)%nat -> nth_error module_consts i = Some l -> bytes_ok l -> arep h (hkw_get (hkw_init_vect kw) (ABuf i)) (kw_get (kw_init_vect kv) (VBytes l))).
  { intros i l I E O. unfold orep in KI. destruct (hkw_init_vect kw), (kw_init_vect kv); cbn [hkw_get kw_get]; try contradiction; [exact KI|].
    exists l. split; [reflexivity|]. now apply const_has. }
  assert (IV2 : forall (b : bool) i l j m, (i < 7)%nat -> (j < 7)%nat -> nth_error module_consts i = Some l -> nth_error module_consts j = Some m -> bytes_ok l -> bytes_ok m ->
    arep h (if b then hkw_get (hkw_init_vect kw) (ABuf i) else hkw_get (hkw_init_vect kw) (ABuf j)) (if b then kw_get (kw_init_vect kv) (VBytes l) else kw_get (kw_init_vect kv) (VBytes m))).
  { intros [] *; intros; apply IV; assumption. }
  assert (PM : hkw_get (hkw_pad_mode kw) (VInt PAD_MODE_1) = kw_get (kw_pad_mode kv) (VInt PAD_MODE_1)) by (rewrite KP; reflexivity).
  destruct mode as [| |mode|]; try exact UN. rewrite PM.
  destruct (mode =? MODE_ECB).
  { eapply sim_call; [now apply (padding_init_sim _ _ _ p)|lia|]. intros h1 [c a] [co b] S (-> & C & N & _). apply sim_ret. split.
    - constructor; cbn; auto; try (apply has_imm; constructor); [discriminate|]. apply (keys_outside c [Imm []; Imm []]). intros v [<-|[<-|[]]]; discriminate.
    - intros i I. now apply (refs_new _ _ _ N). }
  assert (FEED : forall c co v l h1 mc pm, match mc with CBC | CFB | OFB => True | _ => False end -> crep h1 c co -> newc (List.length h) c -> newer_than_keys c v -> newer (List.length h) v -> has h1 v l ->
    nrep h1 (HNewMode {| h_class := mc; h_cipher := c; h_pad_mode := pm; h_init_vect := v; h_counter := Imm [] |})
            (NewMode {| o_class := mc; o_cipher := co; o_pad_mode := pm; o_init_vect := l; o_counter := [] |}) /\
    (forall a, In a (nfoot (HNewMode {| h_class := mc; h_cipher := c; h_pad_mode := pm; h_init_vect := v; h_counter := Imm [] |})) -> (List.length h <= a)%nat)).
  { intros c co v l h1 mc pm M C N NK NV V. split.
    - constructor; cbn; auto; [apply has_imm; constructor|discriminate| |].
      + apply (keys_outside c [v; Imm []]). intros w [<-|[<-|[]]]; [now apply ntk_outside|discriminate].
      + destruct NK as (a & E & _). destruct mc; try contradiction; eauto.
    - intros i I. apply in_app_or in I. destruct I as [I|I]; [|now apply (refs_new _ _ _ N)].
      apply (refs_new (List.length h) [v; Imm []]); [|exact I]. repeat constructor; assumption. }
  destruct (mode =? MODE_CBC).
  { eapply sim_call; [eapply cbc_init_sim; [exact A|apply IV2; first [unfold a_IV_CBC_MAGMA, a_IV_KUZNECHIK; lia | reflexivity | bytes]]|lia|].
    intros h1 [[c a] v] [[co b] l] S (-> & C & N & _ & NK & NV & V). apply sim_ret. now apply FEED. }
  destruct (mode =? MODE_CFB).
  { eapply sim_call; [eapply feedback_init_sim; [exact A|apply IV2; first [unfold a_IV_MAGMA, a_IV_KUZNECHIK; lia | reflexivity | bytes]]|lia|].
    intros h1 [c v] [co l] S (C & N & _ & NK & NV & V). apply sim_ret. now apply FEED. }
  destruct (mode =? MODE_OFB).
  { eapply sim_call; [eapply feedback_init_sim; [exact A|apply IV2; first [unfold a_IV_MAGMA, a_IV_KUZNECHIK; lia | reflexivity | bytes]]|lia|].
    intros h1 [c v] [co l] S (C & N & _ & NK & NV & V). apply sim_ret. now apply FEED. }
  destruct (mode =? MODE_CTR).
  { eapply sim_call; [eapply ctr_init_sim; [exact A|apply IV2; first [unfold a_IV_CTR_MAGMA, a_IV_CTR_KUZNECHIK; lia | reflexivity | bytes]]|lia|].
    intros h1 [[c v] w] [[co l] m] S (C & N & _ & NK & NV & V & NK2 & NW & Hw & D & L). apply sim_ret. split.
    - constructor; cbn; auto; [congruence| |].
      + apply (keys_outside c [v; w]). intros u [<-|[<-|[]]]; now apply ntk_outside.
      + destruct NK2 as (a & E & _). eauto.
    - intros i I. apply in_app_or in I. destruct I as [I|I]; [|now apply (refs_new _ _ _ N)].
      apply (refs_new (List.length h) [v; w]); [|exact I]. constructor; [assumption|constructor; [assumption|constructor]]. }
  destruct (mode =? MODE_MAC); [|exact UN].
  assert (D : arep h (hkw_get (hkw_data kw) (AVal (VBytes []))) (kw_get (kw_data kv) (VBytes []))).
  { unfold orep in KD. destruct (hkw_data kw), (kw_data kv); cbn [hkw_get kw_get]; try contradiction; [exact KD|]. split; [reflexivity|constructor]. }
  eapply sim_call; [eapply mac_init_sim; eassumption|lia|]. intros h1 s m S [Y N]. apply sim_ret. split; [exact Y|exact N].
Qed.
