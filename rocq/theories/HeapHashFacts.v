(** * The objects of HeapHash.v behave like those of Streebog.v and Random.v *)
From Verif Require Import PyBase PyState PyFacts Utils UtilsFacts Oid StreebogTables Streebog Random CipherObj Modes Mac Heap HeapLogic HeapCipher HeapCipherFacts HeapModes HeapModesLogic HeapModesFacts HeapMacFacts HeapWorld HeapWorldFacts AliasLemmas HeapObjects HeapHash.
Open Scope string_scope.
Open Scope list_scope.
Open Scope Z_scope.

(** ** The constants of the module *)
Notation hconsts := (constsK hash_consts).
Lemma hash_consts_ok : Forall bytes_ok hash_consts.
Proof.
  assert (E : forallb (forallb (fun x => (0 <=? x) && (x <? 256))) hash_consts = true) by (vm_compute; reflexivity).
  apply Forall_forall. intros l L. apply Forall_forall. intros x X. rewrite forallb_forall in E. specialize (E l L). rewrite forallb_forall in E. specialize (E x X). unfold byte_ok. lia.
Qed.
Lemma hash_consts_len : List.length hash_consts = 14%nat.
Proof. reflexivity. Qed.
Lemma hconst_has h i l : hconsts h -> nth_error hash_consts i = Some l -> has h (Ref i) l.
Proof.
  intros C E. assert (L : (i < List.length hash_consts)%nat) by (apply nth_error_Some; congruence).
  split; [cbn; now rewrite C|]. eapply (proj1 (Forall_forall _ _) hash_consts_ok), nth_error_In, E.
Qed.
Lemma at_C_has h : hconsts h -> has_all h at_C _C.
Proof.
  intros C. assert (G : forall ls n, (forall j l, nth_error ls j = Some l -> nth_error hash_consts (n + j) = Some l) -> has_all h (map Ref (seq n (List.length ls))) ls).
  { induction ls as [|l ls IH]; intros n E; [constructor|]. cbn [List.length seq map]. constructor.
    - apply hconst_has; [exact C|]. specialize (E 0%nat l eq_refl). now rewrite Nat.add_0_r in E.
    - apply IH. intros j x N. specialize (E (S j) x N). now rewrite Nat.add_succ_r in E. }
  apply (G _C 2%nat). intros j l N. exact N.
Qed.
Lemma V_0_has h : hconsts h -> has h at_V_0 _V_0.
Proof. intros C. now apply hconst_has. Qed.
Lemma V_512_has h : hconsts h -> has h at_V_512 _V_512.
Proof. intros C. now apply hconst_has. Qed.

(** ** The functions *)
Lemma s_pure {A B C} n W h (m : M heap C) (r : res C) (k : C -> M heap A) (f : C -> res B) Q : m h = (r, h) ->
  (forall c, r = Ok c -> sim n W h (k c) (f c) Q) -> sim n W h (bindM m k) (bind r f) Q.
Proof.
  intros E H. unfold sim, bindM, bind. rewrite E. destruct r as [c|e]; [exact (H c eq_refl)|]. split; [apply keeps_refl|reflexivity].
Qed.
Lemma t_get_pure h v b j k : has h v b -> hs_t_get v j k h = (t_get b j k, h).
Proof.
  intros [E _]. unfold hs_t_get, t_get, h_get, bindM, liftM, rd, bind. destruct (py_get _T j) as [row|e]; [|reflexivity]. rewrite E.
  destruct (py_get b k) as [d|e]; reflexivity.
Qed.
Lemma lps_word_pure h v b k0 k1 k2 k3 k4 k5 k6 k7 : has h v b -> hs_lps_word v k0 k1 k2 k3 k4 k5 k6 k7 h = (lps_word b k0 k1 k2 k3 k4 k5 k6 k7, h).
Proof.
  intros H. unfold hs_lps_word, lps_word, bindM.
  rewrite (t_get_pure h v b 0 k0 H). destruct (t_get b 0 k0); [|reflexivity].
  rewrite (t_get_pure h v b 1 k1 H). destruct (t_get b 1 k1); [|reflexivity].
  rewrite (t_get_pure h v b 2 k2 H). destruct (t_get b 2 k2); [|reflexivity].
  rewrite (t_get_pure h v b 3 k3 H). destruct (t_get b 3 k3); [|reflexivity].
  rewrite (t_get_pure h v b 4 k4 H). destruct (t_get b 4 k4); [|reflexivity].
  rewrite (t_get_pure h v b 5 k5 H). destruct (t_get b 5 k5); [|reflexivity].
  rewrite (t_get_pure h v b 6 k6 H). destruct (t_get b 6 k6); [|reflexivity].
  rewrite (t_get_pure h v b 7 k7 H). destruct (t_get b 7 k7); reflexivity.
Qed.
Lemma to_bytes_ok x w : to_bytes_8_little x = Ok w -> bytes_ok w.
Proof. unfold to_bytes_8_little. destruct ((0 <=? x) && (x <? 2 ^ 64)); intros E; [|discriminate]. assert (G : rev (int_to_bytearray x 8) = w) by congruence. subst w. apply Forall_rev, int_to_bytearray_ok. Qed.
Lemma lps_word_ok b k0 k1 k2 k3 k4 k5 k6 k7 w : lps_word b k0 k1 k2 k3 k4 k5 k6 k7 = Ok w -> bytes_ok w.
Proof.
  unfold lps_word. destruct (t_get b 0 k0); [|discriminate]. destruct (t_get b 1 k1); [|discriminate]. destruct (t_get b 2 k2); [|discriminate]. destruct (t_get b 3 k3); [|discriminate].
  destruct (t_get b 4 k4); [|discriminate]. destruct (t_get b 5 k5); [|discriminate]. destruct (t_get b 6 k6); [|discriminate]. destruct (t_get b 7 k7); [|discriminate].
  cbn [bind]. apply to_bytes_ok.
Qed.
Lemma s_set_from {A B} n W h a l i w (k : unit -> M heap A) (r : res B) Q : (n <= a \/ In a W)%nat -> has h (Ref a) l -> bytes_ok w ->
  (forall h', has h' (Ref a) (set_from l i w) -> (forall v l0, has h v l0 -> v <> Ref a -> has h' v l0) -> List.length h' = List.length h -> sim n W h' (k tt) r Q) ->
  sim n W h (bindM (hs_set_from (Ref a) i w) k) r Q.
Proof.
  intros N H Ow C. unfold hs_set_from. apply s_assoc. eapply s_len; [exact H|]. cbv beta. eapply s_slice_set; [exact N|exact H|apply has_imm, Ow|exact C].
Qed.

Lemma lps_sim h v b : has h v b -> psim h (hs_lps v) (_hash_lps b) (fresh h).
Proof.
  intros H. unfold psim, hs_lps, _hash_lps. set (n := List.length h). cbv zeta.
  apply s_alloc; [unfold n; lia|apply bytes_ok_repeat; unfold byte_ok; lia|]. intros h1 a S1 La Hr N. others N. carry S1. generalize dependent (py_repeat 0 _BLOCK_SIZE). intros r Hr.
  do 8 (eapply s_pure; [apply lps_word_pure; eassumption|]; let w := fresh "w" in let E := fresh "E" in let h' := fresh "h" in let X := fresh "X" in let Kk := fresh "K" in
    intros w E; cbv beta; eapply s_set_from; [left; exact La|exact Hr|eapply lps_word_ok, E|]; clear E; cbv beta; intros h' X Kk _; carry_wr Kk; clear Hr Kk; rename X into Hr;
    match type of Hr with has _ _ ?l => generalize dependent l; let l := fresh "r" in intros l Hr end).
  apply sim_ret. exists a. auto.
Qed.

Lemma add_512_sim h va a vb b : has h va a -> has h vb b -> psim h (hs_add_512 va vb) (_hash_add_512 a b) (fresh h).
Proof.
  intros Ha Hb. unfold psim, hs_add_512, _hash_add_512. set (n := List.length h).
  eapply s_bytearray; [unfold n; lia|exact Ha|]. intros h1 p S1 Lp Hp N1. others N1. carry S1.
  eapply s_bytearray; [unfold n; lia|exact Hb|]. intros h2 q S2 Lq Hq N2. others N2. carry S2.
  apply s_alloc; [unfold n; lia|apply bytes_ok_repeat; unfold byte_ok; lia|]. intros h3 t S3 Lt Ht N3. others N3. carry S3.
  eapply sim_bind.
  - apply (sim_for _ _ (fun h' (c : Z) (cr : Z * bytes) => has h' (Ref p) a /\ has h' (Ref q) b /\ has h' (Ref t) (snd cr) /\ c = fst cr)); [auto|].
    intros i h' c [c' r] _ (Xa & Xb & Xr & Ec). cbn [fst snd] in *. subst c'.
    eapply s_get; [exact Xa|]. intros x _. eapply s_get; [exact Xb|]. intros y _. cbv beta zeta.
    eapply s_set; [left; unfold n; lia|exact Xr|]. intros h'' l' Rr _ Kk _. carry_wr Kk. apply sim_ret. auto.
  - intros h' c [c' r] _ (_ & _ & Rr & _). apply sim_ret. exists t. split; [reflexivity|]. split; [lia|exact Rr].
Qed.

Lemma get_key_sim h v k i : hconsts h -> has h v k -> psim h (hs_get_key v i) (_hash_get_key k i) (fresh h).
Proof.
  intros C H. unfold psim, hs_get_key, _hash_get_key. eapply s_getk; [apply at_C_has, C|]. intros c cl Hc. cbv beta.
  call_l add_xor_sim. tail lps_sim.
Qed.
Lemma e_sim h v k w d : hconsts h -> has h v k -> has h w d -> psim h (hs_e v w) (_hash_e k d) (fresh h).
Proof.
  intros C H Hd. unfold psim, hs_e, _hash_e. call_l add_xor_sim. pose proof (constsK_same _ _ _ S C) as C0.
  set (Inv := fun h' (p : buf * buf) (q : bytes * bytes) => (List.length h <= List.length h')%nat /\ hconsts h' /\ has h' (fst p) (fst q) /\ fresh h h' (snd p) (snd q)).
  eapply (sim_bind _ _ _ _ _ _ _ Inv).
  - apply (sim_for _ _ Inv).
    + unfold Inv. cbn [fst snd]. auto.
    + clear. intros i h0 [kv iv] [kl il] _ (L & C & X & Y). cbn [fst snd] in *. pose proof (fresh_has _ _ _ _ Y) as Yh.
      eapply sim_call; [apply lps_sim, Yh|lia|]. intros h1 v1 l1 S1 F1. carry S1. pose proof (constsK_same _ _ _ S1 C) as C1. pose proof (fresh_has _ _ _ _ F1) as G1.
      eapply sim_call; [apply get_key_sim; [exact C1|exact X]|lia|]. intros h2 v2 l2 S2 F2. carry S2. pose proof (constsK_same _ _ _ S2 C1) as C2. pose proof (fresh_has _ _ _ _ F2) as G2.
      eapply sim_call_l; [apply add_xor_sim; [exact G1|exact G2]|lia|]. intros h3 v3 S3 F3. carry S3. pose proof (constsK_same _ _ _ S3 C2) as C3.
      apply sim_ret. unfold Inv. cbn [fst snd]. split; [lia|]. split; [exact C3|]. split; [exact G2|]. eapply fresh_le; [|exact F3]. lia.
  - intros h' [kv iv] [kl il] _ (L & _ & _ & Y). apply sim_ret. exact Y.
Qed.
Lemma g_sim h vh lh vn ln vd ld : hconsts h -> has h vh lh -> has h vn ln -> has h vd ld -> psim h (hs_g vh vn vd) (_hash_g lh ln ld) (fresh h).
Proof.
  intros C Hh Hn Hd. unfold psim, hs_g, _hash_g.
  eapply sim_call_l; [apply add_xor_sim; [exact Hn|exact Hh]|lia|]. intros h1 v1 S1 F1. carry S1. pose proof (constsK_same _ _ _ S1 C) as C1. pose proof (fresh_has _ _ _ _ F1) as G1.
  eapply sim_call; [apply lps_sim, G1|lia|]. intros h2 v2 l2 S2 F2. carry S2. pose proof (constsK_same _ _ _ S2 C1) as C2. pose proof (fresh_has _ _ _ _ F2) as G2.
  eapply sim_call; [apply e_sim; [exact C2|exact G2|exact Hd]|lia|]. intros h3 v3 l3 S3 F3. carry S3. pose proof (fresh_has _ _ _ _ F3) as G3.
  eapply sim_call_l; [apply add_xor_sim; [exact G3|exact Hh]|lia|]. intros h4 v4 S4 F4. carry S4. pose proof (fresh_has _ _ _ _ F4) as G4.
  eapply sim_tail; [apply add_xor_sim; [exact G4|exact Hd]|lia|]. intros h5 v5 l5 _ F5. eapply fresh_le; [|exact F5]. lia.
Qed.

(** ** Hash objects *)
Definition hsfields (s : hs_obj) : list buf := [hs_buff s; hs_hash_h s; hs_hash_n s; hs_hash_sigma s].
Definition hsfoot (s : hs_obj) : list nat := refs (hsfields s).

Record hsrep (h : heap) (s : hs_obj) (o : hash_obj) : Prop := {
  sr_name : hs_name s = h_name o;
  sr_buff : has h (hs_buff s) (h_buff o);
  sr_num_block : hs_num_block s = h_num_block o;
  sr_pad : hs_pad_block_size s = h_pad_block_size o;
  sr_h : has h (hs_hash_h s) (h_hash_h o);
  sr_n : has h (hs_hash_n s) (h_hash_n o);
  sr_sigma : has h (hs_hash_sigma s) (h_hash_sigma o);
  sr_oid : hs_oid s = h_oid o;
  sr_ref : exists a, hs_hash_h s = Ref a
}.
Lemma hsrep_same h h' s o : same h h' -> hsrep h s o -> hsrep h' s o.
Proof. intros S []. constructor; eauto using has_same. Qed.

(** The buffers come from [F] or did not exist at the time [n0]. *)
Definition SRel (F : list nat) (n0 : nat) (h : heap) (s : hs_obj) (o : hash_obj) : Prop :=
  hsrep h s o /\ Forall (from F n0) (hsfields s) /\ (n0 <= List.length h)%nat /\ hconsts h.

Lemma hash_init_sim h name oid : hconsts h -> psim h (hs_hash_init name oid) (Ok (_hash_init name oid)) (fun h' => SRel [] (List.length h) h').
Proof.
  intros C. unfold psim, hs_hash_init, _hash_init.
  assert (Z0 : bytes_ok (py_repeat 0 _BLOCK_SIZE)) by (apply bytes_ok_repeat; unfold byte_ok; lia).
  assert (Z1 : bytes_ok (py_repeat 1 _BLOCK_SIZE)) by (apply bytes_ok_repeat; unfold byte_ok; lia).
  apply s_alloc; [lia|constructor|]. intros h1 a1 S1 L1 G1 _. carry S1.
  apply s_alloc; [lia|exact Z0|]. intros h2 a2 S2 L2 G2 _. carry S2.
  apply s_alloc; [lia|exact Z0|]. intros h3 a3 S3 L3 G3 _. carry S3.
  apply s_alloc; [lia|exact Z0|]. intros h4 a4 S4 L4 G4 _. carry S4.
  assert (C4 : hconsts h4) by (eapply constsK_same; [eassumption|]; eapply constsK_same; [eassumption|]; eapply constsK_same; [eassumption|]; eapply constsK_same; eassumption).
  destruct (String.eqb name "streebog256").
  - apply s_alloc; [lia|exact Z1|]. intros h5 a5 S5 L5 G5 _. carry S5. apply sim_ret. split; [|split; [|split; [lia|eapply constsK_same; eassumption]]].
    + constructor; cbn; eauto.
    + unfold hsfields. cbn. repeat (constructor; [cbn; lia|]). constructor.
  - apply s_ret_l. apply sim_ret. split; [|split; [|split; [lia|exact C4]]].
    + constructor; cbn; eauto.
    + unfold hsfields. cbn. repeat (constructor; [cbn; lia|]). constructor.
Qed.

Section Hash.
Context (F : list nat) (n0 : nat).
Notation R := (SRel F n0).

Lemma SRel_same h h' s o : same h h' -> R h s o -> R h' s o.
Proof. intros S (X & A & N & C). pose proof (same_len _ _ S). split; [now apply (hsrep_same h)|]. split; [exact A|]. split; [lia|]. now apply (constsK_same _ h). Qed.
Lemma sfields_of h s o : R h s o -> from F n0 (hs_buff s) /\ from F n0 (hs_hash_h s) /\ from F n0 (hs_hash_n s) /\ from F n0 (hs_hash_sigma s).
Proof.
  intros (_ & A & _). unfold hsfields in A. repeat match goal with H : Forall _ (_ :: _) |- _ => inversion H; clear H; subst end. auto.
Qed.
Lemma fresh_from h h' v l : (n0 <= List.length h)%nat -> fresh h h' v l -> from F n0 v.
Proof. intros L (a & -> & La & _). right. lia. Qed.

(** An attribute is assigned a new buffer. *)
Lemma set_h_rel h h' s o v l : R h' s o -> (n0 <= List.length h)%nat -> fresh h h' v l -> R h' (hs_set_h s v) (set_h o l).
Proof.
  intros X L Fr. pose proof (sfields_of _ _ _ X) as (F1 & F2 & F3 & F4). destruct X as (X & _ & N & C). split; [|split; [|auto]].
  - destruct X. constructor; cbn; auto; [now apply fresh_has in Fr|]. destruct Fr as (a & -> & _). eauto.
  - pose proof (fresh_from _ _ _ _ L Fr). unfold hsfields. cbn. repeat (constructor; [assumption|]). constructor.
Qed.
Lemma set_n_rel h h' s o v l : R h' s o -> (n0 <= List.length h)%nat -> fresh h h' v l -> R h' (hs_set_n s v) (set_n o l).
Proof.
  intros X L Fr. pose proof (sfields_of _ _ _ X) as (F1 & F2 & F3 & F4). destruct X as (X & _ & N & C). split; [|split; [|auto]].
  - destruct X. constructor; cbn; auto; now apply fresh_has in Fr.
  - pose proof (fresh_from _ _ _ _ L Fr). unfold hsfields. cbn. repeat (constructor; [assumption|]). constructor.
Qed.
Lemma set_sigma_rel h h' s o v l : R h' s o -> (n0 <= List.length h)%nat -> fresh h h' v l -> R h' (hs_set_sigma s v) (set_sigma o l).
Proof.
  intros X L Fr. pose proof (sfields_of _ _ _ X) as (F1 & F2 & F3 & F4). destruct X as (X & _ & N & C). split; [|split; [|auto]].
  - destruct X. constructor; cbn; auto; now apply fresh_has in Fr.
  - pose proof (fresh_from _ _ _ _ L Fr). unfold hsfields. cbn. repeat (constructor; [assumption|]). constructor.
Qed.
Lemma set_buff_rel h s o v l : R h s o -> has h v l -> from F n0 v -> R h (hs_set_buff s v) (set_buff o l).
Proof.
  intros X Hv Fv. pose proof (sfields_of _ _ _ X) as (F1 & F2 & F3 & F4). destruct X as (X & _ & N & C). split; [|split; [|auto]].
  - destruct X. constructor; cbn; auto.
  - unfold hsfields. cbn. repeat (constructor; [assumption|]). constructor.
Qed.
Lemma set_pad_rel h s o z : R h s o -> R h (hs_set_pad_block_size s z) (set_pad_block_size o z).
Proof. intros (X & A & NC). split; [|split; [exact A|exact NC]]. destruct X. constructor; cbn; auto. Qed.
Lemma set_num_rel h s o z : R h s o -> R h (hs_set_num_block s z) (set_num_block o z).
Proof. intros (X & A & NC). split; [|split; [exact A|exact NC]]. destruct X. constructor; cbn; auto. Qed.

Notation done := (fun _ _ _ => True).
Lemma step_h_msim h s o vn ln vb lb : R h s o -> has h vn ln -> has h vb lb ->
  msim R (List.length h) [] s h (hs_step_h vn vb) o (step_h ln lb) done.
Proof.
  intros X Hn Hb. unfold hs_step_h, step_h. apply m_get.
  eapply m_call; [apply SRel_same|exact X|apply g_sim; [apply X|apply (sr_h _ _ _ (proj1 X))|exact Hn|exact Hb]|lia|].
  intros h' v l S X' Fr. apply m_put_end; [|exact I]. eapply set_h_rel; [exact X'| |exact Fr]. apply X.
Qed.
Lemma step_n_msim h s o v l : R h s o -> has h v l -> msim R (List.length h) [] s h (hs_step_n v) o (step_n l) done.
Proof.
  intros X Hv. unfold hs_step_n, step_n. apply m_get.
  eapply m_call; [apply SRel_same|exact X|apply add_512_sim; [apply (sr_n _ _ _ (proj1 X))|exact Hv]|lia|].
  intros h' x y S X' Fr. apply m_put_end; [|exact I]. eapply set_n_rel; [exact X'| |exact Fr]. apply X.
Qed.
Lemma step_sigma_msim h s o v l : R h s o -> has h v l -> msim R (List.length h) [] s h (hs_step_sigma v) o (step_sigma l) done.
Proof.
  intros X Hv. unfold hs_step_sigma, step_sigma. apply m_get.
  eapply m_call; [apply SRel_same|exact X|apply add_512_sim; [apply (sr_sigma _ _ _ (proj1 X))|exact Hv]|lia|].
  intros h' x y S X' Fr. apply m_put_end; [|exact I]. eapply set_sigma_rel; [exact X'| |exact Fr]. apply X.
Qed.

Lemma msim_le {S O A B} (Rel : heap -> S -> O -> Prop) n n' W s h (m : M (S * heap) A) o (f : M O B) Q :
  (n' <= n)%nat -> msim Rel n W s h m o f Q -> msim Rel n' W s h m o f Q.
Proof. unfold msim. intros L. destruct (m (s, h)) as [x [s' h']], (f o) as [y o']. intros (K & H). split; [now apply (keeps_le _ n)|exact H]. Qed.
Lemma keeps_same h h' : keeps (List.length h) [] h h' -> same h h'.
Proof. exact (fun H => H). Qed.

Lemma hash_update_msim h s o x p : R h s o -> arep h x p ->
  msim R (List.length h) [] s h (hs_update x) o (hash_update p) done.
Proof.
  intros X A. pose proof (arep_buf _ _ _ A) as B. unfold hs_update, hash_update.
  destruct (as_buf x) as [v|].
  2:{ destruct p; try contradiction; now apply m_raise. }
  destruct p as [d0| | |]; try contradiction. rename B into V. apply m_get. cbv zeta.
  eapply m_call_l; [apply SRel_same|exact X|apply p_add; [apply (sr_buff _ _ _ (proj1 X))|exact V]|lia|].
  intros h1 w S1 X1 [Hw Nw]. set (d := h_buff o ++ d0) in *. clearbody d. pose proof (same_len _ _ S1) as L1.
  eapply m_call_l; [apply SRel_same|exact X1|apply p_len, Hw|lia|]. intros h2 z S2 _ [-> ->].
  apply m_put. pose proof (set_num_rel _ _ _ (len d / _BLOCK_SIZE) X1) as X2. clear X1.
  set (Inv := fun h' (_ _ : unit) => (List.length h1 <= List.length h')%nat /\ has h' w d).
  eapply (m_bind_for _ _ _ _ _ _ _ _ _ _ Inv).
  { apply (m_for _ _ _ Inv); [exact X2|unfold Inv; auto|].
    intros i s' h' o' [] [] _ X' (L & W').
    eapply m_call_l; [apply SRel_same|exact X'|apply p_slice, W'|lia|]. intros h3 b S3 X3 [Hb Nb]. carry S3. apply m_get.
    eapply m_bind; [apply step_h_msim; [exact X3|apply (sr_n _ _ _ (proj1 X3))|exact Hb]|lia|]. intros h4 s4 o4 [] [] K4 X4 _. apply keeps_same in K4. carry K4.
    eapply m_bind; [apply step_n_msim; [exact X4|apply V_512_has, X4]|lia|]. intros h5 s5 o5 [] [] K5 X5 _. apply keeps_same in K5. carry K5.
    eapply m_tail; [apply step_sigma_msim; [exact X5|exact Hb]|lia|]. intros h6 s6 o6 [] [] K6 X6 _. apply keeps_same in K6. carry K6. unfold Inv. split; [lia|assumption]. }
  intros h3 s3 o3 [] [] K3 X3 (L3 & W3). apply m_get.
  eapply m_call_l; [apply SRel_same|exact X3|apply p_len, W3|lia|]. intros h4 z S4 _ [-> ->].
  destruct (_BLOCK_SIZE - len d mod _BLOCK_SIZE <? _BLOCK_SIZE).
  - eapply m_call_l; [apply SRel_same|exact X3|apply p_from, W3|lia|]. intros h5 y S5 X5 [Hy Ny]. apply m_put_end; [|exact I].
    apply set_buff_rel; [now apply set_pad_rel|exact Hy|]. eapply from_newer; [|exact Ny]. apply X3.
  - apply m_put_end; [now apply set_pad_rel|exact I].
Qed.

Lemma final_block_sim h z :
  psim h (hs_final_block z)
    (let* internal := py_set (py_repeat 0 _BLOCK_SIZE) 1 (Z.land (Z.shiftr (z * 8) 8) 0xff) in py_set internal 0 (Z.land (z * 8) 0xff)) (fresh h).
Proof.
  unfold psim, hs_final_block. apply s_alloc; [lia|apply bytes_ok_repeat; unfold byte_ok; lia|]. intros h1 a S1 La Ha N1. pose proof (same_len _ _ S1).
  eapply s_set; [left; lia|exact Ha|]. intros h2 l2 H2 _ _ L2. rewrite <- (bind_ok (py_set l2 _ _)).
  eapply s_set; [left; lia|exact H2|]. intros h3 l3 H3 _ _ L3. apply sim_ret. exists a. auto.
Qed.

Lemma m_lift2 {S O A B C D} (Rel : heap -> S -> O -> Prop) n W s h (m : M (S * heap) A) o (r : res B) (f : B -> res C) (g : C -> M O D) Q :
  msim Rel n W s h m o (bindM (liftM (bind r f)) g) Q -> msim Rel n W s h m o (bindM (liftM r) (fun x => bindM (liftM (f x)) g)) Q.
Proof. unfold msim, bindM, liftM. destruct r as [x|e]; auto. Qed.

Lemma hash_final_msim h s o : R h s o -> msim R (List.length h) [] s h hs_final o hash_final done.
Proof.
  intros X. unfold hs_final, hash_final. apply m_get. cbv zeta. pose proof (proj1 (proj2 (proj2 X))) as N0.
  eapply m_call_l; [apply SRel_same|exact X|apply p_len, (sr_buff _ _ _ (proj1 X))|lia|]. intros h1 z S1 _ [-> ->].
  set (pad := _BLOCK_SIZE - len (h_buff o)). clearbody pad. apply m_put. pose proof (set_pad_rel _ _ _ pad X) as X1.
  apply m_lift2. eapply m_call; [apply SRel_same|exact X1|apply final_block_sim|lia|]. intros h2 iv il S2 X2 Fi. pose proof (same_len _ _ S2) as L2. pose proof (fresh_has _ _ _ _ Fi) as Hi.
  eapply (m_bind_for _ _ _ _ _ _ _ _ _ _ (fun h' (_ _ : unit) => has h' iv il /\ (List.length h2 <= List.length h')%nat)).
  { apply m_get. destruct (pad <=? _BLOCK_SIZE).
    - eapply m_call_l; [apply SRel_same|exact X2|apply p_add; [apply (sr_buff _ _ _ (proj1 X2))|apply has_imm; repeat constructor; unfold byte_ok; lia]|lia|]. intros h3 v S3 X3 [Hv Nv]. carry S3.
      eapply m_call_l; [apply SRel_same|exact X3|apply p_add; [exact Hv|apply has_imm, bytes_ok_repeat; unfold byte_ok; lia]|lia|]. intros h4 v4 S4 X4 [Hv4 Nv4]. carry S4.
      apply m_put_end; [|split; [assumption|lia]]. apply set_buff_rel; [exact X4|exact Hv4|]. eapply from_newer; [|exact Nv4]. lia.
    - apply m_ret; [exact X2|]. auto. }
  intros h3 s3 o3 [] [] _ X3 [Hi3 L3]. apply m_get. pose proof (sr_buff _ _ _ (proj1 X3)) as Hb.
  eapply m_bind; [apply step_h_msim; [exact X3|apply (sr_n _ _ _ (proj1 X3))|exact Hb]|lia|]. intros h4 s4 o4 [] [] K4 X4 _. apply keeps_same in K4. carry K4.
  eapply m_bind; [apply step_n_msim; [exact X4|exact Hi3]|lia|]. intros h5 s5 o5 [] [] K5 X5 _. apply keeps_same in K5. carry K5.
  eapply m_bind; [apply step_sigma_msim; [exact X5|exact Hb]|lia|]. intros h6 s6 o6 [] [] K6 X6 _. apply keeps_same in K6. carry K6. apply m_get.
  eapply m_bind; [apply step_h_msim; [exact X6|apply V_0_has, X6|apply (sr_n _ _ _ (proj1 X6))]|lia|]. intros h7 s7 o7 [] [] K7 X7 _. apply keeps_same in K7. carry K7. apply m_get.
  eapply m_tail; [apply step_h_msim; [exact X7|apply V_0_has, X7|apply (sr_sigma _ _ _ (proj1 X7))]|lia|auto].
Qed.

Lemma p_from_ref h a l i : has h (Ref a) l -> psim h (h_from (Ref a) i) (Ok (py_from l i)) (fresh h).
Proof.
  intros [E O]. unfold psim, sim, h_from, bindM, rd. rewrite E. cbn [like alloc]. split; [apply same_app|].
  exists (List.length h). split; [reflexivity|]. split; [lia|]. split; [apply content_alloc|now apply bytes_ok_from].
Qed.
Lemma digest_size_is h s o : R h s o -> hs_digest_size s = digest_size o.
Proof. intros (X & _). unfold hs_digest_size, digest_size. now rewrite (sr_name _ _ _ X). Qed.
Lemma get_hash_msim h s o : R h s o -> msim R (List.length h) [] s h hs_get_hash o (fun o => (Ok (get_hash o), o)) (fresh h).
Proof.
  intros X. unfold hs_get_hash. destruct (sr_ref _ _ _ (proj1 X)) as [a E]. pose proof (sr_h _ _ _ (proj1 X)) as Hh. rewrite E in Hh.
  change (fun o : hash_obj => (Ok (get_hash o), o)) with (bindM getM (fun o => retM (S := hash_obj) (get_hash o))). apply m_get.
  eapply m_call_r; [apply SRel_same|exact X| |lia|].
  - rewrite E, (digest_size_is _ _ _ X). apply p_from_ref, Hh.
  - auto.
Qed.
Lemma reset_msim h s o : R h s o -> msim R (List.length h) [] s h hs_reset o hash_reset done.
Proof.
  intros X. unfold hs_reset, hash_reset. apply m_get. pose proof X as (X0 & _ & N0 & C).
  eapply m_call_l; [apply SRel_same|exact X|rewrite (sr_name _ _ _ X0), (sr_oid _ _ _ X0); apply hash_init_sim, C|lia|]. intros h' s' S X' (Y & A & _ & C').
  apply m_put_end; [|exact I]. split; [exact Y|]. split; [|split; [apply X'|exact C']].
  eapply Forall_impl; [|exact A]. intros [l|a]; cbn; [auto|]. intros [[]|L]. right. lia.
Qed.
End Hash.

(** ** Copies, [digest] and the constructors *)
Lemma hs_copy_sim h s o : hsrep h s o -> hconsts h -> psim h (hs_copy s) (Ok o) (fun h' => SRel [] (List.length h) h').
Proof.
  intros X C. destruct X as [E1 G1 E2 E3 G2 G3 G4 E4 [a E5]]. unfold psim, hs_copy.
  eapply sim_call_l; [apply copy_sim, G1|lia|]. intros h1 v1 S1 [K1 N1]. carry S1.
  eapply sim_call_l; [rewrite E5 in *; apply bytearray_sim, G2|lia|]. intros h2 v2 S2 Fv. pose proof (fresh_has _ _ _ _ Fv) as K2. carry S2.
  eapply sim_call_l; [apply copy_sim, G3|lia|]. intros h3 v3 S3 [K3 N3]. carry S3.
  eapply sim_call_l; [apply copy_sim, G4|lia|]. intros h4 v4 S4 [K4 N4]. carry S4.
  destruct Fv as (b & -> & Lb & _).
  apply sim_ret. split; [|split; [|split; [lia|]]].
  - destruct o. cbn in *. constructor; cbn; auto. now exists b.
  - unfold hsfields. cbn [hs_buff hs_hash_h hs_hash_n hs_hash_sigma].
    constructor; [eapply from_newer; [|exact N1]; lia|]. constructor; [right; lia|].
    constructor; [eapply from_newer; [|exact N3]; lia|]. constructor; [eapply from_newer; [|exact N4]; lia|constructor].
  - eapply constsK_same; [eassumption|]; eapply constsK_same; [eassumption|]; eapply constsK_same; [eassumption|]; eapply constsK_same; eassumption.
Qed.

Lemma digest_msim F n0 h s o : SRel F n0 h s o -> msim (SRel F n0) (List.length h) [] s h hs_digest o hash_digest (fresh h).
Proof.
  intros X. unfold hs_digest.
  pose proof (hs_copy_sim h s o (proj1 X) (proj2 (proj2 (proj2 X)))) as P. unfold psim, sim in P.
  unfold msim. unfold bindM at 1. unfold getO at 1. unfold bindM at 1. unfold onheap at 1.
  destruct (hs_copy s h) as [[t|e] h1]; [|destruct P as [_ []]]. destruct P as [K Y].
  pose proof (same_len _ _ K) as L1. unfold on_temp.
  assert (G : msim (SRel [] (List.length h)) (List.length h) [] t h1 (hs_final ;! hs_get_hash) o
                (bindM hash_final (fun _ o => (Ok (get_hash o), o))) (fresh h)).
  { eapply m_bind; [apply hash_final_msim, Y|exact L1|]. intros h2 s2 o2 [] [] K2 X2 _. pose proof (keeps_len _ _ _ _ K2) as L2.
    eapply m_tail; [apply get_hash_msim, X2|lia|]. intros h3 s3 o3 v l _ _ Fv. eapply fresh_le; [|exact Fv]. lia. }
  unfold msim in G. unfold hash_digest. destruct (bindM _ _ _) as [x [t' h2]]. unfold bindM in G. destruct (hash_final o) as [[u|e'] o']; cbn [fst snd bind] in *.
  - destruct G as (K2 & _ & G). assert (S2 : same h h2).
    { destruct K as [Ka Kb], K2 as [Kc Kd]. split; [lia|]. intros b B N. rewrite Kd by auto. now apply Kb. }
    split; [exact S2|]. split; [now apply (SRel_same _ _ h)|]. exact G.
  - destruct G as (K2 & _ & G). assert (S2 : same h h2).
    { destruct K as [Ka Kb], K2 as [Kc Kd]. split; [lia|]. intros b B N. rewrite Kd by auto. now apply Kb. }
    split; [exact S2|]. split; [now apply (SRel_same _ _ h)|]. exact G.
Qed.

(** [digest] leaves the object as it is. *)
Lemma hs_digest_state s h : fst (snd (hs_digest (s, h))) = s.
Proof.
  unfold hs_digest. unfold bindM at 1 2. unfold getO, onheap, on_temp. destruct (hs_copy s h) as [[t|e] h1]; [|reflexivity].
  match goal with |- fst (snd (let (_, _) := ?x in _)) = _ => now destruct x end.
Qed.

Definition is_empty (data : arg) : M heap bool :=
  match as_buf data with Some d => let! l := rd d in retM (len l =? 0) | None => retM false end.
Lemma is_empty_sim h x p : arep h x p ->
  psim h (is_empty x) (Ok (match p with VBytes [] => true | _ => false end)) (fun h' a b => h' = h /\ a = b).
Proof.
  intros A. pose proof (arep_buf _ _ _ A) as B. unfold psim, is_empty. destruct (as_buf x) as [v|], p as [l| | |]; try contradiction; try (apply sim_ret; now split).
  eapply s_rd; [exact B|]. apply sim_ret. split; [reflexivity|]. destruct l; [reflexivity|]. unfold len. cbn [List.length]. lia.
Qed.

Lemma hs_init_sim h name x p : hconsts h -> arep h x p -> psim h (hs_init name x) (hash_init name p) (fun h' => SRel [] (List.length h) h').
Proof.
  intros C A. unfold psim, hs_init, hash_init. cbv zeta.
  set (oid := if String.eqb name "streebog256" then _ else _). clearbody oid.
  eapply sim_call_l; [apply hash_init_sim, C|lia|]. intros h1 s S1 X. set (o := _hash_init name oid) in *. clearbody o.
  pose proof (same_len _ _ S1) as L1. pose proof (arep_same _ _ _ _ S1 A) as A1.
  eapply sim_call_l; [exact (is_empty_sim _ _ _ A1)|lia|]. intros h2 b S2 [-> ->]. clear S2.
  assert (U : sim (List.length h) [] h1 (fun h0 => let '(r, (self, h3)) := hs_update x (s, h0) in (match r with Ok _ => Ok self | Err e => Err e end, h3))
                (match hash_update p o with (Ok _, self) => Ok self | (Err e, _) => Err e end) (fun h' => SRel [] (List.length h) h')).
  { pose proof (hash_update_msim _ _ _ _ _ _ _ X A1) as U. unfold msim in U. unfold sim.
    destruct (hs_update x (s, h1)) as [[[]|e] [s' h3]], (hash_update p o) as [[[]|e'] o']; destruct U as (K & X' & U); try contradiction.
    - split; [eapply keeps_le; [|exact K]; lia|exact X'].
    - split; [eapply keeps_le; [|exact K]; lia|exact U]. }
  destruct p as [[|z l]| | |]; [apply sim_ret, X|exact U..].
Qed.

Lemma hs_new_sim h name x p : hconsts h -> (match x, p with Some x, Some p => arep h x p | None, None => True | _, _ => False end) ->
  psim h (hs_new name x) (hash_new name p) (fun h' => SRel [] (List.length h) h').
Proof.
  intros C A. unfold psim, hs_new, hash_new. destruct name as [l|name| |]; try apply sim_raise.
  destruct (negb _); [apply sim_raise|]. destruct x as [x|], p as [p|]; try contradiction.
  - apply s_ret_l. now apply hs_init_sim.
  - apply s_assoc. apply s_alloc; [lia|constructor|]. intros h1 a S1 L1 H1 _. pose proof (same_len _ _ S1). apply s_ret_l. cbn [arg_of].
    eapply sim_tail; [apply (hs_init_sim _ _ _ (VBytes [])); [now apply (constsK_same _ h)|exact (arep_of h1 (Ref a) [] H1)]|lia|].
    intros h' s o S2 (X & Y & N & C'). split; [exact X|]. split; [|split; [lia|exact C']].
    eapply Forall_impl; [|exact Y]. intros [l|b]; cbn; [auto|]. intros [[]|L]. right. lia.
Qed.

(** * The generator *)
Record hgrep (h : heap) (s : hg_obj) (o : random_obj) : Prop := {
  gr_size_s : hg_size_s s = r_size_s o;
  gr_rand_u : has h (hg_rand_u s) (r_rand_u o);
  gr_q : hg_q s = r_q o;
  gr_r : hg_r s = r_r o;
  gr_limit : hg_limit s = r_limit o;
  gr_hash : hsrep h (hg_hash s) (r_hash o)
}.
Lemma hgrep_same h h' s o : same h h' -> hgrep h s o -> hgrep h' s o.
Proof. intros S []. constructor; eauto using has_same, hsrep_same. Qed.
Definition hgfields (s : hg_obj) : list buf := hg_rand_u s :: hsfields (hg_hash s).
Definition hgfoot (s : hg_obj) : list nat := refs (hgfields s).

Definition GRel (F : list nat) (n0 : nat) (h : heap) (s : hg_obj) (o : random_obj) : Prop :=
  hgrep h s o /\ Forall (from F n0) (hgfields s) /\ (n0 <= List.length h)%nat /\ hconsts h.

Section Generator.
Context (F : list nat) (n0 : nat).
Notation R := (GRel F n0).
Notation done := (fun _ (_ _ : unit) => True).

Lemma GRel_same h h' s o : same h h' -> R h s o -> R h' s o.
Proof. intros S (X & A & N & C). pose proof (same_len _ _ S). split; [now apply (hgrep_same h)|]. split; [exact A|]. split; [lia|]. now apply (constsK_same _ h). Qed.
Lemma GRel_hash h s o : R h s o -> SRel F n0 h (hg_hash s) (r_hash o).
Proof. intros (X & A & N & C). split; [apply X|]. split; [now inversion A|]. now split. Qed.
Lemma set_rand_u_rel h h' s o v l : R h' s o -> (n0 <= List.length h)%nat -> fresh h h' v l -> R h' (hg_set_rand_u s v) (set_rand_u o l).
Proof.
  intros (X & A & N & C) L Fv. split; [|split; [|now split]].
  - destruct X. constructor; cbn; auto. eapply fresh_has, Fv.
  - unfold hgfields in *. cbn. inversion A; subst. constructor; [|assumption]. eapply fresh_from; eassumption.
Qed.

Lemma on_hash_msim {A B} h s o (c : M (hs_obj * heap) A) (f : M hash_obj B) Q : R h s o ->
  msim (SRel F n0) (List.length h) [] (hg_hash s) h c (r_hash o) f Q -> msim R (List.length h) [] s h (hg_on_hash c) o (on_hash f) Q.
Proof.
  intros X P. unfold msim in *. unfold hg_on_hash, on_hash. destruct (c (hg_hash s, h)) as [x [s' h']], (f (r_hash o)) as [y o'].
  destruct P as (K & (Y & AY & N & C) & P). split; [exact K|]. split; [|exact P].
  apply (GRel_same h h') in X; [|exact K]. destruct X as (X & A' & _ & _). split; [|split; [|now split]].
  - destruct X. constructor; cbn; auto.
  - unfold hgfields in *. cbn. inversion A'; subst. now constructor.
Qed.

Lemma inc_msim h s o : R h s o -> msim R (List.length h) [] s h hg_inc_rand_u o _inc_rand_u done.
Proof.
  intros X. unfold hg_inc_rand_u, _inc_rand_u. apply m_get. cbv zeta.
  eapply m_call_l; [apply GRel_same|exact X|apply p_rd, (gr_rand_u _ _ _ (proj1 X))|lia|]. intros h1 u S1 _ [-> ->].
  eapply m_call_l; [apply GRel_same|exact X|apply int_to_bytearray_sim|lia|]. intros h2 v S2 X2 Fv.
  apply m_put_end; [|exact I]. eapply set_rand_u_rel; [exact X2| |exact Fv]. apply X.
Qed.

Lemma rand_iter_msim h s o : R h s o -> msim R (List.length h) [] s h hg_rand_iter o _rand_iter (fresh h).
Proof.
  intros X. unfold hg_rand_iter, _rand_iter. apply m_get. pose proof (proj1 (proj2 (proj2 X))) as N0.
  eapply m_call_l; [apply GRel_same|exact X|apply p_from, (gr_rand_u _ _ _ (proj1 X))|lia|]. intros h1 c S1 X1 [Hc _]. pose proof (same_len _ _ S1) as L1.
  eapply m_call_l; [apply GRel_same|exact X1|apply p_rd, Hc|lia|]. intros h2 l S2 _ [-> ->].
  rewrite (gr_size_s _ _ _ (proj1 X)), (gr_limit _ _ _ (proj1 X)). destruct (_ >=? _).
  - eapply m_call_l; [apply GRel_same|exact X1|apply zero_fill_sim, (gr_rand_u _ _ _ (proj1 X1))|lia|]. intros h2 z S2' X2 Fz.
    apply m_put. apply m_raise. eapply set_rand_u_rel; [exact X2| |exact Fz]. lia.
  - eapply m_bind; [apply inc_msim, X1|lia|]. intros h3 s3 o3 [] [] K3 X3 _. apply keeps_same in K3. pose proof (same_len _ _ K3) as L3. apply m_get.
    eapply m_bind; [apply on_hash_msim; [exact X3|]; apply hash_update_msim; [now apply GRel_hash|apply arep_of, (gr_rand_u _ _ _ (proj1 X3))]|lia|].
    intros h4 s4 o4 [] [] K4 X4 _. apply keeps_same in K4. pose proof (same_len _ _ K4) as L4.
    eapply m_bind; [apply on_hash_msim; [exact X4|]; apply digest_msim; now apply GRel_hash|lia|].
    intros h5 s5 o5 v l K5 X5 Fv. apply keeps_same in K5. pose proof (same_len _ _ K5) as L5.
    eapply m_bind; [apply on_hash_msim; [exact X5|]; apply reset_msim; now apply GRel_hash|lia|].
    intros h6 s6 o6 [] [] K6 X6 _. apply keeps_same in K6. apply m_ret; [exact X6|].
    destruct Fv as (a & -> & La & Ha). exists a. split; [reflexivity|]. split; [lia|]. now apply (has_same h5).
Qed.

Lemma clear_msim h s o : R h s o -> msim R (List.length h) [] s h hg_clear o random_clear done.
Proof.
  intros X. unfold hg_clear, random_clear. apply m_get.
  eapply m_call_l; [apply GRel_same|exact X|apply zero_fill_sim, (gr_rand_u _ _ _ (proj1 X))|lia|]. intros h2 z S2 X2 Fz.
  apply m_put_end; [|exact I]. eapply set_rand_u_rel; [exact X2| |exact Fz]. apply X.
Qed.

Lemma filling_sim h urandom size_s x p : bytes_ok urandom -> arep h x p ->
  psim h (hg_filling urandom size_s x) (filling urandom size_s p) (fresh h).
Proof.
  intros U A. pose proof (arep_buf _ _ _ A) as B. unfold psim, hg_filling, filling. cbv zeta.
  assert (Zs : bytes_ok (py_repeat 0 (_SIZE_M - size_s - 1))) by (apply bytes_ok_repeat; unfold byte_ok; lia).
  assert (G : forall v l, has h v l -> sim (List.length h) [] h (let! u := h_add v (Imm (py_repeat 0 (_SIZE_M - size_s - 1))) in h_bytearray u)
                  (Ok (l ++ py_repeat 0 (_SIZE_M - size_s - 1))) (fresh h)).
  { intros v l Hv. eapply sim_call_l; [apply p_add; [exact Hv|now apply has_imm]|lia|]. intros h1 w S1 [Hw _]. pose proof (same_len _ _ S1).
    eapply sim_tail; [apply bytearray_sim, Hw|lia|]. intros. eapply fresh_le; [|eassumption]. lia. }
  destruct (as_buf x) as [v|], p as [l| | |]; try contradiction; try apply sim_raise.
  eapply s_rd; [exact B|]. destruct l as [|y l].
  - cbn [len List.length]. change (len (@nil Z) =? 0) with true. cbv iota. destruct (size_s <? 0); [apply sim_raise|]. apply G. now apply has_imm.
  - assert (E : (len (y :: l) =? 0) = false) by (unfold len; cbn [List.length]; lia). rewrite E. unfold check_value.
    destruct (len (y :: l) =? size_s); cbn [negb]; [|apply sim_raise]. apply G, B.
Qed.

Lemma gen_reset_msim h s o urandom x p : R h s o -> bytes_ok urandom -> arep h x p ->
  msim R (List.length h) [] s h (hg_reset urandom x) o (random_reset urandom p) done.
Proof.
  intros X U A. unfold hg_reset, random_reset. apply m_get. rewrite (gr_size_s _ _ _ (proj1 X)). pose proof (proj1 (proj2 (proj2 X))) as N0.
  eapply m_call; [apply GRel_same|exact X|now apply filling_sim|lia|]. intros h1 v l S1 X1 Fv. pose proof (same_len _ _ S1) as L1. apply m_put.
  eapply m_tail; [apply on_hash_msim; [eapply set_rand_u_rel; [exact X1| |exact Fv]; lia|]; apply reset_msim; apply GRel_hash; eapply set_rand_u_rel; [exact X1| |exact Fv]; lia|lia|auto].
Qed.

(** [random]: the result is a new buffer that is not an attribute.  [gsim] is [msim] with the object
    after the call in the conclusion. *)
Definition gsim {A B} (n : nat) (s : hg_obj) (h : heap) (m : M (hg_obj * heap) A) (o : random_obj) (f : M random_obj B) (Q : heap -> hg_obj -> A -> B -> Prop) : Prop :=
  let '(x, (s', h')) := m (s, h) in
  let '(y, o') := f o in
  keeps n [] h h' /\ R h' s' o' /\
  match x, y with
  | Ok a, Ok b => Q h' s' a b
  | Err e, Err e' => e = e'
  | _, _ => False
  end.
Lemma g_bind {A B A' B'} n s h (m : M (hg_obj * heap) A) (k : A -> M (hg_obj * heap) A') o (f : M random_obj B) (g : B -> M random_obj B') Q Q' :
  msim R (List.length h) [] s h m o f Q -> (n <= List.length h)%nat ->
  (forall h' s' o' a b, same h h' -> R h' s' o' -> Q h' a b -> gsim n s' h' (k a) o' (g b) Q') ->
  gsim n s h (bindM m k) o (bindM f g) Q'.
Proof.
  unfold msim, gsim, bindM. destruct (m (s, h)) as [x [s1 h1]], (f o) as [y o1]. intros (K & X & P) L H.
  destruct x as [a|e], y as [b|e']; try contradiction.
  - specialize (H h1 s1 o1 a b K X P). destruct (k a (s1, h1)) as [x2 [s2 h2]], (g b o1) as [y2 o2]. destruct H as (K2 & H).
    split; [|exact H]. eapply keeps_trans; [|exact K2]. eapply keeps_le; [exact L|exact K].
  - split; [eapply keeps_le; [exact L|exact K]|]. now split.
Qed.
Lemma g_bind_g {A B A' B'} n s h (m : M (hg_obj * heap) A) (k : A -> M (hg_obj * heap) A') o (f : M random_obj B) (g : B -> M random_obj B') Q Q' :
  gsim n s h m o f Q ->
  (forall h' s' o' a b, (List.length h <= List.length h')%nat -> R h' s' o' -> Q h' s' a b -> gsim n s' h' (k a) o' (g b) Q') ->
  gsim n s h (bindM m k) o (bindM f g) Q'.
Proof.
  unfold gsim, bindM. destruct (m (s, h)) as [x [s1 h1]], (f o) as [y o1]. intros (K & X & P) H.
  destruct x as [a|e], y as [b|e']; try contradiction.
  - specialize (H h1 s1 o1 a b (keeps_len _ _ _ _ K) X P). destruct (k a (s1, h1)) as [x2 [s2 h2]], (g b o1) as [y2 o2]. destruct H as (K2 & H).
    split; [|exact H]. eapply keeps_trans; eassumption.
  - split; [exact K|]. now split.
Qed.
Lemma g_call_l {A B A' B'} n s h (m : M heap A) (b : B) (k : A -> M (hg_obj * heap) A') o (f : M random_obj B') Q Q' :
  R h s o -> psim h m (Ok b) Q -> (n <= List.length h)%nat ->
  (forall h' a, same h h' -> R h' s o -> Q h' a b -> gsim n s h' (k a) o f Q') ->
  gsim n s h (bindM (onheap m) k) o f Q'.
Proof.
  unfold psim, sim, gsim, bindM, onheap. intros X P L H. destruct (m h) as [[a|e] h1]; destruct P as [K P]; [|contradiction].
  specialize (H h1 a K (GRel_same _ _ _ _ K X) P). destruct (k a (s, h1)) as [x2 [s2 h2]], (f o) as [y2 o2]. destruct H as (K2 & H).
  split; [|exact H]. eapply keeps_trans; [|exact K2]. eapply keeps_le; [exact L|exact K].
Qed.

(** A buffer not older than [n] that the object does not use. *)
Definition free (n : nat) (h : heap) (s : hg_obj) (v : buf) (l : bytes) : Prop :=
  exists a, v = Ref a /\ (n <= a)%nat /\ has h (Ref a) l /\ ~ In a (hgfoot s).
Lemma hgfields_lt h s o a : hgrep h s o -> In a (hgfoot s) -> (a < List.length h)%nat.
Proof.
  intros [_ H0 _ _ _ [_ H1 _ _ H2 H3 H4 _ _]] I. apply in_refs in I. unfold hgfields, hsfields in I. cbn [In] in I.
  assert (G : exists l, has h (Ref a) l). { decompose [or] I; try contradiction; match goal with E : _ = Ref a |- _ => rewrite E in *; eauto end. }
  destruct G as [l G]. now apply has_lt in G.
Qed.
Lemma fresh_free n h s o h' v l : R h s o -> (n <= List.length h)%nat -> fresh h h' v l -> free n h' s v l.
Proof.
  intros X L (a & -> & La & Ha). exists a. split; [reflexivity|]. split; [lia|]. split; [exact Ha|]. intros I. apply (hgfields_lt h s o) in I; [lia|apply X].
Qed.
Lemma g_append n s h o v l w m : R h s o -> (n <= List.length h)%nat -> (exists a, v = Ref a) -> has h v l -> has h w m ->
  gsim n s h (onheap (h_add v w)) o (retM (l ++ m)) (free n).
Proof.
  intros X L [a ->] Hv Hw. pose proof (p_add_ref _ _ _ _ _ Hv Hw) as P. unfold psim, sim in P. unfold gsim, onheap, retM.
  destruct (h_add (Ref a) w h) as [[b|e] h']; destruct P as [K P]; [|contradiction].
  split; [eapply keeps_le; [exact L|exact K]|]. split; [now apply (GRel_same h)|]. now apply (fresh_free n h s o).
Qed.
Lemma rand_loop k : forall n s h o v l, R h s o -> (n <= List.length h)%nat -> free n h s v l ->
  gsim n s h (forM (repeat tt k) v (fun _ r => let! b := hg_rand_iter in onheap (h_add r b))) o
    (forM (repeat tt k) l (fun _ r => let! b := _rand_iter in retM (r ++ b))) (free n).
Proof.
  induction k as [|k IH]; intros n s h o v l X L Fv.
  - split; [apply keeps_refl|]. split; [exact X|exact Fv].
  - cbn [repeat forM]. eapply (g_bind_g _ _ _ _ _ _ _ _ (free n)).
    + destruct Fv as (a & -> & La & Ha & _). eapply g_bind; [apply rand_iter_msim, X|exact L|]. intros h1 s1 o1 b m S1 X1 Fb. pose proof (same_len _ _ S1).
      apply g_append; [exact X1|lia|now exists a|now apply (has_same h)|]. eapply fresh_has, Fb.
    + intros h1 s1 o1 v1 l1 L1 X1 F1. apply IH; auto. lia.
Qed.
Lemma p_upto h v l i : has h v l -> psim h (h_upto v i) (Ok (py_upto l i)) (built h).
Proof. intros H. apply psim_of_bind. eapply s_upto; [lia|exact H|]. intros. apply sim_ret. now split. Qed.
Lemma random_gsim h s o : R h s o -> gsim (List.length h) s h hg_random o random (free (List.length h)).
Proof.
  intros X. unfold hg_random, random. 
  enough (G : gsim (List.length h) s h
    (let! s0 := onheap (h_upto (hg_rand_u s) (hg_size_s s)) in
     let! s0 := onheap (rd s0) in
     if bytearray_to_int s0 =? 0 then raiseM (GOSTRandomError "GOSTRandomError: the seed value is zero")
     else
       let! result := onheap (alloc []) in
       let! result := forM (repeat tt (Z.to_nat (hg_q s))) result (fun _ result => let! b := hg_rand_iter in onheap (h_add result b)) in
       if negb (hg_r s =? 0)
       then let! b := hg_rand_iter in
            let! b := onheap (h_slice b (_SIZE_H - hg_r s) _SIZE_H) in
            onheap (h_add result b)
       else retM result) o
    (if bytearray_to_int (py_upto (r_rand_u o) (r_size_s o)) =? 0
     then raiseM (GOSTRandomError "GOSTRandomError: the seed value is zero")
     else
       let! result := forM (repeat tt (Z.to_nat (r_q o))) [] (fun _ result => let! b := _rand_iter in retM (result ++ b)) in
       if negb (r_r o =? 0)
       then let! b := _rand_iter in retM (result ++ py_slice b (_SIZE_H - r_r o) _SIZE_H)
       else retM result) (free (List.length h))) by exact G.
  rewrite (gr_size_s _ _ _ (proj1 X)), (gr_q _ _ _ (proj1 X)), (gr_r _ _ _ (proj1 X)).
  eapply g_call_l; [exact X|apply p_upto, (gr_rand_u _ _ _ (proj1 X))|lia|]. intros h1 c S1 X1 [Hc _]. pose proof (same_len _ _ S1) as L1.
  eapply g_call_l; [exact X1|apply p_rd, Hc|lia|]. intros h2 c' S2 _ [-> ->].
  destruct (_ =? 0); [split; [apply keeps_refl|now split]|].
  eapply g_call_l; [exact X1|apply p_alloc; constructor|lia|]. intros h3 v S3 X3 Fv. pose proof (same_len _ _ S3) as L3.
  eapply (g_bind_g _ _ _ _ _ _ _ _ (free (List.length h))); [apply rand_loop; [exact X3|lia|]; eapply fresh_free; [exact X1|lia|exact Fv]|].
  intros h4 s4 o4 w l L4 X4 Fw. destruct (negb _); [|split; [apply keeps_refl|now split]].
  destruct Fw as (a & -> & La & Ha & _).
  eapply g_bind; [apply rand_iter_msim, X4|lia|]. intros h5 s5 o5 b m S5 X5 Fb. pose proof (same_len _ _ S5) as L5. pose proof (fresh_has _ _ _ _ Fb) as Hb.
  eapply g_call_l; [exact X5|apply p_slice, Hb|lia|]. intros h6 b' S6 X6 [Hb' _]. pose proof (same_len _ _ S6) as L6.
  apply g_append; [exact X6|lia|now exists a| |exact Hb']. apply (has_same h5); [exact S6|]. now apply (has_same h4).
Qed.
End Generator.

(** ** The constructors of the generator *)
Lemma GRel_all h s o : hgrep h s o -> hconsts h -> GRel (hgfoot s) (List.length h) h s o.
Proof. intros X C. split; [exact X|]. split; [|now split]. apply refs_from. intros a A. now left. Qed.
Lemma SRel_all h s o : hsrep h s o -> hconsts h -> SRel (hsfoot s) (List.length h) h s o.
Proof. intros X C. split; [exact X|]. split; [|now split]. apply refs_from. intros a A. now left. Qed.

Lemma hg_init_sim h urandom z x p size_s : hconsts h -> bytes_ok urandom -> arep h x p ->
  psim h (hg_init urandom z x size_s) (random_init urandom z p size_s) (fun h' => GRel [] (List.length h) h').
Proof.
  intros C U A. unfold psim, hg_init, random_init.
  eapply sim_call; [now apply filling_sim|lia|]. intros h1 v l S1 Fv. pose proof (same_len _ _ S1) as L1.
  apply s_alloc; [lia|constructor|]. intros h2 a S2 La Ha _. pose proof (same_len _ _ S2) as L2.
  assert (C2 : hconsts h2) by (eapply constsK_same; [exact S2|]; eapply constsK_same; eassumption).
  eapply sim_call; [apply (hs_init_sim _ _ _ (VBytes [])); [exact C2|exact (arep_of h2 (Ref a) [] Ha)]|lia|]. intros h3 s o S3 (X & Y & N & C3).
  pose proof (same_len _ _ S3) as L3. apply sim_ret. destruct Fv as (b & -> & Lb & Hb). split; [|split; [|split; [lia|exact C3]]].
  - constructor; cbn; auto. apply (has_same h2); [exact S3|]. now apply (has_same h1).
  - unfold hgfields. cbn [hg_rand_u hg_hash]. constructor; [right; exact Lb|].
    eapply Forall_impl; [|exact Y]. intros [m|c]; cbn; [auto|]. intros [[]|L]. right. lia.
Qed.
Lemma hg_new_sim h urandom z x p size_s : hconsts h -> bytes_ok urandom -> (match x, p with Some x, Some p => arep h x p | None, None => True | _, _ => False end) ->
  psim h (hg_new urandom z x size_s) (random_new urandom z p size_s) (fun h' => GRel [] (List.length h) h').
Proof.
  intros C U A. unfold psim, hg_new, random_new. destruct x as [x|], p as [p|]; try contradiction.
  - apply s_ret_l. now apply hg_init_sim.
  - apply s_assoc. apply s_alloc; [lia|constructor|]. intros h1 a S1 L1 H1 _. pose proof (same_len _ _ S1). apply s_ret_l. cbn [arg_of].
    eapply sim_tail; [apply (hg_init_sim _ _ _ _ (VBytes [])); [now apply (constsK_same _ h)|exact U|exact (arep_of h1 (Ref a) [] H1)]|lia|].
    intros h' s o S2 (X & Y & N & C'). split; [exact X|]. split; [|split; [lia|exact C']].
    eapply Forall_impl; [|exact Y]. intros [l|b]; cbn; [auto|]. intros [[]|L]. right. lia.
Qed.
