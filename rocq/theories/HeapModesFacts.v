(** * The methods of HeapModes.v do what the methods of the value model do *)
From Verif Require Import PyBase PyState PyFacts Utils UtilsFacts Kuznechik Magma CipherObj Modes Mac Heap HeapLogic HeapCipher HeapCipherFacts HeapModes HeapModesLogic SpecModes CipherObjFacts CtrFacts.
Open Scope string_scope.
Open Scope list_scope.
Open Scope Z_scope.

Definition refs (vs : list buf) : list nat := flat_map (fun v => match v with Ref a => [a] | Imm _ => [] end) vs.
Lemma in_refs a vs : In a (refs vs) <-> In (Ref a) vs.
Proof.
  unfold refs. rewrite in_flat_map. split.
  - intros ([l|b] & I & X); cbn in X; [destruct X|]. destruct X as [->|[]]. exact I.
  - intros I. exists (Ref a). split; [exact I|now left].
Qed.

(** ** Block cipher objects *)
Definition crep (h : heap) (c : hcipher) (co : cipher_obj) : Prop :=
  match c, co with
  | HKuz vs, KuzObj ls => has_all h vs ls
  | HMagma vs, MagmaObj ls => has_all h vs ls
  | _, _ => False
  end.
Lemma crep_same h h' c co : same h h' -> crep h c co -> crep h' c co.
Proof. destruct c, co; cbn; auto; intros S; apply (has_all_same h h' _ _ S). Qed.
Lemma crep_keep h h' W c co : keeps (List.length h) W h h' -> Forall (outside W) (hc_keys c) -> crep h c co -> crep h' c co.
Proof. destruct c, co; cbn; auto; intros K F; apply (has_all_keep h h' W _ _ K F). Qed.
Lemma crep_bs h c co : crep h c co -> hc_block_size c = co_block_size co.
Proof. destruct c, co; cbn; intros X; (contradiction || reflexivity). Qed.
Lemma hc_encrypt_sim h c co v b : crep h c co -> has h v b -> psim h (hc_encrypt c v) (co_encrypt co b) (fresh h).
Proof. destruct c, co; cbn; try contradiction; intros; [now apply kuz_encrypt_sim|now apply magma_encrypt_sim]. Qed.
Lemma hc_decrypt_sim h c co v b : crep h c co -> has h v b -> psim h (hc_decrypt c v) (co_decrypt co b) (fresh h).
Proof. destruct c, co; cbn; try contradiction; intros; [now apply kuz_decrypt_sim|now apply magma_decrypt_sim]. Qed.
Definition kept_or_new (n : nat) (vs vs' : list buf) : Prop := Forall2 (fun v v' => v' = v \/ newer n v') vs vs'.
Lemma hc_clear_sim h c co : crep h c co ->
  psim h (hc_clear c) (co_clear co) (fun h' c' co' => crep h' c' co' /\ kept_or_new (List.length h) (hc_keys c) (hc_keys c') /\ co_block_size co' = co_block_size co).
Proof.
  destruct c, co; cbn [crep hc_clear co_clear]; try contradiction; intros X; unfold psim.
  - eapply sim_call; [apply kuz_clear_sim, X|lia|]. intros h' vs ls _ [A K]. now apply sim_ret.
  - eapply sim_call; [apply magma_clear_sim, X|lia|]. intros h' vs ls _ [A K]. now apply sim_ret.
Qed.
Lemma kept_or_new_outside n W vs vs' : (forall a, In a W -> (a < n)%nat) -> kept_or_new n vs vs' -> Forall (outside W) vs -> Forall (outside W) vs'.
Proof.
  intros L K. induction K as [|v v' vs vs' V K IH]; intros F; constructor; inversion F; subst; auto.
  destruct V as [->|V]; [assumption|now apply (newer_outside n)].
Qed.
Lemma kept_or_new_refs n vs vs' a : kept_or_new n vs vs' -> In a (refs vs') -> In a (refs vs) \/ (n <= a)%nat.
Proof.
  intros K. rewrite !in_refs. induction K as [|v v' vs vs' V K IH]; cbn; [auto|].
  intros [->|I]; [|tauto]. destruct V as [<-|V]; auto.
Qed.

(** ** Arguments *)
Definition arep (h : heap) (x : arg) (p : pyval) : Prop :=
  match x with
  | ABuf a => exists l, p = VBytes l /\ has h (Ref a) l
  | AVal q => p = q /\ match q with VBytes l => bytes_ok l | _ => True end
  end.
Lemma arep_same h h' x p : same h h' -> arep h x p -> arep h' x p.
Proof. destruct x as [a|q]; cbn; [|auto]. intros S (l & E & H). exists l. split; [exact E|now apply (has_same h)]. Qed.
Definition aoutside (W : list nat) (x : arg) : Prop := match x with ABuf a => ~ In a W | AVal _ => True end.
Lemma arep_buf h x p : arep h x p ->
  match as_buf x, p with
  | Some v, VBytes l => has h v l
  | Some _, _ => False
  | None, VBytes _ => False
  | None, _ => True
  end.
Proof.
  destruct x as [a|q]; cbn.
  - now intros (l & -> & H).
  - intros [-> O]. destruct q; auto. now apply has_imm.
Qed.
Lemma aoutside_buf W x v : aoutside W x -> as_buf x = Some v -> outside W v.
Proof. destruct x as [a|[]]; cbn; intros O [= <-]; cbn; auto. Qed.
Lemma as_buf_of v : as_buf (arg_of v) = Some v.
Proof. now destruct v. Qed.
Lemma arep_of h v l : has h v l -> arep h (arg_of v) (VBytes l).
Proof. destruct v as [x|a]; cbn; [|eauto]. intros [[= ->] O]. now split. Qed.
Lemma aoutside_of W v : outside W v -> aoutside W (arg_of v).
Proof. now destruct v. Qed.

(** ** Mode objects *)
(** The buffers that a method may write, and all the buffers of an object. *)
Definition own (s : hobj) : list nat := refs [h_init_vect s; h_counter s].
Definition foot (s : hobj) : list nat := own s ++ refs (hc_keys (h_cipher s)).

Record hrep (h : heap) (s : hobj) (o : mode_obj) : Prop := {
  hr_class : h_class s = o_class o;
  hr_cipher : crep h (h_cipher s) (o_cipher o);
  hr_pad : h_pad_mode s = o_pad_mode o;
  hr_iv : has h (h_init_vect s) (o_init_vect o);
  hr_counter : has h (h_counter s) (o_counter o);
  hr_diff : forall a, h_init_vect s = Ref a -> h_counter s <> Ref a;
  hr_keys : Forall (outside (own s)) (hc_keys (h_cipher s));
  hr_writable : match h_class s with
                | ECB => True
                | CTR => (exists a, h_counter s = Ref a) /\ len (o_counter o) = co_block_size (o_cipher o)
                | _ => exists a, h_init_vect s = Ref a
                end
}.

(** The relation used for the methods: the buffers [W] written in place stay the same buffers, and
    the others come from [F] or did not exist at the time [n0]. *)
Definition Rel (W F : list nat) (n0 : nat) (c : mode_class) (h : heap) (s : hobj) (o : mode_obj) : Prop :=
  hrep h s o /\ own s = W /\ (forall a, In a (foot s) -> In a F \/ (n0 <= a)%nat) /\
  (n0 <= List.length h)%nat /\ (forall a, In a W -> (a < n0)%nat) /\ h_class s = c.

Lemma hrep_same h h' s o : same h h' -> hrep h s o -> hrep h' s o.
Proof.
  intros S [C K P I T D O W]. constructor; auto; [now apply (crep_same h)|now apply (has_same h)|now apply (has_same h)].
Qed.

Section Methods.
Context (W F : list nat) (n0 : nat) (mc : mode_class).
Notation R := (Rel W F n0 mc).

Lemma Rel_same h h' s o : same h h' -> R h s o -> R h' s o.
Proof.
  intros S (X & O & Ft & N & L & Cl). pose proof (same_len _ _ S). split; [now apply (hrep_same h)|]. repeat (split; [assumption|]). split; [lia|auto].
Qed.
Lemma Rel_bs h s o : R h s o -> h_block_size s = block_size o.
Proof. intros (X & _). unfold h_block_size, block_size. eapply crep_bs, (hr_cipher _ _ _ X). Qed.
Lemma Rel_new h s o v : R h s o -> newer (List.length h) v -> outside W v.
Proof. intros (_ & _ & _ & N & L & _) V. eapply newer_outside; [exact L|]. eapply newer_le; [exact N|exact V]. Qed.
Lemma Rel_newer h s o v : R h s o -> newer n0 v -> outside W v.
Proof. intros (_ & _ & _ & N & L & _) V. eapply newer_outside; [exact L|exact V]. Qed.
Lemma Rel_n0 h s o : R h s o -> (n0 <= List.length h)%nat.
Proof. now intros (_ & _ & _ & N & _). Qed.

Lemma clear_msim h s o : R h s o -> msim R (List.length h) W s h h_clear o clear (fun _ _ _ => True).
Proof.
  intros X. unfold h_clear, clear. apply m_get.
  eapply m_call; [apply Rel_same|exact X|apply hc_clear_sim, (hr_cipher _ _ _ (proj1 X))|lia|].
  intros h' c co S (X' & O & Ft & N & L & Cl) (C & K & Eb). apply m_put_end; [|exact I]. pose proof (Rel_n0 _ _ _ X) as N'. pose proof (same_len _ _ S).
  split; [|split; [exact O|split; [|split; [lia|split; [exact L|exact Cl]]]]].
  - destruct X' as [Xc XC Xp Xi Xt Xd Xo Xw]. constructor; cbn; auto.
    + eapply kept_or_new_outside; [|exact K|exact Xo].
      intros a A. assert (A1 : In a W) by (rewrite <- O; exact A). apply L in A1. lia.
    + destruct (h_class s); auto. now rewrite Eb.
  - intros a A. unfold foot in A. cbn [h_set_cipher h_cipher] in A. apply in_app_or in A. destruct A as [A|A].
    + apply Ft. apply in_or_app. now left.
    + destruct (kept_or_new_refs _ _ _ _ K A) as [A'|A']; [|right; lia]. apply Ft. apply in_or_app. now right.
Qed.

Lemma check_msim msg vmsg h s o x p : R h s o -> arep h x p -> aoutside W x ->
  (forall v : bytes, vmsg = msg) ->
  msim R (List.length h) W s h (h_check msg x) o
    (match p with VBytes b => retM b | _ => clear ;! raiseM (GOSTCipherError vmsg) end)
    (fun h' v l => has h' v l /\ outside W v).
Proof.
  intros X A AO E. specialize (E []). subst vmsg. pose proof (arep_buf _ _ _ A) as B. unfold h_check.
  destruct (as_buf x) as [v|] eqn:V.
  - destruct p; try contradiction. apply m_ret; [exact X|]. split; [exact B|]. now apply (aoutside_buf _ x).
  - assert (G : msim R (List.length h) W s h (h_clear ;! raiseM (GOSTCipherError msg)) o (clear ;! raiseM (GOSTCipherError msg)) (fun h' (v : buf) (l : bytes) => has h' v l /\ outside W v)).
    { eapply m_bind; [now apply clear_msim|lia|]. intros h' s' o' _ _ _ X' _. now apply m_raise. }
    destruct p; try contradiction; exact G.
Qed.
Lemma check_plaintext_msim h s o x p : R h s o -> arep h x p -> aoutside W x ->
  msim R (List.length h) W s h (h_check_plaintext x) o (check_plaintext p) (fun h' v l => has h' v l /\ outside W v).
Proof. intros X A AO. unfold h_check_plaintext, check_plaintext. apply (check_msim _ _ h s o x p X A AO). reflexivity. Qed.
Lemma check_ciphertext_msim h s o x p : R h s o -> arep h x p -> aoutside W x ->
  msim R (List.length h) W s h (h_check_ciphertext x) o (check_ciphertext p) (fun h' v l => has h' v l /\ outside W v).
Proof. intros X A AO. unfold h_check_ciphertext, check_ciphertext. apply (check_msim _ _ h s o x p X A AO). reflexivity. Qed.

(** Padding. *)
Lemma pad1_sim h v d bs : has h v d -> psim h (h_set_pad_mode_1 bs v) (Ok (_set_pad_mode_1 bs d)) (built h).
Proof.
  intros H. unfold psim, h_set_pad_mode_1. eapply s_rd; [exact H|]. apply p_add; [exact H|]. apply has_imm. auto.
Qed.
Lemma pad2_sim h v d bs : has h v d -> psim h (h_set_pad_mode_2 bs v) (Ok (_set_pad_mode_2 bs d)) (built h).
Proof.
  intros H. unfold psim, h_set_pad_mode_2, _set_pad_mode_2.
  assert (O : bytes_ok [0x80]) by (constructor; [unfold byte_ok; lia|constructor]).
  eapply s_add; [lia|exact H|apply has_imm, O|]. intros h1 x S1 X N. carry S1. eapply s_rd; [exact H|].
  rewrite app_assoc. eapply sim_tail; [apply p_add; [exact X|apply has_imm; auto]|lia|].
  intros h2 y l S2 [Y N2]. split; [exact Y|]. eapply newer_le; [|exact N2]. lia.
Qed.
Lemma padding_sim h v d bs pm : has h v d -> psim h (h_set_padding bs v pm) (Ok (_set_padding bs d pm)) (fun h' x l => has h' x l /\ (x = v \/ newer (List.length h) x)).
Proof.
  intros H. unfold h_set_padding, _set_padding.
  destruct (pm =? PAD_MODE_1); [|destruct (pm =? PAD_MODE_2)].
  - eapply p_conseq; [now apply pad1_sim|]. intros h' a b _ [X N]. auto.
  - eapply p_conseq; [now apply pad2_sim|]. intros h' a b _ [X N]. auto.
  - apply p_ret. auto.
Qed.
Lemma padding_encrypt_msim h s o x p : R h s o -> arep h x p -> aoutside W x ->
  msim R (List.length h) W s h (h_padding_encrypt x) o (padding_encrypt p) (fun h' v l => has h' v l /\ outside W v).
Proof.
  intros X A AO. unfold h_padding_encrypt, padding_encrypt.
  eapply m_bind; [now apply check_plaintext_msim|lia|]. intros h1 s1 o1 v d K X1 [V O]. apply m_get.
  rewrite (Rel_bs _ _ _ X1). rewrite (hr_pad _ _ _ (proj1 X1)).
  eapply m_call_r; [apply Rel_same|exact X1|now apply padding_sim|now apply keeps_len in K|].
  intros h2 y S2 [Y N]. split; [exact Y|]. destruct N as [->|N]; [exact O|]. now apply (Rel_new h1 s1 o1).
Qed.

(** The feedback register. *)
Lemma shift_iv_sim h a iv bs v d : has h (Ref a) iv -> has h v d -> v <> Ref a ->
  sim (List.length h) [a] h (h_shift_iv (Ref a) bs v)
    (Ok (let iter_iv_hi := py_slice iv bs (len iv) in
         let iv := py_slice_set iv 0 (len iv - bs) iter_iv_hi in
         py_slice_set iv (len iv - bs) (len iv) d))
    (fun h' _ l => has h' (Ref a) l).
Proof.
  intros Hi Hv N. unfold h_shift_iv. cbv zeta. eapply s_len; [exact Hi|].
  eapply s_slice; [lia|exact Hi|]. intros h1 x S1 X NX. pose proof (has_lt _ _ _ Hi) as La. carry S1.
  assert (NE : x <> Ref a) by (intros ->; cbn in NX; lia).
  eapply s_slice_set; [right; now left|exact Hi|exact X|]. intros h2 Hi2 K2 L2. carry_wr K2.
  eapply s_len; [exact Hi2|]. eapply s_slice_set; [right; now left|exact Hi2|eassumption|]. intros h3 Hi3 K3 L3.
  apply sim_ret. exact Hi3.
Qed.

Definition feedback : bool := match mc with CBC | CFB | OFB => true | _ => false end.

Lemma Rel_iv h s o : feedback = true -> R h s o -> exists a, h_init_vect s = Ref a /\ In a W.
Proof.
  intros Fb (X & O & _ & _ & _ & Cl). pose proof (hr_writable _ _ _ X) as Wr. rewrite Cl in Wr. unfold feedback in Fb.
  assert (E : exists a, h_init_vect s = Ref a) by (destruct mc; try discriminate; exact Wr).
  destruct E as [a E]. exists a. split; [exact E|]. rewrite <- O. apply in_refs. now left.
Qed.

Lemma set_init_vect_msim h s o v d : feedback = true -> R h s o -> has h v d -> outside W v ->
  msim R (List.length h) W s h (h_set_init_vect v) o (_set_init_vect d) (fun _ _ _ => True).
Proof.
  intros Fb X V OV. destruct (Rel_iv h s o Fb X) as (a & Ea & Wa).
  unfold h_set_init_vect, _set_init_vect. apply m_get. cbv zeta.
  destruct X as (X & O & Ft & N & L & Cl). pose proof (hr_iv _ _ _ X) as Hi. rewrite Ea in Hi |- *.
  assert (NE : v <> Ref a) by (intros ->; now apply OV).
  replace (block_size o) with (h_block_size s) by (apply (Rel_bs h); split; auto; repeat split; auto).
  pose proof (shift_iv_sim h a _ (h_block_size s) v d Hi V NE) as P. cbv zeta in P.
  unfold sim in P. unfold msim, onheap, putM. destruct (h_shift_iv (Ref a) (h_block_size s) v h) as [x h'].
  destruct P as [K P]. destruct x as [[]|e]; [|contradiction].
  assert (KW : keeps (List.length h) W h h') by (eapply keeps_mono; [|exact K]; intros b [<-|[]]; exact Wa).
  split; [exact KW|]. split; [|exact I]. pose proof (keeps_len _ _ _ _ K) as L1.
  split; [|split; [exact O|split; [exact Ft|split; [lia|split; [exact L|exact Cl]]]]].
  destruct X as [Xc XC Xp Xi Xt Xd Xo Xw]. constructor; cbn; auto.
  - eapply crep_keep; [exact KW| |exact XC]. now rewrite O in Xo.
  - rewrite Ea. exact P.
  - eapply has_keep; [exact K| |exact Xt]. pose proof (Xd a Ea) as Xd'. destruct (h_counter s) as [l|b]; cbn; [exact I|]. intros [->|[]]. now apply Xd'.
Qed.

Lemma get_gamma_msim h s o : R h s o -> msim R (List.length h) W s h h_get_gamma o _get_gamma (fresh h).
Proof.
  intros X. unfold h_get_gamma, _get_gamma. apply m_get. rewrite (Rel_bs _ _ _ X).
  eapply m_call_l; [apply Rel_same|exact X|apply p_slice, (hr_iv _ _ _ (proj1 X))|lia|]. intros h1 x S1 X1 [HX _].
  pose proof (same_len _ _ S1).
  eapply m_call_t; [apply Rel_same|exact X1|apply hc_encrypt_sim; [apply (hr_cipher _ _ _ (proj1 X1))|exact HX]|lia|].
  intros h2 y l _ Fr. eapply fresh_le; [|exact Fr]. lia.
Qed.
Lemma final_block_sim h v d bs : has h v d -> psim h (h_get_final_block bs v) (Ok (_get_final_block bs d)) (built h).
Proof. intros H. unfold psim, h_get_final_block, _get_final_block. eapply s_rd; [exact H|]. now apply p_from. Qed.
Lemma final_cipher_msim h s o v d : R h s o -> has h v d -> outside W v ->
  msim R (List.length h) W s h (h_final_cipher v) o (_final_cipher d) (fresh h).
Proof.
  intros X V OV. unfold h_final_cipher, _final_cipher.
  eapply m_bind; [now apply get_gamma_msim|lia|]. intros h1 s1 o1 g gl K1 X1 G. apply m_get. rewrite (Rel_bs _ _ _ X1).
  apply (has_keep _ _ _ _ _ K1 OV) in V. pose proof (keeps_len _ _ _ _ K1).
  eapply m_call_l; [apply Rel_same|exact X1|apply final_block_sim, V|lia|]. intros h2 b S2 X2 [B _]. carry S2.
  eapply m_call_r; [apply Rel_same|exact X2|apply add_xor_sim; [eapply has_same; [exact S2|eapply fresh_has, G]|exact B]|lia|].
  intros h3 y _ Fr. eapply fresh_le; [|exact Fr]. lia.
Qed.

(** The buffer that collects the result. *)
Definition acc (h0 h' : heap) (r : buf) (l : bytes) : Prop := (List.length h0 <= List.length h')%nat /\ fresh h0 h' r l.
Definition Inv (h0 : heap) (v : buf) (d : bytes) (h' : heap) (r : buf) (l : bytes) : Prop := acc h0 h' r l /\ has h' v d.

Lemma acc_out h0 h' r l : acc h0 h' r l -> (n0 <= List.length h0)%nat -> (forall a, In a W -> (a < n0)%nat) -> outside W r.
Proof. intros [_ (a & -> & L & _)] N Lw X. apply Lw in X. lia. Qed.
Lemma acc_keep h0 h1 h2 r l : keeps (List.length h1) W h1 h2 -> outside W r -> acc h0 h1 r l -> acc h0 h2 r l.
Proof.
  intros K O [L Fr]. pose proof (keeps_len _ _ _ _ K). split; [lia|]. destruct Fr as (a & -> & La & Ha).
  apply fresh_mk; [exact La|]. now apply (has_keep h1 h2 W).
Qed.
Lemma acc_same h0 h1 h2 r l : same h1 h2 -> acc h0 h1 r l -> acc h0 h2 r l.
Proof.
  intros K [L Fr]. pose proof (same_len _ _ K). split; [lia|]. destruct Fr as (a & -> & La & Ha).
  apply fresh_mk; [exact La|]. now apply (has_same h1 h2).
Qed.
Lemma acc_add h0 h r l w b : acc h0 h r l -> has h w b -> psim h (h_add r w) (Ok (l ++ b)) (acc h0).
Proof.
  intros [L (a & -> & La & H)] Hw. eapply p_conseq; [apply p_add_ref; [exact H|exact Hw]|].
  intros h' x y S Fr. pose proof (same_len _ _ S). split; [lia|]. eapply fresh_le; [|exact Fr]. exact L.
Qed.
Lemma acc_fresh h0 h' r l : acc h0 h' r l -> fresh h0 h' r l.
Proof. now intros [_ Fr]. Qed.

Lemma acc_has h0 h' r l : acc h0 h' r l -> has h' r l.
Proof. intros [_ Fr]. now apply fresh_has in Fr. Qed.
Lemma Rel_key h s o : R h s o -> crep h (h_cipher s) (o_cipher o).
Proof. intros X. apply (hr_cipher _ _ _ (proj1 X)). Qed.
Lemma Rel_ivh h s o : R h s o -> has h (h_init_vect s) (o_init_vect o).
Proof. intros X. apply (hr_iv _ _ _ (proj1 X)). Qed.
Lemma get_block_sim h bs v d i : has h v d -> psim h (h_get_block bs v i) (Ok (_get_block bs d i)) (built h).
Proof. intros H. now apply p_slice. Qed.

(** After a call that only allocates. *)
Ltac after S :=
  pose proof (same_len _ _ S);
  repeat match goal with
  | H : acc ?h0 ?h ?v ?l |- _ => match type of S with same h ?h' => apply (acc_same h0 h h' v l S) in H end
  | H : crep ?h ?c ?l |- _ => match type of S with same h ?h' => apply (crep_same h h' c l S) in H end
  end; carry S.
(** After a method. *)
Ltac after_m K :=
  pose proof (keeps_len _ _ _ _ K);
  repeat match goal with
  | H : acc ?h0 ?h ?v ?l |- _ => match type of K with keeps _ _ h ?h' => apply (acc_keep h0 h h' v l K) in H; [|assumption] end
  | H : has ?h ?v ?l |- _ => match type of K with keeps _ ?W h ?h' => apply (has_keep h h' W v l K) in H; [|assumption] end
  end.
Ltac mcall X lem :=
  eapply m_call; [apply Rel_same|exact X|eapply lem; eauto using fresh_has, acc_has, Rel_key, Rel_ivh|lia|].
Ltac mcall_l X lem :=
  eapply m_call_l; [apply Rel_same|exact X|eapply lem; eauto using fresh_has, acc_has, Rel_key, Rel_ivh|lia|].
Ltac mcall_r X lem :=
  eapply m_call_r; [apply Rel_same|exact X|eapply lem; eauto using fresh_has, acc_has, Rel_key, Rel_ivh|lia|].

Lemma start h s o : R h s o ->
  psim h (alloc []) (Ok ([] : bytes)) (acc h).
Proof.
  intros X. eapply p_conseq; [apply p_alloc; constructor|]. intros h' a b S Fr. split; [now apply same_len|exact Fr].
Qed.
Lemma out_acc h0 h s o r l : R h s o -> (n0 <= List.length h0)%nat -> acc h0 h r l -> outside W r.
Proof. intros X N A. eapply acc_out; [exact A|exact N|]. apply X. Qed.

(** ECB. *)
Lemma ecb_encrypt_msim h s o x p : R h s o -> arep h x p -> aoutside W x ->
  msim R (List.length h) W s h (h_ecb_encrypt x) o (ecb_encrypt p) (fresh h).
Proof.
  intros X A AO. unfold h_ecb_encrypt, ecb_encrypt. pose proof (Rel_n0 _ _ _ X) as N0.
  eapply m_call_l; [apply Rel_same|exact X|eapply start, X|lia|]. intros h1 r S1 X1 Ac.
  pose proof (out_acc _ _ _ _ _ _ X1 N0 Ac) as Or. apply (arep_same _ _ _ _ S1) in A. pose proof (same_len _ _ S1) as L1.
  eapply m_bind; [now apply padding_encrypt_msim|lia|]. intros h2 s2 o2 v d K2 X2 [V OV]. after_m K2. apply m_get.
  mcall_l X2 p_rd. intros h3 d' S3 X3 [-> ->]. rewrite (Rel_bs _ _ _ X2).
  pose proof (Rel_key _ _ _ X2) as C.
  eapply m_conseq; [apply (m_for _ _ _ (fun h' r l => acc h h' r l /\ has h' v d /\ crep h' (h_cipher s2) (o_cipher o2))); [exact X2|auto|]|intros h' a b _ [Y _]; now apply acc_fresh].
  clear - N0. intros i s h' o r l _ X (Ac & V & C). pose proof (proj1 Ac).
  mcall_l X get_block_sim. intros h1 b S1 X1 [B _]. after S1.
  mcall X1 hc_encrypt_sim. intros h2 c cl S2 X2 Fc. after S2.
  mcall_r X2 acc_add. intros h3 y S3 Y. after S3. auto.
Qed.
Lemma ecb_decrypt_msim h s o x p : R h s o -> arep h x p -> aoutside W x ->
  msim R (List.length h) W s h (h_ecb_decrypt x) o (ecb_decrypt p) (fresh h).
Proof.
  intros X A AO. unfold h_ecb_decrypt, ecb_decrypt. pose proof (Rel_n0 _ _ _ X) as N0.
  eapply m_call_l; [apply Rel_same|exact X|eapply start, X|lia|]. intros h1 r S1 X1 Ac.
  pose proof (out_acc _ _ _ _ _ _ X1 N0 Ac) as Or. apply (arep_same _ _ _ _ S1) in A. pose proof (same_len _ _ S1) as L1.
  eapply m_bind; [now apply check_ciphertext_msim|lia|]. intros h2 s2 o2 v d K2 X2 [V OV]. after_m K2. apply m_get.
  mcall_l X2 p_rd. intros h3 d' S3 X3 [-> ->]. rewrite (Rel_bs _ _ _ X2).
  pose proof (Rel_key _ _ _ X2) as C.
  eapply m_conseq; [apply (m_for _ _ _ (fun h' r l => acc h h' r l /\ has h' v d /\ crep h' (h_cipher s2) (o_cipher o2))); [exact X2|auto|]|intros h' a b _ [Y _]; now apply acc_fresh].
  clear - N0. intros i s h' o r l _ X (Ac & V & C). pose proof (proj1 Ac).
  mcall_l X get_block_sim. intros h1 b S1 X1 [B _]. after S1.
  mcall X1 hc_decrypt_sim. intros h2 c cl S2 X2 Fc. after S2.
  mcall_r X2 acc_add. intros h3 y S3 Y. after S3. auto.
Qed.

(** CBC. *)
Lemma cbc_encrypt_msim h s o x p : feedback = true -> R h s o -> arep h x p -> aoutside W x ->
  msim R (List.length h) W s h (h_cbc_encrypt x) o (cbc_encrypt p) (fresh h).
Proof.
  intros Fb X A AO. unfold h_cbc_encrypt, cbc_encrypt. pose proof (Rel_n0 _ _ _ X) as N0.
  eapply m_call_l; [apply Rel_same|exact X|eapply start, X|lia|]. intros h1 r S1 X1 Ac.
  pose proof (out_acc _ _ _ _ _ _ X1 N0 Ac) as Or. apply (arep_same _ _ _ _ S1) in A. pose proof (same_len _ _ S1) as L1.
  eapply m_bind; [now apply padding_encrypt_msim|lia|]. intros h2 s2 o2 v d K2 X2 [V OV]. after_m K2. apply m_get.
  mcall_l X2 p_rd. intros h3 d' S3 X3 [-> ->]. cbv zeta. rewrite (Rel_bs _ _ _ X2). set (bs := block_size o2). clearbody bs.
  eapply m_conseq; [apply (m_for _ _ _ (Inv h v d)); [exact X2|split; assumption|]|intros h' a b _ [Y _]; now apply acc_fresh].
  clear - N0 OV Fb. intros i s h' o r l _ X (Ac & V). pose proof (proj1 Ac). pose proof (out_acc _ _ _ _ _ _ X N0 Ac) as Or.
  apply m_get.
  mcall_l X p_slice. intros h1 y S1 X1 [Y _]. after S1.
  mcall_l X1 get_block_sim. intros h2 b S2 X2 [B _]. after S2.
  mcall_l X2 add_xor_sim. intros h3 t S3 X3 Ft. after S3.
  mcall X3 hc_encrypt_sim. intros h4 c cl S4 X4 Fc. after S4. pose proof (fresh_has _ _ _ _ Fc) as Hc.
  mcall_l X4 acc_add. intros h5 acc1 S5 X5 Ac1. after S5.
  mcall_l X5 p_slice. intros h6 z S6 X8 [Z NZ]. after S6. pose proof (Rel_new _ _ _ _ X5 NZ) as OZ.
  assert (OA : outside W acc1) by (eapply (out_acc h); eassumption).
  eapply m_bind; [eapply set_init_vect_msim; [exact Fb|exact X8|eassumption|assumption]|lia|]. intros h9 s9 o9 _ _ K9 X9 _. after_m K9.
  apply m_ret; [exact X9|]. split; assumption.
Qed.

Lemma cbc_decrypt_msim h s o x p : feedback = true -> R h s o -> arep h x p -> aoutside W x ->
  msim R (List.length h) W s h (h_cbc_decrypt x) o (cbc_decrypt p) (fresh h).
Proof.
  intros Fb X A AO. unfold h_cbc_decrypt, cbc_decrypt. pose proof (Rel_n0 _ _ _ X) as N0.
  eapply m_call_l; [apply Rel_same|exact X|eapply start, X|lia|]. intros h1 r S1 X1 Ac.
  pose proof (out_acc _ _ _ _ _ _ X1 N0 Ac) as Or. apply (arep_same _ _ _ _ S1) in A. pose proof (same_len _ _ S1) as L1.
  eapply m_bind; [now apply check_ciphertext_msim|lia|]. intros h2 s2 o2 v d K2 X2 [V OV]. after_m K2. apply m_get.
  mcall_l X2 p_rd. intros h3 d' S3 X3 [-> ->]. cbv zeta. rewrite (Rel_bs _ _ _ X2). set (bs := block_size o2). clearbody bs.
  eapply m_conseq; [apply (m_for _ _ _ (Inv h v d)); [exact X2|split; assumption|]|intros h' a b _ [Y _]; now apply acc_fresh].
  clear - N0 OV Fb. intros i s h' o r l _ X (Ac & V). pose proof (proj1 Ac). pose proof (out_acc _ _ _ _ _ _ X N0 Ac) as Or.
  apply m_get.
  mcall_l X get_block_sim. intros h1 b S1 X1 [B _]. after S1.
  mcall X1 hc_decrypt_sim. intros h2 t tl S2 X2 Ft. after S2. pose proof (fresh_has _ _ _ _ Ft) as Ht.
  mcall_l X2 p_slice. intros h3 y S3 X3 [Y _]. after S3.
  mcall_l X3 add_xor_sim. intros h4 c S4 X4 Fc. after S4. pose proof (fresh_has _ _ _ _ Fc) as Hc.
  mcall_l X4 acc_add. intros h5 acc1 S5 X5 Ac1. after S5.
  mcall_l X5 get_block_sim. intros h6 z S6 X8 [Z NZ]. after S6. pose proof (Rel_new _ _ _ _ X5 NZ) as OZ.
  assert (OA : outside W acc1) by (eapply (out_acc h); eassumption).
  eapply m_bind; [eapply set_init_vect_msim; [exact Fb|exact X8|eassumption|assumption]|lia|]. intros h9 s9 o9 _ _ K9 X9 _. after_m K9.
  apply m_ret; [exact X9|]. split; assumption.
Qed.

(** CFB. *)
Lemma cfb_encrypt_msim h s o x p : feedback = true -> R h s o -> arep h x p -> aoutside W x ->
  msim R (List.length h) W s h (h_cfb_encrypt x) o (cfb_encrypt p) (fresh h).
Proof.
  intros Fb X A AO. unfold h_cfb_encrypt, cfb_encrypt. pose proof (Rel_n0 _ _ _ X) as N0.
  eapply m_call_l; [apply Rel_same|exact X|eapply start, X|lia|]. intros h1 r S1 X1 Ac.
  pose proof (out_acc _ _ _ _ _ _ X1 N0 Ac) as Or. apply (arep_same _ _ _ _ S1) in A. pose proof (same_len _ _ S1) as L1.
  eapply m_bind; [now apply check_plaintext_msim|lia|]. intros h2 s2 o2 v d K2 X2 [V OV]. after_m K2. apply m_get.
  mcall_l X2 p_rd. intros h3 d' S3 X3 [-> ->]. cbv zeta. rewrite (Rel_bs _ _ _ X2). set (bs := block_size o2). clearbody bs.
  eapply (m_bind_for _ _ _ _ _ _ _ _ _ _ (Inv h v d)).
  { apply (m_for _ _ _ (Inv h v d)); [exact X2|split; assumption|].
  clear - N0 OV Fb. intros i s h' o r l _ X (Ac & V). pose proof (proj1 Ac). pose proof (out_acc _ _ _ _ _ _ X N0 Ac) as Or.
  eapply m_bind; [now apply get_gamma_msim|lia|]. intros h1 s1 o1 g gl K1 X1 Fg. after_m K1. pose proof (fresh_has _ _ _ _ Fg) as Hg.

  mcall_l X1 get_block_sim. intros h2 b S2 X2 [B _]. after S2.
  mcall_l X2 add_xor_sim. intros h3 c S3 X3 Fc. after S3. pose proof (fresh_has _ _ _ _ Fc) as Hc.
  mcall_l X3 acc_add. intros h5 acc1 S5 X5 Ac1. after S5.
  mcall_l X5 p_slice. intros h6 z S6 X8 [Z NZ]. after S6. pose proof (Rel_new _ _ _ _ X5 NZ) as OZ.
  assert (OA : outside W acc1) by (eapply (out_acc h); eassumption).
  eapply m_bind; [eapply set_init_vect_msim; [exact Fb|exact X8|eassumption|assumption]|lia|]. intros h9 s9 o9 _ _ K9 X9 _. after_m K9.
  apply m_ret; [exact X9|]. split; assumption.
  }
  intros h3 s3 o3 r3 l3 K3 X3' (Ac3 & V3). pose proof (proj1 Ac3). pose proof (out_acc _ _ _ _ _ _ X3' N0 Ac3) as Or3.
  destruct (negb (len d mod bs =? 0)).
  - eapply m_bind; [now apply final_cipher_msim|lia|]. intros h4 s4 o4 f fl K4 X4 Ff. after_m K4.
    eapply m_call_r; [apply Rel_same|exact X4|eapply acc_add; eauto using fresh_has|lia|].
    intros h5 y _ Y. now apply acc_fresh.
  - apply m_ret; [exact X3'|]. now apply acc_fresh.
Qed.

Lemma cfb_decrypt_msim h s o x p : feedback = true -> R h s o -> arep h x p -> aoutside W x ->
  msim R (List.length h) W s h (h_cfb_decrypt x) o (cfb_decrypt p) (fresh h).
Proof.
  intros Fb X A AO. unfold h_cfb_decrypt, cfb_decrypt. pose proof (Rel_n0 _ _ _ X) as N0.
  eapply m_call_l; [apply Rel_same|exact X|eapply start, X|lia|]. intros h1 r S1 X1 Ac.
  pose proof (out_acc _ _ _ _ _ _ X1 N0 Ac) as Or. apply (arep_same _ _ _ _ S1) in A. pose proof (same_len _ _ S1) as L1.
  eapply m_bind; [now apply check_ciphertext_msim|lia|]. intros h2 s2 o2 v d K2 X2 [V OV]. after_m K2. apply m_get.
  mcall_l X2 p_rd. intros h3 d' S3 X3 [-> ->]. cbv zeta. rewrite (Rel_bs _ _ _ X2). set (bs := block_size o2). clearbody bs.
  eapply (m_bind_for _ _ _ _ _ _ _ _ _ _ (Inv h v d)).
  { apply (m_for _ _ _ (Inv h v d)); [exact X2|split; assumption|].
  clear - N0 OV Fb. intros i s h' o r l _ X (Ac & V). pose proof (proj1 Ac). pose proof (out_acc _ _ _ _ _ _ X N0 Ac) as Or.
  eapply m_bind; [now apply get_gamma_msim|lia|]. intros h1 s1 o1 g gl K1 X1 Fg. after_m K1. pose proof (fresh_has _ _ _ _ Fg) as Hg.

  mcall_l X1 get_block_sim. intros h2 b S2 X2 [B NB]. after S2. pose proof (Rel_new _ _ _ _ X1 NB) as OZ.
  mcall_l X2 add_xor_sim. intros h3 c S3 X3 Fc. after S3. pose proof (fresh_has _ _ _ _ Fc) as Hc.
  mcall_l X3 acc_add. intros h5 acc1 S5 X8 Ac1. after S5.
  assert (OA : outside W acc1) by (eapply (out_acc h); eassumption).
  eapply m_bind; [eapply set_init_vect_msim; [exact Fb|exact X8|exact B|assumption]|lia|]. intros h9 s9 o9 _ _ K9 X9 _. after_m K9.
  apply m_ret; [exact X9|]. split; assumption.
  }
  intros h3 s3 o3 r3 l3 K3 X3' (Ac3 & V3). pose proof (proj1 Ac3). pose proof (out_acc _ _ _ _ _ _ X3' N0 Ac3) as Or3.
  destruct (negb (len d mod bs =? 0)).
  - eapply m_bind; [now apply final_cipher_msim|lia|]. intros h4 s4 o4 f fl K4 X4 Ff. after_m K4.
    eapply m_call_r; [apply Rel_same|exact X4|eapply acc_add; eauto using fresh_has|lia|].
    intros h5 y _ Y. now apply acc_fresh.
  - apply m_ret; [exact X3'|]. now apply acc_fresh.
Qed.

(** OFB. *)
Lemma ofb_encrypt_msim h s o x p : feedback = true -> R h s o -> arep h x p -> aoutside W x ->
  msim R (List.length h) W s h (h_ofb_encrypt x) o (ofb_encrypt p) (fresh h).
Proof.
  intros Fb X A AO. unfold h_ofb_encrypt, ofb_encrypt. pose proof (Rel_n0 _ _ _ X) as N0.
  eapply m_call_l; [apply Rel_same|exact X|eapply start, X|lia|]. intros h1 r S1 X1 Ac.
  pose proof (out_acc _ _ _ _ _ _ X1 N0 Ac) as Or. apply (arep_same _ _ _ _ S1) in A. pose proof (same_len _ _ S1) as L1.
  eapply m_bind; [now apply check_plaintext_msim|lia|]. intros h2 s2 o2 v d K2 X2 [V OV]. after_m K2. apply m_get.
  mcall_l X2 p_rd. intros h3 d' S3 X3 [-> ->]. cbv zeta. rewrite (Rel_bs _ _ _ X2). set (bs := block_size o2). clearbody bs.
  eapply (m_bind_for _ _ _ _ _ _ _ _ _ _ (Inv h v d)).
  { apply (m_for _ _ _ (Inv h v d)); [exact X2|split; assumption|].
  clear - N0 OV Fb. intros i s h' o r l _ X (Ac & V). pose proof (proj1 Ac). pose proof (out_acc _ _ _ _ _ _ X N0 Ac) as Or.
  eapply m_bind; [now apply get_gamma_msim|lia|]. intros h1 s1 o1 g gl K1 X1 Fg. after_m K1. pose proof (fresh_has _ _ _ _ Fg) as Hg.

  mcall_l X1 get_block_sim. intros h2 b S2 X2 [B NB]. after S2.
  mcall_l X2 add_xor_sim. intros h3 c S3 X3 Fc. after S3. pose proof (fresh_has _ _ _ _ Fc) as Hc.
  mcall_l X3 acc_add. intros h5 acc1 S5 X5 Ac1. after S5.
  eapply m_call_l; [apply Rel_same|exact X5|eapply p_slice; exact Hg|lia|]. intros h6 z S6 X8 [Z NZ]. after S6. pose proof (Rel_new _ _ _ _ X5 NZ) as OZ.
  assert (OA : outside W acc1) by (eapply (out_acc h); eassumption).
  eapply m_bind; [eapply set_init_vect_msim; [exact Fb|exact X8|eassumption|assumption]|lia|]. intros h9 s9 o9 _ _ K9 X9 _. after_m K9.
  apply m_ret; [exact X9|]. split; assumption.
  }
  intros h3 s3 o3 r3 l3 K3 X3' (Ac3 & V3). pose proof (proj1 Ac3). pose proof (out_acc _ _ _ _ _ _ X3' N0 Ac3) as Or3.
  destruct (negb (len d mod bs =? 0)).
  - eapply m_bind; [now apply final_cipher_msim|lia|]. intros h4 s4 o4 f fl K4 X4 Ff. after_m K4.
    eapply m_call_r; [apply Rel_same|exact X4|eapply acc_add; eauto using fresh_has|lia|].
    intros h5 y _ Y. now apply acc_fresh.
  - apply m_ret; [exact X3'|]. now apply acc_fresh.
Qed.

Lemma ofb_decrypt_msim h s o x p : feedback = true -> R h s o -> arep h x p -> aoutside W x ->
  msim R (List.length h) W s h (h_ofb_decrypt x) o (ofb_decrypt p) (fresh h).
Proof.
  intros Fb X A AO. unfold h_ofb_decrypt, ofb_decrypt.
  pose proof (arep_buf _ _ _ A) as B.
  eapply (m_bind _ _ _ _ _ _ _ _ _ _ (fun h' v l => has h' v l /\ outside W v /\ as_buf x = Some v /\ p = VBytes l)); [|lia|].
  - destruct (as_buf x) as [v|] eqn:V.
    + destruct p; try contradiction. unfold h_check_ciphertext, h_check. rewrite V. apply m_ret; [exact X|]. split; [exact B|]. split; [now apply (aoutside_buf _ x)|auto].
    + pose proof (check_ciphertext_msim h s o x p X A AO) as C. unfold msim in *. unfold h_check_ciphertext, h_check in *. rewrite V in *.
      destruct ((h_clear;! raiseM _) (s, h)) as [[y|e] [s' h']] eqn:E.
      { exfalso. unfold bindM in E. destruct (h_clear (s, h)) as [[[]|] []]; discriminate. }
      destruct (check_ciphertext p o) as [[y|e'] o']; [destruct C as (_ & _ & [])|exact C].
  - intros h' s' o' v l K X' (V & O & Ev & ->). eapply m_tail; [eapply ofb_encrypt_msim; [exact Fb|exact X'| |exact AO]|now apply keeps_len in K|].
    + destruct x as [a|q]; cbn in Ev, A |- *.
      * injection Ev as <-. exists l. now split.
      * exact A.
    + intros h2 s2 o2 y yl K2 _ Fr. eapply fresh_le; [|exact Fr]. now apply keeps_len in K.
Qed.

(** CTR: the counter is changed in place. *)
Lemma inc_ctr_sim h a c bs : has h (Ref a) c ->
  sim (List.length h) [a] h (h_inc_ctr bs (Ref a)) (_inc_ctr bs c) (fun h' x l => x = Ref a /\ has h' (Ref a) l).
Proof.
  intros Ha. unfold h_inc_ctr, _inc_ctr. cbv zeta. pose proof (has_lt _ _ _ Ha) as La.
  apply s_alloc; [lia|auto|]. new_buf.
  assert (AB : Ref a <> Ref a0) by assumption. assert (AB' : Ref a0 <> Ref a) by congruence.
  eapply s_set; [left; lia|eassumption|]. intros h1 bit Hb _ K1 L1. carry_wr K1.
  eapply sim_bind.
  - apply (sim_for _ _ (fun h' i1 '(i2, c') => i1 = i2 /\ has h' (Ref a0) bit /\ has h' (Ref a) c')); [auto|].
    intros i h' i1 [i2 c'] _ (-> & Xb & Xc). got Xc. got Xb.
    eapply s_set; [right; now left|exact Xc|]. intros h2 c2 Hc2 _ K2 _. carry_wr K2. apply sim_ret. auto.
  - intros h' i1 [i2 c'] _ (-> & _ & Xc). apply sim_ret. auto.
Qed.

Lemma ctr_step_msim h s o : mc = CTR -> R h s o -> msim R (List.length h) W s h h_ctr_step o ctr_step (fresh h).
Proof.
  intros Em X. unfold h_ctr_step, ctr_step. apply m_get.
  eapply m_call; [apply Rel_same|exact X|apply hc_encrypt_sim; [apply Rel_key, X|apply (hr_counter _ _ _ (proj1 X))]|lia|].
  intros h1 g gl S1 X1 Fg. pose proof (same_len _ _ S1) as L1. pose proof (Rel_bs _ _ _ X1) as Eb.
  destruct X1 as (X1 & O & Ft & N & L & Cl). pose proof (hr_counter _ _ _ X1) as Hc.
  pose proof (hr_writable _ _ _ X1) as Wr. rewrite Cl, Em in Wr. destruct Wr as [[a Ea] Lc]. rewrite Ea in Hc.
  assert (Wa : In a W) by (rewrite <- O; apply in_refs; cbn; auto).
  assert (BL : block (o_cipher o) (o_counter o)) by (split; [exact Lc|apply Hc]).
  pose proof (inc_ctr_ok _ _ BL) as E. fold (block_size o) in E.
  pose proof (inc_ctr_sim h1 a _ (block_size o) Hc) as P. rewrite E in P.
  rewrite Ea, Eb, E. unfold sim in P. unfold msim, onheap, bindM, liftM, putO, putM, retM.
  destruct (h_inc_ctr (block_size o) (Ref a) h1) as [x h2]. destruct P as [K P]. destruct x as [y|e]; [|contradiction]. destruct P as [-> P].
  assert (KW : keeps (List.length h1) W h1 h2) by (eapply keeps_mono; [|exact K]; intros b [<-|[]]; exact Wa).
  pose proof (keeps_len _ _ _ _ K) as L2.
  split; [apply (keeps_trans _ _ _ h1); [now apply same_keeps|now apply (keeps_le _ (List.length h1))]|].
  split.
  - assert (Eo : own (h_set_counter s (Ref a)) = own s) by (unfold own; cbn; now rewrite Ea).
    split; [|split; [now rewrite Eo|split; [|split; [lia|split; [exact L|exact Cl]]]]].
    + destruct X1 as [Xc XC Xp Xi Xt Xd Xo Xw]. constructor; cbn [h_class h_cipher h_pad_mode h_init_vect h_counter h_set_counter set_counter o_class o_cipher o_pad_mode o_init_vect o_counter]; auto.
      * eapply crep_keep; [exact KW| |exact XC]. now rewrite O in Xo.
      * eapply has_keep; [exact K| |exact Xi]. destruct (h_init_vect s) as [l|b] eqn:Ei; cbn; [exact I|]. intros [->|[]]. now apply (Xd b eq_refl).
      * intros b Eb'. rewrite <- Ea. now apply Xd.
      * now rewrite Eo.
      * rewrite Cl, Em. split; [now exists a|]. apply (ctr_next_block _ _ 1 BL).
    + intros b B. apply Ft. unfold foot in *. rewrite Eo in B. exact B.
  - destruct Fg as (b & -> & Lb & Hg). apply fresh_mk; [exact Lb|]. eapply has_keep; [exact KW| |exact Hg].
    intros Z. apply L in Z. pose proof (Rel_n0 _ _ _ X). lia.
Qed.

Lemma ctr_encrypt_msim h s o x p : mc = CTR -> R h s o -> arep h x p -> aoutside W x ->
  msim R (List.length h) W s h (h_ctr_encrypt x) o (ctr_encrypt p) (fresh h).
Proof.
  intros Em X A AO. unfold h_ctr_encrypt, ctr_encrypt. pose proof (Rel_n0 _ _ _ X) as N0.
  eapply m_call_l; [apply Rel_same|exact X|eapply start, X|lia|]. intros h1 r S1 X1 Ac.
  pose proof (out_acc _ _ _ _ _ _ X1 N0 Ac) as Or. apply (arep_same _ _ _ _ S1) in A. pose proof (same_len _ _ S1) as L1.
  eapply m_bind; [now apply check_plaintext_msim|lia|]. intros h2 s2 o2 v d K2 X2 [V OV]. after_m K2. apply m_get.
  mcall_l X2 p_rd. intros h3 d' S3 X3 [-> ->]. cbv zeta. rewrite (Rel_bs _ _ _ X2). set (bs := block_size o2). clearbody bs.
  eapply (m_bind_for _ _ _ _ _ _ _ _ _ _ (Inv h v d)).
  { apply (m_for _ _ _ (Inv h v d)); [exact X2|split; assumption|].
    clear - N0 OV Em. intros i s h' o r l _ X (Ac & V). pose proof (proj1 Ac). pose proof (out_acc _ _ _ _ _ _ X N0 Ac) as Or.
    eapply m_bind; [now apply ctr_step_msim|lia|]. intros h1 s1 o1 g gl K1 X1 Fg. after_m K1. pose proof (fresh_has _ _ _ _ Fg) as Hg.
    mcall_l X1 get_block_sim. intros h2 b S2 X2 [B _]. after S2.
    mcall_l X2 add_xor_sim. intros h3 c S3 X3 Fc. after S3. pose proof (fresh_has _ _ _ _ Fc) as Hc.
    mcall_r X3 acc_add. intros h4 y S4 Y. after S4. split; assumption. }
  intros h3 s3 o3 r3 l3 K3 X3' (Ac3 & V3). pose proof (proj1 Ac3). pose proof (out_acc _ _ _ _ _ _ X3' N0 Ac3) as Or3.
  destruct (negb (len d mod bs =? 0)).
  - eapply m_bind; [now apply ctr_step_msim|lia|]. intros h4 s4 o4 g gl K4 X4 Fg. after_m K4. pose proof (fresh_has _ _ _ _ Fg) as Hg.
    eapply m_call_l; [apply Rel_same|exact X4|eapply p_from, V3|lia|]. intros h5 b S5 X5 [B _]. after S5.
    mcall_l X5 add_xor_sim. intros h6 c S6 X6 Fc. after S6. pose proof (fresh_has _ _ _ _ Fc) as Hc.
    mcall_r X6 acc_add. intros h7 y _ Y. now apply acc_fresh.
  - apply m_ret; [exact X3'|]. now apply acc_fresh.
Qed.
Lemma ctr_decrypt_msim h s o x p : mc = CTR -> R h s o -> arep h x p -> aoutside W x ->
  msim R (List.length h) W s h (h_ctr_decrypt x) o (ctr_decrypt p) (fresh h).
Proof.
  intros Em X A AO. unfold h_ctr_decrypt, ctr_decrypt.
  eapply m_bind; [now apply check_ciphertext_msim|lia|]. intros h1 s1 o1 v d K1 X1 [V OV]. pose proof (keeps_len _ _ _ _ K1).
  eapply m_tail; [apply ctr_encrypt_msim; [exact Em|exact X1|now apply arep_of|now apply aoutside_of]|lia|].
  intros h2 s2 o2 y yl K2 _ Fr. eapply fresh_le; [|exact Fr]. lia.
Qed.

(** Dispatch. *)
Lemma encrypt_msim h s o x p : R h s o -> arep h x p -> aoutside W x ->
  msim R (List.length h) W s h (h_encrypt x) o (encrypt p) (fresh h).
Proof.
  intros X A AO. unfold h_encrypt, encrypt. apply m_get.
  rewrite <- (hr_class _ _ _ (proj1 X)). pose proof X as (_ & _ & _ & _ & _ & Cl).
  destruct (h_class s).
  - now apply ecb_encrypt_msim.
  - apply cbc_encrypt_msim; auto. unfold feedback. now rewrite <- Cl.
  - apply cfb_encrypt_msim; auto. unfold feedback. now rewrite <- Cl.
  - apply ofb_encrypt_msim; auto. unfold feedback. now rewrite <- Cl.
  - now apply ctr_encrypt_msim.
Qed.
Lemma decrypt_msim h s o x p : R h s o -> arep h x p -> aoutside W x ->
  msim R (List.length h) W s h (h_decrypt x) o (decrypt p) (fresh h).
Proof.
  intros X A AO. unfold h_decrypt, decrypt. apply m_get.
  rewrite <- (hr_class _ _ _ (proj1 X)). pose proof X as (_ & _ & _ & _ & _ & Cl).
  destruct (h_class s).
  - now apply ecb_decrypt_msim.
  - apply cbc_decrypt_msim; auto. unfold feedback. now rewrite <- Cl.
  - apply cfb_decrypt_msim; auto. unfold feedback. now rewrite <- Cl.
  - apply ofb_decrypt_msim; auto. unfold feedback. now rewrite <- Cl.
  - now apply ctr_decrypt_msim.
Qed.
(** The attribute [iv]. *)
Lemma iv_msim h s o : R h s o -> msim R (List.length h) W s h h_iv o (let! self := getM in retM (iv self)) (built h).
Proof.
  intros X. unfold h_iv. apply m_get. rewrite (Rel_bs _ _ _ X). unfold iv.
  mcall_l X p_len. intros h1 n S1 X1 [-> ->]. mcall_r X p_from. auto.
Qed.
End Methods.
