(** * The flow of control of the MAC mode depends on lengths only, and the operations of the block cipher in it. *)
From Verif Require Import PyBase PyState PyFacts PyLoop Utils UtilsFacts CipherTables CipherObj Modes Mac SpecKuznechik SpecMagma SpecModes Kuznechik Magma KuzFacts KuzFacts2 MagmaFacts CipherLemmas CipherObjFacts ModeFacts CtrFacts MacFacts MacFacts2.
From Verif Require Import SpecTrace Trace TraceLemmas TraceFacts TraceCipher TraceCipherFacts TraceCipher2 TraceCipher2Facts PropTrace2 PropTrace3 TraceHashErase TraceHashFlow TracePbkdfFacts TraceRandomFacts TraceModes TraceModesErase TraceModesFlow TraceModesUse TraceMac TraceMacErase.
Open Scope string_scope.
Open Scope list_scope.
Open Scope Z_scope.

(** ** The last whole block *)
Lemma last_slices n d : 0 < n -> n <= len d ->
  (_get_pad_size n d = 0 -> py_slice d (len d - n) (len d) = _get_block n d (len d / n - 1)) /\
  (_get_pad_size n d <> 0 -> py_slice d (len d - 2 * n + _get_pad_size n d) (len d - n + _get_pad_size n d) = _get_block n d (len d / n - 1)).
Proof.
  intros Hn HL. pose proof (Z.div_mod (len d) n ltac:(lia)) as HD. pose proof (Z.mod_pos_bound (len d) n Hn) as HM. unfold _get_pad_size, _get_block. replace (len d <? n) with false by lia.
  set (q := len d / n) in *. set (r := len d mod n) in *. clearbody q r. destruct (Z.eqb_spec r 0) as [E|E]; (split; intros H); try lia; f_equal; lia.
Qed.

(** What the flow needs to know of an object. *)
Record mst (m : mac_obj) (bl : list bytes) (t : bytes) : Prop := {
  mst_cm : cm (m_cipher m); mst_core : core m bl t; mst_fin : m_fin_buff m = fin_of bl t; mst_1 : block (m_cipher m) (m_key_1 m); mst_2 : block (m_cipher m) (m_key_2 m) }.

Lemma fin_whole m bl t : mst m bl t -> bl <> [] -> t = [] -> _get_pad_size (bs (m_cipher m)) (m_fin_buff m) = 0 /\ block (m_cipher m) (m_fin_buff m).
Proof.
  intros H HN ->. rewrite (mst_fin _ _ _ H). unfold fin_of. rewrite app_nil_r. assert (HB : block (m_cipher m) (last bl [])) by (apply last_forall; [apply (mst_core _ _ _ H) | exact HN]). split; [|exact HB]. destruct HB as [HB _]. pose proof (bs_pos (m_cipher m)). unfold _get_pad_size. rewrite HB, Z.ltb_irrefl, Z.mod_same by lia. reflexivity.
Qed.
Lemma fin_part m bl t : mst m bl t -> bl = [] \/ t <> [] -> _get_pad_size (bs (m_cipher m)) (m_fin_buff m) <> 0 /\ py_from (m_fin_buff m) (bs (m_cipher m)) = t.
Proof.
  intros H HN. rewrite (mst_fin _ _ _ H). unfold fin_of. pose proof (mst_core _ _ _ H) as C. pose proof (bs_pos (m_cipher m)) as HP. pose proof (core_tl _ _ _ C) as HT. pose proof (len_nonneg t). destruct bl as [|b0 bl0].
  - rewrite (core_ne _ _ _ C eq_refl). cbn [last app]. split; [unfold _get_pad_size; rewrite len_nil; replace (0 <? bs (m_cipher m)) with true by lia; lia|]. rewrite py_from_skipn by lia. apply skipn_nil.
  - destruct HN as [HN|HN]; [discriminate HN|]. assert (HB : block (m_cipher m) (last (b0 :: bl0) [])) by (apply last_forall; [apply C | discriminate]). destruct HB as [HB _]. assert (0 < len t) by (destruct t; [contradiction | rewrite len_cons; pose proof (len_nonneg t); lia]).
    split; [|rewrite py_from_skipn by lia; rewrite skipn_app; unfold len in HB; rewrite skipn_all2 by lia; replace (Z.to_nat (bs (m_cipher m)) - _)%nat with 0%nat by lia; reflexivity].
    unfold _get_pad_size. rewrite len_app, HB. replace (bs (m_cipher m) + len t <? bs (m_cipher m)) with false by lia. replace (bs (m_cipher m) + len t) with (len t + 1 * bs (m_cipher m)) by lia. rewrite Z.mod_add by lia. rewrite Z.mod_small by lia. replace (len t =? 0) with false by lia. lia.
Qed.
Lemma fin_ok m bl t : mst m bl t -> bytes_ok (m_fin_buff m).
Proof.
  intros H. rewrite (mst_fin _ _ _ H). unfold fin_of. apply bytes_ok_app. split; [|apply (mst_core _ _ _ H)]. destruct bl as [|b bl]; [constructor|]. apply (last_forall _ (b :: bl) [] (core_bl _ _ _ (mst_core _ _ _ H))). discriminate.
Qed.
Lemma pad3_ok c t : bytes_ok t -> len t < bs c -> block c (_set_pad_mode_3 (bs c) t).
Proof. intros Ht HL. rewrite pad3_block by assumption. now apply pad3_is_block. Qed.

Lemma len_0 (x : bytes) : len x = 0 -> x = [].
Proof. destruct x as [|y x]; [reflexivity|]. rewrite len_cons. pose proof (len_nonneg x). lia. Qed.
Section Two.
  Context (m m' : mac_obj) (bl bl' : list bytes) (t t' : bytes) (H : mst m bl t) (H' : mst m' bl' t') (EA : co_alg (m_cipher m) = co_alg (m_cipher m')) (ET : len t = len t') (EN : bl = [] <-> bl' = []).
  Local Notation c := (m_cipher m). Local Notation c' := (m_cipher m').
  Lemma two_cm : cm2 c c'.
  Proof using H H' EA. split; [apply H|]. split; [apply H' | exact EA]. Qed.
  Lemma two_bs : bs c = bs c'.
  Proof using EA. apply bs2, EA. Qed.
  Lemma same_round x x' i p p' : pair_ok x x' -> In i (py_range 0 (len x / bs c) 1) -> bk2 c c' p p' -> same (bk2 c c') (t_mac_round m x i p) (t_mac_round m' x' i p').
  Proof using H H' EA.
    intros Hx Hi Hp. unfold t_mac_round, mac_block_size. eapply same_bind; [apply same_block; [exact EA | exact Hx | exact Hi]|]. intros b b' Hb. eapply same_bind; [apply same_xor2; [exact EA | exact Hp | exact Hb]|]. intros y y' Hy. apply same_encrypt; [exact two_cm | exact Hy].
  Qed.
  Lemma last_blocks x x' : pair_ok x x' -> bs c <= len x -> bk2 c c' (_get_block (bs c) x (len x / bs c - 1)) (_get_block (bs c') x' (len x' / bs c' - 1)).
  Proof using EA.
    intros (L & Hx & Hx') HL. pose proof (bs_pos c) as HP. assert (EL : len x' = len x) by (unfold len; lia). rewrite <- two_bs, EL. pose proof (Z.div_le_mono _ _ (bs c) HP HL) as HQ. rewrite Z.div_same in HQ by lia.
    split; [apply get_block_len; [exact HP | exact Hx | lia]|]. unfold TraceModesFlow.cm2, block. rewrite <- two_bs. apply get_block_len; [exact HP | exact Hx' | rewrite EL; lia].
  Qed.
  Lemma same_last x x' p p' : pair_ok x x' -> bs c <= len x -> bk2 c c' p p' -> same any (t_mac_last m x p) (t_mac_last m' x' p').
  Proof using H H' EA.
    intros Hx HL Hp. pose proof (last_blocks x x' Hx HL) as HB. assert (EL : len x' = len x) by (destruct Hx as [L _]; unfold len; lia). pose proof two_bs as EB. pose proof (bs_pos c) as HP.
    destruct (last_slices (bs c) x HP HL) as [S0 S1]. destruct (last_slices (bs c') x') as [S0' S1']; [lia | lia|].
    unfold t_mac_last, mac_block_size. cbv zeta. assert (EP : _get_pad_size (bs c') x' = _get_pad_size (bs c) x) by (unfold _get_pad_size; rewrite EL, EB; reflexivity).
    assert (SP : same (fun u v => u = _get_pad_size (bs c) x /\ v = _get_pad_size (bs c) x) (t_get_pad_size (bs c) x) (t_get_pad_size (bs c') x')).
    { apply (same_any (t_get_pad_size (bs c) x) (t_get_pad_size (bs c') x') (_get_pad_size (bs c) x) (_get_pad_size (bs c) x)) ; [eapply same_weaken; [apply same_pad_size; [exact EB | exact Hx] | intros; exact I] | apply snd_pad_size | rewrite snd_pad_size, EP; reflexivity]. }
    eapply same_bind; [exact SP|]. intros u v [-> ->]. eapply same_bind with (R := any).
    - apply same_if; [reflexivity| |].
      + intros E. apply Z.eqb_eq in E. rewrite (S0 E). rewrite <- EP in E. rewrite (S0' E). eapply same_bind; [apply same_xor2; [exact EA | exact Hp | exact HB]|]. intros y y' Hy. eapply same_bind; [apply same_encrypt; [exact two_cm | exact Hy]|]. intros; now apply same_ret.
      + intros E. apply Z.eqb_neq in E. eapply same_bind; [exact SP|]. intros u v [-> ->]. eapply same_bind; [exact SP|]. intros u v [-> ->]. rewrite (S1 E). rewrite <- EP in E |- *. rewrite (S1' E).
        eapply same_bind; [apply same_xor2; [exact EA | exact Hp | exact HB]|]. intros y y' Hy. eapply same_bind; [apply same_encrypt; [exact two_cm | exact Hy]|]. intros e e' He. eapply same_bind; [exact SP|]. intros u v _. now apply same_ret.
    - intros [[a0 b0] i0] [[a1 b1] i1] _. eapply same_bind; [apply same_num; [exact EA | exact Hx]|]. intros; now apply same_ret.
  Qed.
  Lemma flow_update d d' : pair_ok d d' -> bs c <= len t + len d -> same any (t_mac_update d m) (t_mac_update d' m').
  Proof using H H' EA ET.
    intros Hd HL. unfold t_mac_update. apply same_at_, same_at_. rewrite (core_iter _ _ _ (mst_core _ _ _ H)), (core_iter _ _ _ (mst_core _ _ _ H')). cbv zeta.
    assert (HX : pair_ok (t ++ d) (t' ++ d')). { destruct Hd as (L & Hd & Hd'). split; [rewrite !app_length, L; unfold len in ET; lia|]. split; apply bytes_ok_app; split; [apply (mst_core _ _ _ H) | exact Hd | apply (mst_core _ _ _ H') | exact Hd']. }
    assert (HL' : bs c <= len (t ++ d)) by (rewrite len_app; exact HL). eapply same_bind; [apply same_num; [exact EA | exact HX]|]. intros n n' [-> ->]. eapply same_bind with (R := bk2 c c').
    - apply same_for; [split; [exact (core_cur_block _ _ _ (mst_core _ _ _ H)) | exact (core_cur_block _ _ _ (mst_core _ _ _ H'))]|]. intros i p p' Hi Hp. apply same_round; [exact HX | apply in_py_range in Hi; apply in_py_range; lia | exact Hp].
    - intros p p' Hp. now apply same_last.
  Qed.
  Lemma same_pad x x' : pair_ok x x' -> same (fun u v => u = _get_pad_size (bs c) x /\ v = _get_pad_size (bs c) x) (t_get_pad_size (bs c) x) (t_get_pad_size (bs c') x').
  Proof using EA.
    intros Hx. assert (EL : len x' = len x) by (destruct Hx as [L _]; unfold len; lia). assert (EP : _get_pad_size (bs c') x' = _get_pad_size (bs c) x) by (unfold _get_pad_size; rewrite EL, two_bs; reflexivity).
    apply (same_any (t_get_pad_size (bs c) x) (t_get_pad_size (bs c') x') (_get_pad_size (bs c) x) (_get_pad_size (bs c) x)) ; [eapply same_weaken; [apply same_pad_size; [exact two_bs | exact Hx] | intros; exact I] | apply snd_pad_size | rewrite snd_pad_size, EP; reflexivity].
  Qed.
  Lemma same_pad_3 x x' : pair_ok x x' -> len x < bs c -> same (bk2 c c') (t_set_pad_mode_3 (bs c) x) (t_set_pad_mode_3 (bs c') x').
  Proof using EA.
    intros Hx HL. assert (EL : len x' = len x) by (destruct Hx as [L _]; unfold len; lia). eapply same_weaken.
    - apply (same_any _ _ (_set_pad_mode_3 (bs c) x) (_set_pad_mode_3 (bs c') x')); [|apply snd_pad_3 | apply snd_pad_3]. unfold t_set_pad_mode_3. apply same_at_. eapply same_bind; [exact (same_pad x x' Hx)|]. intros u v [-> ->]. apply same_if; [reflexivity | intros _; now apply same_ret|]. intros _. eapply same_bind; [exact (same_pad x x' Hx)|]. intros; now apply same_ret.
    - cbv beta. intros y y' [-> ->]. destruct Hx as (_ & Hx & Hx'). split; [now apply pad3_ok|]. apply pad3_ok; [exact Hx' | rewrite EL, <- two_bs; exact HL].
  Qed.
  Lemma flow_final : same any (t_mac_final m) (t_mac_final m').
  Proof using H H' EA ET EN.
    assert (HF : pair_ok (m_fin_buff m) (m_fin_buff m')).
    { split; [|split; [exact (fin_ok _ _ _ H) | exact (fin_ok _ _ _ H')]]. rewrite (mst_fin _ _ _ H), (mst_fin _ _ _ H'). unfold fin_of. rewrite !app_length. unfold len in ET. apply Nat2Z.inj in ET. rewrite ET. f_equal. pose proof (core_bl _ _ _ (mst_core _ _ _ H)) as B. pose proof (core_bl _ _ _ (mst_core _ _ _ H')) as B'.
      destruct bl as [|b0 b1]; [rewrite (proj1 EN eq_refl); reflexivity|]. destruct bl' as [|b0' b1']; [discriminate (proj2 EN eq_refl)|]. destruct (last_forall _ _ [] B) as [L _]; [discriminate|]. destruct (last_forall _ _ [] B') as [L' _]; [discriminate|]. rewrite <- two_bs in L'. unfold len in L, L'. lia. }
    unfold t_mac_final. cbv zeta. apply same_at_. unfold mac_block_size. eapply same_bind; [exact (same_pad _ _ HF)|]. intros u v [-> ->].
    eapply same_bind with (R := fun s s' => bk2 c c' (fst s) (fst s') /\ bk2 c c' (snd s) (snd s')).
    - apply same_if; [reflexivity| |].
      + intros E. apply Z.eqb_eq in E. apply same_ret. cbn [fst snd]. split; [split; [apply H | apply H']|]. assert (HT : t = []) by (destruct t; [reflexivity|]; exfalso; apply (proj1 (fin_part _ _ _ H ltac:(right; discriminate))); exact E).
        assert (HB : bl <> []) by (intros ->; apply (proj1 (fin_part _ _ _ H (or_introl eq_refl))); exact E). assert (HT' : t' = []) by (apply len_0; rewrite <- ET, HT; reflexivity).
        split; [exact (proj2 (fin_whole _ _ _ H HB HT))|]. refine (proj2 (fin_whole _ _ _ H' _ HT')). intros K. apply HB, EN, K.
      + intros E. apply Z.eqb_neq in E. assert (HN : bl = [] \/ t <> []). { destruct t; [|right; discriminate]. left. destruct bl; [reflexivity|]. exfalso. apply E. apply (fin_whole _ _ _ H); [discriminate | reflexivity]. }
        assert (HN' : bl' = [] \/ t' <> []). { destruct HN as [HN|HN]; [left; now apply EN|]. right. intros K. apply HN, len_0. rewrite ET, K. reflexivity. }
        rewrite (proj2 (fin_part _ _ _ H HN)), (proj2 (fin_part _ _ _ H' HN')). eapply same_bind.
        * apply (same_pad_3 t t'); [|apply (mst_core _ _ _ H)]. split; [unfold len in ET; lia|]. split; [apply (mst_core _ _ _ H) | apply (mst_core _ _ _ H')].
        * intros b b' Hb. apply same_ret. cbn [fst snd]. split; [split; [apply H | apply H'] | exact Hb].
    - intros [k f] [k' f'] [Hk Hf]. cbn [fst snd] in Hk, Hf. eapply same_bind; [apply same_xor2; [exact EA | exact Hf | split; [exact (core_prev_block _ _ _ (mst_core _ _ _ H)) | exact (core_prev_block _ _ _ (mst_core _ _ _ H'))]]|]. intros x x' Hx.
      eapply same_bind; [apply same_xor2; [exact EA | exact Hx | exact Hk]|]. intros y y' Hy. eapply same_weaken; [apply same_encrypt; [exact two_cm | exact Hy] | intros; exact I].
  Qed.
  Lemma flow_digest n : same any (t_mac_digest n m) (t_mac_digest n m').
  Proof using H H' EA ET EN. unfold t_mac_digest. apply same_at_, same_at_. eapply same_bind; [exact flow_final|]. intros; now apply same_ret. Qed.
End Two.

(** ** The operations of the block cipher *)
Section Work.
  Context {X : Type} (f : event -> list X) (HF : cipher_only f) (m : mac_obj) (bl : list bytes) (t : bytes) (H : mst m bl t).
  Local Notation c := (m_cipher m). Local Notation E := (t_co_encrypt (m_cipher m)).
  Lemma mac_op : forall b, block c b -> exists r, snd (E b) = Returns r /\ block c r.
  Proof using H. intros b Hb. destruct (co_enc c b (cm_ok c (mst_cm _ _ _ H)) Hb) as [EE K]. exists (oE c b). rewrite erase_co_encrypt, EE. split; [reflexivity | exact K]. Qed.
  Lemma use_last x p : bytes_ok x -> bs c <= len x -> block c p -> uses f c E 1 (fun _ => True) (t_mac_last m x p).
  Proof using HF H.
    intros Hx HL Hp. pose proof (bs_pos c) as HP. destruct (last_slices (bs c) x HP HL) as [S0 S1]. pose proof (Z.div_le_mono _ _ (bs c) HP HL) as HQ. rewrite Z.div_same in HQ by lia.
    assert (HB : block c (_get_block (bs c) x (len x / bs c - 1))) by (apply get_block_len; [exact HP | exact Hx | lia]). unfold t_mac_last, mac_block_size. cbv zeta. eapply uses_skip; [now apply uses_pad_size|]. intros ? ->. change 1%nat with (1 + 0)%nat.
    eapply uses_bind with (Q := fun _ => True).
    - apply uses_if; [exact HF | discriminate| |].
      + intros EP. apply Z.eqb_eq in EP. rewrite (S0 EP). eapply uses_skip; [now apply uses_xor|]. intros ? ->. change 1%nat with (1 + 0)%nat. eapply uses_bind; [apply uses_op; [exact mac_op | now apply xor_block]|]. intros; now apply uses_ret.
      + intros EP. apply Z.eqb_neq in EP. eapply uses_skip; [now apply uses_pad_size|]. intros ? ->. eapply uses_skip; [now apply uses_pad_size|]. intros ? ->. rewrite (S1 EP). eapply uses_skip; [now apply uses_xor|]. intros ? ->. change 1%nat with (1 + 0)%nat.
        eapply uses_bind; [apply uses_op; [exact mac_op | now apply xor_block]|]. intros. eapply uses_skip; [now apply uses_pad_size|]. intros. now apply uses_ret.
    - intros [[a0 b0] i0] _. eapply uses_skip; [now apply uses_num|]. intros. now apply uses_ret.
  Qed.
  Lemma use_update d : bytes_ok d -> bs c <= len t + len d -> uses f c E (Z.to_nat ((len t + len d) / bs c)) (fun _ => True) (t_mac_update d m).
  Proof using HF H.
    intros Hd HL. pose proof (mst_core _ _ _ H) as C. pose proof (bs_pos c) as HP. assert (HX : bytes_ok (t ++ d)) by (apply bytes_ok_app; split; [apply C | exact Hd]). unfold t_mac_update. apply uses_step; [exact HF | discriminate|]. apply uses_step; [exact HF | discriminate|]. rewrite (core_iter _ _ _ C). cbv zeta. unfold mac_block_size.
    eapply uses_skip; [now apply uses_num|]. intros ? ->. pose proof (Z.div_le_mono _ _ (bs c) HP HL) as HQ. rewrite Z.div_same in HQ by lia. rewrite len_app. replace (Z.to_nat ((len t + len d) / bs c)) with (List.length (py_range 0 ((len t + len d) / bs c - 1) 1) * 1 + 1)%nat by (rewrite range_length; lia).
    eapply uses_bind with (Q := block c).
    - apply uses_for; [exact HF | discriminate | exact (core_cur_block _ _ _ C)|]. intros i p Hi Hp. unfold t_mac_round, mac_block_size. apply in_py_range in Hi. eapply uses_skip; [now apply uses_block|]. intros ? ->. eapply uses_skip; [now apply uses_xor|]. intros ? ->.
      apply uses_op; [exact mac_op|]. apply xor_block; [exact Hp|]. apply get_block_len; [exact HP | exact HX | rewrite len_app; lia].
    - intros p Hp. apply use_last; [exact HX | rewrite len_app; exact HL | exact Hp].
  Qed.
  Lemma use_final : uses f c E 1 (fun _ => True) (t_mac_final m).
  Proof using HF H.
    pose proof (mst_core _ _ _ H) as C. unfold t_mac_final. cbv zeta. apply uses_step; [exact HF | discriminate|]. unfold mac_block_size. eapply uses_skip; [now apply uses_pad_size|]. intros ? ->. eapply uses_skip with (Q := fun s => block c (fst s) /\ block c (snd s)).
    - apply uses_if; [exact HF | discriminate| |].
      + intros EP. apply Z.eqb_eq in EP. apply uses_ret. split; [apply H|]. cbn [snd]. refine (proj2 (fin_whole _ _ _ H _ _)).
        * intros ->. apply (proj1 (fin_part _ _ _ H (or_introl eq_refl))). exact EP.
        * destruct t; [reflexivity|]. exfalso. apply (proj1 (fin_part _ _ _ H ltac:(right; discriminate))). exact EP.
      + intros EP. apply Z.eqb_neq in EP. assert (HN : bl = [] \/ t <> []). { destruct t; [|right; discriminate]. left. destruct bl; [reflexivity|]. exfalso. apply EP. apply (fin_whole _ _ _ H); [discriminate | reflexivity]. }
        rewrite (proj2 (fin_part _ _ _ H HN)). eapply uses_skip with (Q := fun r => r = _set_pad_mode_3 (bs c) t).
        * unfold t_set_pad_mode_3, _set_pad_mode_3. apply uses_step; [exact HF | discriminate|]. eapply uses_skip; [now apply uses_pad_size|]. intros ? ->. apply uses_if; [exact HF | discriminate | intros ->; now apply uses_ret|]. intros ->. eapply uses_skip; [now apply uses_pad_size|]. intros ? ->. now apply uses_ret.
        * intros ? ->. apply uses_ret. split; [apply H|]. apply pad3_ok; apply C.
    - intros [k fb] [Hk Hb]. cbn [fst snd] in Hk, Hb. eapply uses_skip; [now apply uses_xor|]. intros ? ->. eapply uses_skip; [now apply uses_xor|]. intros ? ->. eapply uses_weaken; [apply uses_op; [exact mac_op|] | intros; exact I].
      apply xor_block; [|exact Hk]. apply xor_block; [exact Hb | exact (core_prev_block _ _ _ C)].
  Qed.
  Lemma use_digest n : uses f c E 1 (fun _ => True) (t_mac_digest n m).
  Proof using HF H. unfold t_mac_digest. apply uses_step; [exact HF | discriminate|]. apply uses_step; [exact HF | discriminate|]. change 1%nat with (1 + 0)%nat. eapply uses_bind; [exact use_final|]. intros; now apply uses_ret. Qed.
End Work.
