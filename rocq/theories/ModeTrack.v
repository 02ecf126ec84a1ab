(** * The attributes [iv] and [counter]; locality of errors; decryption on the same object *)
From Verif Require Import PyBase PyFacts PyState Utils UtilsFacts CipherObj Modes Mac SpecNew.
From Verif Require Import SpecModes CipherLemmas CipherObjFacts ModeFacts CtrFacts ModeSpecFacts ModeLemmas ModeSem ModeConf ModeProps ModeEmpty ModeSim ModeNew ModeHist ModeMore ModePad ModeClear.
Open Scope string_scope.
Open Scope list_scope.
Open Scope Z_scope.

(** ** Blocks of byte strings *)

Lemma nth_block_gen n (bl : list bytes) (t : bytes) i : (0 < n)%nat -> Forall (fun b => List.length b = n) bl -> (List.length t < n)%nat ->
  nth_block n (concat (bl ++ opt_block t)) i = nth i (bl ++ opt_block t) [].
Proof.
  intros Hn HF Ht. rewrite concat_app, concat_opt.
  assert (HL : List.length (concat bl) = (List.length bl * n)%nat).
  { clear -HF. induction HF as [|b bl Hb _ IH]; [reflexivity|]. cbn [concat List.length]. rewrite app_length, IH. lia. }
  destruct (Nat.lt_ge_cases i (List.length bl)) as [Hi|Hi].
  - rewrite nth_block_concat by assumption. symmetry. now apply app_nth1.
  - rewrite app_nth2 by exact Hi. unfold nth_block. rewrite skipn_app, skipn_all2 by nia. cbn [app]. rewrite HL.
    destruct (Nat.eq_dec i (List.length bl)) as [-> |Hne].
    + rewrite !Nat.sub_diag. cbn [skipn]. rewrite firstn_all2 by lia. now destruct t.
    + rewrite skipn_all2 by nia. rewrite firstn_nil. destruct t as [|x t]; cbn [opt_block]; [now destruct (i - List.length bl)%nat|].
      destruct (i - List.length bl)%nat as [|k] eqn:E; [lia|]. now destruct k.
Qed.
Lemma nth_block_blocks c (d : bytes) i : bytes_ok d -> nth_block (nbs c) d i = nth i (blocks (nbs c) d) [].
Proof.
  intros Hd. destruct (data_cut c d Hd) as (bl & t & Hcut & HF & _ & Ht & E & ->). rewrite E at 1.
  apply nth_block_gen; auto using nbs_pos, bl_lengths.
Qed.
Lemma whole_length' c (d : bytes) : bytes_ok d -> List.length (whole (nbs c) d) = (List.length d / nbs c)%nat.
Proof.
  intros Hd. assert (H := whole_len c d Hd).
  assert (HC := concat_len _ _ (blocks_lens _ _ (whole_forall c d Hd))). rewrite <- nbs_bs in HC. unfold len in HC. pose proof (nbs_pos c). nia.
Qed.
Lemma nth_block_whole c (d : bytes) i : bytes_ok d -> (i < List.length d / nbs c)%nat -> nth_block (nbs c) d i = nth i (whole (nbs c) d) [].
Proof.
  intros Hd Hi. rewrite nth_block_blocks by exact Hd.
  rewrite <- (firstn_skipn (List.length d / nbs c) (blocks (nbs c) d)). fold (whole (nbs c) d). apply app_nth1. now rewrite whole_length'.
Qed.
Lemma nth_last {A} (l : list A) d : nth (List.length l - 1) l d = last l d.
Proof.
  destruct l as [|x l] using rev_ind; [reflexivity|]. rewrite last_last, app_length. cbn [List.length].
  rewrite app_nth2 by lia. now replace (List.length l + 1 - 1 - List.length l)%nat with 0%nat by lia.
Qed.

(** ** The register *)

Lemma iv_reg_last o R : reg o R -> iv o = last R [].
Proof.
  intros (E & Hne & HF). unfold iv. destruct (exists_last Hne) as (R' & b & ->). rewrite last_last.
  apply Forall_app in HF as [HF' Hb]. apply Forall_inv in Hb. rewrite E, concat_app. cbn [concat]. rewrite app_nil_r, len_app.
  destruct Hb as [Hb _]. change (block_size o) with (bs (o_cipher o)). replace (len (concat R') + len b - bs (o_cipher o)) with (len (concat R')) by lia.
  rewrite py_from_skipn by apply len_nonneg. unfold len. rewrite Nat2Z.id. now rewrite skipn_app, skipn_all, Nat.sub_diag.
Qed.
Lemma last_shift R out : R <> [] -> out <> [] -> last (shift R out) [] = last out [].
Proof.
  intros HR Ho. destruct (exists_last Ho) as (out' & b & ->). rewrite shift_app by exact HR.
  rewrite shift_cons by now apply shift_ne. rewrite shift_nil. now rewrite !last_last.
Qed.
Lemma iv_shift o R out : R <> [] -> out <> [] -> reg (set_iv o (concat (shift R out))) (shift R out) ->
  iv (set_iv o (concat (shift R out))) = last out [].
Proof. intros HR Ho H. rewrite (iv_reg_last _ _ H). now apply last_shift. Qed.

Definition last_full (n : nat) (d : bytes) (k : nat) : bytes := nth_block n d (k / n - 1).

Lemma nonempty_length {A} (l : list A) : (0 < List.length l)%nat -> l <> [].
Proof. destruct l; [cbn; lia | discriminate]. Qed.
Lemma div_pos n k : (0 < n)%nat -> (n <= k)%nat -> (0 < k / n)%nat.
Proof. intros Hn H. apply Nat.div_str_pos. lia. Qed.

(** [o] is an object of class [cl] in any state, made with a non-empty IV. *)
Definition live (a : balg) (cl : mode_class) (o : mode_obj) : Prop :=
  exists key kw, bytes_ok key /\ kw_ok kw /\ object_of a key cl kw o /\ iv_arg a cl kw <> VBytes [].
Lemma live_reg a cl o : live a cl o -> cl = CBC \/ cl = CFB \/ cl = OFB ->
  co_ok (o_cipher o) /\ nbs (o_cipher o) = bsize a /\ o_class o = cl /\ (cl = CBC -> exists p, o_pad_mode o = pad_code p) /\ exists R, reg o R.
Proof.
  intros (key & kw & Hk & Hkw & HO & Hne) Hcl. destruct (object_facts a key cl kw o Hk Hkw HO) as (V & Ecl & Ha & _).
  split; [apply V|]. split; [now apply object_nbs|]. split; [exact Ecl|]. split; [|now apply (object_iv a key cl kw)].
  intros ->. destruct V as [_ V]. rewrite Ecl in V. apply V.
Qed.

Lemma iv_cbc a o d : live a CBC o -> bytes_ok d ->
  (exists ct o1, encrypt (VBytes d) o = (Ok ct, o1) /\ iv o1 = last_full (bsize a) ct (List.length ct)) /\
  ((bsize a <= List.length d)%nat -> exists pt o1, decrypt (VBytes d) o = (Ok pt, o1) /\ iv o1 = last_full (bsize a) d (List.length d)).
Proof.
  intros HO Hd. destruct (live_reg a CBC o HO) as (Hc & Hn & Ecl & [p Hp] & R & HR); [tauto | reflexivity |].
  rewrite <- Hn. set (c := o_cipher o) in *. assert (HRv := HR). destruct HRv as (_ & HRne & HRF). fold c in HRF. split.
  - destruct (sem_cbc_enc o Hc R HR p d Ecl Hp Hd) as [E1 Hreg]. fold c in E1, Hreg.
    destruct (padded_blocks c p d Hd) as (bl & _ & Hne & HF & HB & _). rewrite HB in *.
    eexists _, _. split; [exact E1|]. assert (HF' : Forall (block c) (cbc_enc (oE c) R bl)) by now apply cbc_enc_blocks.
    assert (Hne' : cbc_enc (oE c) R bl <> []) by (destruct bl; [contradiction | discriminate]).
    rewrite (iv_shift _ _ _ HRne Hne' Hreg). unfold last_full.
    assert (Hok := concat_ok _ _ HF').
    assert (Hlen : (nbs c <= List.length (concat (cbc_enc (oE c) R bl)))%nat).
    { destruct (cbc_enc (oE c) R bl) as [|b l]; [contradiction|]. cbn [concat]. rewrite app_length, (block_length c b (Forall_inv HF')). lia. }
    assert (Hp1 := div_pos _ _ (nbs_pos c) Hlen). rewrite nth_block_whole by (auto; lia).
    rewrite <- whole_length' by exact Hok. rewrite (whole_cut _ _ _ [] (cut_whole _ _ (blocks_lens _ _ HF') (bs_pos c))). symmetry. apply nth_last.
  - intros Hlen. destruct (sem_cbc_dec o Hc R HR d Ecl Hd) as [E1 Hreg]. fold c in E1, Hreg.
    eexists _, _. split; [exact E1|]. assert (Hp1 := div_pos _ _ (nbs_pos c) Hlen). assert (HW := whole_length' c d Hd).
    rewrite iv_shift; [|exact HRne | apply nonempty_length; lia | exact Hreg].
    unfold last_full. rewrite nth_block_whole by (auto; lia). rewrite <- HW. symmetry. apply nth_last.
Qed.

Lemma iv_cfb a o d : live a CFB o -> bytes_ok d -> (bsize a <= List.length d)%nat ->
  (exists ct o1, encrypt (VBytes d) o = (Ok ct, o1) /\ iv o1 = last_full (bsize a) ct (List.length d)) /\
  (exists pt o1, decrypt (VBytes d) o = (Ok pt, o1) /\ iv o1 = last_full (bsize a) d (List.length d)).
Proof.
  intros HO Hd Hlen. destruct (live_reg a CFB o HO) as (Hc & Hn & Ecl & _ & R & HR); [tauto|].
  rewrite <- Hn in *. set (c := o_cipher o) in *. assert (HRv := HR). destruct HRv as (_ & HRne & HRF). fold c in HRF.
  assert (Hp1 := div_pos _ _ (nbs_pos c) Hlen). assert (HW := whole_length' c d Hd). split.
  - destruct (sem_cfb_enc o Hc R HR d Ecl Hd) as [E1 Hreg]. fold c in E1, Hreg.
    eexists _, _. split; [exact E1|].
    rewrite iv_shift; [|exact HRne | apply nonempty_length; rewrite cfb_enc_length; lia | exact Hreg].
    destruct (data_cut c d Hd) as (bl & t & Hcut & HF & Htok & Ht & E & HB). rewrite HB. rewrite (whole_cut _ _ _ _ Hcut) in *.
    destruct (cfb_enc_split c Hc R HRne HRF bl t HF Ht) as (t' & HS & Hl & Ht' & HF'). rewrite HS.
    unfold last_full. rewrite nth_block_gen; [|apply nbs_pos | now apply bl_lengths | lia].
    rewrite app_nth1 by (rewrite cfb_enc_length; lia). rewrite <- HW, <- (cfb_enc_length (oE c) R bl). symmetry. apply nth_last.
  - destruct (sem_cfb_dec o Hc R HR d Ecl Hd) as [E1 Hreg]. fold c in E1, Hreg.
    eexists _, _. split; [exact E1|].
    rewrite iv_shift; [|exact HRne | apply nonempty_length; lia | exact Hreg].
    unfold last_full. rewrite nth_block_whole by (auto; lia). rewrite <- HW. symmetry. apply nth_last.
Qed.

Lemma nth_ofb E R ps i : (i < List.length ps)%nat -> nth i (ofb E R ps) [] = bxor (nth i ps []) (nth i (ofb_gamma E R (List.length ps)) []).
Proof.
  intros Hi. unfold ofb. set (f := fun p : bytes * bytes => bxor (fst p) (snd p)).
  rewrite (nth_indep _ [] (f ([], []))) by (rewrite map_length, combine_length, ofb_gamma_length; lia).
  rewrite map_nth, combine_nth by now rewrite ofb_gamma_length. reflexivity.
Qed.
Lemma ofb_gamma_prefix E k : forall R j i, (i < k)%nat -> (k <= j)%nat -> nth i (ofb_gamma E R j) [] = nth i (ofb_gamma E R k) [].
Proof.
  induction k as [|k IH]; intros R j i Hi Hk; [lia|]. destruct j as [|j]; [lia|]. cbn [ofb_gamma]. destruct i as [|i]; [reflexivity|].
  cbn [nth]. apply IH; lia.
Qed.
Lemma iv_ofb a o d : live a OFB o -> bytes_ok d -> (bsize a <= List.length d)%nat ->
  exists ct o1, encrypt (VBytes d) o = (Ok ct, o1) /\ decrypt (VBytes d) o = (Ok ct, o1) /\
    iv o1 = bxor (last_full (bsize a) d (List.length d)) (last_full (bsize a) ct (List.length d)).
Proof.
  intros HO Hd Hlen. destruct (live_reg a OFB o HO) as (Hc & Hn & Ecl & _ & R & HR); [tauto|].
  rewrite <- Hn in *. set (c := o_cipher o) in *. assert (HRv := HR). destruct HRv as (_ & HRne & HRF). fold c in HRF.
  assert (Hp1 := div_pos _ _ (nbs_pos c) Hlen). assert (HW := whole_length' c d Hd).
  rewrite (sem_ofb_dec o d Ecl). destruct (sem_ofb_enc o Hc R HR d Ecl Hd) as [E1 Hreg]. fold c in E1, Hreg.
  eexists _, _. split; [exact E1|]. split; [exact E1|].
  rewrite iv_shift; [|exact HRne | apply nonempty_length; rewrite ofb_gamma_length; lia | exact Hreg].
  destruct (data_cut c d Hd) as (bl & t & Hcut & HF & Htok & Ht & E & HB). rewrite HB. rewrite (whole_cut _ _ _ _ Hcut) in *.
  destruct (ofb_split c Hc R HRne HRF bl t HF Ht) as (t' & HS & Hl & Ht' & HF'). rewrite HS.
  unfold last_full. rewrite E at 1. rewrite !nth_block_gen; [|apply nbs_pos | now apply bl_lengths | lia | apply nbs_pos | now apply bl_lengths | lia].
  assert (HLo : List.length (ofb (oE c) R bl) = List.length bl) by (unfold ofb; rewrite map_length, combine_length, ofb_gamma_length; lia).
  rewrite !app_nth1 by (rewrite ?HLo; lia). rewrite <- HW, nth_ofb by lia.
  assert (HG : Forall (block c) (ofb_gamma (oE c) R (List.length bl))) by (apply ofb_gamma_blk; auto; intros; now apply oE_block).
  set (i := (List.length bl - 1)%nat). assert (Hi : (i < List.length bl)%nat) by lia.
  assert (H1 : block c (nth i bl [])) by (rewrite Forall_forall in HF; apply HF, nth_In, Hi).
  assert (H2 : block c (nth i (ofb_gamma (oE c) R (List.length bl)) [])).
  { rewrite Forall_forall in HG; apply HG, nth_In. rewrite ofb_gamma_length. exact Hi. }
  rewrite (bxor_comm (nth i bl []) (nth i (ofb_gamma _ _ _) [])), bxor_comm, bxor_cancel by (rewrite !(block_length c) by assumption; lia).
  unfold i. rewrite <- (ofb_gamma_length (oE c) R (List.length bl)) at 2. symmetry. apply nth_last.
Qed.

Lemma whole_short c d : bytes_ok d -> (List.length d < nbs c)%nat -> whole (nbs c) d = [].
Proof.
  intros Hd Hl. assert (H := whole_length' c d Hd). rewrite Nat.div_small in H by exact Hl. now destruct (whole (nbs c) d).
Qed.
Lemma set_iv_same o R : reg o R -> set_iv o (concat (shift R [])) = o.
Proof. intros (E & _). rewrite shift_nil, <- E. now destruct o. Qed.
Lemma iv_short a cl o d : live a cl o -> cl = CFB \/ cl = OFB -> bytes_ok d -> (List.length d < bsize a)%nat ->
  snd (encrypt (VBytes d) o) = o /\ snd (decrypt (VBytes d) o) = o.
Proof.
  intros HO Hcl Hd Hlen. destruct (live_reg a cl o HO) as (Hc & Hn & Ecl & _ & R & HR); [tauto|].
  rewrite <- Hn in *. assert (HW := whole_short (o_cipher o) d Hd Hlen). destruct Hcl as [-> | ->].
  - destruct (sem_cfb_enc o Hc R HR d Ecl Hd) as [-> _]. destruct (sem_cfb_dec o Hc R HR d Ecl Hd) as [-> _].
    rewrite HW. cbn [cfb_enc snd]. rewrite (set_iv_same o R HR). auto.
  - rewrite (sem_ofb_dec o d Ecl). destruct (sem_ofb_enc o Hc R HR d Ecl Hd) as [-> _].
    rewrite HW. cbn [List.length ofb_gamma snd]. rewrite (set_iv_same o R HR). auto.
Qed.

(** ** The counter *)

(** The blocks, whole or not, that a sequence of calls consumes. *)
Definition call_blocks (n : nat) (k : call) : nat :=
  match k with
  | Encrypt (VBytes d) | Decrypt (VBytes d) => (List.length d + n - 1) / n
  | _ => 0
  end.
Definition consumed (n : nat) (cs : list call) : nat := fold_right (fun k s => (call_blocks n k + s)%nat) 0%nat cs.

Lemma blocks_count c d : bytes_ok d -> List.length (blocks (nbs c) d) = ((List.length d + nbs c - 1) / nbs c)%nat.
Proof.
  intros Hd. destruct (data_cut c d Hd) as (bl & t & Hcut & HF & _ & Ht & E & ->). pose proof (nbs_pos c) as Hp.
  pose proof (cut_len _ _ _ _ Hcut) as HL. rewrite <- nbs_bs in HL. unfold len in HL. rewrite app_length.
  assert (HD : List.length d = (List.length bl * nbs c + List.length t)%nat) by nia. rewrite HD.
  replace (List.length bl * nbs c + List.length t + nbs c - 1)%nat with (List.length bl * nbs c + (List.length t + nbs c - 1))%nat by lia.
  rewrite Nat.div_add_l by lia. f_equal. destruct t as [|x t]; cbn [opt_block List.length] in *.
  - symmetry. apply Nat.div_small. lia.
  - replace (S (List.length t) + nbs c - 1)%nat with (1 * nbs c + List.length t)%nat by lia. rewrite Nat.div_add_l by lia.
    rewrite (Nat.div_small (List.length t)) by lia. reflexivity.
Qed.
Lemma counter_step k o : valid o -> o_class o = CTR -> call_ok k ->
  o_counter (snd (step k o)) = ctr_next (o_counter o) (call_blocks (nbs (o_cipher o)) k).
Proof.
  intros [Hc V] Ecl Hk. rewrite Ecl in V.
  assert (H0 : ctr_next (o_counter o) 0 = o_counter o).
  { apply ctr_next_0; [|apply V]. destruct V as [HL _]. intros E. rewrite E in HL. pose proof (bs_pos (o_cipher o)). cbn in HL. lia. }
  destruct k as [d|d| | |]; cbn [step call_blocks]; try (cbn [snd]; now rewrite H0).
  - destruct d as [b|s|z|].
    + rewrite (sem_ctr_enc o Hc b Ecl V Hk). cbn [snd set_counter o_counter]. f_equal. now apply blocks_count.
    + rewrite enc_not_bytes by exact I. destruct (clear_ok o Hc) as (c & -> & _). cbn. now rewrite H0.
    + rewrite enc_not_bytes by exact I. destruct (clear_ok o Hc) as (c & -> & _). cbn. now rewrite H0.
    + rewrite enc_not_bytes by exact I. destruct (clear_ok o Hc) as (c & -> & _). cbn. now rewrite H0.
  - destruct d as [b|s|z|].
    + rewrite (sem_ctr_dec o b Ecl), (sem_ctr_enc o Hc b Ecl V Hk). cbn [snd set_counter o_counter]. f_equal. now apply blocks_count.
    + rewrite dec_not_bytes by exact I. destruct (clear_ok o Hc) as (c & -> & _). cbn. now rewrite H0.
    + rewrite dec_not_bytes by exact I. destruct (clear_ok o Hc) as (c & -> & _). cbn. now rewrite H0.
    + rewrite dec_not_bytes by exact I. destruct (clear_ok o Hc) as (c & -> & _). cbn. now rewrite H0.
  - destruct (clear_ok o Hc) as (c & -> & _). cbn. now rewrite H0.
Qed.
Lemma counter_run cs : forall o, valid o -> o_class o = CTR -> Forall call_ok cs ->
  o_counter (snd (run cs o)) = ctr_next (o_counter o) (consumed (nbs (o_cipher o)) cs).
Proof.
  induction cs as [|k cs IH]; intros o V Ecl HF.
  - cbn. symmetry. destruct V as [Hc V]. rewrite Ecl in V. apply ctr_next_0; [|apply V].
    destruct V as [HL _]. intros E. rewrite E in HL. pose proof (bs_pos (o_cipher o)). cbn in HL. lia.
  - inversion HF as [|? ? Hk HF']; subst. cbn [run]. pose proof (step_valid k o V Hk) as V1. pose proof (step_frame k o V Hk) as [F1 _ F3 _].
    pose proof (counter_step k o V Ecl Hk) as HC. destruct (step k o) as [r s]. cbn [snd] in *.
    specialize (IH s V1 (eq_trans F1 Ecl) HF'). destruct (run cs s) as [rs t]. cbn [snd] in *. rewrite IH, HC, ctr_next_add. f_equal.
    cbn [consumed fold_right]. fold (consumed (nbs (o_cipher o)) cs). rewrite !nbs_alg. now rewrite F3.
Qed.
Lemma counter_tracks a key kw iv cs : bytes_len 32 key -> kw_ok kw -> gives_iv kw iv -> bytes_len (half a) iv -> Forall call_ok cs ->
  exists o, new (alg a) (VBytes key) (VInt MODE_CTR) kw = Ok (NewMode o) /\
    o_counter (snd (run cs o)) =
      iv ++ repeat 0 (bsize a / 2 - 1) ++ [Z.of_nat (consumed (bsize a) cs) mod 256].
Proof.
  intros Hk Hkw Hi Hb HF. destruct (new_ctr a key kw iv Hk Hi (proj1 Hb)) as (c & Hn & Hmd). eexists. split; [exact Hn|].
  assert (HR := ctr_start _ _ _ _ Hmd Hb).
  rewrite counter_run; [|split; [apply Hmd | exact HR] | reflexivity | exact HF]. cbn [mk o_counter o_cipher]. rewrite (made_nbs _ _ _ Hmd).
  assert (E : iv ++ py_repeat 0 (half a) = (iv ++ repeat 0 (bsize a / 2 - 1)) ++ [0]) by (rewrite <- app_assoc; now destruct a).
  rewrite E. unfold ctr_next. rewrite removelast_last, last_last. rewrite <- app_assoc. reflexivity.
Qed.

(** ** Locality of errors *)

Lemma nth_cbc_dec D C : forall R i, R <> [] -> (i < List.length C)%nat ->
  nth i (cbc_dec D R C) [] = bxor (D (nth i C [])) (nth i (R ++ C) []).
Proof.
  induction C as [|x C IH]; intros R i HR Hi; cbn [List.length] in Hi; [lia|]. destruct R as [|r R]; [contradiction|].
  cbn [cbc_dec hd tl]. destruct i as [|i]; [reflexivity|]. cbn [nth]. rewrite IH; [|now destruct R | lia]. now rewrite <- app_assoc.
Qed.
Lemma nth_cfb_dec E C : forall R i, R <> [] -> (i < List.length C)%nat ->
  nth i (cfb_dec E R C) [] = bxor (nth i C []) (E (nth i (R ++ C) [])).
Proof.
  induction C as [|x C IH]; intros R i HR Hi; cbn [List.length] in Hi; [lia|]. destruct R as [|r R]; [contradiction|].
  cbn [cfb_dec hd tl]. destruct i as [|i]; [reflexivity|]. cbn [nth]. rewrite IH; [|now destruct R | lia]. now rewrite <- app_assoc.
Qed.

Lemma nth_past c (d : bytes) i : bytes_ok d -> (List.length (blocks (nbs c) d) <= i)%nat -> nth_block (nbs c) d i = [].
Proof. intros Hd Hi. rewrite nth_block_blocks by exact Hd. now apply nth_overflow. Qed.

(** [d'] is [d] with block [j] changed. *)
Definition differ_at (n : nat) (j : nat) (d d' : bytes) : Prop :=
  List.length d = List.length d' /\ forall i, i <> j -> nth_block n d i = nth_block n d' i.

Lemma nth_in_reg (R C C' : list bytes) i j : (forall k, k <> j -> nth k C [] = nth k C' []) -> i <> (j + List.length R)%nat ->
  nth i (R ++ C) [] = nth i (R ++ C') [].
Proof.
  intros H Hi. destruct (Nat.lt_ge_cases i (List.length R)) as [Hl|Hl].
  - now rewrite !app_nth1.
  - rewrite !app_nth2 by exact Hl. apply H. lia.
Qed.

Lemma iv_count a c iv : bytes_ok iv -> nbs c = bsize a -> (List.length iv mod bsize a = 0)%nat ->
  List.length (blocks (bsize a) iv) = (List.length iv / bsize a)%nat.
Proof.
  intros Hiv Hn H0. rewrite <- Hn in *. rewrite blocks_count by exact Hiv. pose proof (nbs_pos c).
  pose proof (Nat.div_mod (List.length iv) (nbs c)). assert (E : List.length iv = (List.length iv / nbs c * nbs c)%nat) by lia.
  set (q := (List.length iv / nbs c)%nat) in *. rewrite E. replace (q * nbs c + nbs c - 1)%nat with (q * nbs c + (nbs c - 1))%nat by lia.
  rewrite Nat.div_add_l by lia. rewrite Nat.div_small by lia. lia.
Qed.
Lemma iv_mod a (iv : bytes) : len iv mod Z.of_nat (bsize a) = 0 -> (List.length iv mod bsize a = 0)%nat.
Proof. intros H. unfold len in H. rewrite <- Nat2Z.inj_mod in H. lia. Qed.

Lemma cbc_local a key kw p iv d d' j : bytes_len 32 key -> gives_pad kw p -> gives_iv kw iv -> iv_blocks a iv ->
  bytes_ok d -> bytes_ok d' -> differ_at (bsize a) j d d' ->
  let m := (List.length iv / bsize a)%nat in
  exists o pt pt', new (alg a) (VBytes key) (VInt MODE_CBC) kw = Ok (NewMode o) /\
    result (decrypt (VBytes d) o) = Ok pt /\ result (decrypt (VBytes d') o) = Ok pt' /\
    (forall i, i <> j -> i <> (j + m)%nat -> nth_block (bsize a) pt i = nth_block (bsize a) pt' i) /\
    ((j + m < List.length d / bsize a)%nat ->
      bxor (nth_block (bsize a) pt (j + m)) (nth_block (bsize a) pt' (j + m)) = bxor (nth_block (bsize a) d j) (nth_block (bsize a) d' j)).
Proof.
  intros Hk Hp Hi Hb Hd Hd' [HL Hdiff] m. destruct (new_cbc a key kw p iv Hk Hp Hi (proj2 (proj2 Hb))) as (c & Hn & Hmd).
  assert (HR := iv_reg _ _ _ _ Hmd Hb CBC (pad_code p) []).
  destruct (sem_cbc_dec (mk CBC c (pad_code p) iv []) (proj1 Hmd) _ HR d eq_refl Hd) as [E1 _].
  destruct (sem_cbc_dec (mk CBC c (pad_code p) iv []) (proj1 Hmd) _ HR d' eq_refl Hd') as [E2 _]. cbn [o_cipher mk] in *.
  assert (HN := made_nbs _ _ _ Hmd). assert (HIC := iv_count a c iv (proj1 Hb) HN (iv_mod a iv (proj2 (proj2 Hb)))). fold m in HIC.
  rewrite <- HN in *. destruct HR as (_ & HRne & HRF). cbn [o_cipher mk] in HRF. set (R := blocks (nbs c) iv) in *.
  eexists _, _, _. split; [exact Hn|]. unfold result. rewrite E1, E2. split; [reflexivity|]. split; [reflexivity|].
  assert (HW := whole_forall c d Hd). assert (HW' := whole_forall c d' Hd').
  assert (HWL := whole_length' c d Hd). assert (HWL' := whole_length' c d' Hd').
  assert (HPT : forall C, Forall (block c) C -> Forall (block c) (cbc_dec (oD c) R C)).
  { intros C HC. apply cbc_dec_blk; auto using bxor_block. intros. apply oD_block; [apply Hmd | assumption]. }
  assert (Hnth : forall C i, Forall (block c) C -> nth_block (nbs c) (concat (cbc_dec (oD c) R C)) i = nth i (cbc_dec (oD c) R C) []).
  { intros C i HC. assert (H := nth_block_gen (nbs c) (cbc_dec (oD c) R C) [] i (nbs_pos c) (bl_lengths c _ (HPT C HC)) (nbs_pos c)).
    cbn [opt_block] in H. rewrite app_nil_r in H. exact H. }
  assert (HDW : forall i, i <> j -> nth i (whole (nbs c) d) [] = nth i (whole (nbs c) d') []).
  { intros i Hij. destruct (Nat.lt_ge_cases i (List.length d / nbs c)) as [Hlt|Hge].
    - rewrite <- !nth_block_whole by (auto; congruence || lia). now apply Hdiff.
    - rewrite !nth_overflow by (rewrite ?HWL, ?HWL', <- ?HL; exact Hge). reflexivity. }
  split.
  - intros i Hij Hijm. rewrite !Hnth by assumption. destruct (Nat.lt_ge_cases i (List.length d / nbs c)) as [Hlt|Hge].
    + rewrite !nth_cbc_dec by (auto; rewrite ?HWL, ?HWL', <- ?HL; exact Hlt). rewrite HDW by exact Hij. f_equal.
      apply (nth_in_reg R _ _ i j HDW). rewrite HIC. exact Hijm.
    + rewrite !nth_overflow by (rewrite cbc_dec_length, ?HWL, ?HWL', <- ?HL; exact Hge). reflexivity.
  - intros Hlt. rewrite !Hnth by assumption. rewrite !nth_cbc_dec by (auto; rewrite ?HWL, ?HWL', <- ?HL; exact Hlt).
    rewrite !app_nth2 by lia. replace (j + m - List.length R)%nat with j by lia.
    assert (Hm0 : (0 < m)%nat) by (rewrite <- HIC; destruct R; [contradiction | cbn; lia]).
    rewrite HDW by lia. rewrite !nth_block_whole by (auto; rewrite <- ?HL; lia).
    assert (Hblk : forall C i, Forall (block c) C -> (i < List.length C)%nat -> block c (nth i C [])).
    { intros C i HC Hi'. rewrite Forall_forall in HC. apply HC, nth_In, Hi'. }
    assert (B1 := Hblk _ j HW ltac:(lia)). assert (B2 := Hblk _ j HW' ltac:(rewrite HWL', <- HL; lia)).
    assert (B3 := oD_block c _ (proj1 Hmd) (Hblk _ (j + m)%nat HW' ltac:(rewrite HWL', <- HL; lia))).
    rewrite (bxor_comm _ (nth j (whole (nbs c) d) [])), (bxor_comm _ (nth j (whole (nbs c) d') [])).
    apply bxor_pair; rewrite !(block_length c) by assumption; reflexivity.
Qed.

Lemma cfb_local a key kw iv d d' j : bytes_len 32 key -> gives_iv kw iv -> iv_blocks a iv ->
  bytes_ok d -> bytes_ok d' -> differ_at (bsize a) j d d' ->
  let m := (List.length iv / bsize a)%nat in
  exists o pt pt', new (alg a) (VBytes key) (VInt MODE_CFB) kw = Ok (NewMode o) /\
    result (decrypt (VBytes d) o) = Ok pt /\ result (decrypt (VBytes d') o) = Ok pt' /\
    (forall i, i <> j -> i <> (j + m)%nat -> nth_block (bsize a) pt i = nth_block (bsize a) pt' i) /\
    bxor (nth_block (bsize a) pt j) (nth_block (bsize a) pt' j) = bxor (nth_block (bsize a) d j) (nth_block (bsize a) d' j).
Proof.
  intros Hk Hi Hb Hd Hd' [HL Hdiff] m. destruct (new_cfb a key kw iv Hk Hi (proj2 (proj2 Hb))) as (c & Hn & Hmd).
  assert (HR := iv_reg _ _ _ _ Hmd Hb CFB 0 []).
  destruct (sem_cfb_dec (mk CFB c 0 iv []) (proj1 Hmd) _ HR d eq_refl Hd) as [E1 _].
  destruct (sem_cfb_dec (mk CFB c 0 iv []) (proj1 Hmd) _ HR d' eq_refl Hd') as [E2 _]. cbn [o_cipher mk] in *.
  assert (HN := made_nbs _ _ _ Hmd). assert (HIC := iv_count a c iv (proj1 Hb) HN (iv_mod a iv (proj2 (proj2 Hb)))). fold m in HIC.
  rewrite <- HN in *. destruct HR as (_ & HRne & HRF). cbn [o_cipher mk] in HRF. set (R := blocks (nbs c) iv) in *.
  eexists _, _, _. split; [exact Hn|]. unfold result. rewrite E1, E2. split; [reflexivity|]. split; [reflexivity|].
  assert (HBL := blocks_count c d Hd). assert (HBL' := blocks_count c d' Hd'). rewrite <- HL, <- HBL in HBL'.
  assert (Hnth : forall x i, bytes_ok x -> nth_block (nbs c) (concat (cfb_dec (oE c) R (blocks (nbs c) x))) i = nth i (cfb_dec (oE c) R (blocks (nbs c) x)) []).
  { intros x i Hx. destruct (data_cut c x Hx) as (bl & t & Hcut & HF & Htok & Ht & E & ->).
    destruct (cfb_dec_split c (proj1 Hmd) R HRne HRF bl t HF Ht) as (t' & -> & Hl & _ & HF').
    apply nth_block_gen; [apply nbs_pos | now apply bl_lengths | lia]. }
  assert (HDW : forall i, i <> j -> nth i (blocks (nbs c) d) [] = nth i (blocks (nbs c) d') []).
  { intros i Hij. rewrite <- !nth_block_blocks by assumption. now apply Hdiff. }
  assert (Hpos : (0 < m)%nat) by (rewrite <- HIC; destruct R; [contradiction | cbn; lia]).
  split.
  - intros i Hij Hijm. rewrite !Hnth by assumption. destruct (Nat.lt_ge_cases i (List.length (blocks (nbs c) d))) as [Hlt|Hge].
    + rewrite !nth_cfb_dec by (auto; rewrite ?HBL'; exact Hlt). rewrite HDW by exact Hij. do 2 f_equal.
      apply (nth_in_reg R _ _ i j HDW). rewrite HIC. exact Hijm.
    + rewrite !nth_overflow by (rewrite cfb_dec_length, ?HBL'; exact Hge). reflexivity.
  - rewrite !Hnth by assumption. rewrite !nth_block_blocks by assumption.
    destruct (Nat.lt_ge_cases j (List.length (blocks (nbs c) d))) as [Hlt|Hge].
    + rewrite !nth_cfb_dec by (auto; rewrite ?HBL'; exact Hlt).
      rewrite (nth_in_reg R _ _ j j HDW) by lia.
      (* the gamma block is longer than both *)
      assert (HG : block c (nth j (R ++ blocks (nbs c) d') [])).
      { destruct (Nat.lt_ge_cases j (List.length R)) as [Hj|Hj].
        - rewrite app_nth1 by exact Hj. rewrite Forall_forall in HRF. apply HRF, nth_In, Hj.
        - rewrite app_nth2 by exact Hj. destruct (data_cut c d' Hd') as (bl & t & Hcut & HF & Htok & Ht & E & HB). rewrite HB in HBL' |- *.
          assert (Hjj : (j - List.length R < List.length bl)%nat).
          { rewrite app_length in HBL'. destruct t; cbn [opt_block List.length] in HBL'; lia. }
          rewrite app_nth1 by exact Hjj. rewrite Forall_forall in HF. apply HF, nth_In, Hjj. }
      assert (HEG := oE_block c _ (proj1 Hmd) HG).
      assert (Hle : forall x, bytes_ok x -> (List.length (nth j (blocks (nbs c) x) []) <= nbs c)%nat).
      { intros x Hx. rewrite <- nth_block_blocks by exact Hx. unfold nth_block. rewrite firstn_length. lia. }
      apply bxor_reuse; rewrite (block_length c _ HEG); now apply Hle.
    + rewrite !nth_overflow by (rewrite ?cfb_dec_length, ?HBL'; exact Hge). reflexivity.
Qed.
