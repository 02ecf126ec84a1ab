(** * The modes: refinement of the model to the specification *)
From Verif Require Import PyBase PyFacts PyState Utils UtilsFacts CipherObj Modes.
From Verif Require Import SpecModes CipherLemmas CipherObjFacts.

(** ** Cutting data into blocks *)

(** [data] is the whole blocks [bl] followed by a shorter rest [t]. *)
Definition cut (n : Z) (data : bytes) (bl : list bytes) (t : bytes) : Prop :=
  data = concat bl ++ t /\ Forall (fun b => len b = n) bl /\ len t < n.

Lemma cut_exists n data : 0 < n -> exists bl t, cut n data bl t.
Proof.
  intros Hn. remember (List.length data) as k eqn:Hk. revert data Hk.
  induction k as [k IH] using lt_wf_ind. intros data ->.
  destruct (Z.lt_ge_cases (len data) n) as [Hl|Hl].
  - exists [], data. unfold cut. auto.
  - destruct (IH (List.length (skipn (Z.to_nat n) data))) with (data := skipn (Z.to_nat n) data) as (bl & t & Hd & HF & Ht).
    + rewrite skipn_length. unfold len in Hl. lia.
    + reflexivity.
    + exists (firstn (Z.to_nat n) data :: bl), t. split; [|split].
      * cbn [concat]. rewrite <- app_assoc, <- Hd. now rewrite firstn_skipn.
      * constructor; [|exact HF]. unfold len in *. rewrite firstn_length. lia.
      * exact Ht.
Qed.

Lemma concat_len n (bl : list bytes) : Forall (fun b => len b = n) bl -> len (concat bl) = n * len bl.
Proof.
  induction 1 as [|b bl Hb _ IH]; cbn [concat]; [unfold len; cbn; lia|].
  rewrite len_app, len_cons, Hb, IH. lia.
Qed.

Section Cut.
  Variables (n : Z) (data : bytes) (bl : list bytes) (t : bytes).
  Hypothesis (Hn : 0 < n) (Hcut : cut n data bl t).

  Lemma cut_len : len data = n * len bl + len t.
  Proof. destruct Hcut as (-> & HF & _). now rewrite len_app, (concat_len n). Qed.
  Lemma cut_num : _get_num_block n data = len bl.
  Proof.
    unfold _get_num_block. rewrite cut_len. destruct Hcut as (_ & _ & Ht). pose proof (len_nonneg t).
    rewrite Z.mul_comm, Z.div_add_l by lia. rewrite Z.div_small by lia. lia.
  Qed.
  Lemma cut_mod : len data mod n = len t.
  Proof.
    rewrite cut_len. destruct Hcut as (_ & _ & Ht). pose proof (len_nonneg t).
    rewrite Z.add_comm, Z.mul_comm, Z_mod_plus_full. now apply Z.mod_small.
  Qed.
  Lemma cut_final : py_from data (n * _get_num_block n data) = t.
  Proof.
    rewrite cut_num. pose proof (len_nonneg bl). pose proof (len_nonneg t). pose proof cut_len.
    rewrite py_from_skipn by nia. destruct Hcut as (-> & HF & _). pose proof (concat_len n bl HF) as HL.
    replace (Z.to_nat (n * len bl)) with (List.length (concat bl)) by (unfold len in *; lia).
    now rewrite skipn_app, Nat.sub_diag, skipn_all, skipn_O.
  Qed.
End Cut.

Lemma get_block_cut n (pre : list bytes) (b post t : bytes) :
  0 < n -> Forall (fun b => len b = n) pre -> len b = n ->
  _get_block n (concat pre ++ b ++ post ++ t) (len pre) = b.
Proof.
  intros Hn HF Hb. unfold _get_block. pose proof (concat_len n pre HF) as HL.
  pose proof (len_nonneg pre). pose proof (len_nonneg post). pose proof (len_nonneg t).
  rewrite py_slice_mid.
  - replace (Z.to_nat (n * len pre)) with (List.length (concat pre)) by (unfold len in *; lia).
    rewrite skipn_app, Nat.sub_diag, skipn_all, skipn_O. cbn [app].
    replace (Z.to_nat (n + n * len pre - n * len pre)) with (List.length b) by (unfold len in *; lia).
    now rewrite firstn_app, Nat.sub_diag, firstn_all, firstn_O, app_nil_r.
  - nia.
  - rewrite !len_app, HL, Hb. nia.
Qed.

Lemma get_blocks n data bl t : 0 < n -> cut n data bl t ->
  map (_get_block n data) (py_range 0 (_get_num_block n data) 1) = bl.
Proof.
  intros Hn Hcut. rewrite (cut_num n data bl t Hn Hcut). destruct Hcut as (-> & HF & Ht).
  enough (G : forall pre post, bl = pre ++ post ->
    map (_get_block n (concat bl ++ t)) (py_range (len pre) (len bl) 1) = post) by exact (G [] bl eq_refl).
  intros pre post; revert pre; induction post as [|b post IH]; intros pre E.
  - rewrite app_nil_r in E. subst. now rewrite py_range_empty by lia.
  - rewrite py_range_cons by (rewrite E, len_app, len_cons; pose proof (len_nonneg post); lia).
    cbn [map]. f_equal.
    + rewrite E, concat_app. cbn [concat]. rewrite <- !app_assoc. rewrite E in HF.
      apply Forall_app in HF as [HF1 HF2]. inversion HF2; subst. now apply get_block_cut.
    + replace (len pre + 1) with (len (pre ++ [b])) by (rewrite len_app; unfold len; cbn; lia).
      apply IH. now rewrite <- app_assoc.
Qed.

Lemma cut_whole n (bl : list bytes) : Forall (fun b => len b = n) bl -> 0 < n -> cut n (concat bl) bl [].
Proof. intros HF Hn. split; [now rewrite app_nil_r|]. split; [exact HF | exact Hn]. Qed.

(** The pieces of the specification. *)
Definition opt_block (t : bytes) : list bytes := match t with [] => [] | _ => [t] end.

Lemma blocks_fuel_cut (n : nat) (bl : list bytes) (t : bytes) : (0 < n)%nat -> Forall (fun b => List.length b = n) bl -> (List.length t < n)%nat ->
  forall fuel, (List.length (concat bl ++ t) <= fuel)%nat ->
  blocks_fuel fuel n (concat bl ++ t) = bl ++ opt_block t.
Proof.
  intros Hn HF Ht. induction HF as [|b bl Hb _ IH]; intros fuel Hf.
  - cbn [concat app] in *. destruct t as [|x t]; [now destruct fuel|].
    destruct fuel as [|fuel]; [cbn in Hf; lia|]. cbn [blocks_fuel opt_block].
    rewrite firstn_all2 by lia. rewrite skipn_all2 by lia. now destruct fuel.
  - cbn [concat] in *. rewrite <- app_assoc in *. destruct b as [|x b]; [cbn in Hb; lia|].
    destruct fuel as [|fuel]; [cbn in Hf; lia|]. cbn [app] in *. cbn [blocks_fuel].
    change (x :: b ++ concat bl ++ t) with ((x :: b) ++ concat bl ++ t).
    rewrite firstn_app, skipn_app, Hb, Nat.sub_diag, firstn_O, skipn_O, app_nil_r.
    rewrite firstn_all2, skipn_all2 by lia. cbn [app]. f_equal. apply IH.
    cbn [List.length] in Hf. rewrite app_length in Hf. lia.
Qed.

Lemma blocks_cut n data bl t : 0 < n -> cut n data bl t -> blocks (Z.to_nat n) data = bl ++ opt_block t.
Proof.
  intros Hn (-> & HF & Ht). unfold blocks. apply blocks_fuel_cut; auto; try lia.
  - eapply Forall_impl; [|exact HF]. unfold len. intros; cbn in *; lia.
  - unfold len in Ht. lia.
Qed.

Lemma cut_bytes n data bl t : cut n data bl t -> bytes_ok data -> Forall (bytes_len n) bl /\ bytes_ok t.
Proof.
  intros (-> & HF & _) Hb. apply bytes_ok_app in Hb as [Hb Ht]. split; [|exact Ht].
  induction HF as [|b bl Hl _ IH]; [constructor|]. cbn [concat] in Hb. apply bytes_ok_app in Hb as [H1 H2].
  constructor; [split; auto | auto].
Qed.

Lemma concat_ok n bl : Forall (bytes_len n) bl -> bytes_ok (concat bl).
Proof.
  induction 1 as [|b bl [_ Hb] _ IH]; [constructor|]. cbn [concat]. now apply bytes_ok_app.
Qed.
Lemma blocks_lens n bl : Forall (bytes_len n) bl -> Forall (fun b => len b = n) bl.
Proof. intros H. eapply Forall_impl; [|exact H]. now intros b [Hb _]. Qed.

(** ** Loops *)

Lemma forM_map {S A B C} (f : A -> B) (xs : list A) (acc : C) (body : B -> C -> M S C) s :
  forM xs acc (fun x acc => body (f x) acc) s = forM (map f xs) acc body s.
Proof.
  revert acc s; induction xs as [|x xs IH]; intros acc s; [reflexivity|].
  cbn [forM map]. unfold bindM. destruct (body (f x) acc s) as [[a|e] s']; [apply IH | reflexivity].
Qed.

Lemma forM_blocks {S C} n data bl t (acc : C) (body : bytes -> C -> M S C) s :
  0 < n -> cut n data bl t ->
  forM (py_range 0 (_get_num_block n data) 1) acc (fun i acc => body (_get_block n data i) acc) s = forM bl acc body s.
Proof. intros Hn Hc. rewrite forM_map, (get_blocks n data bl t); auto. Qed.

(** ** The object *)

Lemma set_iv_iv o a b : set_iv (set_iv o a) b = set_iv o b.
Proof. reflexivity. Qed.
Lemma set_iv_same o : set_iv o (o_init_vect o) = o.
Proof. now destruct o. Qed.
Lemma set_counter_same o : set_counter o (o_counter o) = o.
Proof. now destruct o. Qed.

(** Register of an object as a non-empty list of blocks. *)
Definition reg (o : mode_obj) (R : list bytes) : Prop :=
  o_init_vect o = concat R /\ R <> [] /\ Forall (block (o_cipher o)) R.

Lemma reg_exists o : len (o_init_vect o) mod block_size o = 0 -> o_init_vect o <> [] -> bytes_ok (o_init_vect o) ->
  exists R, reg o R.
Proof.
  intros Hm Hne Hok. assert (Hp := bs_pos (o_cipher o)).
  destruct (cut_exists (block_size o) (o_init_vect o) Hp) as (R & t & Hc).
  assert (Ht := cut_mod _ _ _ _ Hc). rewrite Hm in Ht. symmetry in Ht. apply len_0_nil in Ht. subst t.
  destruct (cut_bytes _ _ _ _ Hc Hok) as [HF _]. destruct Hc as (E & _). rewrite app_nil_r in E.
  exists R. split; [exact E|]. split; [|exact HF]. intros ->. now apply Hne.
Qed.

Lemma reg_hd o R : reg o R -> block (o_cipher o) (hd [] R).
Proof. intros (_ & Hne & HF). destruct R; [contradiction|]. now inversion HF. Qed.

Lemma firstn_concat_hd n (R : list bytes) : R <> [] -> Forall (fun b => len b = n) R -> firstn (Z.to_nat n) (concat R) = hd [] R.
Proof.
  intros Hne HF. destruct R as [|r R]; [contradiction|]. inversion HF; subst. cbn [concat hd].
  unfold len. rewrite Nat2Z.id. now rewrite firstn_app, Nat.sub_diag, firstn_all, firstn_O, app_nil_r.
Qed.

Lemma reg_slice o R : reg o R -> py_slice (o_init_vect o) 0 (block_size o) = hd [] R.
Proof.
  intros (E & Hne & HF). pose proof (bs_pos (o_cipher o)). unfold block_size.
  assert (HL := concat_len _ _ (blocks_lens _ _ HF)).
  rewrite py_slice_0.
  - rewrite E. apply firstn_concat_hd; auto. now apply blocks_lens.
  - rewrite E, HL. destruct R; [contradiction|]. rewrite len_cons. pose proof (len_nonneg R). nia.
Qed.

Lemma get_gamma_ok o R : co_ok (o_cipher o) -> reg o R ->
  _get_gamma o = (Ok (oE (o_cipher o) (hd [] R)), o).
Proof.
  intros Hc HR. unfold _get_gamma, bindM, getM, liftM. rewrite (reg_slice o R HR).
  destruct (co_enc _ _ Hc (reg_hd o R HR)) as [-> _]. reflexivity.
Qed.

Lemma set_init_vect_ok o R d : reg o R -> block (o_cipher o) d ->
  _set_init_vect d o = (Ok tt, set_iv o (concat (tl R ++ [d]))) /\ reg (set_iv o (concat (tl R ++ [d]))) (tl R ++ [d]).
Proof.
  intros (E & Hne & HF) Hd. split.
  - unfold _set_init_vect, bindM, getM, putM. f_equal. f_equal. unfold block_size. rewrite E.
    destruct R as [|r R]; [contradiction|]. inversion HF as [|? ? Hr HR]; subst. cbn [tl].
    pose proof (bs_pos (o_cipher o)) as Hp. destruct Hr as [Hr _]. destruct Hd as [Hd _].
    pose proof (concat_len _ _ (blocks_lens _ _ HR)) as HL. pose proof (len_nonneg R).
    set (n := co_block_size (o_cipher o)) in *.
    assert (HT : len (concat (r :: R)) = n + n * len R) by (cbn [concat]; rewrite len_app; lia).
    assert (Hhi : py_slice (concat (r :: R)) n (len (concat (r :: R))) = concat R).
    { rewrite py_slice_mid by nia. cbn [concat].
      replace (Z.to_nat n) with (List.length r) by (unfold len in Hr; lia).
      rewrite skipn_app, Nat.sub_diag, skipn_all, skipn_O. cbn [app].
      apply firstn_all2. rewrite len_app in *. unfold len in *. lia. }
    rewrite Hhi.
    assert (H1 : py_slice_set (concat (r :: R)) 0 (len (concat (r :: R)) - n) (concat R) =
                 concat R ++ skipn (Z.to_nat (n * len R)) (concat (r :: R))).
    { unfold py_slice_set, clamp. rewrite HT. replace (n + n * len R - n) with (n * len R) by lia.
      change (0 <? 0) with false. cbn match. change (0 <? 0) with false. cbn match.
      replace (n + n * len R <? 0) with false by nia. 
      replace (n * len R <? 0) with false by nia. cbn match.
      replace (n * len R <? 0) with false by nia.
      replace (n + n * len R <? n * len R) with false by nia.
      rewrite Z.max_r by nia. reflexivity. }
    rewrite H1. set (w := skipn (Z.to_nat (n * len R)) (concat (r :: R))).
    assert (Hw : len w = n) by (unfold w, len in *; rewrite skipn_length; lia).
    rewrite len_app, HL, Hw.
    unfold py_slice_set, clamp. rewrite len_app, HL, Hw.
    replace (n * len R + n - n) with (n * len R) by lia.
    replace (n * len R <? 0) with false by nia. cbn match.
    replace (n * len R <? 0) with false by nia.
    replace (n * len R + n <? n * len R) with false by nia.
    replace (n * len R + n <? 0) with false by nia. cbn match.
    replace (n * len R + n <? 0) with false by nia.
    replace (n * len R + n <? n * len R + n) with false by nia.
    rewrite Z.max_r by nia.
    replace (Z.to_nat (n * len R)) with (List.length (concat R)) by (unfold len in *; lia).
    rewrite firstn_app, Nat.sub_diag, firstn_all, firstn_O, app_nil_r.
    replace (Z.to_nat (n * len R + n)) with (List.length (concat R ++ w)) by (rewrite app_length; unfold len in *; lia).
    rewrite skipn_all, app_nil_r, concat_app. cbn [concat]. now rewrite app_nil_r.
  - split; [reflexivity|]. split; [now destruct (tl R)|]. cbn [set_iv o_cipher].
    apply Forall_app. split; [|now constructor]. destruct R; [constructor|]. now inversion HF.
Qed.

Lemma xor_block o a b : block o a -> block o b -> block o (add_xor a b).
Proof.
  intros [Ha1 Ha2] [Hb1 Hb2]. split; [rewrite add_xor_len; lia | now apply add_xor_ok].
Qed.
Lemma bxor_block o a b : block o a -> block o b -> block o (bxor a b).
Proof. rewrite bxor_eq. apply xor_block. Qed.

Lemma py_slice_block o b : block o b -> py_slice b 0 (bs o) = b.
Proof.
  intros [Hb _]. pose proof (bs_pos o). rewrite py_slice_0 by lia. apply firstn_all2. unfold len in Hb. lia.
Qed.

(** ** ECB *)

Lemma ecb_loop (f : bytes -> res bytes) (F : bytes -> bytes) bl :
  (forall b, In b bl -> f b = Ok (F b)) -> forall acc (o : mode_obj),
  forM bl acc (fun b result => let! c := liftM (f b) in retM (result ++ c)) o = (Ok (acc ++ concat (map F bl)), o).
Proof.
  induction bl as [|b bl IH]; intros Hf acc o; cbn [forM map concat]; [now rewrite app_nil_r|].
  unfold bindM at 1. unfold bindM at 1, liftM. rewrite (Hf b) by now left. cbn [retM].
  unfold retM at 1. rewrite IH by (intros; apply Hf; now right). now rewrite app_assoc.
Qed.

Definition pad (n : Z) (p : Z) (data : bytes) : bytes := _set_padding n data p.

Lemma ecb_encrypt_ok o data bl : co_ok (o_cipher o) -> 
  pad (block_size o) (o_pad_mode o) data = concat bl -> Forall (block (o_cipher o)) bl ->
  ecb_encrypt (VBytes data) o = (Ok (concat (ecb_enc (oE (o_cipher o)) bl)), o).
Proof.
  intros Hc Hp HF. unfold ecb_encrypt, padding_encrypt, check_plaintext, bindM, getM, retM.
  unfold pad in Hp. rewrite Hp.
  assert (Hcut := cut_whole _ _ (blocks_lens _ _ HF) (bs_pos (o_cipher o))).
  etransitivity; [apply (forM_blocks _ _ _ _ [] (fun b result => let! c := liftM (co_encrypt (o_cipher o) b) in retM (result ++ c)) o (bs_pos (o_cipher o)) Hcut)|].
  rewrite (ecb_loop _ (oE (o_cipher o))); [reflexivity|].
  intros b Hb. rewrite Forall_forall in HF. now destruct (co_enc _ b Hc (HF b Hb)).
Qed.

Lemma ecb_decrypt_ok o data bl t : co_ok (o_cipher o) ->
  cut (block_size o) data bl t -> Forall (block (o_cipher o)) bl ->
  ecb_decrypt (VBytes data) o = (Ok (concat (ecb_dec (oD (o_cipher o)) bl)), o).
Proof.
  intros Hc Hcut HF. unfold ecb_decrypt, check_ciphertext, bindM, getM, retM.
  etransitivity; [apply (forM_blocks _ _ _ _ [] (fun b result => let! c := liftM (co_decrypt (o_cipher o) b) in retM (result ++ c)) o (bs_pos (o_cipher o)) Hcut)|].
  rewrite (ecb_loop _ (oD (o_cipher o))); [reflexivity|].
  intros b Hb. rewrite Forall_forall in HF. now destruct (co_dec _ b Hc (HF b Hb)).
Qed.

(** ** CBC *)

(** The register after shifting in the blocks [out]. *)
Definition shift (R out : list bytes) : list bytes := skipn (List.length out) (R ++ out).

Lemma shift_nil R : shift R [] = R.
Proof. unfold shift. cbn. now rewrite app_nil_r. Qed.
Lemma shift_cons R c out : R <> [] -> shift R (c :: out) = shift (tl R ++ [c]) out.
Proof.
  intros Hne. destruct R as [|r R]; [contradiction|]. unfold shift. cbn [List.length tl app skipn].
  now rewrite <- app_assoc.
Qed.
Lemma shift_app R a b : R <> [] -> shift R (a ++ b) = shift (shift R a) b.
Proof.
  revert R; induction a as [|c a IH]; intros R Hne; cbn [app]; [now rewrite shift_nil|].
  rewrite !shift_cons by auto. apply IH. now destruct (tl R).
Qed.
Lemma shift_ne R out : R <> [] -> shift R out <> [].
Proof.
  revert R; induction out as [|c out IH]; intros R Hne; [now rewrite shift_nil|].
  rewrite shift_cons by auto. apply IH. now destruct (tl R).
Qed.
Lemma shift_forall (P : bytes -> Prop) R out : Forall P R -> Forall P out -> Forall P (shift R out).
Proof.
  intros H1 H2. unfold shift. assert (H : Forall P (R ++ out)) by (apply Forall_app; auto).
  rewrite <- (firstn_skipn (List.length out) (R ++ out)) in H. now apply Forall_app in H.
Qed.
Lemma shift_length R out : List.length (shift R out) = List.length R.
Proof. unfold shift. rewrite skipn_length, app_length. lia. Qed.

Lemma cbc_enc_blocks c R ps : co_ok c -> R <> [] -> Forall (block c) R -> Forall (block c) ps ->
  Forall (block c) (cbc_enc (oE c) R ps).
Proof.
  intros Hc Hne HR HP. revert R Hne HR; induction HP as [|p ps Hp _ IH]; intros R Hne HR; [constructor|].
  cbn [cbc_enc]. assert (Hb : block c (oE c (bxor p (hd [] R)))).
  { apply oE_block; auto. apply bxor_block; auto. destruct R; [contradiction|]. now inversion HR. }
  constructor; [exact Hb|]. apply IH; [now destruct (tl R)|].
  apply Forall_app. split; [destruct R; [constructor|]; now inversion HR | now constructor].
Qed.

Lemma cbc_enc_length E R ps : List.length (cbc_enc E R ps) = List.length ps.
Proof. revert R; induction ps as [|p ps IH]; intros R; cbn [cbc_enc List.length]; [reflexivity|]. now rewrite IH. Qed.
Lemma cbc_dec_length D R ps : List.length (cbc_dec D R ps) = List.length ps.
Proof. revert R; induction ps as [|p ps IH]; intros R; cbn [cbc_dec List.length]; [reflexivity|]. now rewrite IH. Qed.
Lemma cfb_enc_length D R ps : List.length (cfb_enc D R ps) = List.length ps.
Proof. revert R; induction ps as [|p ps IH]; intros R; cbn [cfb_enc List.length]; [reflexivity|]. now rewrite IH. Qed.
Lemma cfb_dec_length D R ps : List.length (cfb_dec D R ps) = List.length ps.
Proof. revert R; induction ps as [|p ps IH]; intros R; cbn [cfb_dec List.length]; [reflexivity|]. now rewrite IH. Qed.
Lemma ofb_gamma_length D R k : List.length (ofb_gamma D R k) = k.
Proof. revert R; induction k as [|k IH]; intros R; cbn [ofb_gamma List.length]; [reflexivity|]. now rewrite IH. Qed.

(** *** Loop bodies of the model, as functions of the block *)

Definition cbc_enc_body (n : Z) (b result : bytes) : M mode_obj bytes :=
  let! self := getM in
  let internal := add_xor (py_slice (o_init_vect self) 0 n) b in
  let! cipher_block := liftM (co_encrypt (o_cipher self) internal) in
  let result := result ++ cipher_block in
  _set_init_vect (py_slice cipher_block 0 n) ;!
  retM result.
Definition cbc_dec_body (n : Z) (b result : bytes) : M mode_obj bytes :=
  let! self := getM in
  let! internal := liftM (co_decrypt (o_cipher self) b) in
  let cipher_block := add_xor (py_slice (o_init_vect self) 0 n) internal in
  let result := result ++ cipher_block in
  _set_init_vect b ;!
  retM result.
Definition cfb_enc_body (n : Z) (b result : bytes) : M mode_obj bytes :=
  let! gamma := _get_gamma in
  let cipher_block := add_xor gamma b in
  let result := result ++ cipher_block in
  _set_init_vect (py_slice cipher_block 0 n) ;!
  retM result.
Definition cfb_dec_body (b result : bytes) : M mode_obj bytes :=
  let! gamma := _get_gamma in
  let cipher_block := b in
  let result := result ++ add_xor gamma cipher_block in
  _set_init_vect cipher_block ;!
  retM result.
Definition ofb_body (n : Z) (b result : bytes) : M mode_obj bytes :=
  let! gamma := _get_gamma in
  let cipher_block := b in
  let result := result ++ add_xor gamma cipher_block in
  _set_init_vect (py_slice gamma 0 n) ;!
  retM result.
Definition ctr_body (b result : bytes) : M mode_obj bytes :=
  let! gamma := ctr_step in
  retM (result ++ add_xor b gamma).

(** One step: from register [R] the body appends [out] and shifts [fb] into the register. *)
Definition step_ok (o : mode_obj) (R : list bytes) (body : bytes -> bytes -> M mode_obj bytes) (b out fb : bytes) : Prop :=
  block (o_cipher o) fb /\
  forall acc, body b acc o = (Ok (acc ++ out), set_iv o (concat (tl R ++ [fb]))).

Lemma reg_shift o R fb : reg o R -> block (o_cipher o) fb -> reg (set_iv o (concat (tl R ++ [fb]))) (tl R ++ [fb]).
Proof. intros HR Hf. apply (set_init_vect_ok o R fb HR Hf). Qed.

Lemma cbc_enc_step o R b : co_ok (o_cipher o) -> reg o R -> block (o_cipher o) b ->
  step_ok o R (cbc_enc_body (block_size o)) b (oE (o_cipher o) (bxor b (hd [] R))) (oE (o_cipher o) (bxor b (hd [] R))).
Proof.
  intros Hc HR Hb. assert (Hx : block (o_cipher o) (bxor b (hd [] R))) by (apply bxor_block; auto using reg_hd).
  destruct (co_enc _ _ Hc Hx) as [He HE]. split; [exact HE|]. intros acc.
  unfold cbc_enc_body, bindM at 1, getM, bindM at 1, liftM.
  rewrite (reg_slice o R HR), add_xor_comm, <- bxor_eq, He. unfold bindM at 1.
  assert (Hs := py_slice_block _ _ HE). unfold block_size. rewrite Hs.
  destruct (set_init_vect_ok o R _ HR HE) as [-> _]. reflexivity.
Qed.

Lemma cbc_dec_step o R b : co_ok (o_cipher o) -> reg o R -> block (o_cipher o) b ->
  step_ok o R (cbc_dec_body (block_size o)) b (bxor (oD (o_cipher o) b) (hd [] R)) b.
Proof.
  intros Hc HR Hb. destruct (co_dec _ _ Hc Hb) as [Hd HD]. split; [exact Hb|]. intros acc.
  unfold cbc_dec_body, bindM at 1, getM, bindM at 1, liftM. rewrite Hd. unfold bindM at 1.
  rewrite (reg_slice o R HR), add_xor_comm, <- bxor_eq.
  destruct (set_init_vect_ok o R _ HR Hb) as [-> _]. reflexivity.
Qed.

Lemma cfb_enc_step o R b : co_ok (o_cipher o) -> reg o R -> block (o_cipher o) b ->
  step_ok o R (cfb_enc_body (block_size o)) b (bxor b (oE (o_cipher o) (hd [] R))) (bxor b (oE (o_cipher o) (hd [] R))).
Proof.
  intros Hc HR Hb. assert (HE := oE_block _ _ Hc (reg_hd o R HR)).
  assert (Hx : block (o_cipher o) (bxor b (oE (o_cipher o) (hd [] R)))) by now apply bxor_block.
  split; [exact Hx|]. intros acc. unfold cfb_enc_body, bindM at 1. rewrite (get_gamma_ok o R Hc HR).
  rewrite add_xor_comm, <- bxor_eq. unfold bindM at 1.
  assert (Hs := py_slice_block _ _ Hx). unfold block_size. rewrite Hs.
  destruct (set_init_vect_ok o R _ HR Hx) as [-> _]. reflexivity.
Qed.

Lemma cfb_dec_step o R b : co_ok (o_cipher o) -> reg o R -> block (o_cipher o) b ->
  step_ok o R cfb_dec_body b (bxor b (oE (o_cipher o) (hd [] R))) b.
Proof.
  intros Hc HR Hb. split; [exact Hb|]. intros acc. unfold cfb_dec_body, bindM at 1. rewrite (get_gamma_ok o R Hc HR).
  rewrite add_xor_comm, <- bxor_eq. unfold bindM at 1.
  destruct (set_init_vect_ok o R _ HR Hb) as [-> _]. reflexivity.
Qed.

Lemma ofb_step o R b : co_ok (o_cipher o) -> reg o R -> block (o_cipher o) b ->
  step_ok o R (ofb_body (block_size o)) b (bxor b (oE (o_cipher o) (hd [] R))) (oE (o_cipher o) (hd [] R)).
Proof.
  intros Hc HR Hb. assert (HE := oE_block _ _ Hc (reg_hd o R HR)). split; [exact HE|].
  intros acc. unfold ofb_body, bindM at 1. rewrite (get_gamma_ok o R Hc HR).
  rewrite add_xor_comm, <- bxor_eq. unfold bindM at 1.
  assert (Hs := py_slice_block _ _ HE). unfold block_size. rewrite Hs.
  destruct (set_init_vect_ok o R _ HR HE) as [-> _]. reflexivity.
Qed.

(** The loop of a mode whose step produces [f R b] and feeds back [g R b]. *)
Section Run.
  Variables f g : list bytes -> bytes -> bytes.
  Fixpoint run_out (R bl : list bytes) : list bytes :=
    match bl with [] => [] | b :: bl' => f R b :: run_out (tl R ++ [g R b]) bl' end.
  Fixpoint run_fb (R bl : list bytes) : list bytes :=
    match bl with [] => [] | b :: bl' => g R b :: run_fb (tl R ++ [g R b]) bl' end.
End Run.

Lemma run_loop (o : mode_obj) body f g bl :
  (forall R iv b, reg (set_iv o iv) R -> block (o_cipher o) b -> step_ok (set_iv o iv) R body b (f R b) (g R b)) ->
  forall R acc iv, reg (set_iv o iv) R -> Forall (block (o_cipher o)) bl ->
  forM bl acc body (set_iv o iv) =
  (Ok (acc ++ concat (run_out f g R bl)), set_iv o (concat (shift R (run_fb g R bl)))) /\
  Forall (block (o_cipher o)) (run_fb g R bl) /\
  reg (set_iv o (concat (shift R (run_fb g R bl)))) (shift R (run_fb g R bl)).
Proof.
  intros Hstep. induction bl as [|b bl IH]; intros R acc iv HR HF.
  - cbn [forM run_out run_fb concat]. rewrite shift_nil, app_nil_r.
    assert (HE : o_init_vect (set_iv o iv) = concat R) by apply HR. cbn in HE. subst iv. auto.
  - inversion HF as [|? ? Hb HF']; subst. destruct (Hstep R iv b HR Hb) as [Hfb Hs].
    cbn [forM run_out run_fb]. unfold bindM. rewrite Hs, set_iv_iv.
    assert (HR' := reg_shift _ R _ HR Hfb). rewrite set_iv_iv in HR'.
    destruct (IH (tl R ++ [g R b]) (acc ++ f R b) (concat (tl R ++ [g R b])) HR' HF') as (-> & H2 & H3).
    rewrite shift_cons by apply HR. cbn [concat]. rewrite <- app_assoc. split; [reflexivity|]. split; [|exact H3].
    constructor; auto.
Qed.

Lemma run_loop0 (o : mode_obj) body f g bl :
  (forall R iv b, reg (set_iv o iv) R -> block (o_cipher o) b -> step_ok (set_iv o iv) R body b (f R b) (g R b)) ->
  forall R acc, reg o R -> Forall (block (o_cipher o)) bl ->
  forM bl acc body o =
  (Ok (acc ++ concat (run_out f g R bl)), set_iv o (concat (shift R (run_fb g R bl)))) /\
  Forall (block (o_cipher o)) (run_fb g R bl) /\
  reg (set_iv o (concat (shift R (run_fb g R bl)))) (shift R (run_fb g R bl)).
Proof.
  intros Hs R acc HR HF. assert (HR' : reg (set_iv o (o_init_vect o)) R) by now rewrite set_iv_same.
  destruct (run_loop o body f g bl Hs R acc (o_init_vect o) HR' HF) as [H1 H2]. rewrite set_iv_same in H1. auto.
Qed.

Lemma run_cbc_enc E R bl : run_out (fun R b => E (bxor b (hd [] R))) (fun R b => E (bxor b (hd [] R))) R bl = cbc_enc E R bl
  /\ run_fb (fun R b => E (bxor b (hd [] R))) R bl = cbc_enc E R bl.
Proof. revert R; induction bl as [|b bl IH]; intros R; cbn; [auto|]. destruct (IH (tl R ++ [E (bxor b (hd [] R))])) as [-> ->]. auto. Qed.
Lemma run_cbc_dec D R bl : run_out (fun R b => bxor (D b) (hd [] R)) (fun R b => b) R bl = cbc_dec D R bl
  /\ run_fb (fun R b => b) R bl = bl.
Proof. revert R; induction bl as [|b bl IH]; intros R; cbn; [auto|]. destruct (IH (tl R ++ [b])) as [-> ->]. auto. Qed.
Lemma run_cfb_enc E R bl : run_out (fun R b => bxor b (E (hd [] R))) (fun R b => bxor b (E (hd [] R))) R bl = cfb_enc E R bl
  /\ run_fb (fun R b => bxor b (E (hd [] R))) R bl = cfb_enc E R bl.
Proof. revert R; induction bl as [|b bl IH]; intros R; cbn; [auto|]. destruct (IH (tl R ++ [bxor b (E (hd [] R))])) as [-> ->]. auto. Qed.
Lemma run_cfb_dec E R bl : run_out (fun R b => bxor b (E (hd [] R))) (fun R b => b) R bl = cfb_dec E R bl
  /\ run_fb (fun R b => b) R bl = bl.
Proof. revert R; induction bl as [|b bl IH]; intros R; cbn; [auto|]. destruct (IH (tl R ++ [b])) as [-> ->]. auto. Qed.
Lemma run_ofb E R bl : run_out (fun R b => bxor b (E (hd [] R))) (fun R b => E (hd [] R)) R bl = ofb E R bl
  /\ run_fb (fun R b => E (hd [] R)) R bl = ofb_gamma E R (List.length bl).
Proof.
  unfold ofb. revert R; induction bl as [|b bl IH]; intros R; cbn; [auto|].
  destruct (IH (tl R ++ [E (hd [] R)])) as [-> ->]. auto.
Qed.

Lemma cbc_encrypt_ok o R data bl : co_ok (o_cipher o) -> reg o R ->
  pad (block_size o) (o_pad_mode o) data = concat bl -> Forall (block (o_cipher o)) bl ->
  cbc_encrypt (VBytes data) o =
  (Ok (concat (cbc_enc (oE (o_cipher o)) R bl)),
   set_iv o (concat (shift R (cbc_enc (oE (o_cipher o)) R bl)))) /\
  reg (set_iv o (concat (shift R (cbc_enc (oE (o_cipher o)) R bl)))) (shift R (cbc_enc (oE (o_cipher o)) R bl)).
Proof.
  intros Hc HR Hp HF. unfold cbc_encrypt, padding_encrypt, check_plaintext.
  unfold bindM at 1. unfold bindM at 1. unfold retM at 1. unfold bindM at 1, getM at 1. unfold retM at 1.
  unfold pad in Hp. rewrite Hp.
  assert (Hcut := cut_whole _ _ (blocks_lens _ _ HF) (bs_pos (o_cipher o))).
  unfold bindM at 1. unfold getM at 1.
  pose proof (forM_blocks _ _ _ _ [] (cbc_enc_body (block_size o)) o (bs_pos (o_cipher o)) Hcut) as HL.
  destruct (run_loop0 o (cbc_enc_body (block_size o))
    (fun R b => oE (o_cipher o) (bxor b (hd [] R)))
    (fun R b => oE (o_cipher o) (bxor b (hd [] R))) bl
    (fun R iv b HR Hb => cbc_enc_step (set_iv o iv) R b Hc HR Hb) R [] HR HF) as (Hrun & _ & Hreg).
  cbn [set_iv o_cipher] in *.
  destruct (run_cbc_enc (oE (o_cipher o)) R bl) as [E1 E2]. rewrite E2 in Hrun, Hreg. rewrite E1 in Hrun.
  split; [|exact Hreg]. etransitivity; [exact HL | exact Hrun].
Qed.

Lemma cbc_decrypt_ok o R data bl t : co_ok (o_cipher o) -> reg o R ->
  cut (block_size o) data bl t -> Forall (block (o_cipher o)) bl ->
  cbc_decrypt (VBytes data) o =
  (Ok (concat (cbc_dec (oD (o_cipher o)) R bl)), set_iv o (concat (shift R bl))) /\
  reg (set_iv o (concat (shift R bl))) (shift R bl).
Proof.
  intros Hc HR Hcut HF. unfold cbc_decrypt, check_ciphertext.
  unfold bindM at 1. unfold retM at 1. unfold bindM at 1, getM at 1.
  pose proof (forM_blocks _ _ _ _ [] (cbc_dec_body (block_size o)) o (bs_pos (o_cipher o)) Hcut) as HL.
  destruct (run_loop0 o (cbc_dec_body (block_size o))
    (fun R b => bxor (oD (o_cipher o) b) (hd [] R))
    (fun R b => b) bl
    (fun R iv b HR Hb => cbc_dec_step (set_iv o iv) R b Hc HR Hb) R [] HR HF) as (Hrun & _ & Hreg).
  cbn [set_iv o_cipher] in *.
  destruct (run_cbc_dec (oD (o_cipher o)) R bl) as [E1 E2]. rewrite E2 in Hrun, Hreg. rewrite E1 in Hrun.
  split; [|exact Hreg]. etransitivity; [exact HL | exact Hrun].
Qed.

(** ** CFB and OFB *)

Lemma add_xor_short o g t : block o g -> len t < bs o -> add_xor g t = bxor t g.
Proof. intros _ _. now rewrite bxor_eq, add_xor_comm. Qed.

Lemma concat_opt t : concat (opt_block t) = t.
Proof. destruct t; [reflexivity|]. cbn. now rewrite app_nil_r. Qed.

(** The tail of the three stream modes. *)
Lemma final_ok o R data bl t (result : bytes) : co_ok (o_cipher o) -> reg o R -> cut (block_size o) data bl t ->
  (if negb (len data mod block_size o =? 0) then let! f := _final_cipher data in retM (result ++ f) else retM result) o =
  (Ok (result ++ bxor t (oE (o_cipher o) (hd [] R))), o).
Proof.
  intros Hc HR Hcut. rewrite (cut_mod _ _ _ _ Hcut).
  destruct t as [|x t].
  - change (len (@nil Z)) with 0. cbn [negb Z.eqb]. unfold retM. unfold bxor. cbn [combine map]. now rewrite app_nil_r.
  - replace (len (x :: t) =? 0) with false by (rewrite len_cons; pose proof (len_nonneg t); lia). cbn [negb].
    unfold _final_cipher, bindM at 1, bindM at 1. rewrite (get_gamma_ok o R Hc HR).
    unfold bindM, getM, retM, _get_final_block. change (block_size o) with (bs (o_cipher o)).
    rewrite (cut_final _ _ _ _ (bs_pos (o_cipher o)) Hcut).
    now rewrite bxor_eq, add_xor_comm.
Qed.

Lemma cfb_enc_app E R a b : R <> [] ->
  cfb_enc E R (a ++ b) = cfb_enc E R a ++ cfb_enc E (shift R (cfb_enc E R a)) b.
Proof.
  revert R; induction a as [|p a IH]; intros R Hne; cbn [app cfb_enc]; [now rewrite shift_nil|].
  rewrite shift_cons by auto. rewrite IH; [reflexivity|]. now destruct (tl R).
Qed.
Lemma cfb_dec_app E R a b : R <> [] ->
  cfb_dec E R (a ++ b) = cfb_dec E R a ++ cfb_dec E (shift R a) b.
Proof.
  revert R; induction a as [|p a IH]; intros R Hne; cbn [app cfb_dec]; [now rewrite shift_nil|].
  rewrite shift_cons by auto. rewrite IH; [reflexivity|]. now destruct (tl R).
Qed.
Lemma cbc_enc_app E R a b : R <> [] ->
  cbc_enc E R (a ++ b) = cbc_enc E R a ++ cbc_enc E (shift R (cbc_enc E R a)) b.
Proof.
  revert R; induction a as [|p a IH]; intros R Hne; cbn [app cbc_enc]; [now rewrite shift_nil|].
  rewrite shift_cons by auto. rewrite IH; [reflexivity|]. now destruct (tl R).
Qed.
Lemma cbc_dec_app E R a b : R <> [] ->
  cbc_dec E R (a ++ b) = cbc_dec E R a ++ cbc_dec E (shift R a) b.
Proof.
  revert R; induction a as [|p a IH]; intros R Hne; cbn [app cbc_dec]; [now rewrite shift_nil|].
  rewrite shift_cons by auto. rewrite IH; [reflexivity|]. now destruct (tl R).
Qed.
Lemma ofb_cons E R p ps : ofb E R (p :: ps) = bxor p (E (hd [] R)) :: ofb E (tl R ++ [E (hd [] R)]) ps.
Proof. reflexivity. Qed.
Lemma ofb_app E R a b : R <> [] ->
  ofb E R (a ++ b) = ofb E R a ++ ofb E (shift R (ofb_gamma E R (List.length a))) b.
Proof.
  revert R; induction a as [|p a IH]; intros R Hne; cbn [app]; [cbn [List.length ofb_gamma]; now rewrite shift_nil|].
  rewrite !ofb_cons. cbn [List.length ofb_gamma]. rewrite shift_cons by auto. rewrite IH; [reflexivity|]. now destruct (tl R).
Qed.

Lemma cfb_encrypt_ok o R data bl t : co_ok (o_cipher o) -> reg o R ->
  cut (block_size o) data bl t -> Forall (block (o_cipher o)) bl ->
  cfb_encrypt (VBytes data) o =
  (Ok (concat (cfb_enc (oE (o_cipher o)) R (bl ++ opt_block t))),
   set_iv o (concat (shift R (cfb_enc (oE (o_cipher o)) R bl)))) /\
  reg (set_iv o (concat (shift R (cfb_enc (oE (o_cipher o)) R bl)))) (shift R (cfb_enc (oE (o_cipher o)) R bl)).
Proof.
  intros Hc HR Hcut HF. unfold cfb_encrypt, check_plaintext.
  unfold bindM at 1. unfold retM at 1. unfold bindM at 1, getM at 1.
  pose proof (forM_blocks _ _ _ _ [] (cfb_enc_body (block_size o)) o (bs_pos (o_cipher o)) Hcut) as HL.
  destruct (run_loop0 o (cfb_enc_body (block_size o))
    (fun R b => bxor b (oE (o_cipher o) (hd [] R)))
    (fun R b => bxor b (oE (o_cipher o) (hd [] R))) bl
    (fun R iv b HR Hb => cfb_enc_step (set_iv o iv) R b Hc HR Hb) R [] HR HF) as (Hrun & _ & Hreg).
  cbn [set_iv o_cipher] in *.
  destruct (run_cfb_enc (oE (o_cipher o)) R bl) as [E1 E2]. rewrite E2 in Hrun, Hreg. rewrite E1 in Hrun.
  rewrite Hrun in HL. split; [|exact Hreg]. unfold bindM at 1.
  change (fun i acc => cfb_enc_body (block_size o) (_get_block (bs (o_cipher o)) data i) acc) with
    (fun i result => let! gamma := _get_gamma in
         let cipher_block := add_xor gamma (_get_block (block_size o) data i) in
         let result := result ++ cipher_block in
         _set_init_vect (py_slice cipher_block 0 (block_size o)) ;!
         retM result) in HL.
  unfold block_size in *. rewrite HL.
  pose proof (final_ok (set_iv o (concat (shift R (cfb_enc (oE (o_cipher o)) R bl)))) _ data bl t
      ([] ++ concat (cfb_enc (oE (o_cipher o)) R bl)) Hc Hreg Hcut) as HT.
  etransitivity; [exact HT|]. f_equal. f_equal. cbn [app set_iv o_cipher].
  rewrite cfb_enc_app by apply HR. rewrite concat_app. f_equal.
  destruct t as [|x t]; [reflexivity|]. cbn [opt_block cfb_enc concat]. now rewrite app_nil_r.
Qed.

Lemma cfb_decrypt_ok o R data bl t : co_ok (o_cipher o) -> reg o R ->
  cut (block_size o) data bl t -> Forall (block (o_cipher o)) bl ->
  cfb_decrypt (VBytes data) o =
  (Ok (concat (cfb_dec (oE (o_cipher o)) R (bl ++ opt_block t))), set_iv o (concat (shift R bl))) /\
  reg (set_iv o (concat (shift R bl))) (shift R bl).
Proof.
  intros Hc HR Hcut HF. unfold cfb_decrypt, check_ciphertext.
  unfold bindM at 1. unfold retM at 1. unfold bindM at 1, getM at 1.
  pose proof (forM_blocks _ _ _ _ [] cfb_dec_body o (bs_pos (o_cipher o)) Hcut) as HL.
  destruct (run_loop0 o cfb_dec_body
    (fun R b => bxor b (oE (o_cipher o) (hd [] R)))
    (fun R b => b) bl
    (fun R iv b HR Hb => cfb_dec_step (set_iv o iv) R b Hc HR Hb) R [] HR HF) as (Hrun & _ & Hreg).
  cbn [set_iv o_cipher] in *.
  destruct (run_cfb_dec (oE (o_cipher o)) R bl) as [E1 E2]. rewrite E2 in Hrun, Hreg. rewrite E1 in Hrun.
  rewrite Hrun in HL. split; [|exact Hreg]. unfold bindM at 1.
  change (fun i acc => cfb_dec_body (_get_block (bs (o_cipher o)) data i) acc) with
    (fun i result => let! gamma := _get_gamma in
         let cipher_block := _get_block (block_size o) data i in
         let result := result ++ add_xor gamma cipher_block in
         _set_init_vect cipher_block ;!
         retM result) in HL.
  unfold block_size in *. rewrite HL.
  pose proof (final_ok (set_iv o (concat (shift R bl))) _ data bl t
      ([] ++ concat (cfb_dec (oE (o_cipher o)) R bl)) Hc Hreg Hcut) as HT.
  etransitivity; [exact HT|]. f_equal. f_equal. cbn [app set_iv o_cipher].
  rewrite cfb_dec_app by apply HR. rewrite concat_app. f_equal.
  destruct t as [|x t]; [reflexivity|]. cbn [opt_block cfb_dec concat]. now rewrite app_nil_r.
Qed.

Lemma ofb_encrypt_ok o R data bl t : co_ok (o_cipher o) -> reg o R ->
  cut (block_size o) data bl t -> Forall (block (o_cipher o)) bl ->
  ofb_encrypt (VBytes data) o =
  (Ok (concat (ofb (oE (o_cipher o)) R (bl ++ opt_block t))),
   set_iv o (concat (shift R (ofb_gamma (oE (o_cipher o)) R (List.length bl))))) /\
  reg (set_iv o (concat (shift R (ofb_gamma (oE (o_cipher o)) R (List.length bl)))))
      (shift R (ofb_gamma (oE (o_cipher o)) R (List.length bl))).
Proof.
  intros Hc HR Hcut HF. unfold ofb_encrypt, check_plaintext.
  unfold bindM at 1. unfold retM at 1. unfold bindM at 1, getM at 1.
  pose proof (forM_blocks _ _ _ _ [] (ofb_body (block_size o)) o (bs_pos (o_cipher o)) Hcut) as HL.
  destruct (run_loop0 o (ofb_body (block_size o))
    (fun R b => bxor b (oE (o_cipher o) (hd [] R)))
    (fun R b => oE (o_cipher o) (hd [] R)) bl
    (fun R iv b HR Hb => ofb_step (set_iv o iv) R b Hc HR Hb) R [] HR HF) as (Hrun & _ & Hreg).
  cbn [set_iv o_cipher] in *.
  destruct (run_ofb (oE (o_cipher o)) R bl) as [E1 E2]. rewrite E2 in Hrun, Hreg. rewrite E1 in Hrun.
  rewrite Hrun in HL. split; [|exact Hreg]. unfold bindM at 1.
  change (fun i acc => ofb_body (block_size o) (_get_block (bs (o_cipher o)) data i) acc) with
    (fun i result => let! gamma := _get_gamma in
         let cipher_block := _get_block (block_size o) data i in
         let result := result ++ add_xor gamma cipher_block in
         _set_init_vect (py_slice gamma 0 (block_size o)) ;!
         retM result) in HL.
  unfold block_size in *. rewrite HL.
  pose proof (final_ok (set_iv o (concat (shift R (ofb_gamma (oE (o_cipher o)) R (List.length bl))))) _ data bl t
      ([] ++ concat (ofb (oE (o_cipher o)) R bl)) Hc Hreg Hcut) as HT.
  etransitivity; [exact HT|]. f_equal. f_equal. cbn [app set_iv o_cipher].
  rewrite ofb_app by apply HR. rewrite concat_app. f_equal.
  destruct t as [|x t]; [reflexivity|]. cbn [opt_block]. rewrite ofb_cons. cbn [concat]. now rewrite app_nil_r.
Qed.

Lemma ofb_decrypt_eq data o : ofb_decrypt (VBytes data) o = ofb_encrypt (VBytes data) o.
Proof. reflexivity. Qed.
