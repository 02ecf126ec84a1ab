(** * The modes: objects made by [new], and what their methods compute *)
From Verif Require Import PyBase PyFacts PyState Utils UtilsFacts UtilsLemmas Kuznechik Magma CipherObj Modes Mac.
From Verif Require Import SpecModes CipherLemmas CipherObjFacts ModeFacts CtrFacts ModeSpecFacts.

(** ** Names used in the statements *)

Definition alg_name (a : balg) : string := match a with Kuz => "kuznechik" | Mag => "magma" end.
Definition pad_code (p : pmode) : Z := match p with P1 => PAD_MODE_1 | P2 => PAD_MODE_2 end.
(** A non-empty whole number of blocks. *)
Definition iv_blocks (a : balg) (iv : bytes) : Prop :=
  bytes_ok iv /\ iv <> [] /\ len iv mod Z.of_nat (bsize a) = 0.

(** ** Padding *)

Lemma pad_size_ok c (m : bytes) : _get_pad_size (bs c) m = Z.of_nat (pad_zeros (nbs c) m).
Proof.
  unfold _get_pad_size, pad_zeros, nbs. destruct (bs_cases c) as [-> | ->].
  - change (Z.to_nat 16) with 16%nat. destruct m as [|x m]; [reflexivity|].
    set (L := List.length (x :: m)). assert (HL : len (x :: m) = Z.of_nat L) by reflexivity.
    assert (Hp : (0 < L)%nat) by (unfold L; cbn [List.length]; lia). rewrite HL. clearbody L. clear HL.
    destruct (Z.of_nat L <? 16) eqn:E1; [|destruct (Z.of_nat L mod 16 =? 0) eqn:E2]; lia.
  - change (Z.to_nat 8) with 8%nat. destruct m as [|x m]; [reflexivity|].
    set (L := List.length (x :: m)). assert (HL : len (x :: m) = Z.of_nat L) by reflexivity.
    assert (Hp : (0 < L)%nat) by (unfold L; cbn [List.length]; lia). rewrite HL. clearbody L. clear HL.
    destruct (Z.of_nat L <? 8) eqn:E1; [|destruct (Z.of_nat L mod 8 =? 0) eqn:E2]; lia.
Qed.

Lemma pad_ok c p m : pad (bs c) (pad_code p) m = padded p (nbs c) m.
Proof.
  unfold pad, _set_padding, padded, padding. destruct p.
  - change (pad_code P1 =? PAD_MODE_1) with true. cbn match. unfold _set_pad_mode_1, py_repeat.
    now rewrite pad_size_ok, Nat2Z.id.
  - change (pad_code P2 =? PAD_MODE_1) with false. change (pad_code P2 =? PAD_MODE_2) with true. cbn match.
    unfold _set_pad_mode_2, py_repeat. rewrite pad_size_ok. cbn [app]. do 3 f_equal.
    unfold nbs. pose proof (bs_pos c). lia.
Qed.

Lemma padded_length c p m : exists k, (0 < k)%nat /\
  List.length (padded p (nbs c) m) = (k * nbs c)%nat.
Proof.
  assert (Hn : (List.length (m ++ repeat 0%Z (pad_zeros (nbs c) m)) mod nbs c = 0 /\
                0 < List.length (m ++ repeat 0%Z (pad_zeros (nbs c) m)))%nat).
  { rewrite app_length, repeat_length. unfold pad_zeros, nbs. destruct m as [|x m].
    - destruct (bs_cases c) as [-> | ->]; cbn; lia.
    - set (L := List.length (x :: m)). assert (Hp : (0 < L)%nat) by (unfold L; cbn [List.length]; lia). clearbody L.
      destruct (bs_cases c) as [-> | ->]; [change (Z.to_nat 16) with 16%nat | change (Z.to_nat 8) with 8%nat]; lia. }
  rewrite app_length, repeat_length in Hn. pose proof (nbs_pos c).
  set (T := (List.length m + pad_zeros (nbs c) m)%nat) in *.
  assert (HT : T = (T / nbs c * nbs c)%nat) by (pose proof (Nat.div_mod T (nbs c)); lia).
  assert (Hq : (0 < T / nbs c)%nat) by nia.
  unfold padded. rewrite app_length. destruct p; unfold padding.
  - exists (T / nbs c)%nat. split; [exact Hq|]. rewrite repeat_length. exact HT.
  - exists (S (T / nbs c)). split; [lia|]. cbn [List.length]. rewrite repeat_length. cbn [Nat.mul]. fold T in HT. lia.
Qed.

Lemma padding_ok p n m : bytes_ok (padding p n m).
Proof.
  assert (H : forall k, bytes_ok (repeat 0 k)).
  { intros k. apply Forall_forall. intros x Hx. apply repeat_spec in Hx. subst. unfold byte_ok. lia. }
  destruct p; cbn [padding]; [apply H|]. apply bytes_ok_cons. split; [unfold byte_ok; lia | apply H].
Qed.

(** Data of a whole number of blocks. *)
Lemma whole_blocks c data : bytes_ok data -> len data mod bs c = 0 ->
  exists bl, data = concat bl /\ Forall (block c) bl /\ blocks (nbs c) data = bl /\ cut (bs c) data bl [].
Proof.
  intros Hok Hm. pose proof (bs_pos c) as Hp. destruct (cut_exists (bs c) data Hp) as (bl & t & Hc).
  assert (Ht := cut_mod _ _ _ _ Hc). rewrite Hm in Ht. symmetry in Ht. apply len_0_nil in Ht. subst t.
  exists bl. destruct (cut_bytes _ _ _ _ Hc Hok) as [HF _].
  assert (E : data = concat bl) by (destruct Hc as (E & _); now rewrite app_nil_r in E).
  split; [exact E|]. split; [exact HF|]. split; [|exact Hc].
  unfold nbs. rewrite (blocks_cut _ _ _ _ Hp Hc). cbn [opt_block]. apply app_nil_r.
Qed.

Lemma padded_blocks c p m : bytes_ok m ->
  exists bl, padded p (nbs c) m = concat bl /\ bl <> [] /\ Forall (block c) bl /\
    blocks (nbs c) (padded p (nbs c) m) = bl /\ cut (bs c) (padded p (nbs c) m) bl [].
Proof.
  intros Hok. destruct (padded_length c p m) as (k & Hk & Hl).
  destruct (whole_blocks c (padded p (nbs c) m)) as (bl & E & HF & HB & HC).
  - apply bytes_ok_app. split; [exact Hok | apply padding_ok].
  - unfold len. rewrite Hl, Nat2Z.inj_mul, nbs_bs. apply Z_mod_mult.
  - exists bl. repeat (split; auto). intros ->. cbn in E. rewrite E in Hl. pose proof (nbs_pos c). cbn in Hl. nia.
Qed.

(** Any data: whole blocks and a rest, as the specification cuts it. *)
Lemma data_cut c data : bytes_ok data ->
  exists bl t, cut (bs c) data bl t /\ Forall (block c) bl /\ bytes_ok t /\ (List.length t < nbs c)%nat /\
    data = concat (bl ++ opt_block t) /\ blocks (nbs c) data = bl ++ opt_block t.
Proof.
  intros Hok. pose proof (bs_pos c) as Hp. destruct (cut_exists (bs c) data Hp) as (bl & t & Hc).
  exists bl, t. destruct (cut_bytes _ _ _ _ Hc Hok) as [HF Ht]. split; [exact Hc|]. split; [exact HF|]. split; [exact Ht|].
  split; [destruct Hc as (_ & _ & H); unfold len in H; unfold nbs; lia|].
  split; [rewrite concat_app, concat_opt; apply Hc|]. apply (blocks_cut _ _ _ _ Hp Hc).
Qed.

Lemma block_length c b : block c b -> List.length b = nbs c.
Proof. intros [Hl _]. unfold len in Hl. unfold nbs. lia. Qed.

Lemma cut_of c (ob : list bytes) (t : bytes) : Forall (block c) ob -> (List.length t < nbs c)%nat ->
  cut (bs c) (concat (ob ++ opt_block t)) ob t.
Proof.
  intros HF Ht. split; [now rewrite concat_app, concat_opt|]. split; [now apply blocks_lens|].
  unfold nbs in Ht. unfold len. pose proof (bs_pos c). lia.
Qed.

(** The outputs of the stream modes are cut like their inputs. *)
Lemma opt_block_bxor t g : (List.length t < List.length g)%nat ->
  opt_block (bxor t g) = match t with [] => [] | _ => [bxor t g] end.
Proof. destruct t as [|x t]; [reflexivity|]. destruct g as [|y g]; cbn [List.length]; intros; [lia | reflexivity]. Qed.

Section Split.
  Variable c : cipher_obj.
  Hypothesis Hc : co_ok c.
  Variable R : list bytes.
  Hypothesis (Hne : R <> []) (HR : Forall (block c) R).

  Let st := oE_block c.
  Let stays b (H : block c b) : block c (oE c b) := oE_block c b Hc H.

  Lemma cfb_enc_split bl t : Forall (block c) bl -> (List.length t < nbs c)%nat ->
    exists t', cfb_enc (oE c) R (bl ++ opt_block t) = cfb_enc (oE c) R bl ++ opt_block t' /\
      List.length t' = List.length t /\ (bytes_ok t -> bytes_ok t') /\ Forall (block c) (cfb_enc (oE c) R bl).
  Proof.
    intros HF Ht. assert (HB := cfb_enc_blk (block c) (oE c) stays (bxor_block c) R bl Hne HR HF).
    assert (Hh : block c (oE c (hd [] (shift R (cfb_enc (oE c) R bl))))).
    { apply stays, hd_forall; [now apply shift_ne | now apply shift_forall]. }
    exists (bxor t (oE c (hd [] (shift R (cfb_enc (oE c) R bl))))).
    rewrite cfb_enc_app by exact Hne. split; [|split; [rewrite bxor_length, (block_length c _ Hh); lia |
      split; [intros Hok; rewrite bxor_eq; apply add_xor_ok; [exact Hok | apply Hh] | exact HB]]].
    f_equal. rewrite opt_block_bxor by (rewrite (block_length c _ Hh); lia). now destruct t.
  Qed.
  Lemma cfb_dec_split bl t : Forall (block c) bl -> (List.length t < nbs c)%nat ->
    exists t', cfb_dec (oE c) R (bl ++ opt_block t) = cfb_dec (oE c) R bl ++ opt_block t' /\
      List.length t' = List.length t /\ (bytes_ok t -> bytes_ok t') /\ Forall (block c) (cfb_dec (oE c) R bl).
  Proof.
    intros HF Ht. assert (HB := cfb_dec_blk (block c) (oE c) stays (bxor_block c) R bl Hne HR HF).
    assert (Hh : block c (oE c (hd [] (shift R bl)))).
    { apply stays, hd_forall; [now apply shift_ne | now apply shift_forall]. }
    exists (bxor t (oE c (hd [] (shift R bl)))).
    rewrite cfb_dec_app by exact Hne. split; [|split; [rewrite bxor_length, (block_length c _ Hh); lia |
      split; [intros Hok; rewrite bxor_eq; apply add_xor_ok; [exact Hok | apply Hh] | exact HB]]].
    f_equal. rewrite opt_block_bxor by (rewrite (block_length c _ Hh); lia). now destruct t.
  Qed.
  Lemma ofb_split bl t : Forall (block c) bl -> (List.length t < nbs c)%nat ->
    exists t', ofb (oE c) R (bl ++ opt_block t) = ofb (oE c) R bl ++ opt_block t' /\
      List.length t' = List.length t /\ (bytes_ok t -> bytes_ok t') /\ Forall (block c) (ofb (oE c) R bl).
  Proof.
    intros HF Ht. assert (HB := ofb_blk (block c) (oE c) stays (bxor_block c) R bl Hne HR HF).
    set (S := shift R (ofb_gamma (oE c) R (List.length bl))).
    assert (Hh : block c (oE c (hd [] S))).
    { apply stays, hd_forall; [now apply shift_ne | apply shift_forall; [exact HR|]].
      now apply ofb_gamma_blk. }
    exists (bxor t (oE c (hd [] S))).
    rewrite ofb_app by exact Hne. split; [|split; [rewrite bxor_length, (block_length c _ Hh); lia |
      split; [intros Hok; rewrite bxor_eq; apply add_xor_ok; [exact Hok | apply Hh] | exact HB]]].
    f_equal. rewrite opt_block_bxor by (rewrite (block_length c _ Hh); lia). now destruct t.
  Qed.
  Lemma ctr_split ctr bl t : block c ctr -> Forall (block c) bl -> (List.length t < nbs c)%nat ->
    exists t', ctr_run (oE c) ctr 0 (bl ++ opt_block t) = ctr_run (oE c) ctr 0 bl ++ opt_block t' /\
      List.length t' = List.length t /\ (bytes_ok t -> bytes_ok t') /\ Forall (block c) (ctr_run (oE c) ctr 0 bl).
  Proof.
    intros Hctr HF Ht. assert (HN : forall k, block c (ctr_next ctr k)) by (intros; now apply ctr_next_block).
    assert (HB := ctr_run_blk (block c) (oE c) stays (bxor_block c) ctr 0 bl HN HF).
    assert (Hh := stays _ (HN (List.length bl))).
    exists (bxor t (oE c (ctr_next ctr (List.length bl)))).
    rewrite ctr_run_app. split; [|split; [rewrite bxor_length, (block_length c _ Hh); lia |
      split; [intros Hok; rewrite bxor_eq; apply add_xor_ok; [exact Hok | apply Hh] | exact HB]]].
    f_equal. rewrite opt_block_bxor by (rewrite (block_length c _ Hh); lia). now destruct t.
  Qed.
End Split.

(** ** Construction *)

(** [c] is the cipher object made from [key]. *)
Definition made (a : balg) (key : bytes) (c : cipher_obj) : Prop :=
  co_ok c /\ co_alg c = a /\
  (forall b, block c b -> oE c b = spec_E a key b /\ oD c b = spec_D a key b).

Lemma made_bs a key c : made a key c -> bs c = Z.of_nat (bsize a).
Proof. intros (_ & <- & _). apply bs_alg. Qed.
Lemma made_nbs a key c : made a key c -> nbs c = bsize a.
Proof. intros (_ & <- & _). apply nbs_alg. Qed.

Lemma base_init_ok a key : bytes_len 32 key ->
  exists c, base_init (VStr (alg_name a)) (VBytes key) = Ok c /\ made a key c.
Proof.
  intros Hk. destruct a; unfold base_init.
  - change (String.eqb (alg_name Kuz) "magma" || String.eqb (alg_name Kuz) "kuznechik") with true.
    cbn [negb]. unfold check_value. destruct Hk as [Hl Hok]. rewrite Hl. cbn [Z.eqb negb Pos.eqb].
    destruct (kuz_new_total key) as (ks & Hn); [now split|].
    assert (Hg := kuz_new_good key ks (conj Hl Hok) Hn).
    change (String.eqb (alg_name Kuz) "kuznechik") with true. cbn match. rewrite Hn. cbn [bind]. exists (KuzObj ks).
    split; [reflexivity|]. split; [exact Hg|]. split; [reflexivity|]. intros b Hb. apply kuz_obj_spec; auto. now split.
  - change (String.eqb (alg_name Mag) "magma" || String.eqb (alg_name Mag) "kuznechik") with true.
    cbn [negb]. unfold check_value. destruct Hk as [Hl Hok]. rewrite Hl. cbn [Z.eqb negb Pos.eqb].
    destruct (magma_new_total key) as (ks & Hn); [now split|].
    assert (Hg := magma_new_good key ks (conj Hl Hok) Hn).
    change (String.eqb (alg_name Mag) "kuznechik") with false. cbn match. rewrite Hn. cbn [bind]. exists (MagmaObj ks).
    split; [reflexivity|]. split; [exact Hg|]. split; [reflexivity|]. intros b Hb. apply magma_obj_spec; auto. now split.
Qed.

(** The keyword arguments given by a caller. *)
Definition gives_iv (kw : kwargs) (iv : bytes) : Prop := kw_init_vect kw = Some (VBytes iv).
Definition gives_pad (kw : kwargs) (p : pmode) : Prop := kw_pad_mode kw = Some (VInt (pad_code p)).

Lemma padding_init_ok a key p : bytes_len 32 key ->
  exists c, padding_init (VStr (alg_name a)) (VBytes key) (VInt (pad_code p)) = Ok (c, pad_code p) /\ made a key c.
Proof.
  intros Hk. destruct (base_init_ok a key Hk) as (c & Hb & Hm). unfold padding_init. rewrite Hb. cbn [bind].
  exists c. split; [now destruct p | exact Hm].
Qed.
Lemma feedback_init_ok a key iv : bytes_len 32 key -> len iv mod Z.of_nat (bsize a) = 0 ->
  exists c, feedback_init (VStr (alg_name a)) (VBytes key) (VBytes iv) = Ok (c, iv) /\ made a key c.
Proof.
  intros Hk Hi. destruct (base_init_ok a key Hk) as (c & Hb & Hm). unfold feedback_init. rewrite Hb. cbn [bind].
  exists c. rewrite (made_bs _ _ _ Hm), Hi. cbn. split; [reflexivity | exact Hm].
Qed.

Definition mk (cl : mode_class) (c : cipher_obj) (p : Z) (iv ctr : bytes) : mode_obj :=
  {| o_class := cl; o_cipher := c; o_pad_mode := p; o_init_vect := iv; o_counter := ctr |}.

Lemma new_ecb a key kw p : bytes_len 32 key -> gives_pad kw p ->
  exists c, new (VStr (alg_name a)) (VBytes key) (VInt MODE_ECB) kw = Ok (NewMode (mk ECB c (pad_code p) [] [])) /\
    made a key c.
Proof.
  intros Hk Hp. unfold new. change (MODE_ECB =? MODE_ECB) with true. cbn match. rewrite Hp. cbn [kw_get].
  destruct (padding_init_ok a key p Hk) as (c & -> & Hm). cbn [bind]. exists c. split; [reflexivity | exact Hm].
Qed.
Lemma new_cbc a key kw p iv : bytes_len 32 key -> gives_pad kw p -> gives_iv kw iv -> len iv mod Z.of_nat (bsize a) = 0 ->
  exists c, new (VStr (alg_name a)) (VBytes key) (VInt MODE_CBC) kw = Ok (NewMode (mk CBC c (pad_code p) iv [])) /\
    made a key c.
Proof.
  intros Hk Hp Hi Hl. unfold new. change (MODE_CBC =? MODE_ECB) with false. change (MODE_CBC =? MODE_CBC) with true.
  cbn match. unfold gives_pad, gives_iv in *. rewrite Hp, Hi. cbn [kw_get].
  replace (if is_magma (VStr (alg_name a)) then VBytes iv else VBytes iv) with (VBytes iv) by now destruct a.
  unfold cbc_init. destruct (padding_init_ok a key p Hk) as (c0 & -> & _). cbn [bind].
  destruct (feedback_init_ok a key iv Hk Hl) as (c & -> & Hm). cbn [bind]. exists c. split; [reflexivity | exact Hm].
Qed.
Lemma new_cfb a key kw iv : bytes_len 32 key -> gives_iv kw iv -> len iv mod Z.of_nat (bsize a) = 0 ->
  exists c, new (VStr (alg_name a)) (VBytes key) (VInt MODE_CFB) kw = Ok (NewMode (mk CFB c 0 iv [])) /\
    made a key c.
Proof.
  intros Hk Hi Hl. unfold new. change (MODE_CFB =? MODE_ECB) with false. change (MODE_CFB =? MODE_CBC) with false.
  change (MODE_CFB =? MODE_CFB) with true. cbn match. unfold gives_iv in *. rewrite Hi. cbn [kw_get].
  replace (if is_magma (VStr (alg_name a)) then VBytes iv else VBytes iv) with (VBytes iv) by now destruct a.
  destruct (feedback_init_ok a key iv Hk Hl) as (c & -> & Hm). cbn [bind]. exists c. split; [reflexivity | exact Hm].
Qed.
Lemma new_ofb a key kw iv : bytes_len 32 key -> gives_iv kw iv -> len iv mod Z.of_nat (bsize a) = 0 ->
  exists c, new (VStr (alg_name a)) (VBytes key) (VInt MODE_OFB) kw = Ok (NewMode (mk OFB c 0 iv [])) /\
    made a key c.
Proof.
  intros Hk Hi Hl. unfold new. change (MODE_OFB =? MODE_ECB) with false. change (MODE_OFB =? MODE_CBC) with false.
  change (MODE_OFB =? MODE_CFB) with false. change (MODE_OFB =? MODE_OFB) with true.
  cbn match. unfold gives_iv in *. rewrite Hi. cbn [kw_get].
  replace (if is_magma (VStr (alg_name a)) then VBytes iv else VBytes iv) with (VBytes iv) by now destruct a.
  destruct (feedback_init_ok a key iv Hk Hl) as (c & -> & Hm). cbn [bind]. exists c. split; [reflexivity | exact Hm].
Qed.
(** Half a block. *)
Definition half (a : balg) : Z := match a with Kuz => 8 | Mag => 4 end.
Lemma new_ctr a key kw iv : bytes_len 32 key -> gives_iv kw iv -> len iv = half a ->
  exists c, new (VStr (alg_name a)) (VBytes key) (VInt MODE_CTR) kw = Ok (NewMode (mk CTR c 0 iv (iv ++ py_repeat 0 (half a)))) /\
    made a key c.
Proof.
  intros Hk Hi Hl. unfold new. change (MODE_CTR =? MODE_ECB) with false. change (MODE_CTR =? MODE_CBC) with false.
  change (MODE_CTR =? MODE_CFB) with false. change (MODE_CTR =? MODE_OFB) with false. change (MODE_CTR =? MODE_CTR) with true.
  cbn match. unfold gives_iv in *. rewrite Hi. cbn [kw_get].
  replace (if is_magma (VStr (alg_name a)) then VBytes iv else VBytes iv) with (VBytes iv) by now destruct a.
  destruct (base_init_ok a key Hk) as (c & Hb & Hm). unfold ctr_init. rewrite Hb. cbn [bind].
  assert (Hh : co_block_size c / 2 = half a) by (rewrite (made_bs _ _ _ Hm); now destruct a).
  rewrite Hh, Hl, Z.eqb_refl. cbn [negb bind]. exists c. split; [reflexivity | exact Hm].
Qed.

Lemma ctr_start a key c iv : made a key c -> bytes_len (half a) iv -> block c (iv ++ py_repeat 0 (half a)).
Proof.
  intros Hm [Hl Hok]. split.
  - rewrite len_app, len_repeat, Hl, (made_bs _ _ _ Hm). now destruct a.
  - apply bytes_ok_app. split; [exact Hok|]. apply bytes_ok_repeat. unfold byte_ok. lia.
Qed.

Lemma iv_reg a key c iv : made a key c -> iv_blocks a iv ->
  forall cl p ctr, reg (mk cl c p iv ctr) (blocks (bsize a) iv).
Proof.
  intros Hm (Hok & Hne & Hl) cl p ctr. rewrite <- (made_bs _ _ _ Hm) in Hl.
  destruct (whole_blocks c iv Hok Hl) as (R & E & HF & HB & _). rewrite (made_nbs _ _ _ Hm) in HB. rewrite HB.
  split; [exact E|]. split; [|exact HF]. intros ->. now apply Hne.
Qed.
