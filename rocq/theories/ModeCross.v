(** * One key in several modes *)
From Verif Require Import PyBase PyFacts PyState Utils UtilsFacts UtilsLemmas CipherObj Modes Mac.
From Verif Require Import SpecModes CipherLemmas CipherObjFacts ModeFacts ModeSpecFacts ModeLemmas ModeProps ModeSim ModeReuse MacFacts MacLemmas MacProps MacMore.
Open Scope string_scope.
Open Scope list_scope.
Open Scope Z_scope.

(** The answer of a new object with this key and vector (padding mode 1) to [encrypt]. *)
Definition with_iv (iv : bytes) : kwargs := {| kw_init_vect := Some (VBytes iv); kw_data := None; kw_pad_mode := Some (VInt PAD_MODE_1) |}.
Definition answer (a : balg) (mode : Z) (key iv m : bytes) : bytes :=
  match new (alg a) (VBytes key) (VInt mode) (with_iv iv) with
  | Ok (NewMode o) => match result (encrypt (VBytes m) o) with Ok c => c | Err _ => [] end
  | _ => []
  end.

Lemma answer_cbc a key iv m : bytes_len 32 key -> iv_blocks a iv -> bytes_ok m ->
  answer a MODE_CBC key iv m = concat (cbc_enc (spec_E a key) (blocks (bsize a) iv) (blocks (bsize a) (padded P1 (bsize a) m))).
Proof. intros Hk Hi Hm. destruct (conforms_cbc a key (with_iv iv) P1 iv m Hk eq_refl eq_refl Hi Hm) as (o & HO & E & _). unfold answer. now rewrite HO, E. Qed.
Lemma answer_cfb a key iv m : bytes_len 32 key -> iv_blocks a iv -> bytes_ok m ->
  answer a MODE_CFB key iv m = concat (cfb_enc (spec_E a key) (blocks (bsize a) iv) (blocks (bsize a) m)).
Proof. intros Hk Hi Hm. destruct (conforms_cfb a key (with_iv iv) iv m Hk eq_refl Hi Hm) as (o & HO & E & _). unfold answer. now rewrite HO, E. Qed.
Lemma answer_ofb a key iv m : bytes_len 32 key -> iv_blocks a iv -> bytes_ok m ->
  answer a MODE_OFB key iv m = concat (ofb (spec_E a key) (blocks (bsize a) iv) (blocks (bsize a) m)).
Proof. intros Hk Hi Hm. destruct (conforms_ofb a key (with_iv iv) iv m Hk eq_refl Hi Hm) as (o & HO & E & _). unfold answer. now rewrite HO, E. Qed.

(** ** Blocks *)
Lemma n_cases a : (bsize a = 8 \/ bsize a = 16)%nat.
Proof. destruct a; auto. Qed.
Lemma spec_facts a key : bytes_len 32 key -> let n := bsize a in
  (forall b, blk n b -> blk n (spec_E a key b)) /\ (forall b, blk n b -> blk n (spec_D a key b)) /\
  (forall b, blk n b -> spec_D a key (spec_E a key b) = b) /\ (forall b, blk n b -> spec_E a key (spec_D a key b) = b).
Proof.
  intros Hk n. destruct (padding_init_ok a key P1 Hk) as (c & _ & (Hc & Ha & HS)). assert (BN : forall b, blk n b <-> block c b).
  { intros b. unfold blk, block, bytes_len, len. rewrite bs_alg, Ha. unfold n. destruct a; cbn; split; intros [H1 H2]; split; auto; lia. }
  assert (SE : forall b, blk n b -> spec_E a key b = oE c b) by (intros b Hb; symmetry; apply HS, BN, Hb).
  assert (SD : forall b, blk n b -> spec_D a key b = oD c b) by (intros b Hb; symmetry; apply HS, BN, Hb).
  assert (BE : forall b, blk n b -> blk n (spec_E a key b)) by (intros b Hb; rewrite SE by exact Hb; apply BN, oE_block; [exact Hc | now apply BN]).
  assert (BD : forall b, blk n b -> blk n (spec_D a key b)) by (intros b Hb; rewrite SD by exact Hb; apply BN, oD_block; [exact Hc | now apply BN]).
  split; [exact BE|]. split; [exact BD|]. split.
  - intros b Hb. rewrite SD by now apply BE. rewrite SE by exact Hb. apply oD_oE; [exact Hc | now apply BN].
  - intros b Hb. rewrite SE by now apply BD. rewrite SD by exact Hb. apply oE_oD; [exact Hc | now apply BN].
Qed.
Lemma cut_blk n m : (0 < n)%nat -> bytes_ok m -> exists bl t, blocks n m = bl ++ opt_block t /\ m = concat bl ++ t /\ Forall (blk n) bl /\ bytes_ok t /\ (List.length t < n)%nat.
Proof.
  intros Hn Hm. destruct (cut_exists (Z.of_nat n) m ltac:(lia)) as (bl & t & Hc). exists bl, t. pose proof (blocks_cut (Z.of_nat n) m bl t ltac:(lia) Hc) as HB. rewrite Nat2Z.id in HB.
  destruct (cut_bytes _ _ _ _ Hc Hm) as [HF Ht]. destruct Hc as (E & _ & HL). split; [exact HB|]. split; [exact E|].
  split; [apply Forall_impl with (2 := HF); intros b [L B]; split; [exact B | unfold len in L; lia]|]. split; [exact Ht | unfold len in HL; lia].
Qed.
Lemma blocks_whole n bl : (0 < n)%nat -> Forall (blk n) bl -> blocks n (concat bl) = bl.
Proof.
  intros Hn HF. pose proof (blocks_cut (Z.of_nat n) (concat bl) bl []) as H. rewrite Nat2Z.id in H. rewrite H; [apply app_nil_r | lia|].
  split; [now rewrite app_nil_r|]. split; [apply Forall_impl with (2 := HF); intros b [_ L]; unfold len; now rewrite L | cbn; lia].
Qed.
Lemma concat_blk_length n bl : Forall (blk n) bl -> List.length (concat bl) = (List.length bl * n)%nat.
Proof. induction 1 as [|b bl [_ Hb] _ IH]; [reflexivity|]. cbn [concat List.length]. rewrite app_length, IH. lia. Qed.
Lemma iv_whole a iv : iv_blocks a iv -> exists R, iv = concat R /\ blocks (bsize a) iv = R /\ R <> [] /\ Forall (blk (bsize a)) R.
Proof.
  intros (Hok & Hne & HL). assert (Hn : (0 < bsize a)%nat) by (destruct a; cbn; lia). destruct (cut_blk (bsize a) iv Hn Hok) as (bl & t & EB & E & HF & Ht & Hlt).
  assert (Et : t = []). { destruct t as [|x t]; [reflexivity|]. exfalso. unfold len in HL. rewrite E, app_length, (concat_blk_length _ _ HF), Nat2Z.inj_add, Nat2Z.inj_mul, Z.add_comm, Z.mod_add, Z.mod_small in HL by (cbn [List.length] in *; lia). cbn [List.length] in HL. lia. }
  subst t. cbn [opt_block] in EB. rewrite app_nil_r in *. exists bl. split; [exact E|]. split; [exact EB|]. split; [|exact HF]. intros ->. now apply Hne.
Qed.

(** ** Messages of zeros *)
Lemma zeros_blocks n k : (0 < n)%nat -> blocks n (repeat 0 k) = repeat (repeat 0 n) (k / n) ++ opt_block (repeat 0 (k mod n)).
Proof.
  intros Hn. pose proof (blocks_cut (Z.of_nat n) (repeat 0 k) (repeat (repeat 0 n) (k / n)) (repeat 0 (k mod n))) as H. rewrite Nat2Z.id in H. apply H; [lia|]. split; [|split].
  - assert (G : forall q, concat (repeat (repeat 0 n) q) = repeat 0 (q * n)) by (induction q as [|q IH]; [reflexivity|]; cbn [repeat concat Nat.mul]; rewrite IH, repeat_app; reflexivity).
    rewrite G, <- repeat_app. f_equal. rewrite (Nat.div_mod k n) at 1 by lia. lia.
  - apply Forall_forall. intros x Hx. apply repeat_spec in Hx. subst x. unfold len. now rewrite repeat_length.
  - unfold len. rewrite repeat_length. pose proof (Nat.mod_upper_bound k n). lia.
Qed.
Lemma zero_xor (b : bytes) k : bxor (repeat 0 k) b = firstn k b.
Proof. revert b; induction k as [|k IH]; intros [|x b]; try reflexivity. unfold bxor in *. cbn [repeat combine map firstn fst snd]. now rewrite IH. Qed.

Section Zeros.
  Variables (n : nat) (E : bytes -> bytes).
  Hypothesis E_blk : forall b, blk n b -> blk n (E b).
  Lemma zero_xor_blk b : blk n b -> bxor (repeat 0 n) b = b.
  Proof using. clear. intros [_ L]. rewrite zero_xor, <- L. apply firstn_all. Qed.
  (** Encrypting zeros in the CFB and CBC modes gives the gamma of the OFB mode. *)
  Lemma cfb_zeros q r : forall R, R <> [] -> Forall (blk n) R ->
    cfb_enc E R (repeat (repeat 0 n) q ++ opt_block (repeat 0 r)) = ofb E R (repeat (repeat 0 n) q ++ opt_block (repeat 0 r)).
  Proof using E_blk.
    unfold ofb. induction q as [|q IH]; intros R Hne HR; assert (Hh := hd_forall _ R Hne HR).
    - destruct r; reflexivity.
    - cbn [repeat app cfb_enc List.length ofb_gamma combine map fst snd]. f_equal. rewrite zero_xor_blk by now apply E_blk. apply IH; [apply tl_snoc_ne | apply tl_snoc_forall; auto].
  Qed.
  Lemma cbc_zeros q : forall R, R <> [] -> Forall (blk n) R ->
    cbc_enc E R (repeat (repeat 0 n) q) = ofb E R (repeat (repeat 0 n) q).
  Proof using E_blk.
    unfold ofb. induction q as [|q IH]; intros R Hne HR; assert (Hh := hd_forall _ R Hne HR); [reflexivity|].
    cbn [repeat cbc_enc List.length ofb_gamma combine map fst snd]. rewrite (zero_xor_blk (hd [] R)) by exact Hh. f_equal; [now rewrite zero_xor_blk by now apply E_blk|].
    apply IH; [apply tl_snoc_ne | apply tl_snoc_forall; auto].
  Qed.
  (** The OFB mode adds the gamma. *)
  Lemma ofb_bytes bl t R : Forall (blk n) bl -> (List.length t < n)%nat -> R <> [] -> Forall (blk n) R ->
    concat (ofb E R (bl ++ opt_block t)) = bxor (concat bl ++ t) (concat (ofb_gamma E R (List.length (bl ++ opt_block t)))).
  Proof using E_blk.
    intros HF Ht. revert R. induction HF as [|b bl Hb HF IH]; intros R Hne HR; assert (Hh := hd_forall _ R Hne HR).
    - destruct t as [|x t]; [reflexivity|]. cbn [app opt_block List.length]. unfold ofb. cbn [List.length ofb_gamma combine map fst snd concat]. now rewrite !app_nil_r.
    - cbn [app]. unfold ofb in *. cbn [List.length ofb_gamma combine map fst snd concat]. rewrite IH; [|apply tl_snoc_ne | apply tl_snoc_forall; auto]. rewrite <- app_assoc.
      assert (Hy := E_blk _ Hh). destruct Hb as [_ Lb], Hy as [_ Ly]. rewrite bxor_app2 by (rewrite Lb, Ly; reflexivity). reflexivity.
  Qed.
End Zeros.
