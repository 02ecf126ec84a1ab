(** * Related keys of Magma *)
From Verif Require Import PyBase PyFacts PyState Utils UtilsFacts UtilsLemmas Magma CipherObj Modes Mac.
From Verif Require Import SpecMagma MagmaFacts SpecModes CipherLemmas CipherObjFacts ModeFacts ModeSpecFacts ModeLemmas ModeSem ModeConf ModeProps ModeSim WeakKeys.
Open Scope Z_scope.

(** ** Specification: the highest bit of every fourth byte, starting with the first one, is changed. *)
Fixpoint toggle_at (i : nat) (l : bytes) : bytes :=
  match l with
  | [] => []
  | x :: l => (if Nat.eqb (i mod 4) 0 then Z.lxor x 128 else x) :: toggle_at (S i) l
  end.
Definition toggle : bytes -> bytes := toggle_at 0.

(** ** Lists *)
Lemma toggle_at_length l : forall i, List.length (toggle_at i l) = List.length l.
Proof. induction l as [|x l IH]; intros i; cbn; auto. Qed.
Lemma toggle_len l : len (toggle l) = len l.
Proof. unfold len, toggle. now rewrite toggle_at_length. Qed.
Lemma byte_toggle x : byte_ok x -> byte_ok (Z.lxor x 128).
Proof. intros H. apply lxor_byte; [exact H | unfold byte_ok; lia]. Qed.
Lemma toggle_at_ok l : bytes_ok l -> forall i, bytes_ok (toggle_at i l).
Proof. induction 1 as [|x l Hx _ IH]; intros i; cbn; constructor; [|apply IH]. destruct (Nat.eqb _ 0); [now apply byte_toggle | exact Hx]. Qed.
Lemma toggle_at_twice l : forall i, toggle_at i (toggle_at i l) = l.
Proof.
  induction l as [|x l IH]; intros i; [reflexivity|]. cbn. rewrite IH. f_equal. destruct (Nat.eqb _ 0); [|reflexivity].
  now rewrite Z.lxor_assoc, Z.lxor_nilpotent, Z.lxor_0_r.
Qed.
Lemma toggle_twice l : toggle (toggle l) = l.
Proof. apply toggle_at_twice. Qed.
Lemma toggle_at_app x y : forall i, toggle_at i (x ++ y) = toggle_at i x ++ toggle_at (i + List.length x) y.
Proof. induction x as [|a x IH]; intros i; cbn; [now rewrite Nat.add_0_r|]. rewrite IH. now rewrite <- Nat.add_succ_comm. Qed.
Lemma toggle_at_mod l : forall i j, (i mod 4 = j mod 4)%nat -> toggle_at i l = toggle_at j l.
Proof.
  induction l as [|x l IH]; intros i j H; [reflexivity|]. cbn [toggle_at]. rewrite H. f_equal. apply IH.
  rewrite <- (Nat.add_1_r i), <- (Nat.add_1_r j), (Nat.add_mod i), (Nat.add_mod j), H by lia. reflexivity.
Qed.
Lemma toggle_app x y : (List.length x mod 4 = 0)%nat -> toggle (x ++ y) = toggle x ++ toggle y.
Proof. intros H. unfold toggle. rewrite toggle_at_app. f_equal. now apply toggle_at_mod. Qed.
Lemma toggle_at_firstn n : forall l i, toggle_at i (firstn n l) = firstn n (toggle_at i l).
Proof. induction n as [|n IH]; intros [|x l] i; cbn; auto. now rewrite IH. Qed.
Lemma toggle_at_skipn n : forall l i, skipn n (toggle_at i l) = toggle_at (i + n) (skipn n l).
Proof. induction n as [|n IH]; intros [|x l] i; cbn [skipn toggle_at]; rewrite ?Nat.add_0_r; auto. rewrite IH. now rewrite <- Nat.add_succ_comm. Qed.
Lemma toggle_blocks m : blocks 8 (toggle m) = map toggle (blocks 8 m).
Proof.
  unfold blocks, toggle at 1. rewrite toggle_at_length. generalize (List.length m) as f. intros f. fold (toggle m). revert m. induction f as [|f IH]; intros [|x m]; try reflexivity.
  change (toggle (x :: m)) with (Z.lxor x 128 :: toggle_at 1 m). cbn [blocks_fuel map]. change (Z.lxor x 128 :: toggle_at 1 m) with (toggle (x :: m)). f_equal.
  - unfold toggle. now rewrite toggle_at_firstn.
  - rewrite <- IH. f_equal. unfold toggle. rewrite toggle_at_skipn. now apply toggle_at_mod.
Qed.
Lemma toggle_xor_l a : forall b i, bxor (toggle_at i a) b = toggle_at i (bxor a b).
Proof.
  induction a as [|x a IH]; intros [|y b] i; try reflexivity. unfold bxor in *. cbn [combine map toggle_at fst snd]. rewrite IH. f_equal.
  destruct (Nat.eqb _ 0); [|reflexivity]. rewrite !Z.lxor_assoc. f_equal. apply Z.lxor_comm.
Qed.
Lemma toggle_xor_r a : forall b i, bxor a (toggle_at i b) = toggle_at i (bxor a b).
Proof.
  induction a as [|x a IH]; intros [|y b] i; try reflexivity. unfold bxor in *. cbn [combine map toggle_at fst snd]. rewrite IH. f_equal.
  destruct (Nat.eqb _ 0); [|reflexivity]. now rewrite Z.lxor_assoc.
Qed.
Lemma toggle_r a b : bxor a (toggle b) = toggle (bxor a b).
Proof. apply toggle_xor_r. Qed.
Lemma toggle_xor_both a b : bxor (toggle a) (toggle b) = bxor a b.
Proof. unfold toggle. rewrite toggle_xor_l, toggle_xor_r. apply toggle_at_twice. Qed.

(** ** The cipher *)
Definition top (a : Z) : Z := Z.lxor a (2 ^ 31).
Lemma top_is a : word_ok a -> top a = (a + 2 ^ 31) mod 2 ^ 32.
Proof.
  intros H. unfold word_ok in H. unfold top. set (lo := a mod 2 ^ 31). assert (Hlo : 0 <= lo < 2 ^ 31) by (apply Z.mod_pos_bound; lia).
  assert (E : a = lo \/ a = lo + 2 ^ 31).
  { pose proof (Z.div_mod a (2 ^ 31) ltac:(lia)) as D. fold lo in D. assert (0 <= a / 2 ^ 31 < 2) by (split; [apply Z.div_pos; lia | apply Z.div_lt_upper_bound; lia]). assert (a / 2 ^ 31 = 0 \/ a / 2 ^ 31 = 1) as [K|K] by lia; rewrite K in D; lia. }
  assert (X : Z.lxor lo (2 ^ 31) = lo + 2 ^ 31).
  { symmetry. apply Z.add_nocarry_lxor. apply Z.bits_inj'. intros n Hn. rewrite Z.land_spec, Z.bits_0, Z.pow2_bits_eqb by lia.
    destruct (Z.eqb_spec 31 n) as [<-|]; [|apply andb_false_r]. rewrite andb_true_r. rewrite <- (Z.mod_small lo (2 ^ 31)) by exact Hlo. apply Z.mod_pow2_bits_high. lia. }
  clearbody lo. destruct E as [->| ->].
  - rewrite X. rewrite Z.mod_small; lia.
  - rewrite <- X, Z.lxor_assoc, Z.lxor_nilpotent, Z.lxor_0_r. rewrite X. replace (lo + 2 ^ 31 + 2 ^ 31) with (lo + 1 * 2 ^ 32) by lia. rewrite Z.mod_add, Z.mod_small; lia.
Qed.
Lemma top_word a : word_ok a -> word_ok (top a).
Proof. intros H. rewrite top_is by exact H. unfold word_ok. apply Z.mod_pos_bound. lia. Qed.
Lemma mg_top k a : word_ok k -> word_ok a -> mg (top k) (top a) = mg k a.
Proof.
  intros Hk Ha. unfold mg. do 2 f_equal. rewrite !top_is by assumption. rewrite <- Z.add_mod by lia.
  replace (a + 2 ^ 31 + (k + 2 ^ 31)) with (a + k + 1 * 2 ^ 32) by lia. now rewrite Z.mod_add by lia.
Qed.
Definition tops (p : Z * Z) : Z * Z := (top (fst p), top (snd p)).
Lemma mG_tops k p : word_ok k -> pair_ok p -> mG (top k) (tops p) = tops (mG k p).
Proof. intros Hk [H1 H2]. unfold mG, tops. cbn [fst snd]. rewrite mg_top by assumption. f_equal. unfold top. now rewrite Z.lxor_assoc. Qed.
Lemma mG_fin_tops k p : word_ok k -> pair_ok p -> mG_fin (top k) (tops p) = tops (mG_fin k p).
Proof. intros Hk [H1 H2]. unfold mG_fin, tops. cbn [fst snd]. rewrite mg_top by assumption. f_equal. unfold top. now rewrite Z.lxor_assoc. Qed.
Lemma rounds_tops ks : Forall word_ok ks -> forall p, pair_ok p -> magma_rounds (map top ks) (tops p) = tops (magma_rounds ks p).
Proof.
  induction 1 as [|k ks Hk HF IH]; intros p Hp; [reflexivity|]. destruct ks as [|k' ks]; [now apply mG_fin_tops|].
  cbn [map] in *. change (magma_rounds (top k :: top k' :: map top ks) (tops p)) with (magma_rounds (top k' :: map top ks) (mG (top k) (tops p))).
  rewrite mG_tops by assumption. rewrite IH by now apply mG_ok. reflexivity.
Qed.

(** ** Bytes *)
Lemma wint_toggle w : wide4 w -> len w = 4 -> wint (toggle w) = top (wint w).
Proof.
  intros Hw HL. assert (Hw' := Hw). destruct Hw' as [Hok _]. unfold len in HL.
  destruct w as [|a [|b [|c [|d [|]]]]]; cbn [List.length] in HL; try lia. change (toggle [a; b; c; d]) with [Z.lxor a 128; b; c; d].
  unfold wint. cbn [firstn]. rewrite !int_4. inversion Hok as [|? ? Ha Hr]; subst. inversion Hr as [|? ? Hb Hr']; subst. inversion Hr' as [|? ? Hc Hr'']; subst. inversion Hr'' as [|? ? Hd _]; subst.
  unfold byte_ok in *. rewrite top_is by (unfold word_ok; lia).
  assert (E : Z.lxor a 128 = (a + 128) mod 256).
  { clear - Ha. assert (H : forall n, (n < 256)%nat -> Z.lxor (Z.of_nat n) 128 = (Z.of_nat n + 128) mod 256).
    { intros n Hn. assert (T : forallb (fun n => Z.lxor (Z.of_nat n) 128 =? (Z.of_nat n + 128) mod 256) (seq 0 256) = true) by (vm_compute; reflexivity).
      rewrite forallb_forall in T. apply Z.eqb_eq, T. apply in_seq. lia. }
    rewrite <- (Z2Nat.id a) by lia. apply H. lia. }
  rewrite E. clear E. pose proof (Z.mod_pos_bound (a + 128) 256 ltac:(lia)) as HB. pose proof (Z.div_mod (a + 128) 256 ltac:(lia)) as HD.
  apply (Z.mod_unique_pos _ _ ((a + 128) / 256)); lia.
Qed.
Lemma block8_cut b : block8 b -> exists x y, b = x ++ y /\ wide4 x /\ len x = 4 /\ wide4 y /\ len y = 4.
Proof.
  intros [HL HB]. exists (firstn 4 b), (skipn 4 b). rewrite firstn_skipn. unfold len, wide4 in *. rewrite firstn_length, skipn_length.
  assert (H1 : bytes_ok (firstn 4 b)) by (apply bytes_ok_firstn; exact HB). assert (H2 : bytes_ok (skipn 4 b)) by (apply bytes_ok_skipn; exact HB).
  unfold len. rewrite firstn_length, skipn_length. split; [reflexivity|]. split; [split; [exact H1 | lia]|]. split; [lia|]. split; [split; [exact H2 | lia]|]. lia.
Qed.
Lemma toggle_block8 b : block8 b -> block8 (toggle b).
Proof. intros [HL HB]. split; [now rewrite toggle_len | now apply toggle_at_ok]. Qed.
Lemma wint_app x y : len x = 4 -> wint (x ++ y) = wint x.
Proof. intros H. unfold wint, len in *. rewrite firstn_app. replace (4 - List.length x)%nat with 0%nat by lia. now rewrite firstn_O, app_nil_r. Qed.
Lemma skip_app (x y : bytes) : len x = 4 -> skipn 4 (x ++ y) = y.
Proof. intros H. unfold len in H. rewrite skipn_app. replace (4 - List.length x)%nat with 0%nat by lia. rewrite skipn_all2 by lia. reflexivity. Qed.
Lemma mpair_toggle b : block8 b -> mpair (toggle b) = tops (mpair b).
Proof.
  intros Hb. destruct (block8_cut b Hb) as (x & y & -> & Hx & Lx & Hy & Ly). unfold len in *. assert (Lx' : List.length x = 4%nat) by lia. rewrite toggle_app by now rewrite Lx'.
  unfold mpair, tops. cbn [fst snd]. assert (LT : len (toggle x) = 4) by (rewrite toggle_len; exact Lx). rewrite !wint_app, !skip_app by assumption.
  now rewrite !wint_toggle by assumption.
Qed.
Lemma mblock_tops p : pair_ok p -> mblock (tops p) = toggle (mblock p).
Proof.
  intros Hp. assert (Hb := mblock_block p). assert (Hb' := toggle_block8 _ Hb).
  assert (E := mpair_toggle _ Hb). rewrite mpair_mblock in E by exact Hp. rewrite <- E. rewrite mblock_mpair by now apply block8_wide. now apply firstn_block8.
Qed.

Definition rkeys (key : bytes) : list Z := map wint (magma_key_list key).
Lemma rkeys_word key : bytes_len 32 key -> Forall word_ok (rkeys key).
Proof.
  intros Hk. destruct (magma_key_list_keys key Hk) as [_ HF]. unfold rkeys. apply Forall_forall. intros x Hx. apply in_map_iff in Hx. destruct Hx as (w & <- & Hw). rewrite Forall_forall in HF. apply wint_ok. now apply HF.
Qed.
Lemma kwords_toggle key : bytes_len 32 key -> map wint (kwords (toggle key)) = map top (map wint (kwords key)).
Proof.
  intros Hk. unfold kwords. rewrite !map_map. apply map_ext_in. intros j Hj. apply in_seq in Hj.
  assert (E : kword (toggle key) (4 * j) = toggle (kword key (4 * j))).
  { unfold kword, toggle. rewrite toggle_at_skipn, toggle_at_firstn. f_equal. apply toggle_at_mod. rewrite Nat.add_0_l, Nat.mul_comm. now rewrite Nat.mod_mul. }
  rewrite E. apply wint_toggle; [apply kword_wide; [exact Hk | lia]|].
  unfold kword, len. rewrite firstn_length, skipn_length. destruct Hk as [HL _]. unfold len in HL. lia.
Qed.
Lemma rkeys_toggle key : bytes_len 32 key -> rkeys (toggle key) = map top (rkeys key).
Proof.
  intros Hk. unfold rkeys, magma_key_list. rewrite !map_app, !map_rev, kwords_toggle by exact Hk. reflexivity.
Qed.
Lemma key_toggle key : bytes_len 32 key -> bytes_len 32 (toggle key).
Proof. intros [HL HB]. split; [now rewrite toggle_len | now apply toggle_at_ok]. Qed.

Lemma form_E key b : bytes_len 32 key -> block8 b -> spec_E Mag key b = mblock (magma_rounds (rkeys key) (mpair b)).
Proof.
  intros Hk Hb. unfold spec_E, spec_magma_encrypt. rewrite !be_value_eq, <- mpair_split by exact Hb. rewrite <- magma_round_keys_ok by exact Hk. fold (rkeys key).
  assert (Hp : pair_ok (magma_rounds (rkeys key) (mpair b))) by (apply magma_rounds_ok, mpair_ok, block8_wide, Hb).
  rewrite be_bytes_eq, <- mblock_join by exact Hp. destruct (mblock_block (magma_rounds (rkeys key) (mpair b))) as [HL HB]. change (Z.of_nat 8) with 8. rewrite <- HL at 1. now apply of_int_to_int.
Qed.
Lemma form_D key b : bytes_len 32 key -> block8 b -> spec_D Mag key b = mblock (magma_rounds (rev (rkeys key)) (mpair b)).
Proof.
  intros Hk Hb. unfold spec_D, spec_magma_decrypt. rewrite !be_value_eq, <- mpair_split by exact Hb. rewrite <- magma_round_keys_ok by exact Hk. fold (rkeys key).
  assert (Hp : pair_ok (magma_rounds (rev (rkeys key)) (mpair b))) by (apply magma_rounds_ok, mpair_ok, block8_wide, Hb).
  rewrite be_bytes_eq, <- mblock_join by exact Hp. destruct (mblock_block (magma_rounds (rev (rkeys key)) (mpair b))) as [HL HB]. change (Z.of_nat 8) with 8. rewrite <- HL at 1. now apply of_int_to_int.
Qed.
Lemma E_toggle key b : bytes_len 32 key -> block8 b -> spec_E Mag (toggle key) (toggle b) = toggle (spec_E Mag key b).
Proof.
  intros Hk Hb. assert (Hp : pair_ok (mpair b)) by now apply mpair_ok, block8_wide.
  rewrite !form_E by (try apply key_toggle; try apply toggle_block8; assumption). rewrite rkeys_toggle, mpair_toggle by assumption.
  rewrite rounds_tops by (try apply rkeys_word; assumption). apply mblock_tops. now apply magma_rounds_ok.
Qed.
Lemma D_toggle key b : bytes_len 32 key -> block8 b -> spec_D Mag (toggle key) (toggle b) = toggle (spec_D Mag key b).
Proof.
  intros Hk Hb. assert (Hp : pair_ok (mpair b)) by now apply mpair_ok, block8_wide.
  rewrite !form_D by (try apply key_toggle; try apply toggle_block8; assumption). rewrite rkeys_toggle, mpair_toggle by assumption.
  rewrite <- map_rev, rounds_tops by (try apply Forall_rev, rkeys_word; assumption). apply mblock_tops. now apply magma_rounds_ok.
Qed.

(** ** The modes of the standard *)
Fixpoint pieces (xs : list bytes) : Prop :=
  match xs with
  | [] => True
  | x :: xs' => match xs' with [] => True | _ => (List.length x mod 4 = 0)%nat /\ pieces xs' end
  end.
Lemma concat_toggle xs : pieces xs -> concat (map toggle xs) = toggle (concat xs).
Proof.
  induction xs as [|x xs IH]; [reflexivity|]. intros H. cbn [map concat]. destruct xs as [|y xs]; [cbn [map concat]; now rewrite !app_nil_r|].
  destruct H as [Hx H]. rewrite IH by exact H. now rewrite toggle_app.
Qed.
Lemma pieces_lengths xs : forall ys, map (@List.length Z) xs = map (@List.length Z) ys -> pieces xs -> pieces ys.
Proof.
  induction xs as [|x xs IH]; intros [|y ys] E H; try discriminate; [exact I|]. cbn [map] in E. injection E as E1 E2.
  destruct xs as [|x' xs], ys as [|y' ys]; try discriminate; [exact I|]. destruct H as [Hx H]. split; [now rewrite <- E1|]. now apply IH.
Qed.
Lemma block8_mod b : block8 b -> (List.length b mod 4 = 0)%nat.
Proof. intros [H _]. unfold len in H. assert (E : List.length b = 8%nat) by lia. now rewrite E. Qed.
Lemma pieces_opt bl t : Forall block8 bl -> pieces (bl ++ opt_block t).
Proof.
  induction 1 as [|b bl Hb HF IH]; [now destruct t|]. cbn [app]. destruct (bl ++ opt_block t) as [|y ys] eqn:E; [exact I|]. split; [now apply block8_mod | exact IH].
Qed.
Lemma bxor_block8 a b : block8 a -> block8 b -> block8 (bxor a b).
Proof. apply (bxor_block (cleared_obj Mag)). Qed.
Lemma bxor_short a b : block8 b -> (List.length a <= 8)%nat -> List.length (bxor a b) = List.length a.
Proof. intros [H _] Ha. unfold bxor, len in *. rewrite map_length, combine_length. lia. Qed.

Section Rel.
  Variables E E' D D' : bytes -> bytes.
  Hypothesis HE : forall b, block8 b -> E' (toggle b) = toggle (E b).
  Hypothesis HEb : forall b, block8 b -> block8 (E b).
  Hypothesis HD : forall b, block8 b -> D' (toggle b) = toggle (D b).

  Lemma hd_toggle R : R <> [] -> hd [] (map toggle R) = toggle (hd [] R).
  Proof. now destruct R. Qed.
  Lemma tl_toggle R c : tl (map toggle R) ++ [toggle c] = map toggle (tl R ++ [c]).
  Proof. destruct R; [reflexivity|]. cbn. now rewrite map_app. Qed.

  Lemma cbc_enc_toggle ps : Forall block8 ps -> forall R, R <> [] -> Forall block8 R ->
    cbc_enc E' (map toggle R) ps = map toggle (cbc_enc E R ps).
  Proof using HE HEb.
    induction 1 as [|p ps Hp HF IH]; intros R Hne HR; [reflexivity|]. cbn [cbc_enc map]. assert (Hh := hd_forall block8 R Hne HR).
    rewrite hd_toggle by exact Hne. rewrite toggle_r. assert (Hb := bxor_block8 p _ Hp Hh).
    rewrite HE by exact Hb. f_equal. rewrite tl_toggle. apply IH; [apply tl_snoc_ne | apply tl_snoc_forall; auto].
  Qed.
  Lemma cbc_enc_blocks ps : Forall block8 ps -> forall R, R <> [] -> Forall block8 R -> Forall block8 (cbc_enc E R ps).
  Proof using HEb.
    induction 1 as [|p ps Hp HF IH]; intros R Hne HR; [constructor|]. cbn [cbc_enc]. assert (Hh := hd_forall block8 R Hne HR). assert (Hb := bxor_block8 p _ Hp Hh).
    constructor; [now apply HEb|]. apply IH; [apply tl_snoc_ne | apply tl_snoc_forall; auto].
  Qed.
  Lemma cbc_dec_toggle cs : Forall block8 cs -> forall R, R <> [] -> cbc_dec D' (map toggle R) (map toggle cs) = cbc_dec D R cs.
  Proof using HD.
    induction 1 as [|c cs Hc HF IH]; intros R Hne; [reflexivity|]. cbn [cbc_dec map]. rewrite hd_toggle by exact Hne. rewrite HD by exact Hc. rewrite toggle_xor_both. f_equal.
    rewrite tl_toggle. apply IH. apply tl_snoc_ne.
  Qed.
  Lemma cfb_enc_toggle bl t : Forall block8 bl -> forall R, R <> [] -> Forall block8 R ->
    cfb_enc E' (map toggle R) (bl ++ opt_block t) = map toggle (cfb_enc E R (bl ++ opt_block t)).
  Proof using HE HEb.
    induction 1 as [|p ps Hp HF IH]; intros R Hne HR; assert (Hh := hd_forall block8 R Hne HR).
    - destruct t; [reflexivity|]. cbn [app opt_block cfb_enc map]. rewrite hd_toggle, HE by assumption. now rewrite toggle_r.
    - cbn [app cfb_enc map]. rewrite hd_toggle, HE by assumption. rewrite toggle_r. f_equal.
      rewrite tl_toggle. apply IH; [apply tl_snoc_ne | apply tl_snoc_forall; [exact HR | apply bxor_block8; [exact Hp | now apply HEb]]].
  Qed.
  Lemma cfb_enc_pieces bl t : Forall block8 bl -> (List.length t < 8)%nat -> forall R, R <> [] -> Forall block8 R ->
    map (@List.length Z) (bl ++ opt_block t) = map (@List.length Z) (cfb_enc E R (bl ++ opt_block t)).
  Proof using HEb.
    clear HE HD E' D D'.
    intros HF Ht. induction HF as [|p ps Hp HF IH]; intros R Hne HR; assert (Hh := hd_forall block8 R Hne HR).
    - destruct t; [reflexivity|]. cbn [app opt_block cfb_enc map]. rewrite bxor_short by (auto; lia). reflexivity.
    - cbn [app cfb_enc map]. assert (Hb := bxor_block8 p _ Hp (HEb _ Hh)). f_equal; [destruct Hp as [L _], Hb as [L' _]; unfold len in *; lia|].
      apply IH; [apply tl_snoc_ne | apply tl_snoc_forall; auto].
  Qed.
  Lemma cfb_dec_toggle bl t : Forall block8 bl -> forall R, R <> [] -> Forall block8 R ->
    cfb_dec E' (map toggle R) (map toggle (bl ++ opt_block t)) = cfb_dec E R (bl ++ opt_block t).
  Proof using HE.
    induction 1 as [|p ps Hp HF IH]; intros R Hne HR; assert (Hh := hd_forall block8 R Hne HR).
    - destruct t; [reflexivity|]. cbn [app opt_block cfb_dec map]. rewrite hd_toggle, HE by assumption. now rewrite toggle_xor_both.
    - cbn [app cfb_dec map]. rewrite hd_toggle, HE by assumption. rewrite toggle_xor_both. f_equal.
      rewrite tl_toggle. apply IH; [apply tl_snoc_ne | apply tl_snoc_forall; auto].
  Qed.
  Lemma gamma_toggle k : forall R, R <> [] -> Forall block8 R -> ofb_gamma E' (map toggle R) k = map toggle (ofb_gamma E R k).
  Proof using HE HEb.
    induction k as [|k IH]; intros R Hne HR; [reflexivity|]. assert (Hh := hd_forall block8 R Hne HR). cbn [ofb_gamma map]. rewrite hd_toggle, HE by assumption. f_equal.
    rewrite tl_toggle. apply IH; [apply tl_snoc_ne | apply tl_snoc_forall; auto].
  Qed.
  Lemma gamma_blocks8 k : forall R, R <> [] -> Forall block8 R -> Forall block8 (ofb_gamma E R k) /\ List.length (ofb_gamma E R k) = k.
  Proof using HEb.
    induction k as [|k IH]; intros R Hne HR; [split; [constructor | reflexivity]|]. assert (Hh := hd_forall block8 R Hne HR). cbn [ofb_gamma List.length].
    destruct (IH (tl R ++ [E (hd [] R)])) as [H1 H2]; [apply tl_snoc_ne | apply tl_snoc_forall; auto|]. split; [constructor; auto | now rewrite H2].
  Qed.
  Lemma ofb_toggle ps R : R <> [] -> Forall block8 R -> ofb E' (map toggle R) ps = map toggle (ofb E R ps).
  Proof using HE HEb.
    intros Hne HR. unfold ofb. rewrite gamma_toggle by assumption. rewrite map_map. generalize (ofb_gamma E R (List.length ps)). clear.
    induction ps as [|p ps IH]; intros [|g gs]; try reflexivity. cbn [combine map fst snd]. rewrite IH. f_equal. unfold toggle. apply toggle_xor_r.
  Qed.
  Lemma ofb_toggle_dec ps R : R <> [] -> Forall block8 R -> ofb E' (map toggle R) (map toggle ps) = ofb E R ps.
  Proof using HE HEb.
    intros Hne HR. unfold ofb. rewrite map_length, gamma_toggle by assumption. generalize (ofb_gamma E R (List.length ps)). clear.
    induction ps as [|p ps IH]; intros [|g gs]; try reflexivity. cbn [combine map fst snd]. rewrite IH. f_equal. apply toggle_xor_both.
  Qed.
  Lemma ofb_pieces bl t R : Forall block8 bl -> (List.length t < 8)%nat -> R <> [] -> Forall block8 R ->
    map (@List.length Z) (bl ++ opt_block t) = map (@List.length Z) (ofb E R (bl ++ opt_block t)).
  Proof using HEb.
    clear HE HD E' D D'.
    intros HF Ht Hne HR. unfold ofb. destruct (gamma_blocks8 (List.length (bl ++ opt_block t)) R Hne HR) as [HG HL]. revert HG HL. generalize (ofb_gamma E R (List.length (bl ++ opt_block t))).
    assert (HS : Forall (fun p => (List.length p <= 8)%nat) (bl ++ opt_block t)).
    { apply Forall_app. split; [apply Forall_impl with (2 := HF); intros p [L _]; unfold len in L; lia|]. destruct t; [constructor|]. constructor; [lia | constructor]. }
    revert HS. clear. generalize (bl ++ opt_block t) as ps. induction ps as [|p ps IH]; intros HS [|g gs] HG HL; try reflexivity; try discriminate.
    inversion HS as [|? ? Hp HS']; subst. inversion HG as [|? ? Hg HG']; subst. cbn [combine map fst snd]. rewrite bxor_short by assumption. f_equal. apply IH; auto.
  Qed.
End Rel.
