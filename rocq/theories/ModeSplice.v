(** * Pieces of ciphertexts put elsewhere *)
From Verif Require Import PyBase PyFacts PyState Utils UtilsFacts UtilsLemmas CipherObj Modes Mac.
From Verif Require Import SpecModes SpecStreams CipherLemmas CipherObjFacts ModeFacts ModeSpecFacts ModeLemmas ModeProps ModeSim ModeReuse MacFacts MacLemmas MacProps MacMore ModeCross MacMore2 ModeCross2 MacKnown ModeStreams.
Open Scope string_scope.
Open Scope list_scope.
Open Scope Z_scope.

(** ** Decryption: the register holds the last blocks of the ciphertext *)
Section Follow.
  Variable F : bytes -> bytes -> bytes.
  Let follow : bytes -> bytes -> bytes := fun c _ => c.
  Lemma run_parts u c : forall R, R <> [] -> run F follow R (u ++ c) = run F follow R u ++ run F follow (skipn (List.length u) (R ++ u)) c.
  Proof using.
    clear. induction u as [|p u IH]; intros R HR; [cbn [app List.length skipn run]; now rewrite app_nil_r|]. destruct R as [|r T]; [now destruct HR|]. cbn [app run hd tl List.length skipn]. rewrite IH by (destruct T; discriminate). rewrite <- app_assoc. reflexivity.
  Qed.
  Lemma run_zip c : forall R, R <> [] -> run F follow R c = map (fun x => F (fst x) (snd x)) (combine c (R ++ c)).
  Proof using.
    clear. induction c as [|p c IH]; intros R HR; [reflexivity|]. destruct R as [|r T]; [now destruct HR|]. cbn [run hd tl app combine map fst snd]. rewrite IH by (destruct T; discriminate). rewrite <- app_assoc. reflexivity.
  Qed.
  Lemma run_moved c R R' : R <> [] -> List.length R = List.length R' -> skipn (List.length R) (run F follow R c) = skipn (List.length R) (run F follow R' c).
  Proof using.
    clear. intros HR HL. assert (HR' : R' <> []) by (intros ->; destruct R; [now destruct HR | discriminate HL]). rewrite (run_zip c R HR), (run_zip c R' HR'), !skipn_map. f_equal.
    assert (HS : forall k (x y : list bytes), skipn k (combine x y) = combine (skipn k x) (skipn k y)).
    { induction k as [|k IH]; intros [|x0 x] [|y0 y]; try reflexivity; cbn [combine skipn]; [now rewrite combine_nil | apply IH]. }
    rewrite !HS. f_equal. rewrite skipn_app, skipn_all, Nat.sub_diag. rewrite HL at 1. rewrite skipn_app, skipn_all, Nat.sub_diag. reflexivity.
  Qed.
End Follow.

(** ** Octets and blocks *)
Lemma skipn_pieces n l : forall k, pieces n l -> skipn (k * n) (concat l) = concat (skipn k l).
Proof.
  induction l as [|b l IH]; intros k HP; [cbn [concat]; rewrite !skipn_nil; reflexivity|]. destruct k as [|k]; [reflexivity|]. cbn [pieces] in HP. destruct HP as (_ & H2 & H3 & H4). cbn [concat skipn Nat.mul]. destruct l as [|c l].
  - cbn [concat]. rewrite app_nil_r, skipn_nil. cbn [concat]. apply skipn_all2. lia.
  - rewrite <- IH by exact H4. rewrite skipn_app, (skipn_all2 b) by lia. cbn [app]. f_equal. rewrite (H3 ltac:(discriminate)). lia.
Qed.
(** What [decrypt] does in the two modes with feedback of the ciphertext. *)
Definition fits (a : balg) (mode : Z) (c : bytes) : Prop := mode = MODE_CFB \/ mode = MODE_CBC /\ (List.length c mod bsize a = 0)%nat.
Lemma undo_run a mode key : bytes_len 32 key -> In mode [MODE_CBC; MODE_CFB] -> exists F, (forall p r, bytes_ok p -> (0 < List.length p <= bsize a)%nat -> (mode = MODE_CBC -> List.length p = bsize a) -> blk (bsize a) r -> bytes_ok (F p r) /\ List.length (F p r) = List.length p) /\
  forall iv c, iv_blocks a iv -> bytes_ok c -> fits a mode c -> undo a mode key iv c = concat (run F (fun c _ => c) (blocks (bsize a) iv) (blocks (bsize a) c)).
Proof.
  intros Hk HM. destruct (spec_facts a key Hk) as (EB & DB & _). assert (Hn : (0 < bsize a)%nat) by (destruct (n_cases a); lia). cbn [In] in HM. destruct HM as [<-|[<-|[]]].
  - exists (fun c r => bxor (spec_D a key c) r). split.
    + intros p r Hp HL HC Hr. assert (HB : blk (bsize a) p) by (split; [exact Hp | now apply HC]). destruct (xor_blk (bsize a) _ r (DB p HB) Hr) as [E1 E2]. split; [exact E1|]. rewrite E2. symmetry. exact (proj2 HB).
    + intros iv c Hi Hc HF. rewrite (undo_cbc a key iv c Hk Hi Hc), cbc_dec_run. f_equal. f_equal. destruct HF as [HF|[_ HF]]; [discriminate HF|]. destruct (cut_at (bsize a) c Hn Hc HF) as (bl & -> & HB). unfold whole.
      rewrite (concat_blk_length (bsize a) bl HB), Nat.div_mul, (blocks_whole (bsize a) bl Hn HB), firstn_all by lia. reflexivity.
  - exists (fun c r => bxor c (spec_E a key r)). split.
    + intros p r Hp HL _ Hr. apply (xor_piece (bsize a)); [exact Hp | exact HL | now apply EB].
    + intros iv c Hi Hc _. rewrite (undo_cfb a key iv c Hk Hi Hc), cfb_dec_run. reflexivity.
Qed.
Lemma fits_pieces a mode c : fits a mode c -> bytes_ok c -> mode = MODE_CBC -> Forall (fun p => List.length p = bsize a) (blocks (bsize a) c).
Proof.
  intros HF Hc HM. assert (Hn : (0 < bsize a)%nat) by (destruct (n_cases a); lia). destruct HF as [HF|[_ HF]]; [rewrite HF in HM; discriminate HM|]. destruct (cut_at (bsize a) c Hn Hc HF) as (bl & -> & HB). rewrite (blocks_whole (bsize a) bl Hn HB). apply Forall_impl with (2 := HB). intros b [_ H]. exact H.
Qed.
Lemma follow_pieces n mode F ps : forall R, (forall p r, bytes_ok p -> (0 < List.length p <= n)%nat -> (mode = MODE_CBC -> List.length p = n) -> blk n r -> bytes_ok (F p r) /\ List.length (F p r) = List.length p) ->
  (mode = MODE_CBC -> Forall (fun p : bytes => List.length p = n) ps) -> R <> [] -> Forall (blk n) R -> pieces n ps -> pieces n (run F (fun c _ => c) R ps).
Proof.
  induction ps as [|p ps IH]; intros R HFp HC Hne HR HP; [exact I|]. cbn [pieces] in HP. destruct HP as (H1 & H2 & H3 & H4). assert (Hr := hd_forall _ R Hne HR). cbn [run pieces].
  destruct (HFp p _ H1 H2 (fun HM => Forall_inv (HC HM)) Hr) as [E1 E2]. split; [exact E1|]. split; [lia|]. assert (HC' : mode = MODE_CBC -> Forall (fun p : bytes => List.length p = n) ps) by (intros HM; exact (Forall_inv_tail (HC HM))).
  destruct ps as [|q ps]; [split; [intros H; now destruct H | exact I]|]. assert (HL := H3 ltac:(discriminate)). split; [intros _; now rewrite E2|]. apply IH; try assumption; [apply tl_snoc_ne|]. apply tl_snoc_forall; [exact HR | split; assumption].
Qed.

(** The parts of a ciphertext: [u] of whole blocks, then [c]. *)
Lemma parts a mode key iv u c : In mode [MODE_CBC; MODE_CFB] -> bytes_len 32 key -> iv_blocks a iv -> bytes_ok u -> (List.length u mod bsize a = 0)%nat -> bytes_ok c -> fits a mode c ->
  undo a mode key iv (u ++ c) = undo a mode key iv u ++ undo a mode key (skipn (List.length u) (iv ++ u)) c.
Proof.
  intros HM Hk Hi Hu HU Hc HF. set (n := bsize a) in *. assert (Hn : (0 < n)%nat) by (unfold n; destruct (n_cases a); lia). destruct (undo_run a mode key Hk HM) as (F & HFp & HA). destruct (iv_whole a iv Hi) as (R & EI & ER & HRne & HR). fold n in ER, HR. destruct (cut_at n u Hn Hu HU) as (bu & EU & HB).
  assert (EV : skipn (List.length u) (iv ++ u) = concat (skipn (List.length bu) (R ++ bu))).
  { rewrite EI, EU, <- concat_app, (concat_blk_length n bu HB). apply skipn_pieces, whole_pieces; [exact Hn | apply Forall_app; now split]. }
  set (R1 := skipn (List.length bu) (R ++ bu)) in *. assert (HR1 : Forall (blk n) R1) by (apply Forall_forall; intros b Hb; assert (HA1 : Forall (blk n) (R ++ bu)) by (apply Forall_app; now split); rewrite Forall_forall in HA1; apply HA1; unfold R1 in Hb; rewrite <- (firstn_skipn (List.length bu)); apply in_or_app; now right).
  assert (HL1 : List.length R1 = List.length R) by (unfold R1; rewrite skipn_length, app_length; lia). assert (HR1ne : R1 <> []) by (intros E0; rewrite E0 in HL1; destruct R; [now destruct HRne | discriminate HL1]).
  assert (Hi1 : iv_blocks a (concat R1)).
  { split; [exact (pieces_concat n _ (whole_pieces n _ Hn HR1))|]. split; [intros E0; apply (f_equal (@List.length Z)) in E0; rewrite (concat_blk_length n R1 HR1) in E0; destruct R1; [now destruct HR1ne | cbn in E0; lia]|]. unfold len. rewrite (concat_blk_length n R1 HR1). fold n. rewrite Nat2Z.inj_mul. apply Z.mod_mul. lia. }
  rewrite EV. assert (HFu : fits a mode u) by (cbn [In] in HM; destruct HM as [<-|[<-|[]]]; [right; split; [reflexivity | exact HU] | now left]).
  assert (HFuc : fits a mode (u ++ c)) by (destruct HF as [HF|[HF HF']]; [now left | right; split; [exact HF|]; fold n; rewrite app_length, Nat.add_mod, HU by lia; fold n in HF'; rewrite HF'; now apply Nat.mod_0_l; lia]).
  rewrite (HA iv (u ++ c) Hi (proj2 (bytes_ok_app u c) (conj Hu Hc)) HFuc), (HA iv u Hi Hu HFu), (HA (concat R1) c Hi1 Hc HF). fold n. rewrite ER, (blocks_whole n R1 Hn HR1).
  assert (EB : blocks n (u ++ c) = bu ++ blocks n c).
  { assert (HP := blocks_pieces n c Hn Hc). assert (EC : concat (blocks n c) = c) by (destruct (cut_blk n c Hn Hc) as (bl & t & -> & -> & _ & _ & _); rewrite concat_app; destruct t; [reflexivity | cbn [opt_block concat]; now rewrite app_nil_r]).
    rewrite EU, <- EC at 1. rewrite <- concat_app. apply pieces_blocks; [exact Hn|]. clear -Hn HB HP. induction HB as [|b bl [Hb HLb] HB IH]; [exact HP|]. cbn [app pieces]. split; [exact Hb|]. split; [lia|]. split; [intros _; exact HLb | exact IH]. }
  rewrite EB, (run_parts F bu (blocks n c) R HRne), concat_app. f_equal. rewrite EU at 1. now rewrite (blocks_whole n bu Hn HB).
Qed.
Lemma moved a mode key iv iv' u u' c : In mode [MODE_CBC; MODE_CFB] -> bytes_len 32 key -> iv_blocks a iv -> iv_blocks a iv' -> List.length iv = List.length iv' ->
  bytes_ok u -> (List.length u mod bsize a = 0)%nat -> bytes_ok u' -> (List.length u' mod bsize a = 0)%nat -> bytes_ok c -> fits a mode c ->
  skipn (List.length u + List.length iv) (undo a mode key iv (u ++ c)) = skipn (List.length u' + List.length iv') (undo a mode key iv' (u' ++ c)).
Proof.
  intros HM Hk Hi Hi' HLi Hu HU Hu' HU' Hc HF. set (n := bsize a) in *. assert (Hn : (0 < n)%nat) by (unfold n; destruct (n_cases a); lia). destruct (undo_run a mode key Hk HM) as (F & HFp & HA). fold n in HFp.
  assert (HG : forall v w, iv_blocks a v -> bytes_ok w -> (List.length w mod n = 0)%nat -> List.length (undo a mode key v w) = List.length w /\ iv_blocks a (skipn (List.length w) (v ++ w)) /\ List.length (skipn (List.length w) (v ++ w)) = List.length v).
  { intros v w Hv Hw HW. destruct (iv_whole a v Hv) as (R & EI & ER & HRne & HR). fold n in ER, HR. destruct (cut_at n w Hn Hw HW) as (bw & EW & HB).
    assert (HFw : fits a mode w) by (cbn [In] in HM; destruct HM as [<-|[<-|[]]]; [right; split; [reflexivity | exact HW] | now left]). split.
    - rewrite (HA v w Hv Hw HFw). fold n. rewrite ER, EW, (blocks_whole n bw Hn HB). assert (HX : Forall (fun b => List.length b = n) (run F (fun c _ => c) R bw)).
      { clear -HFp HRne HR HB Hn. revert R HRne HR. induction HB as [|b bl [Hb HLb] HB IH]; intros R HRne HR; [constructor|]. cbn [run]. constructor; [|apply IH; [apply tl_snoc_ne | apply tl_snoc_forall; [exact HR | split; assumption]]].
        destruct (HFp b (hd [] R) Hb ltac:(lia) (fun _ => HLb) (hd_forall _ R HRne HR)) as [_ E2]. now rewrite E2. }
      rewrite (concat_blk_length n bw HB). clear -HX. assert (HRL := run_length F (fun c _ => c) bw R). rewrite <- HRL. clear HRL. induction HX as [|b l Hb _ IH]; [reflexivity|]. cbn [concat List.length]. rewrite app_length, IH, Hb. lia.
    - assert (EV : skipn (List.length w) (v ++ w) = concat (skipn (List.length bw) (R ++ bw))) by (rewrite EI, EW, <- concat_app, (concat_blk_length n bw HB); apply skipn_pieces, whole_pieces; [exact Hn | apply Forall_app; now split]).
      assert (HLS : List.length (skipn (List.length w) (v ++ w)) = List.length v) by (rewrite skipn_length, app_length; lia). split; [|exact HLS]. split; [apply bytes_ok_skipn, bytes_ok_app; split; [apply Hv | exact Hw]|]. split; [intros E0; rewrite E0 in HLS; destruct Hv as (_ & Hv & _); destruct v; [now apply Hv | discriminate HLS]|]. unfold len. rewrite HLS. apply Hv. }
  destruct (HG iv u Hi Hu HU) as (G1 & G2 & G3). destruct (HG iv' u' Hi' Hu' HU') as (G1' & G2' & G3').
  rewrite (parts a mode key iv u c HM Hk Hi Hu HU Hc HF), (parts a mode key iv' u' c HM Hk Hi' Hu' HU' Hc HF).
  assert (SK : forall k (x y : bytes), skipn (List.length x + k) (x ++ y) = skipn k y) by (intros k x y; rewrite skipn_app, skipn_all2 by lia; cbn [app]; f_equal; lia).
  rewrite <- G1 at 1. rewrite SK. rewrite <- G1' at 1. rewrite SK. set (v := skipn (List.length u) (iv ++ u)) in *. set (v' := skipn (List.length u') (iv' ++ u')) in *. rewrite (HA v c G2 Hc HF), (HA v' c G2' Hc HF). fold n.
  destruct (iv_whole a v G2) as (R & EI & ER & HRne & HR). destruct (iv_whole a v' G2') as (R' & EI' & ER' & HRne' & HR'). fold n in ER, HR, ER', HR'. rewrite ER, ER'.
  assert (L1 : List.length iv = (List.length R * n)%nat) by (rewrite <- G3, EI; apply concat_blk_length; exact HR). assert (L2 : List.length iv' = (List.length R' * n)%nat) by (rewrite <- G3', EI'; apply concat_blk_length; exact HR'). assert (LR : List.length R = List.length R') by nia.
  assert (HPc := blocks_pieces n c Hn Hc). assert (HCc := fits_pieces a mode c HF Hc). fold n in HCc. rewrite L1, L2. rewrite (skipn_pieces n _ (List.length R)) by (apply (follow_pieces n mode F); assumption). rewrite (skipn_pieces n _ (List.length R')) by (apply (follow_pieces n mode F); assumption).
  f_equal. rewrite <- LR. apply run_moved; [exact HRne | exact LR].
Qed.
