(** * Vectors of several blocks: the streams of the modes *)
From Verif Require Import PyBase PyFacts PyState Utils UtilsFacts UtilsLemmas CipherObj Modes Mac.
From Verif Require Import SpecModes SpecStreams CipherLemmas CipherObjFacts ModeFacts ModeSpecFacts ModeLemmas ModeProps ModeSim ModeReuse MacFacts MacLemmas MacProps MacMore ModeCross MacMore2 ModeCross2 MacKnown.
Open Scope string_scope.
Open Scope list_scope.
Open Scope Z_scope.

(** ** A register that moves by one block *)
Section Run.
  Variables F G : bytes -> bytes -> bytes.
  Fixpoint run (R ps : list bytes) : list bytes :=
    match ps with [] => [] | p :: ps => F p (hd [] R) :: run (tl R ++ [G p (hd [] R)]) ps end.
  Lemma run_every z ps : forall R i, List.length R = z -> (i < z)%nat -> every z i (run R ps) = run [nth i R []] (every z i ps).
  Proof using.
    clear. induction ps as [|p ps IH]; intros R i HR Hi; [reflexivity|]. destruct R as [|r R]; [cbn in HR; lia|]. cbn [run every hd tl]. cbn in HR. assert (HL : List.length (R ++ [G p r]) = z) by (rewrite app_length; cbn; lia). destruct i as [|i].
    - cbn [nth run hd tl app]. rewrite IH by (exact HL || lia). rewrite app_nth2 by lia. replace (z - 1 - List.length R)%nat with 0%nat by lia. reflexivity.
    - rewrite IH by (exact HL || lia). rewrite app_nth1 by lia. reflexivity.
  Qed.
  Lemma run_length ps : forall R, List.length (run R ps) = List.length ps.
  Proof using. clear. induction ps as [|p ps IH]; intros R; [reflexivity|]. cbn [run List.length]. now rewrite IH. Qed.
End Run.
Lemma cbc_enc_run E R ps : cbc_enc E R ps = run (fun p r => E (bxor p r)) (fun p r => E (bxor p r)) R ps.
Proof. revert R. induction ps as [|p ps IH]; intros R; [reflexivity|]. cbn [cbc_enc run]. now rewrite IH. Qed.
Lemma cbc_dec_run D R cs : cbc_dec D R cs = run (fun c r => bxor (D c) r) (fun c r => c) R cs.
Proof. revert R. induction cs as [|p ps IH]; intros R; [reflexivity|]. cbn [cbc_dec run]. now rewrite IH. Qed.
Lemma cfb_enc_run E R ps : cfb_enc E R ps = run (fun p r => bxor p (E r)) (fun p r => bxor p (E r)) R ps.
Proof. revert R. induction ps as [|p ps IH]; intros R; [reflexivity|]. cbn [cfb_enc run]. now rewrite IH. Qed.
Lemma cfb_dec_run E R cs : cfb_dec E R cs = run (fun c r => bxor c (E r)) (fun c r => c) R cs.
Proof. revert R. induction cs as [|p ps IH]; intros R; [reflexivity|]. cbn [cfb_dec run]. now rewrite IH. Qed.
Lemma ofb_run E R ps : ofb E R ps = run (fun p r => bxor p (E r)) (fun _ r => E r) R ps.
Proof. revert R. induction ps as [|p ps IH]; intros R; [reflexivity|]. rewrite ofb_cons. cbn [run]. now rewrite IH. Qed.

(** ** Pieces: whole blocks, but the last may be shorter *)
Fixpoint pieces (n : nat) (l : list bytes) : Prop :=
  match l with [] => True | b :: l => bytes_ok b /\ (0 < List.length b <= n)%nat /\ (l <> [] -> List.length b = n) /\ pieces n l end.
Lemma pieces_every n z l : forall i, pieces n l -> pieces n (every z i l).
Proof.
  induction l as [|b l IH]; intros i HP; [exact HP|]. cbn [pieces] in HP. destruct HP as (H1 & H2 & H3 & H4). cbn [every]. destruct i as [|i]; [|now apply IH]. cbn [pieces]. split; [exact H1|]. split; [exact H2|]. split; [|now apply IH].
  intros Hne. apply H3. intros ->. now apply Hne.
Qed.
Lemma pieces_blocks n l : (0 < n)%nat -> pieces n l -> blocks n (concat l) = l.
Proof.
  intros Hn. unfold blocks. enough (H : forall l f, (List.length (concat l) <= f)%nat -> pieces n l -> blocks_fuel f n (concat l) = l) by (intros HP; apply H; [lia | exact HP]).
  clear l. induction l as [|b l IH]; intros f Hf HP; [destruct f; reflexivity|]. cbn [pieces] in HP. destruct HP as (_ & H2 & H3 & H4). cbn [concat] in *. rewrite app_length in Hf. destruct b as [|x b]; [cbn in H2; lia|]. destruct f as [|f]; [cbn in Hf; lia|].
  cbn [blocks_fuel app]. change (x :: b ++ concat l) with ((x :: b) ++ concat l). destruct l as [|c l].
  - cbn [concat]. rewrite app_nil_r, firstn_all2, skipn_all2 by lia. destruct f; reflexivity.
  - rewrite firstn_app, skipn_app, (H3 ltac:(discriminate)), Nat.sub_diag, firstn_all2, skipn_all2 by (rewrite (H3 ltac:(discriminate)); lia). cbn [firstn skipn app]. rewrite app_nil_r. f_equal. apply IH; [cbn [List.length] in Hf; lia | exact H4].
Qed.
Lemma pieces_concat n l : pieces n l -> bytes_ok (concat l).
Proof. induction l as [|b l IH]; intros HP; [constructor|]. cbn [pieces] in HP. destruct HP as (H1 & _ & _ & H4). cbn [concat]. apply Forall_app. split; [exact H1 | now apply IH]. Qed.
Lemma whole_pieces n l : (0 < n)%nat -> Forall (blk n) l -> pieces n l.
Proof. intros Hn. induction 1 as [|b l [Hb HL] HF IH]; [exact I|]. cbn [pieces]. split; [exact Hb|]. split; [lia|]. split; [intros _; exact HL | exact IH]. Qed.
Lemma blocks_pieces n m : (0 < n)%nat -> bytes_ok m -> pieces n (blocks n m).
Proof.
  intros Hn Hm. destruct (cut_blk n m Hn Hm) as (bl & t & -> & _ & HF & Ht & HL). induction HF as [|b bl [Hb HB] HF IH].
  - destruct t as [|x t]; [exact I|]. cbn [app opt_block pieces]. split; [exact Ht|]. split; [cbn in *; lia|]. split; [intros H; now destruct H | exact I].
  - cbn [app pieces]. split; [exact Hb|]. split; [lia|]. split; [intros _; exact HB | exact IH].
Qed.
(** Sums with whole blocks keep the shape. *)
Lemma run_pieces n F G ps : forall R, (forall p r, bytes_ok p -> (0 < List.length p <= n)%nat -> blk n r -> bytes_ok (F p r) /\ List.length (F p r) = List.length p) ->
  (forall p r, blk n p -> blk n r -> blk n (G p r)) -> R <> [] -> Forall (blk n) R -> pieces n ps -> pieces n (run F G R ps).
Proof.
  induction ps as [|p ps IH]; intros R HFp HG Hne HR HP; [exact I|]. cbn [pieces] in HP. destruct HP as (H1 & H2 & H3 & H4). assert (Hr := hd_forall _ R Hne HR). cbn [run pieces]. destruct (HFp p _ H1 H2 Hr) as [E1 E2]. split; [exact E1|]. split; [lia|].
  destruct ps as [|q ps]; [split; [intros H; now destruct H | exact I]|]. assert (HL := H3 ltac:(discriminate)). split; [intros _; now rewrite E2|]. apply IH; try assumption; [apply tl_snoc_ne|]. apply tl_snoc_forall; [exact HR | apply HG; [split; assumption | exact Hr]].
Qed.
Lemma xor_piece n p g : bytes_ok p -> (0 < List.length p <= n)%nat -> blk n g -> bytes_ok (bxor p g) /\ List.length (bxor p g) = List.length p.
Proof. intros Hp HL [Hg HG]. split; [rewrite bxor_eq; now apply add_xor_ok|]. rewrite bxor_length. lia. Qed.

(** ** The answers *)
Lemma undo_cbc a key iv m : bytes_len 32 key -> iv_blocks a iv -> bytes_ok m -> undo a MODE_CBC key iv m = concat (cbc_dec (spec_D a key) (blocks (bsize a) iv) (whole (bsize a) m)).
Proof. intros Hk Hi Hm. destruct (conforms_cbc a key (with_iv iv) P1 iv m Hk eq_refl eq_refl Hi Hm) as (o & HO & _ & E). unfold undo. now rewrite HO, E. Qed.
Lemma undo_cfb a key iv m : bytes_len 32 key -> iv_blocks a iv -> bytes_ok m -> undo a MODE_CFB key iv m = concat (cfb_dec (spec_E a key) (blocks (bsize a) iv) (blocks (bsize a) m)).
Proof. intros Hk Hi Hm. destruct (conforms_cfb a key (with_iv iv) iv m Hk eq_refl Hi Hm) as (o & HO & _ & E). unfold undo. now rewrite HO, E. Qed.
Lemma undo_ofb a key iv m : bytes_len 32 key -> iv_blocks a iv -> bytes_ok m -> undo a MODE_OFB key iv m = concat (ofb (spec_E a key) (blocks (bsize a) iv) (blocks (bsize a) m)).
Proof. intros Hk Hi Hm. destruct (conforms_ofb a key (with_iv iv) iv m Hk eq_refl Hi Hm) as (o & HO & _ & E). unfold undo. now rewrite HO, E. Qed.

(** The register and what is computed with it, for the modes that take any number of octets. *)
Lemma streams_of a key iv m i (ans : bytes -> bytes -> bytes) F G : bytes_len 32 key -> iv_blocks a iv -> bytes_ok m ->
  (forall iv m, iv_blocks a iv -> bytes_ok m -> ans iv m = concat (run F G (blocks (bsize a) iv) (blocks (bsize a) m))) ->
  (forall p r, bytes_ok p -> (0 < List.length p <= bsize a)%nat -> blk (bsize a) r -> bytes_ok (F p r) /\ List.length (F p r) = List.length p) ->
  (forall p r, blk (bsize a) p -> blk (bsize a) r -> blk (bsize a) (G p r)) ->
  let n := bsize a in let R := blocks n iv in let z := List.length R in (i < z)%nat ->
  every z i (blocks n (ans iv m)) = blocks n (ans (nth i R []) (concat (every z i (blocks n m)))).
Proof.
  intros Hk Hi Hm HA HF HG n R z Hz. assert (Hn : (0 < n)%nat) by (destruct (n_cases a); unfold n; lia). destruct (iv_whole a iv Hi) as (R' & _ & ER & Hne & HR). fold n in ER, HR. assert (ER' : R = R') by exact ER. rewrite <- ER' in Hne, HR. clear R' ER ER'.
  assert (Hb : blk n (nth i R [])) by (apply Forall_nth; assumption). assert (HP : pieces n (blocks n m)) by now apply blocks_pieces. assert (HPe := pieces_every n z _ i HP).
  rewrite (HA iv m Hi Hm), (HA (nth i R []) _ (iv_block a _ Hb) (pieces_concat n _ HPe)). fold n R. rewrite (pieces_blocks n (every z i (blocks n m)) Hn HPe), (block_whole n _ Hn Hb).
  rewrite (pieces_blocks n (run F G R (blocks n m)) Hn) by (apply run_pieces; assumption). rewrite (pieces_blocks n (run F G [nth i R []] _) Hn) by (apply run_pieces; try assumption; [discriminate | constructor; [exact Hb | constructor]]).
  now apply run_every.
Qed.
Lemma streams_enc a mode key iv m i : In mode [MODE_CFB; MODE_OFB] -> bytes_len 32 key -> iv_blocks a iv -> bytes_ok m -> let n := bsize a in let R := blocks n iv in let z := List.length R in (i < z)%nat ->
  every z i (blocks n (answer a mode key iv m)) = blocks n (answer a mode key (nth i R []) (concat (every z i (blocks n m)))).
Proof.
  intros HM Hk Hi Hm. destruct (spec_facts a key Hk) as (EB & _). cbn [In] in HM. destruct HM as [<-|[<-|[]]].
  - apply (streams_of a key iv m i (answer a MODE_CFB key) (fun p r => bxor p (spec_E a key r)) (fun p r => bxor p (spec_E a key r)) Hk Hi Hm).
    + intros v d Hv Hd. rewrite <- cfb_enc_run. now apply answer_cfb.
    + intros p r Hp HL Hr. apply (xor_piece (bsize a)); [exact Hp | exact HL | now apply EB].
    + intros p r Hp Hr. apply xor_blk; [exact Hp | now apply EB].
  - apply (streams_of a key iv m i (answer a MODE_OFB key) (fun p r => bxor p (spec_E a key r)) (fun p r => spec_E a key r) Hk Hi Hm).
    + intros v d Hv Hd. rewrite <- ofb_run. now apply answer_ofb.
    + intros p r Hp HL Hr. apply (xor_piece (bsize a)); [exact Hp | exact HL | now apply EB].
    + intros p r Hp Hr. now apply EB.
Qed.
Lemma streams_dec a mode key iv m i : In mode [MODE_CFB; MODE_OFB] -> bytes_len 32 key -> iv_blocks a iv -> bytes_ok m -> let n := bsize a in let R := blocks n iv in let z := List.length R in (i < z)%nat ->
  every z i (blocks n (undo a mode key iv m)) = blocks n (undo a mode key (nth i R []) (concat (every z i (blocks n m)))).
Proof.
  intros HM Hk Hi Hm. destruct (spec_facts a key Hk) as (EB & _). cbn [In] in HM. destruct HM as [<-|[<-|[]]].
  - apply (streams_of a key iv m i (undo a MODE_CFB key) (fun p r => bxor p (spec_E a key r)) (fun p r => p) Hk Hi Hm).
    + intros v d Hv Hd. rewrite <- cfb_dec_run. now apply undo_cfb.
    + intros p r Hp HL Hr. apply (xor_piece (bsize a)); [exact Hp | exact HL | now apply EB].
    + intros p r Hp Hr. exact Hp.
  - apply (streams_of a key iv m i (undo a MODE_OFB key) (fun p r => bxor p (spec_E a key r)) (fun p r => spec_E a key r) Hk Hi Hm).
    + intros v d Hv Hd. rewrite <- ofb_run. now apply undo_ofb.
    + intros p r Hp HL Hr. apply (xor_piece (bsize a)); [exact Hp | exact HL | now apply EB].
    + intros p r Hp Hr. now apply EB.
Qed.

(** CBC: whole blocks. *)
Lemma every_forall {A} (P : A -> Prop) z l : forall i, Forall P l -> Forall P (every z i l).
Proof. induction l as [|b l IH]; intros i HF; [exact HF|]. apply Forall_cons_iff in HF as [Hb HF]. cbn [every]. destruct i as [|i]; [constructor; [exact Hb|]|]; now apply IH. Qed.
Lemma every_ne {A} z (l : list A) i : (i < List.length l)%nat -> every z i l <> [].
Proof. revert i. induction l as [|b l IH]; intros i Hi; [cbn in Hi; lia|]. cbn [every]. destruct i as [|i]; [discriminate|]. apply IH. cbn in Hi. lia. Qed.
Lemma run_blks n F G ps : (forall p r, blk n p -> blk n r -> blk n (F p r)) -> (forall p r, blk n p -> blk n r -> blk n (G p r)) -> forall R, R <> [] -> Forall (blk n) R -> Forall (blk n) ps -> Forall (blk n) (run F G R ps).
Proof.
  intros HFp HG. induction ps as [|p ps IH]; intros R Hne HR HP; [constructor|]. apply Forall_cons_iff in HP as [Hp HP]. assert (Hr := hd_forall _ R Hne HR). cbn [run]. constructor; [now apply HFp|]. apply IH; [apply tl_snoc_ne | apply tl_snoc_forall; [exact HR | now apply HG] | exact HP].
Qed.
Lemma cbc_enc_whole a key iv ps : bytes_len 32 key -> iv_blocks a iv -> ps <> [] -> Forall (blk (bsize a)) ps -> answer a MODE_CBC key iv (concat ps) = concat (cbc_enc (spec_E a key) (blocks (bsize a) iv) ps).
Proof.
  intros Hk Hi Hne HF. set (n := bsize a) in *. assert (Hn : (0 < n)%nat) by (unfold n; destruct a; cbn; lia). assert (HP := whole_pieces n ps Hn HF).
  rewrite (answer_cbc a key iv _ Hk Hi (pieces_concat n ps HP)). fold n. assert (EP : padded P1 n (concat ps) = concat ps).
  { unfold padded, padding, pad_zeros. destruct (concat ps) as [|x r] eqn:E0.
    - exfalso. apply (f_equal (@List.length Z)) in E0. rewrite (concat_blk_length n ps HF) in E0. destruct ps; [now apply Hne|]. cbn in E0. lia.
    - rewrite <- E0, (concat_blk_length n ps HF), Nat.mod_mul, Nat.sub_0_r, Nat.mod_same by lia. apply app_nil_r. }
  rewrite EP, (pieces_blocks n ps Hn HP). reflexivity.
Qed.
Lemma cbc_dec_whole a key iv cs : bytes_len 32 key -> iv_blocks a iv -> Forall (blk (bsize a)) cs -> undo a MODE_CBC key iv (concat cs) = concat (cbc_dec (spec_D a key) (blocks (bsize a) iv) cs).
Proof.
  intros Hk Hi HF. set (n := bsize a) in *. assert (Hn : (0 < n)%nat) by (unfold n; destruct a; cbn; lia). assert (HP := whole_pieces n cs Hn HF). rewrite (undo_cbc a key iv _ Hk Hi (pieces_concat n cs HP)). fold n. unfold whole.
  rewrite (concat_blk_length n cs HF), Nat.div_mul, (pieces_blocks n cs Hn HP), firstn_all by lia. reflexivity.
Qed.
Lemma streams_cbc a key iv ps i : bytes_len 32 key -> iv_blocks a iv -> Forall (blk (bsize a)) ps -> let n := bsize a in let R := blocks n iv in let z := List.length R in (i < z)%nat ->
  ((i < List.length ps)%nat -> every z i (blocks n (answer a MODE_CBC key iv (concat ps))) = blocks n (answer a MODE_CBC key (nth i R []) (concat (every z i ps)))) /\
  every z i (blocks n (undo a MODE_CBC key iv (concat ps))) = blocks n (undo a MODE_CBC key (nth i R []) (concat (every z i ps))).
Proof.
  intros Hk Hi HP n R z Hz. assert (Hn : (0 < n)%nat) by (destruct (n_cases a); unfold n; lia). destruct (iv_whole a iv Hi) as (R' & _ & ER & Hne & HR). fold n in ER, HR. assert (ER' : R = R') by exact ER. rewrite <- ER' in Hne, HR. clear R' ER ER'.
  assert (Hb : blk n (nth i R [])) by (apply Forall_nth; assumption). destruct (spec_facts a key Hk) as (EB & DB & _). fold n in EB, DB. assert (HE : Forall (blk n) (every z i ps)) by now apply every_forall. assert (H1 : Forall (blk n) [nth i R []]) by (constructor; [exact Hb | constructor]). split.
  - intros Hl. rewrite (cbc_enc_whole a key iv ps Hk Hi) by (exact HP || (intros ->; cbn in Hl; lia)). rewrite (cbc_enc_whole a key _ _ Hk (iv_block a _ Hb) (every_ne z ps i Hl) HE). fold n R. rewrite (block_whole n _ Hn Hb), !cbc_enc_run.
    rewrite !blocks_whole; [now apply run_every | exact Hn | | exact Hn |]; apply run_blks; try assumption; try discriminate; intros p r Hp Hr; apply EB; now apply xor_blk.
  - rewrite (cbc_dec_whole a key iv ps Hk Hi HP), (cbc_dec_whole a key _ _ Hk (iv_block a _ Hb) HE). fold n R. rewrite (block_whole n _ Hn Hb), !cbc_dec_run.
    rewrite !blocks_whole; [now apply run_every | exact Hn | | exact Hn |]; apply run_blks; try assumption; try discriminate; try (intros p r Hp Hr; apply xor_blk; [now apply DB | exact Hr]); intros p r Hp Hr; exact Hp.
Qed.

(** ** Which blocks of the ciphertext a block of the message influences *)
Lemma succ_mod k z : (0 < z)%nat -> (S k mod z = if Nat.eqb (k mod z) (z - 1) then 0 else S (k mod z))%nat.
Proof.
  intros Hz. pose proof (Nat.div_mod k z ltac:(lia)) as HD. pose proof (Nat.mod_upper_bound k z ltac:(lia)) as HB. destruct (Nat.eqb_spec (k mod z) (z - 1)) as [H|H].
  - symmetry. apply (Nat.mod_unique (S k) z (S (k / z)) 0); lia.
  - symmetry. apply (Nat.mod_unique (S k) z (k / z) (S (k mod z))); lia.
Qed.
Section Differ.
  Variables (n z : nat) (F : bytes -> bytes -> bytes).
  Hypothesis Hz : (0 < z)%nat.
  Hypothesis F_blk : forall p r, blk n p -> blk n r -> blk n (F p r).
  Hypothesis F_reg : forall p r r', blk n p -> blk n r -> blk n r' -> F p r = F p r' -> r = r'.
  Hypothesis F_msg : forall p p' r, blk n p -> blk n p' -> blk n r -> F p r = F p' r -> p = p'.
  Definition differ_at (d : nat) (R R' : list bytes) : Prop :=
    List.length R = z /\ List.length R' = z /\ Forall (blk n) R /\ Forall (blk n) R' /\ (d < z)%nat /\ forall k, (k < z)%nat -> (nth k R [] = nth k R' [] <-> k <> d).
  Lemma differ_move d r r' T T' p : differ_at d (r :: T) (r' :: T') -> blk n p -> differ_at (if Nat.eqb d 0 then z - 1 else d - 1)%nat (T ++ [F p r]) (T' ++ [F p r']).
  Proof using All.
    intros (L & L' & B & B' & Hd & HD) Hp. cbn [List.length] in L, L'. apply Forall_cons_iff in B as [Br B]. apply Forall_cons_iff in B' as [Br' B']. split; [rewrite app_length; cbn; lia|]. split; [rewrite app_length; cbn; lia|].
    split; [apply Forall_app; split; [exact B | constructor; [now apply F_blk | constructor]]|]. split; [apply Forall_app; split; [exact B' | constructor; [now apply F_blk | constructor]]|]. split; [destruct (Nat.eqb_spec d 0); lia|].
    intros k Hk. destruct (Nat.eq_dec k (z - 1)) as [E|E].
    - rewrite !app_nth2 by lia. replace (k - List.length T)%nat with 0%nat by lia. replace (k - List.length T')%nat with 0%nat by lia. cbn [nth]. specialize (HD 0%nat Hz). cbn [nth] in HD. destruct (Nat.eqb_spec d 0) as [H0|H0].
      + split; [intros HF; exfalso; apply F_reg in HF; try assumption; apply HD in HF; lia | lia].
      + split; [lia|]. intros _. rewrite (proj2 HD) by lia. reflexivity.
    - rewrite !app_nth1 by lia. specialize (HD (S k) ltac:(lia)). cbn [nth] in HD. rewrite HD. destruct (Nat.eqb_spec d 0); lia.
  Qed.
  Lemma differ_regs ps : Forall (blk n) ps -> forall R R' d, differ_at d R R' -> forall k, (k < List.length ps)%nat -> (nth k (run F F R ps) [] = nth k (run F F R' ps) [] <-> (k mod z <> d)%nat).
  Proof using All.
    induction 1 as [|p ps Hp HF IH]; intros R R' d HD k Hk; [cbn in Hk; lia|]. destruct R as [|r T]; [destruct HD as (L & _); cbn in L; lia|]. destruct R' as [|r' T']; [destruct HD as (_ & L & _); cbn in L; lia|].
    cbn [run hd tl]. destruct k as [|k].
    - cbn [nth]. rewrite Nat.mod_0_l by lia. destruct HD as (_ & _ & B & B' & Hd & HD). specialize (HD 0%nat Hz). cbn [nth] in HD. apply Forall_inv in B. apply Forall_inv in B'. rewrite <- HD. split; [apply F_reg; assumption | intros ->; reflexivity].
    - cbn [nth]. cbn [List.length] in Hk. rewrite (IH _ _ _ (differ_move d r r' T T' p HD Hp) k ltac:(lia)). rewrite (succ_mod k z Hz). destruct HD as (_ & _ & _ & _ & Hd & _). pose proof (Nat.mod_upper_bound k z ltac:(lia)) as HB. destruct (Nat.eqb_spec d 0), (Nat.eqb_spec (k mod z) (z - 1)); lia.
  Qed.
  Lemma differ_msg x x' w : blk n x -> blk n x' -> x <> x' -> Forall (blk n) w -> forall u R, List.length R = z -> Forall (blk n) R -> Forall (blk n) u -> forall k, (k < List.length (u ++ x :: w))%nat ->
    (nth k (run F F R (u ++ x :: w)) [] = nth k (run F F R (u ++ x' :: w)) [] <-> ~ (List.length u <= k /\ (k - List.length u) mod z = 0)%nat).
  Proof using All.
    intros Hx Hx' Hne Hw. induction u as [|b u IH]; intros R HL HR Hu k Hk; (destruct R as [|r T]; [cbn in HL; lia|]); cbn [app run hd tl]; cbn [List.length] in HL; apply Forall_cons_iff in HR as [Hr HT].
    - destruct k as [|k].
      + cbn [nth List.length]. rewrite Nat.sub_diag, Nat.mod_0_l by lia. split; [intros HE; exfalso; apply F_msg in HE; [now apply Hne | assumption..] | intros HN; exfalso; apply HN; lia].
      + cbn [nth List.length app] in *. rewrite Nat.sub_0_r. rewrite (differ_regs w Hw (T ++ [F x r]) (T ++ [F x' r]) (z - 1)); [| |lia].
        * rewrite (succ_mod k z Hz). destruct (Nat.eqb_spec (k mod z) (z - 1)); lia.
        * split; [rewrite app_length; cbn; lia|]. split; [rewrite app_length; cbn; lia|]. split; [apply Forall_app; split; [exact HT | constructor; [now apply F_blk | constructor]]|]. split; [apply Forall_app; split; [exact HT | constructor; [now apply F_blk | constructor]]|]. split; [lia|].
          intros j Hj. destruct (Nat.eq_dec j (z - 1)) as [E|E].
          -- rewrite !app_nth2 by lia. replace (j - List.length T)%nat with 0%nat by lia. cbn [nth]. split; [intros HE; exfalso; apply F_msg in HE; [now apply Hne | assumption..] | lia].
          -- rewrite !app_nth1 by lia. split; [intros _; exact E | reflexivity].
    - apply Forall_cons_iff in Hu as [Hb Hu]. destruct k as [|k]; [cbn [nth List.length]; split; [intros _; lia | reflexivity]|]. cbn [nth List.length app] in *. rewrite IH; [|rewrite app_length; cbn; lia | apply Forall_app; split; [exact HT | constructor; [now apply F_blk | constructor]] | exact Hu | lia].
      replace (S k - S (List.length u))%nat with (k - List.length u)%nat by lia. split; intros H HC; apply H; split; lia.
  Qed.
End Differ.
Lemma influence a mode key iv u x x' w k : In mode [MODE_CBC; MODE_CFB] -> bytes_len 32 key -> iv_blocks a iv -> let n := bsize a in let z := List.length (blocks n iv) in
  Forall (blk n) u -> blk n x -> blk n x' -> Forall (blk n) w -> x <> x' -> (k < List.length (u ++ x :: w))%nat ->
  (nth k (blocks n (answer a mode key iv (concat (u ++ x :: w)))) [] = nth k (blocks n (answer a mode key iv (concat (u ++ x' :: w)))) [] <-> ~ (List.length u <= k /\ (k - List.length u) mod z = 0)%nat).
Proof.
  intros HM Hk Hi n z Hu Hx Hx' Hw Hne HK. assert (Hn : (0 < n)%nat) by (destruct (n_cases a); unfold n; lia). destruct (iv_whole a iv Hi) as (R & _ & ER & HRne & HR). fold n in ER, HR. destruct (spec_facts a key Hk) as (EB & _ & DE & _). fold n in EB, DE.
  assert (EI : forall y y', blk n y -> blk n y' -> spec_E a key y = spec_E a key y' -> y = y') by (intros y y' Hy Hy'; now apply spec_inj). unfold z. rewrite ER. assert (Hz : (0 < List.length R)%nat) by (destruct R; [now destruct HRne | cbn; lia]).
  assert (XL : forall p q r, blk n p -> blk n q -> blk n r -> bxor p q = bxor p r -> q = r).
  { intros p q r Hp Hq Hr HE. rewrite <- (xor_back n q p Hq Hp), <- (xor_back n r p Hr Hp), (xor_comm q p), (xor_comm r p), HE. reflexivity. }
  assert (XR : forall p q r, blk n p -> blk n q -> blk n r -> bxor p r = bxor q r -> p = q) by (intros p q r Hp Hq Hr HE; rewrite <- (xor_back n p r Hp Hr), <- (xor_back n q r Hq Hr), HE; reflexivity).
  assert (HF : forall y, blk n y -> Forall (blk n) (u ++ y :: w)) by (intros y Hy; apply Forall_app; split; [exact Hu | constructor; assumption]). assert (NE : forall y, u ++ y :: w <> []) by (intros y HN; destruct u; discriminate HN).
  cbn [In] in HM. destruct HM as [<-|[<-|[]]].
  - rewrite !(cbc_enc_whole a key iv _ Hk Hi (NE _)) by now apply HF. fold n. rewrite ER, !cbc_enc_run. set (F := fun p r => spec_E a key (bxor p r)). assert (FB : forall p r, blk n p -> blk n r -> blk n (F p r)) by (intros p r Hp Hr; apply EB; now apply xor_blk).
    rewrite !blocks_whole; [| exact Hn | apply run_blks; auto | exact Hn | apply run_blks; auto]. apply (differ_msg n (List.length R) F Hz FB); try assumption; try reflexivity.
    + intros p r r' Hp Hr Hr' HE. apply EI in HE; [|now apply xor_blk | now apply xor_blk]. now apply (XL p).
    + intros p p' r Hp Hp' Hr HE. apply EI in HE; [|now apply xor_blk | now apply xor_blk]. now apply (XR p p' r).
  - rewrite !(answer_cfb a key iv _ Hk Hi) by (apply (pieces_concat n), (whole_pieces n _ Hn), HF; assumption). fold n. rewrite ER, !(blocks_whole n (u ++ _ :: w) Hn) by (apply HF; assumption). rewrite !cfb_enc_run. set (F := fun p r => bxor p (spec_E a key r)).
    assert (FB : forall p r, blk n p -> blk n r -> blk n (F p r)) by (intros p r Hp Hr; apply xor_blk; [exact Hp | now apply EB]). rewrite !blocks_whole; [| exact Hn | apply run_blks; auto | exact Hn | apply run_blks; auto]. apply (differ_msg n (List.length R) F Hz FB); try assumption; try reflexivity.
    + intros p r r' Hp Hr Hr' HE. apply XL in HE; [|exact Hp | now apply EB | now apply EB]. now apply EI.
    + intros p p' r Hp Hp' Hr HE. apply XR in HE; [exact HE | assumption | assumption | now apply EB].
Qed.
