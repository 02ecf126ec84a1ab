(** * The gamma of one mode from the answers of another *)
From Verif Require Import PyBase PyFacts PyState Utils UtilsFacts UtilsLemmas CipherObj Modes Mac.
From Verif Require Import SpecModes CipherLemmas CipherObjFacts ModeFacts ModeSpecFacts ModeLemmas ModeConf ModeProps ModeSim CtrFacts ModeReuse ModeMore MacFacts MacLemmas MacProps MacMore ModeCross MacMore2.
Open Scope string_scope.
Open Scope list_scope.
Open Scope Z_scope.

Definition count (n L : nat) : nat := (L / n + if Nat.eqb (L mod n) 0 then 0 else 1)%nat.
Lemma blocks_count n bl t : (0 < n)%nat -> Forall (blk n) bl -> (List.length t < n)%nat -> List.length (bl ++ opt_block t) = count n (List.length (concat bl ++ t)).
Proof.
  intros Hn HF Ht. unfold count. rewrite !app_length, (concat_blk_length n bl HF), Nat.add_comm, (Nat.add_comm (_ * _)), Nat.div_add, Nat.mod_add, Nat.div_small, Nat.mod_small by lia.
  destruct t as [|x t]; cbn [opt_block List.length Nat.eqb]; lia.
Qed.
Lemma zeros_forall n q : Forall (blk n) (repeat (repeat 0 n) q).
Proof. apply Forall_forall. intros x Hx. apply repeat_spec in Hx. subst x. split; [apply zeros_ok | apply repeat_length]. Qed.
Lemma xor_zeros (m : bytes) : bxor m (repeat 0 (List.length m)) = m.
Proof. rewrite xor_comm, zero_xor. apply firstn_all. Qed.

Lemma ofb_is a key iv m : bytes_len 32 key -> iv_blocks a iv -> bytes_ok m ->
  answer a MODE_OFB key iv m = bxor m (concat (ofb_gamma (spec_E a key) (blocks (bsize a) iv) (count (bsize a) (List.length m)))).
Proof.
  intros Hk Hi Hm. rewrite answer_ofb by assumption. destruct (spec_facts a key Hk) as (EB & _). destruct (iv_whole a iv Hi) as (R & EI & -> & Hne & HR).
  set (n := bsize a) in *. assert (Hn : (0 < n)%nat) by (destruct (n_cases a); unfold n; lia). destruct (cut_blk n m Hn Hm) as (bl & t & -> & Em & HF & _ & Ht).
  rewrite (ofb_bytes n (spec_E a key) EB bl t R HF Ht Hne HR), (blocks_count n bl t Hn HF Ht), <- Em. reflexivity.
Qed.
Lemma cfb_gamma a key iv m : bytes_len 32 key -> iv_blocks a iv -> bytes_ok m ->
  answer a MODE_OFB key iv m = bxor m (answer a MODE_CFB key iv (repeat 0 (List.length m))).
Proof.
  intros Hk Hi Hm. rewrite ofb_is by assumption. rewrite answer_cfb; [|exact Hk | exact Hi | apply zeros_ok]. destruct (spec_facts a key Hk) as (EB & _). destruct (iv_whole a iv Hi) as (R & EI & -> & Hne & HR).
  set (n := bsize a) in *. assert (Hn : (0 < n)%nat) by (destruct (n_cases a); unfold n; lia). set (L := List.length m) in *.
  rewrite (zeros_blocks n L Hn), (cfb_zeros n (spec_E a key) EB) by assumption.
  assert (Ht : (List.length (repeat 0%Z (L mod n)) < n)%nat) by (rewrite repeat_length; apply Nat.mod_upper_bound; lia).
  rewrite (ofb_bytes n (spec_E a key) EB _ _ R (zeros_forall n _) Ht Hne HR), (blocks_count n _ _ Hn (zeros_forall n _) Ht).
  assert (EZ : concat (repeat (repeat 0 n) (L / n)) ++ repeat 0 (L mod n) = repeat 0 L).
  { assert (G : forall q, concat (repeat (repeat 0 n) q) = repeat 0 (q * n)) by (induction q as [|q IH]; [reflexivity|]; cbn [repeat concat Nat.mul]; rewrite IH, repeat_app; reflexivity).
    rewrite G, <- repeat_app. f_equal. rewrite (Nat.div_mod L n) at 3 by lia. lia. }
  rewrite EZ, repeat_length, bxor_assoc. unfold L at 3. rewrite xor_zeros. reflexivity.
Qed.
Lemma cbc_gamma a key iv m : bytes_len 32 key -> iv_blocks a iv -> bytes_ok m ->
  answer a MODE_OFB key iv m = bxor m (answer a MODE_CBC key iv (repeat 0 (List.length m))).
Proof.
  intros Hk Hi Hm. destruct m as [|x m0]; [rewrite ofb_is by assumption; reflexivity|]. set (m := x :: m0) in *. assert (Hpos : (0 < List.length m)%nat) by (cbn; lia). clearbody m. clear x m0.
  rewrite ofb_is by assumption. rewrite answer_cbc; [|exact Hk | exact Hi | apply zeros_ok]. destruct (spec_facts a key Hk) as (EB & _). destruct (iv_whole a iv Hi) as (R & EI & -> & Hne & HR).
  set (n := bsize a) in *. assert (Hn : (0 < n)%nat) by (destruct (n_cases a); unfold n; lia). set (L := List.length m) in *.
  assert (EP : padded P1 n (repeat 0 L) = repeat 0 (count n L * n)).
  { unfold padded, padding, pad_zeros. destruct (repeat 0 L) as [|z r] eqn:E0; [exfalso; apply (f_equal (@List.length Z)) in E0; rewrite repeat_length in E0; cbn in E0; lia|]. rewrite <- E0, repeat_length, <- repeat_app. f_equal. unfold count.
    pose proof (Nat.div_mod L n ltac:(lia)) as HD. pose proof (Nat.mod_upper_bound L n ltac:(lia)) as HB. destruct (Nat.eqb_spec (L mod n) 0) as [H0|H0].
    - rewrite H0, Nat.sub_0_r, Nat.mod_same by lia. rewrite HD at 1. rewrite H0. lia.
    - rewrite Nat.mod_small by lia. rewrite HD at 1. lia. }
  rewrite EP, (zeros_blocks n _ Hn), Nat.div_mul, Nat.mod_mul by lia. cbn [repeat opt_block]. rewrite app_nil_r, (cbc_zeros n (spec_E a key) EB) by assumption.
  assert (Ht : (List.length (@nil Z) < n)%nat) by (cbn; lia). pose proof (ofb_bytes n (spec_E a key) EB (repeat (repeat 0 n) (count n L)) [] R (zeros_forall n _) Ht Hne HR) as HO.
  cbn [opt_block] in HO. rewrite !app_nil_r in HO. rewrite HO, repeat_length. clear HO.
  assert (G : forall q, concat (repeat (repeat 0 n) q) = repeat 0 (q * n)) by (induction q as [|q IH]; [reflexivity|]; cbn [repeat concat Nat.mul]; rewrite IH, repeat_app; reflexivity).
  rewrite G, bxor_assoc. assert (HL : (L <= count n L * n)%nat). { unfold count. pose proof (Nat.div_mod L n ltac:(lia)). pose proof (Nat.mod_upper_bound L n ltac:(lia)). destruct (Nat.eqb_spec (L mod n) 0); nia. }
  replace (bxor m (repeat 0 (count n L * n))) with m; [reflexivity|]. replace (count n L * n)%nat with (L + (count n L * n - L))%nat by lia. rewrite repeat_app, bxor_app_l by (rewrite repeat_length; unfold L; lia). unfold L. symmetry. apply xor_zeros.
Qed.

(** The first block. *)
Lemma first_cfb a key iv m : bytes_len 32 key -> iv_blocks a iv -> bytes_ok m -> (List.length m <= bsize a)%nat -> answer a MODE_CFB key iv m = answer a MODE_OFB key iv m.
Proof.
  intros Hk Hi Hm HL. rewrite answer_ofb, answer_cfb by assumption. f_equal. assert (HB : blocks (bsize a) m = opt_block m).
  { assert (Hn : (0 < bsize a)%nat) by (destruct (n_cases a); lia). destruct (Nat.eq_dec (List.length m) (bsize a)) as [HE|HE].
    - rewrite <- (app_nil_r m) at 1. change (m ++ []) with (concat [m]). rewrite blocks_whole; [|exact Hn | constructor; [split; assumption | constructor]]. destruct m; [cbn in HE; lia | reflexivity].
    - pose proof (blocks_cut (Z.of_nat (bsize a)) m [] m ltac:(lia)) as H. rewrite Nat2Z.id in H. apply H. split; [reflexivity|]. split; [constructor | unfold len; lia]. }
  rewrite HB. destruct m; reflexivity.
Qed.
Lemma answer_ctr a key h m : bytes_len 32 key -> bytes_len (half a) h -> bytes_ok m -> len m <= 256 * Z.of_nat (bsize a) ->
  answer a MODE_CTR key h m = concat (ctr_mode (spec_E a key) (bsize a) h (blocks (bsize a) m)).
Proof. intros Hk Hi Hm HL. destruct (conforms_ctr a key (with_iv h) h m Hk eq_refl Hi Hm HL) as (o & HO & E & _). unfold answer. now rewrite HO, E. Qed.
Lemma first_ctr a key h m : bytes_len 32 key -> bytes_len (half a) h -> bytes_ok m -> (List.length m <= bsize a)%nat ->
  answer a MODE_CTR key h m = answer a MODE_OFB key (h ++ repeat 0 (bsize a / 2)) m.
Proof.
  intros Hk [Hl Hh] Hm HL. assert (Hn : (0 < bsize a)%nat) by (destruct (n_cases a); lia).
  assert (HV : blk (bsize a) (h ++ repeat 0 (bsize a / 2))). { split; [apply Forall_app; split; [exact Hh | apply zeros_ok]|]. rewrite app_length, repeat_length. unfold len in Hl. destruct a; cbn in *; lia. }
  assert (Hi : iv_blocks a (h ++ repeat 0 (bsize a / 2))). { split; [apply HV|]. split; [intros H0; rewrite H0 in HV; destruct HV as [_ HV]; cbn in HV; lia|]. unfold len. rewrite (proj2 HV). apply Z.mod_same. lia. }
  rewrite answer_ofb; [|exact Hk | exact Hi | exact Hm]. rewrite answer_ctr; [|exact Hk | split; assumption | exact Hm | unfold len; lia]. f_equal. assert (HB : blocks (bsize a) m = opt_block m).
  { destruct (Nat.eq_dec (List.length m) (bsize a)) as [HE|HE].
    - rewrite <- (app_nil_r m) at 1. change (m ++ []) with (concat [m]). rewrite blocks_whole; [|exact Hn | constructor; [split; assumption | constructor]]. destruct m; [cbn in HE; lia | reflexivity].
    - pose proof (blocks_cut (Z.of_nat (bsize a)) m [] m ltac:(lia)) as H. rewrite Nat2Z.id in H. apply H. split; [reflexivity|]. split; [constructor | unfold len; lia]. }
  rewrite HB. rewrite <- (ctr_run_spec a key h) by (solve [split; assumption] || (destruct m; cbn; lia)).
  assert (HR : blocks (bsize a) (h ++ repeat 0 (bsize a / 2)) = [h ++ repeat 0 (bsize a / 2)]). { rewrite <- (blocks_whole (bsize a) [h ++ repeat 0 (bsize a / 2)] Hn) by (constructor; [exact HV | constructor]). cbn [concat]. now rewrite app_nil_r. }
  rewrite HR. destruct m as [|x m]; [reflexivity|]. cbn [opt_block].
  assert (HE : h ++ py_repeat 0 (half a) = h ++ repeat 0 (bsize a / 2)) by (destruct a; reflexivity). rewrite HE, ctr_run_cons, ctr_next_0; [|intros H0; rewrite H0 in HV; destruct HV as [_ HV]; cbn in HV; lia | apply HV]. reflexivity.
Qed.
Lemma own_gamma_read a key iv m : bytes_len 32 key -> iv_blocks a iv -> bytes_ok m ->
  let c := answer a MODE_OFB key iv m in bxor c (answer a MODE_CBC key iv (repeat 0 (List.length c))) = m.
Proof.
  intros Hk Hi Hm c. assert (HC : c = bxor m (answer a MODE_CBC key iv (repeat 0 (List.length m)))) by (apply cbc_gamma; assumption).
  assert (HL : List.length c = List.length m).
  { unfold c. rewrite answer_ofb by assumption. destruct (spec_facts a key Hk) as (EB & _). destruct (iv_whole a iv Hi) as (R & EI & -> & Hne & HR).
    set (n := bsize a) in *. assert (Hn : (0 < n)%nat) by (destruct (n_cases a); unfold n; lia). destruct (cut_blk n m Hn Hm) as (bl & t & -> & Em & HF & _ & Ht).
    rewrite Em. clear Em EI Hi Hm HC c iv. revert R Hne HR. induction HF as [|b bl [_ Hb] HF IH]; intros R Hne HR; assert (Hh := EB _ (hd_forall _ R Hne HR)).
    - unfold ofb. destruct t as [|x t]; [reflexivity|]. cbn [app opt_block List.length ofb_gamma combine map fst snd concat]. rewrite app_nil_r. unfold bxor. rewrite map_length, combine_length, (proj2 Hh). cbn [List.length] in *. lia.
    - specialize (IH (tl R ++ [spec_E a key (hd [] R)]) (tl_snoc_ne _ _) (tl_snoc_forall _ R _ HR Hh)). unfold ofb in *. cbn [app List.length ofb_gamma combine map fst snd concat]. rewrite !app_length in *. rewrite IH. unfold bxor. rewrite map_length, combine_length, (proj2 Hh), Hb. lia. }
  rewrite HL. rewrite HC at 1. apply bxor_cancel. rewrite HC in HL. unfold bxor in HL. rewrite map_length, combine_length in HL. lia.
Qed.
