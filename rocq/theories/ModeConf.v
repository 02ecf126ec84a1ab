(** * The modes conform to the standard *)
From Verif Require Import PyBase PyFacts PyState Utils UtilsFacts CipherObj Modes Mac.
From Verif Require Import SpecModes CipherLemmas CipherObjFacts ModeFacts CtrFacts ModeSpecFacts ModeLemmas ModeSem.

Section Conf.
  Variables (a : balg) (key : bytes) (c : cipher_obj).
  Hypothesis Hm : made a key c.
  Let Hc : co_ok c := proj1 Hm.
  Let agreeE b (H : block c b) : oE c b = spec_E a key b := proj1 (proj2 (proj2 Hm) b H).
  Let agreeD b (H : block c b) : oD c b = spec_D a key b := proj2 (proj2 (proj2 Hm) b H).
  Let stays b (H : block c b) : block c (oE c b) := oE_block c b Hc H.

  Lemma conf_ecb_enc bl : Forall (block c) bl -> ecb_enc (oE c) bl = ecb_enc (spec_E a key) bl.
  Proof. intros HF. unfold ecb_enc. apply map_ext_in. intros b Hb. apply agreeE. rewrite Forall_forall in HF; auto. Qed.
  Lemma conf_ecb_dec bl : Forall (block c) bl -> ecb_dec (oD c) bl = ecb_dec (spec_D a key) bl.
  Proof. intros HF. unfold ecb_dec. apply map_ext_in. intros b Hb. apply agreeD. rewrite Forall_forall in HF; auto. Qed.
  Lemma conf_cbc_enc R bl : R <> [] -> Forall (block c) R -> Forall (block c) bl ->
    cbc_enc (oE c) R bl = cbc_enc (spec_E a key) R bl.
  Proof. apply cbc_enc_ext; auto using bxor_block. Qed.
  Lemma conf_cbc_dec R bl : Forall (block c) bl -> cbc_dec (oD c) R bl = cbc_dec (spec_D a key) R bl.
  Proof. apply cbc_dec_ext; auto. Qed.
  Lemma conf_cfb_enc R m : R <> [] -> Forall (block c) R -> bytes_ok m ->
    cfb_enc (oE c) R (blocks (nbs c) m) = cfb_enc (spec_E a key) R (blocks (nbs c) m).
  Proof.
    intros Hne HR Hok. destruct (data_cut c m Hok) as (bl & t & _ & HF & _ & _ & _ & ->).
    now apply (cfb_enc_ext (block c)); auto using bxor_block.
  Qed.
  Lemma conf_cfb_dec R m : R <> [] -> Forall (block c) R -> bytes_ok m ->
    cfb_dec (oE c) R (blocks (nbs c) m) = cfb_dec (spec_E a key) R (blocks (nbs c) m).
  Proof.
    intros Hne HR Hok. destruct (data_cut c m Hok) as (bl & t & _ & HF & _ & _ & _ & ->).
    now apply (cfb_dec_ext (block c)); auto using bxor_block.
  Qed.
  Lemma conf_ofb R m : R <> [] -> Forall (block c) R -> ofb (oE c) R m = ofb (spec_E a key) R m.
  Proof. intros Hne HR. now apply (ofb_ext (block c)); auto using bxor_block. Qed.
  Lemma conf_ctr_run ctr j ps : block c ctr -> ctr_run (oE c) ctr j ps = ctr_run (spec_E a key) ctr j ps.
  Proof. intros Hctr. apply (ctr_run_ext (block c)); auto using ctr_next_block. Qed.
End Conf.

(** The counter of the standard, as long as its last byte does not overflow. *)
Lemma ctr_next_spec a iv k : bytes_len (half a) iv -> (k < 256)%nat ->
  ctr_next (iv ++ py_repeat 0 (half a)) k =
  be_bytes (bsize a) ((be_value iv * 256 ^ Z.of_nat (bsize a / 2) + Z.of_nat k) mod 256 ^ Z.of_nat (bsize a)).
Proof.
  intros [Hl Hok] Hk. rewrite be_bytes_eq, be_value_eq.
  assert (Hh : Z.of_nat (bsize a / 2) = half a) by now destruct a. rewrite Hh.
  assert (Hn : Z.of_nat (bsize a) = half a + half a) by now destruct a.
  rewrite int_to_bytearray_mod by lia.
  assert (Hp : exists h, half a = h + 1 /\ 0 <= h) by (destruct a; [exists 7 | exists 3]; cbn; lia).
  destruct Hp as (h & Eh & Hh0).
  assert (EC : iv ++ py_repeat 0 (half a) = (iv ++ py_repeat 0 h) ++ [0]).
  { rewrite <- app_assoc. f_equal. rewrite Eh. unfold py_repeat. replace (Z.to_nat (h + 1)) with (S (Z.to_nat h)) by lia.
    apply repeat_snoc. }
  rewrite EC. unfold ctr_next. rewrite removelast_last, last_last. rewrite Z.add_0_l, Z.mod_small by lia.
  set (l := (iv ++ py_repeat 0 h) ++ [Z.of_nat k]).
  assert (Hlen : len l = Z.of_nat (bsize a)) by (unfold l; rewrite !len_app, len_repeat; change (len [Z.of_nat k]) with 1; lia).
  assert (Hlok : bytes_ok l).
  { unfold l. apply bytes_ok_app. split; [apply bytes_ok_app; split; [exact Hok | apply bytes_ok_repeat; unfold byte_ok; lia]|].
    constructor; [unfold byte_ok; lia | constructor]. }
  rewrite <- Hlen. rewrite <- (of_int_to_int l Hlok) at 1. f_equal.
  unfold l. rewrite <- app_assoc, bytearray_to_int_app, len_app, len_repeat. change (len [Z.of_nat k]) with 1.
  replace (Z.max 0 h + 1) with (half a) by lia. f_equal.
  rewrite bytearray_to_int_app. change (bytearray_to_int [Z.of_nat k]) with (0 * 256 + Z.of_nat k).
  replace (bytearray_to_int (py_repeat 0 h)) with 0; [lia|].
  symmetry. apply bytearray_to_int_zero_iff; [apply bytes_ok_repeat; unfold byte_ok; lia|].
  rewrite len_repeat. now replace (Z.max 0 h) with h by lia.
Qed.

Lemma ctr_run_spec a key iv ps : bytes_len (half a) iv -> (List.length ps <= 256)%nat ->
  ctr_run (spec_E a key) (iv ++ py_repeat 0 (half a)) 0 ps = ctr_mode (spec_E a key) (bsize a) iv ps.
Proof.
  intros Hiv Hl. unfold ctr_run, ctr_mode. apply map_ext_in. intros [p k] Hin. cbn [fst snd].
  apply in_combine_r in Hin. apply in_seq in Hin. rewrite ctr_next_spec by (auto; lia). reflexivity.
Qed.

Lemma blocks_length c m : bytes_ok m -> Z.of_nat (List.length (blocks (nbs c) m)) = (len m + bs c - 1) / bs c.
Proof.
  intros Hok. destruct (data_cut c m Hok) as (bl & t & Hcut & _ & _ & _ & _ & ->).
  rewrite app_length. rewrite (cut_len _ _ _ _ Hcut). destruct Hcut as (_ & _ & Ht). pose proof (bs_pos c).
  replace (bs c * len bl + len t + bs c - 1) with (len t + bs c - 1 + len bl * bs c) by lia.
  rewrite Z.div_add by lia. unfold len in *. destruct t as [|x t].
  - cbn [List.length opt_block]. rewrite Z.div_small by lia. lia.
  - cbn [opt_block]. set (L := List.length (x :: t)) in *. assert (0 < Z.of_nat L) by (unfold L; cbn [List.length]; lia).
    replace ((Z.of_nat L + bs c - 1) / bs c) with 1; [cbn [List.length]; lia|]. apply Z.div_unique with (Z.of_nat L - 1); lia.
Qed.
