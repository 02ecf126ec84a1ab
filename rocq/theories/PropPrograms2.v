(** * Properties of the programs of the documentation, continued: C132 *)
From Coq Require Import ZArith Lia.
From Verif Require Import PyBase PyFacts PyState PyLoop Utils UtilsFacts CipherObj Modes Mac SpecModes SpecNew CipherLemmas CipherObjFacts ModeLemmas ModeProps ModeEmpty ModeSim ModeNew ModeHist ModeMore ModePad ModeClear ModeTrack ModeExamples ModeExamples2 MacLemmas MacProps MacProps2 PropModes PropModes2 SigArith Programs ProgramFacts.
Open Scope string_scope.
Open Scope list_scope.
Open Scope Z_scope.

(** ** MAC of a file *)
Definition no_kw : kwargs := {| kw_init_vect := None; kw_pad_mode := None; kw_data := None |}.
(** What is left for the last read is less than a block. *)
Definition short_rest (a : balg) (n : Z) (file : bytes) : bool := (0 <? len file mod n) && (len file mod n <? Z.of_nat (bsize a)).

Lemma mac_each a key n : 0 < n -> n mod Z.of_nat (bsize a) = 0 -> forall file, bytes_ok file -> forall msg m, tracks a key msg m -> len msg mod Z.of_nat (bsize a) = 0 ->
  if short_rest a n file then exists m', each (fun b => mac_update (VBytes b)) (blocks (Z.to_nat n) file) m = (Err IndexError, m')
  else exists m', each (fun b => mac_update (VBytes b)) (blocks (Z.to_nat n) file) m = (Ok tt, m') /\ tracks a key (msg ++ file) m'.
Proof.
  intros Hn M. assert (B : 0 < Z.of_nat (bsize a)) by (destruct a; cbn; lia).
  apply (blocks_ind (Z.to_nat n) (fun file => bytes_ok file -> forall msg m, tracks a key msg m -> len msg mod Z.of_nat (bsize a) = 0 ->
    if short_rest a n file then exists m', each (fun b => mac_update (VBytes b)) (blocks (Z.to_nat n) file) m = (Err IndexError, m')
    else exists m', each (fun b => mac_update (VBytes b)) (blocks (Z.to_nat n) file) m = (Ok tt, m') /\ tracks a key (msg ++ file) m') ltac:(lia)).
  - intros _ msg m HT _. unfold short_rest. change (len (@nil Z)) with 0. rewrite Z.mod_0_l by lia. cbn [Z.ltb Z.compare andb]. exists m. rewrite app_nil_r. split; [reflexivity | exact HT].
  - intros l Hl IH Ok msg m HT Mm. rewrite blocks_step by (lia || assumption). cbn [each]. unfold bindM.
    pose proof Ok as Ok2. rewrite <- (firstn_skipn (Z.to_nat n) l) in Ok2. apply bytes_ok_app in Ok2 as [O1 O2].
    pose proof (tracks_update a key msg m (firstn (Z.to_nat n) l) HT O1) as HU. rewrite Mm in HU. cbn [Z.add] in HU.
    assert (L : len l = Z.of_nat (length l)) by reflexivity. assert (LF : len (firstn (Z.to_nat n) l) = Z.min n (len l)) by (unfold len; rewrite firstn_length; lia).
    assert (LP : 0 < len l) by (destruct l; [contradiction | unfold len; cbn [length]; lia]).
    destruct (Z.le_gt_cases n (len l)) as [G|G].
    + rewrite LF, Z.min_l in HU by lia. assert (NB : Z.of_nat (bsize a) <= n) by (apply Z.divide_pos_le; [exact Hn | apply Z.mod_divide; [lia | exact M]]). rewrite (proj2 (Z.ltb_ge _ _) NB) in HU. destruct HU as (m1 & E1 & T1 & _). rewrite E1.
      assert (M1 : len (msg ++ firstn (Z.to_nat n) l) mod Z.of_nat (bsize a) = 0) by (rewrite len_app, LF, Z.min_l, Z.add_mod, Mm, M by lia; reflexivity).
      specialize (IH O2 _ _ T1 M1). assert (LS : len (skipn (Z.to_nat n) l) mod n = len l mod n) by (replace (len (skipn (Z.to_nat n) l)) with (len l + -1 * n) by (unfold len; rewrite skipn_length; unfold len in *; lia); apply Z.mod_add; lia).
      unfold short_rest in *. rewrite LS in IH. destruct ((0 <? len l mod n) && (len l mod n <? Z.of_nat (bsize a))); [exact IH|]. destruct IH as (m' & E' & T'). exists m'. split; [exact E'|]. rewrite <- app_assoc, firstn_skipn in T'. exact T'.
    + rewrite LF, Z.min_r in HU by lia. unfold short_rest. rewrite Z.mod_small by lia. replace (0 <? len l) with true by lia. cbn [andb]. rewrite firstn_all2 in * by (unfold len in *; lia). rewrite skipn_all2 by (unfold len in *; lia).
      destruct (len l <? Z.of_nat (bsize a)); [rewrite HU; exists m; reflexivity|]. destruct HU as (m1 & E1 & T1 & _). rewrite E1. exists m1. split; [reflexivity | exact T1].
Qed.
(** C132: the program returns the MAC of the file, except when the last read gives less than a block ... *)
Theorem C132_mac_of_file : forall a key n s file, bytes_len 32 key -> 0 < n -> n mod Z.of_nat (bsize a) = 0 -> 0 <= s <= Z.of_nat (bsize a) -> bytes_ok file ->
  eventually (fun fuel => mac_file fuel (alg a) (VBytes key) n s file)
    (if (0 <? len file mod n) && (len file mod n <? Z.of_nat (bsize a)) then Raises IndexError else Returns (firstn (Z.to_nat s) (mac (spec_E a key) (bsize a) file))).
Proof.
  intros a key n s file Hk Hn M Hs Hf. destruct (mac_init_empty a key Hk) as (m & E & T & _). assert (EN : new (alg a) (VBytes key) (VInt MODE_MAC) no_kw = Ok (NewMac m)) by (rewrite new_mac_eq; change (kw_get (kw_data no_kw) (VBytes [])) with (VBytes []); rewrite E; reflexivity).
  destruct (read_file_ends n (fun b => mac_update (VBytes b)) file m Hn) as [f0 HF]. pose proof (mac_each a key n Hn M file Hf [] m T ltac:(apply Z.mod_0_l; destruct a; cbn; lia)) as HE. fold (short_rest a n file).
  exists f0. intros f L. unfold mac_file. fold no_kw. rewrite EN. rewrite HF by exact L. destruct (short_rest a n file).
  - destruct HE as (m' & ->). reflexivity.
  - destruct HE as (m' & -> & T'). cbn [done bindO app] in *. rewrite (tracks_digest a key file m' s T' Hs). reflexivity.
Qed.
Print Assumptions C132_mac_of_file.
(** ... so the claim of the documentation is false. *)
Definition mac_of_every_file : Prop := forall a key n s file, bytes_len 32 key -> 0 < n -> n mod Z.of_nat (bsize a) = 0 -> 0 <= s <= Z.of_nat (bsize a) -> bytes_ok file ->
  eventually (fun fuel => mac_file fuel (alg a) (VBytes key) n s file) (Returns (firstn (Z.to_nat s) (mac (spec_E a key) (bsize a) file))).
Lemma zeros_ok k : bytes_ok (repeat 0 k).
Proof. apply Forall_forall. intros x Hx. apply repeat_spec in Hx. subst x. unfold byte_ok. lia. Qed.
Theorem C132_every_file_refuted : ~ mac_of_every_file.
Proof.
  intros H. assert (Hk : bytes_len 32 (repeat 0 32)) by (split; [reflexivity | apply zeros_ok]). pose proof (H Kuz _ 128 8 (repeat 0 129) Hk ltac:(lia) eq_refl ltac:(cbn; lia) (zeros_ok 129)) as H1.
  pose proof (C132_mac_of_file Kuz _ 128 8 (repeat 0 129) Hk ltac:(lia) eq_refl ltac:(cbn; lia) (zeros_ok 129)) as H2. change ((0 <? len (repeat 0 129) mod 128) && (len (repeat 0 129) mod 128 <? Z.of_nat (bsize Kuz))) with true in H2. cbv iota in H2.
  pose proof (eventually_unique _ _ _ H2 H1) as E. discriminate E.
Qed.
Print Assumptions C132_every_file_refuted.
Example C132_example : mac_file 3 (alg Mag) (VBytes magma_test_key) 16 4 plain8 = Returns (firstn 4 (mac (spec_E Mag magma_test_key) 8 plain8)) /\ mac_file 3 (alg Mag) (VBytes magma_test_key) 16 4 (firstn 17 plain8) = Raises IndexError.
Proof. vm_compute. split; reflexivity. Qed.
