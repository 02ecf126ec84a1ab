(** * Properties of the programs of the documentation, continued: C133, C134 *)
From Coq Require Import ZArith Lia.
From Verif Require Import PyBase PyFacts PyState PyLoop Utils UtilsFacts CipherObj Modes Mac SpecModes SpecNew CipherLemmas CipherObjFacts ModeFacts CtrFacts ModeSpecFacts ModeLemmas ModeSem ModeConf ModeProps ModeEmpty ModeSim ModeNew ModeHist ModeMore ModePad ModeClear ModeTrack ModeExamples ModeExamples2 PropModes PropModes2 SigArith Programs ProgramFacts.
Open Scope string_scope.
Open Scope list_scope.
Open Scope Z_scope.

(** ** A file through a mode object *)
Lemma each_cipher f ps : forall o out,
  match calls_joined f ps o with
  | (Ok ct, o') => each (cipher_step f) ps (o, out) = (Ok tt, (o', out ++ ct))
  | (Err e, _) => exists s, each (cipher_step f) ps (o, out) = (Err e, s)
  end.
Proof.
  induction ps as [|p ps IH]; intros o out; [cbn; now rewrite app_nil_r|]. destruct ps as [|q ps].
  - cbn [calls_joined each]. unfold bindM, cipher_step. destruct (f (VBytes p) o) as [[ct|e] o']; [reflexivity | eexists; reflexivity].
  - change (calls_joined f (p :: q :: ps) o) with ((let! x := f (VBytes p) in let! y := calls_joined f (q :: ps) in retM (x ++ y)) o).
    change (each (cipher_step f) (p :: q :: ps) (o, out)) with ((let! _ := cipher_step f p in each (cipher_step f) (q :: ps)) (o, out)).
    unfold bindM, cipher_step at 1 3. destruct (f (VBytes p) o) as [[x|e] o1]; [|eexists; reflexivity]. specialize (IH o1 (out ++ x)).
    destruct (calls_joined f (q :: ps) o1) as [[y|e] o2]; [|exact IH]. unfold retM. rewrite IH, <- app_assoc. reflexivity.
Qed.
Lemma cipher_file_calls f algorithm key mode kw n file o : 0 < n -> new algorithm key mode kw = Ok (NewMode o) ->
  eventually (fun fuel => cipher_file f fuel algorithm key mode kw n file) (liftO (result (calls_joined f (blocks (Z.to_nat n) file) o))).
Proof.
  intros Hn HN. destruct (read_file_ends n (cipher_step f) file (o, []) Hn) as [f0 HF]. exists f0. intros g L. unfold cipher_file. rewrite HN, HF by exact L.
  pose proof (each_cipher f (blocks (Z.to_nat n) file) o []) as HE. unfold result. destruct (calls_joined f (blocks (Z.to_nat n) file) o) as [[ct|e] o'].
  - rewrite HE. reflexivity.
  - destruct HE as [s ->]. reflexivity.
Qed.
Lemma pieces_whole a n file : 0 < n -> n mod Z.of_nat (bsize a) = 0 -> whole_but_last (Z.of_nat (bsize a)) (blocks (Z.to_nat n) file).
Proof.
  intros Hn M. destruct (blocks_pieces (Z.to_nat n) file ltac:(lia)) as [_ H]. unfold whole_but_last. eapply Forall_impl; [|exact H]. cbn beta. intros b E. unfold len. rewrite E, Z2Nat.id by lia. exact M.
Qed.
Lemma pieces_some n file : 0 < n -> file <> [] -> blocks (Z.to_nat n) file <> [].
Proof. intros Hn Hf E. apply Hf. apply (blocks_nil (Z.to_nat n)); [lia | exact E]. Qed.

(** C134: the program gives what one call on the whole file gives. *)
Theorem C134_encrypt_file : forall a key cl kw o n file, bytes_ok key -> kw_ok kw -> new (alg a) (VBytes key) (VInt (mode_code cl)) kw = Ok (NewMode o) ->
  0 < n -> n mod Z.of_nat (bsize a) = 0 -> bytes_ok file -> file <> [] -> (cl = ECB \/ cl = CBC -> pad_arg kw = VInt PAD_MODE_1) ->
  eventually (fun fuel => cipher_file encrypt fuel (alg a) (VBytes key) (VInt (mode_code cl)) kw n file) (liftO (result (encrypt (VBytes file) o))).
Proof.
  intros a key cl kw o n file Hk Hkw HN Hn M Hf Hne Hp. pose proof (cipher_file_calls encrypt _ _ _ kw n file o Hn HN) as H.
  rewrite (chunks_encrypt a key cl kw o) in H; auto using object_fresh, pieces_whole, pieces_some.
  - rewrite concat_blocks in H by lia. exact H.
  - apply blocks_bytes; [lia | exact Hf].
  - intros C. split; [exact (Hp C)|]. apply blocks_pieces. lia.
Qed.
Print Assumptions C134_encrypt_file.
Theorem C134_decrypt_file : forall a key cl kw o n file, bytes_ok key -> kw_ok kw -> new (alg a) (VBytes key) (VInt (mode_code cl)) kw = Ok (NewMode o) ->
  0 < n -> n mod Z.of_nat (bsize a) = 0 -> bytes_ok file -> file <> [] ->
  eventually (fun fuel => cipher_file decrypt fuel (alg a) (VBytes key) (VInt (mode_code cl)) kw n file) (liftO (result (decrypt (VBytes file) o))).
Proof.
  intros a key cl kw o n file Hk Hkw HN Hn M Hf Hne. pose proof (cipher_file_calls decrypt _ _ _ kw n file o Hn HN) as H.
  rewrite (chunks_decrypt a key cl kw o) in H; auto using object_fresh, pieces_whole, pieces_some.
  - rewrite concat_blocks in H by lia. exact H.
  - apply blocks_bytes; [lia | exact Hf].
Qed.
Print Assumptions C134_decrypt_file.

Lemma works_bytes a key cl kw o m : bytes_ok key -> kw_ok kw -> object_of a key cl kw o -> bytes_ok m ->
  cl = ECB \/ cl = CTR \/ iv_arg a cl kw <> VBytes [] -> exists ct o1, encrypt (VBytes m) o = (Ok ct, o1) /\ bytes_ok ct.
Proof.
  intros Hk Hkw HO Hm Hcl. destruct (object_facts a key cl kw o Hk Hkw HO) as (V & Ecl & Ha & Hpad & _).
  destruct V as [Hc V]. 
  assert (HIV : cl = CBC \/ cl = CFB \/ cl = OFB -> exists R, reg o R).
  { intros H. apply (object_iv a key cl kw); auto. destruct Hcl as [-> |[-> |H']]; [| |exact H']; destruct H as [H|[H|H]]; discriminate. }
  rewrite Ecl in V. destruct cl.
  - destruct V as [p Hp]. destruct (rt_ecb o Hc p m Ecl Hp Hm) as (ct & H1 & B & _). eauto.
  - destruct V as [[p Hp] _]. destruct HIV as [R HR]; [tauto|]. destruct (rt_cbc o Hc R p m Ecl Hp HR Hm) as (ct & o1 & o2 & H1 & B & _). eauto.
  - destruct HIV as [R HR]; [tauto|]. destruct (rt_cfb o Hc R m Ecl HR Hm) as (ct & o1 & o2 & H1 & B & H2). eauto 8.
  - destruct HIV as [R HR]; [tauto|]. destruct (rt_ofb o Hc R m Ecl HR Hm) as (ct & o1 & o2 & H1 & B & H2). eauto 8.
  - destruct (rt_ctr o Hc m Ecl V Hm) as (ct & o1 & o2 & H1 & B & H2). eauto 8.
Qed.
Lemma decrypt_nothing a key cl kw o : bytes_ok key -> kw_ok kw -> object_of a key cl kw o -> cl = ECB \/ cl = CTR \/ iv_arg a cl kw <> VBytes [] ->
  exists o1, decrypt (VBytes []) o = (Ok [], o1).
Proof.
  intros Hk Hkw HO Hcl. destruct (object_facts a key cl kw o Hk Hkw HO) as (V & Ecl & Ha & Hpad & _).
  assert (C : (exists p, pad_object a key p o) \/ stream_object a key o).
  { destruct V as [_ V]. rewrite Ecl in V. destruct cl.
    - left. destruct V as [p Hp]. exists p, ECB, kw. rewrite <- Hp. auto 6.
    - left. destruct V as [[p Hp] _]. exists p, CBC, kw. rewrite <- Hp. repeat (split; [assumption|]). right. split; [reflexivity|]. destruct Hcl as [H|[H|H]]; try discriminate; exact H.
    - right. exists CFB, kw. repeat (split; [assumption|]). right. split; [auto|]. destruct Hcl as [H|[H|H]]; try discriminate; exact H.
    - right. exists OFB, kw. repeat (split; [assumption|]). right. split; [auto|]. destruct Hcl as [H|[H|H]]; try discriminate; exact H.
    - right. exists CTR, kw. auto 6. }
  destruct C as [[p C]|C].
  - destruct (decrypt_length_pad a key p o [] C ltac:(constructor)) as (pt & o1 & E & L). exists o1. rewrite E. cbn [length] in L. rewrite Nat.div_0_l in L by (destruct a; discriminate). destruct pt; [reflexivity | discriminate L].
  - destruct (stream_length a key o [] C ltac:(constructor)) as (_ & pt & o1 & E & L). exists o1. rewrite E. destruct pt; [reflexivity | discriminate L].
Qed.
(** The file comes back, whatever the two sizes of the buffer. *)
Theorem C134_round_trip : forall a key cl kw n n' file, bytes_ok key -> kw_ok kw -> (exists o, new (alg a) (VBytes key) (VInt (mode_code cl)) kw = Ok (NewMode o)) ->
  0 < n -> n mod Z.of_nat (bsize a) = 0 -> 0 < n' -> n' mod Z.of_nat (bsize a) = 0 -> bytes_ok file -> file <> [] ->
  (cl = ECB \/ cl = CBC -> pad_arg kw = VInt PAD_MODE_1) -> cl = ECB \/ cl = CTR \/ iv_arg a cl kw <> VBytes [] ->
  exists ct pt, eventually (fun fuel => cipher_file encrypt fuel (alg a) (VBytes key) (VInt (mode_code cl)) kw n file) (Returns ct) /\
    eventually (fun fuel => cipher_file decrypt fuel (alg a) (VBytes key) (VInt (mode_code cl)) kw n' ct) (Returns pt) /\
    pt = match cl with ECB | CBC => padded P1 (bsize a) file | _ => file end.
Proof.
  intros a key cl kw n n' file Hk Hkw [o HN] Hn M Hn' M' Hf Hne Hp Hcl. pose proof (object_fresh _ _ _ _ _ HN) as HO.
  destruct (iv_works a key cl kw o file Hk Hkw HO Hf Hcl) as (ct & pt & o1 & o2 & E & D & R). destruct (works_bytes a key cl kw o file Hk Hkw HO Hf Hcl) as (ct' & o1' & E' & B). rewrite E in E'. injection E' as <- <-.
  assert (RP : pt = match cl with ECB | CBC => padded P1 (bsize a) file | _ => file end).
  { destruct cl; cbn [recovered] in R; [destruct R as (p & Ep & ->); rewrite Hp in Ep by auto | destruct R as (p & Ep & ->); rewrite Hp in Ep by auto | exact R | exact R | exact R]; destruct p; try discriminate Ep; reflexivity. }
  exists ct, pt. split; [|split; [|exact RP]].
  - pose proof (C134_encrypt_file a key cl kw o n file Hk Hkw HN Hn M Hf Hne Hp) as H. rewrite E in H. exact H.
  - destruct ct as [|x ct].
    + destruct (decrypt_nothing a key cl kw o Hk Hkw HO Hcl) as [o3 E3]. rewrite E3 in D. injection D as <- _. pose proof (cipher_file_calls decrypt _ _ _ kw n' [] o Hn' HN) as H. exact H.
    + pose proof (C134_decrypt_file a key cl kw o n' (x :: ct) Hk Hkw HN Hn' M' B ltac:(discriminate)) as H. rewrite D in H. exact H.
Qed.
Print Assumptions C134_round_trip.

(** With the second padding mode every piece is padded, so the output is not what one call gives. *)
Lemma new_pad_object a key cl kw o p : bytes_ok key -> kw_ok kw -> object_of a key cl kw o -> cl = ECB \/ cl = CBC /\ iv_arg a CBC kw <> VBytes [] -> pad_arg kw = VInt (pad_code p) -> pad_object a key p o.
Proof. intros Hk Hkw HO Hcl Hp. exists cl, kw. auto 6. Qed.
Lemma length_pieces a key p ps : forall o, pad_object a key p o -> Forall bytes_ok ps ->
  exists ct o', calls_joined encrypt ps o = (Ok ct, o') /\ bytes_ok ct /\ length ct = list_sum (map (fun m => whole_length (bsize a) m + match p with P1 => 0 | P2 => bsize a end)%nat ps).
Proof.
  assert (ST : forall o m, pad_object a key p o -> bytes_ok m -> exists ct o', encrypt (VBytes m) o = (Ok ct, o') /\ bytes_ok ct /\ length ct = (whole_length (bsize a) m + match p with P1 => 0 | P2 => bsize a end)%nat /\ pad_object a key p o').
  { intros o m HO Hm. destruct (encrypt_length_pad a key p o m HO Hm) as (ct & o1 & E & L). exists ct, o1. split; [exact E|]. destruct HO as (cl & kw & Hk & Hkw & HO & Hp & Hcl). split; [|split; [exact L|]].
    - destruct (works_bytes a key cl kw o m Hk Hkw HO Hm) as (ct' & o1' & E' & B); [destruct Hcl as [-> |[-> H]]; auto|]. rewrite E in E'. injection E' as <- _. exact B.
    - exists cl, kw. repeat (split; [assumption|]). split; [|auto]. pose proof (object_step a key cl kw o (Encrypt (VBytes m)) Hm HO) as H. cbn [step] in H. rewrite E in H. exact H. }
  induction ps as [|m ps IH]; intros o HO HF; [exists [], o; repeat split; constructor|]. inversion HF as [|? ? Hm HF']; subst. destruct (ST o m HO Hm) as (c1 & o1 & E1 & B1 & L1 & HO1). destruct ps as [|q ps].
  - exists c1, o1. cbn [calls_joined map list_sum fold_right]. split; [exact E1|]. split; [exact B1|]. rewrite L1. cbn. lia.
  - destruct (IH o1 HO1 HF') as (c2 & o2 & E2 & B2 & L2). exists (c1 ++ c2), o2. split; [|split].
    + change (calls_joined encrypt (m :: q :: ps) o) with ((let! x := encrypt (VBytes m) in let! y := calls_joined encrypt (q :: ps) in retM (x ++ y)) o). unfold bindM. rewrite E1, E2. reflexivity.
    + apply bytes_ok_app. auto.
    + rewrite app_length, L1, L2. reflexivity.
Qed.
Lemma whole_length_app n a b : (0 < n)%nat -> (length a mod n = 0)%nat -> a <> [] -> b <> [] -> whole_length n (a ++ b) = (length a + whole_length n b)%nat.
Proof.
  intros Hn Ha Na Nb. apply Nat.mod_divides in Ha as [k Hk]; [|lia]. unfold whole_length. destruct (a ++ b) as [|x l] eqn:E; [destruct a; [contradiction | discriminate]|]. rewrite <- E. destruct b as [|y b]; [contradiction|].
  rewrite app_length, Hk. replace (n * k + length (y :: b) + n - 1)%nat with (length (y :: b) + n - 1 + k * n)%nat by (cbn [length]; lia). rewrite Nat.div_add by lia. lia.
Qed.
Lemma sum_pieces a q n file : 0 < n -> n mod Z.of_nat (bsize a) = 0 -> file <> [] ->
  list_sum (map (fun m => whole_length (bsize a) m + q)%nat (blocks (Z.to_nat n) file)) = (whole_length (bsize a) file + length (blocks (Z.to_nat n) file) * q)%nat.
Proof.
  intros Hn M. assert (B : (0 < bsize a)%nat) by (destruct a; cbn; lia). revert file.
  apply (blocks_ind (Z.to_nat n) (fun file => file <> [] -> list_sum (map (fun m => whole_length (bsize a) m + q)%nat (blocks (Z.to_nat n) file)) = (whole_length (bsize a) file + length (blocks (Z.to_nat n) file) * q)%nat) ltac:(lia)); [contradiction|].
  intros l Hl IH _. rewrite blocks_step by (lia || assumption). cbn [map list_sum fold_right length]. destruct (Nat.le_gt_cases (length l) (Z.to_nat n)) as [G|G].
  - rewrite skipn_all2, firstn_all2 by lia. cbn. lia.
  - assert (NS : skipn (Z.to_nat n) l <> []) by (intros E; apply (f_equal (@length Z)) in E; rewrite skipn_length in E; cbn in E; lia). specialize (IH NS). cbv beta in IH.
    assert (NF : firstn (Z.to_nat n) l <> []) by (intros E; apply (f_equal (@length Z)) in E; rewrite firstn_length in E; cbn in E; lia).
    assert (MF : (length (firstn (Z.to_nat n) l) mod bsize a = 0)%nat). { rewrite firstn_length_le by lia. apply Nat2Z.inj. rewrite Nat2Z.inj_mod, Z2Nat.id by lia. exact M. }
    pose proof (whole_length_app (bsize a) _ _ B MF NF NS) as W. rewrite firstn_skipn in W.
    pose proof (whole_length_app (bsize a) _ _ B MF NF NF) as W2.
    assert (WF : whole_length (bsize a) (firstn (Z.to_nat n) l) = length (firstn (Z.to_nat n) l)).
    { apply Nat.mod_divides in MF as [k Hk]; [|lia]. unfold whole_length. destruct (firstn (Z.to_nat n) l) as [|x r] eqn:E; [contradiction|]. rewrite <- E in *. rewrite Hk. replace (bsize a * k + bsize a - 1)%nat with (bsize a - 1 + k * bsize a)%nat by lia. rewrite Nat.div_add, Nat.div_small by lia. lia. }
    unfold list_sum in IH. rewrite IH, W, WF. lia.
Qed.
Theorem C134_padding2_length : forall a key cl kw n file, bytes_ok key -> kw_ok kw -> (exists o, new (alg a) (VBytes key) (VInt (mode_code cl)) kw = Ok (NewMode o)) ->
  0 < n -> n mod Z.of_nat (bsize a) = 0 -> bytes_ok file -> file <> [] -> cl = ECB \/ cl = CBC /\ iv_arg a CBC kw <> VBytes [] -> pad_arg kw = VInt PAD_MODE_2 ->
  exists ct pt, eventually (fun fuel => cipher_file encrypt fuel (alg a) (VBytes key) (VInt (mode_code cl)) kw n file) (Returns ct) /\
    eventually (fun fuel => cipher_file decrypt fuel (alg a) (VBytes key) (VInt (mode_code cl)) kw n ct) (Returns pt) /\
    length ct = length pt /\ length ct = ((length file + bsize a - 1) / bsize a * bsize a + (length file + Z.to_nat n - 1) / Z.to_nat n * bsize a)%nat.
Proof.
  intros a key cl kw n file Hk Hkw [o HN] Hn M Hf Hne Hcl Hp. pose proof (object_fresh _ _ _ _ _ HN) as HO. pose proof (new_pad_object a key cl kw o P2 Hk Hkw HO Hcl Hp) as HP.
  assert (NB : length (blocks (Z.to_nat n) file) = ((length file + Z.to_nat n - 1) / Z.to_nat n)%nat).
  { clear -Hn. revert file. apply (blocks_ind (Z.to_nat n)); [lia | rewrite Nat.div_small; [reflexivity | cbn; lia] |]. intros l Hl IH. rewrite blocks_step by (lia || assumption). cbn [length]. rewrite IH, skipn_length. destruct l as [|x l]; [contradiction|]. cbn [length].
    destruct (Nat.le_gt_cases (S (length l)) (Z.to_nat n)).
    - replace (S (length l) - Z.to_nat n + Z.to_nat n - 1)%nat with (Z.to_nat n - 1)%nat by lia. rewrite Nat.div_small by lia. apply (Nat.div_unique _ _ _ (length l)); lia.
    - replace (S (length l) + Z.to_nat n - 1)%nat with (S (length l) - Z.to_nat n + Z.to_nat n - 1 + 1 * Z.to_nat n)%nat by lia. rewrite Nat.div_add by lia. lia. }
  destruct (length_pieces a key P2 (blocks (Z.to_nat n) file) o HP (blocks_bytes (Z.to_nat n) file ltac:(lia) Hf)) as (ct & o' & E & B & L). rewrite (sum_pieces a (bsize a) n file Hn M Hne), NB in L.
  destruct (decrypt_length_pad a key P2 o ct HP B) as (pt & o2 & D & LD).
  assert (LW : length ct = ((length file + bsize a - 1) / bsize a * bsize a + (length file + Z.to_nat n - 1) / Z.to_nat n * bsize a)%nat) by (rewrite L; unfold whole_length; destruct file; [contradiction | reflexivity]).
  exists ct, pt. split; [|split; [|split; [|exact LW]]].
  - pose proof (cipher_file_calls encrypt _ _ _ kw n file o Hn HN) as H. rewrite E in H. exact H.
  - assert (NC : ct <> []). { intros ->. cbn [length] in LW. assert (B0 : (0 < bsize a)%nat) by (destruct a; cbn; lia). destruct file as [|x file]; [contradiction|]. cbn [length] in LW.
      assert (1 <= (S (length file) + bsize a - 1) / bsize a)%nat by (apply Nat.div_le_lower_bound; lia). nia. }
    pose proof (C134_decrypt_file a key cl kw o n ct Hk Hkw HN Hn M B NC) as H. rewrite D in H. exact H.
  - rewrite LD, LW, <- Nat.mul_add_distr_r, Nat.div_mul by (destruct a; discriminate). reflexivity.
Qed.
Print Assumptions C134_padding2_length.
(** So the claim that the padding is added once is false. *)
Definition padded_once : Prop := forall a key cl kw n file, bytes_ok key -> kw_ok kw -> (exists o, new (alg a) (VBytes key) (VInt (mode_code cl)) kw = Ok (NewMode o)) ->
  0 < n -> n mod Z.of_nat (bsize a) = 0 -> bytes_ok file -> file <> [] -> cl = ECB -> pad_arg kw = VInt PAD_MODE_2 ->
  exists ct, eventually (fun fuel => cipher_file encrypt fuel (alg a) (VBytes key) (VInt (mode_code cl)) kw n file) (Returns ct) /\
    eventually (fun fuel => cipher_file decrypt fuel (alg a) (VBytes key) (VInt (mode_code cl)) kw n ct) (Returns (padded P2 (bsize a) file)).
Theorem C134_padded_once_refuted : ~ padded_once.
Proof.
  intros H. set (kw := example_kw ECB P2). assert (Hkw : kw_ok kw) by apply example_kw_ok. assert (Hm : bytes_ok plain8) by concrete_bytes.
  assert (HN : exists o, new (alg Mag) (VBytes magma_test_key) (VInt (mode_code ECB)) kw = Ok (NewMode o)) by (eexists; apply example_new).
  destruct (H Mag magma_test_key ECB kw 8 plain8 key_bytes Hkw HN ltac:(lia) eq_refl Hm ltac:(discriminate) eq_refl eq_refl) as (ct & E & D).
  destruct (C134_padding2_length Mag magma_test_key ECB kw 8 plain8 key_bytes Hkw HN ltac:(lia) eq_refl Hm ltac:(discriminate) (or_introl eq_refl) eq_refl) as (ct' & pt & E' & D' & L & L').
  pose proof (eventually_unique _ _ _ E E') as X. injection X as <-. pose proof (eventually_unique _ _ _ D D') as X. injection X as <-. rewrite L in L'. vm_compute in L'. discriminate L'.
Qed.
Print Assumptions C134_padded_once_refuted.
Example C134_example : cipher_file encrypt 9 (alg Mag) (VBytes magma_test_key) (VInt MODE_CBC) (example_kw CBC P1) 16 (firstn 20 plain8) = liftO (result (encrypt (VBytes (firstn 20 plain8)) (example_object CBC P1))) /\
  length plain8 = 32%nat.
Proof. vm_compute. split; reflexivity. Qed.

(** ** C133: file encryption in CTR mode *)
Theorem C133_ctr_file : forall a key kw iv n n' file, bytes_len 32 key -> kw_ok kw -> gives_iv kw iv -> bytes_len (ModeLemmas.half a) iv ->
  0 < n -> n mod Z.of_nat (bsize a) = 0 -> 0 < n' -> n' mod Z.of_nat (bsize a) = 0 -> bytes_ok file ->
  exists ct, eventually (fun fuel => cipher_file encrypt fuel (alg a) (VBytes key) (VInt MODE_CTR) kw n file) (Returns ct) /\ length ct = length file /\
    eventually (fun fuel => cipher_file decrypt fuel (alg a) (VBytes key) (VInt MODE_CTR) kw n' ct) (Returns file) /\
    (len file <= 256 * Z.of_nat (bsize a) -> ct = concat (ctr_mode (spec_E a key) (bsize a) iv (blocks (bsize a) file))).
Proof.
  intros a key kw iv n n' file Hk Hkw Hi Hiv Hn M Hn' M' Hf. assert (Hkb : bytes_ok key) by apply Hk. assert (B0 : 0 < Z.of_nat (bsize a)) by (destruct a; cbn; lia).
  destruct (C22_ctr_conforms a key kw iv [] Hk Hi Hiv ltac:(constructor) ltac:(unfold len; cbn [length]; lia)) as (o & HN & _).
  change (VInt MODE_CTR) with (VInt (mode_code CTR)) in HN. pose proof (object_fresh _ _ _ _ _ HN) as HO.
  destruct file as [|x file].
  - exists []. split; [exact (cipher_file_calls encrypt _ _ _ kw n [] o Hn HN)|]. split; [reflexivity|]. split; [exact (cipher_file_calls decrypt _ _ _ kw n' [] o Hn' HN) | reflexivity].
  - destruct (C134_round_trip a key CTR kw n n' (x :: file) Hkb Hkw (ex_intro _ o HN) Hn M Hn' M' Hf ltac:(discriminate)) as (ct & pt & E & D & ->); [intros [H|H]; discriminate | auto |].
    pose proof (C134_encrypt_file a key CTR kw o n (x :: file) Hkb Hkw HN Hn M Hf ltac:(discriminate) ltac:(intros [H|H]; discriminate)) as E1.
    assert (SO : stream_object a key o) by (exists CTR, kw; auto 6). destruct (stream_length a key o (x :: file) SO Hf) as ((ct1 & o1 & E2 & L) & _). rewrite E2 in E1.
    pose proof (eventually_unique _ _ _ E E1) as X. injection X as ->. exists ct1. split; [exact E|]. split; [exact L|]. split; [exact D|]. intros HL.
    destruct (C22_ctr_conforms a key kw iv (x :: file) Hk Hi Hiv Hf HL) as (o' & HN' & R & _). change (VInt MODE_CTR) with (VInt (mode_code CTR)) in HN'. rewrite HN in HN'. injection HN' as <-. rewrite E2 in R. injection R as ->. reflexivity.
Qed.
Print Assumptions C133_ctr_file.
(** Two blocks of the encrypted file show the difference of the two blocks of the file exactly when their positions agree modulo 256. *)
Theorem C133_shown_blocks : forall a key kw iv n file i j, bytes_len 32 key -> kw_ok kw -> gives_iv kw iv -> bytes_len (ModeLemmas.half a) iv ->
  0 < n -> n mod Z.of_nat (bsize a) = 0 -> bytes_ok file -> ((i + 1) * bsize a <= length file)%nat -> ((j + 1) * bsize a <= length file)%nat ->
  exists ct, eventually (fun fuel => cipher_file encrypt fuel (alg a) (VBytes key) (VInt MODE_CTR) kw n file) (Returns ct) /\
    (bxor (nth_block (bsize a) ct i) (nth_block (bsize a) ct j) = bxor (nth_block (bsize a) file i) (nth_block (bsize a) file j) <-> (i mod 256 = j mod 256)%nat).
Proof.
  intros a key kw iv n file i j Hk Hkw Hi Hiv Hn M Hf Li Lj. assert (Hkb : bytes_ok key) by apply Hk. destruct (C23_ctr_keystream_period a key kw iv file i j Hk Hi Hiv Hf Li Lj) as (o & ct & HN & E & HI). exists ct. split; [|exact HI].
  assert (NE : file <> []) by (intros ->; cbn [length] in Li; destruct a; cbn [bsize] in Li; lia).
  pose proof (C134_encrypt_file a key CTR kw o n file Hkb Hkw HN Hn M Hf NE ltac:(intros [H|H]; discriminate)) as H. rewrite E in H. exact H.
Qed.
Print Assumptions C133_shown_blocks.
(** So a file longer than 256 blocks is not protected: the encrypted file shows the difference of two of its blocks. *)
Definition blocks_hidden : Prop := forall a key kw iv n file i j ct, bytes_len 32 key -> kw_ok kw -> gives_iv kw iv -> bytes_len (ModeLemmas.half a) iv ->
  0 < n -> n mod Z.of_nat (bsize a) = 0 -> bytes_ok file -> ((i + 1) * bsize a <= length file)%nat -> ((j + 1) * bsize a <= length file)%nat -> i <> j ->
  eventually (fun fuel => cipher_file encrypt fuel (alg a) (VBytes key) (VInt MODE_CTR) kw n file) (Returns ct) ->
  bxor (nth_block (bsize a) ct i) (nth_block (bsize a) ct j) <> bxor (nth_block (bsize a) file i) (nth_block (bsize a) file j).
Lemma zero_bytes k : bytes_ok (repeat 0 k).
Proof. apply Forall_forall. intros x Hx. apply repeat_spec in Hx. subst x. unfold byte_ok. lia. Qed.
Theorem C133_blocks_hidden_refuted : ~ blocks_hidden.
Proof.
  intros H. assert (HI : gives_iv (with_iv (firstn 4 iv24) P1) (firstn 4 iv24)) by reflexivity. assert (HB : bytes_len (ModeLemmas.half Mag) (firstn 4 iv24)) by concrete_bytes.
  assert (Hkw : kw_ok (with_iv (firstn 4 iv24) P1)) by (apply with_iv_ok; concrete_bytes).
  assert (L1 : ((0 + 1) * bsize Mag <= length (repeat 0%Z 2056))%nat) by (rewrite repeat_length; cbn; lia). assert (L2 : ((256 + 1) * bsize Mag <= length (repeat 0%Z 2056))%nat) by (rewrite repeat_length; cbn; lia).
  destruct (C133_shown_blocks Mag magma_test_key _ _ 128 (repeat 0 2056) 0 256 key_ok Hkw HI HB ltac:(lia) eq_refl (zero_bytes 2056) L1 L2) as (ct & E & HE).
  apply (H Mag magma_test_key _ _ 128 (repeat 0 2056) 0%nat 256%nat ct key_ok Hkw HI HB ltac:(lia) eq_refl (zero_bytes 2056) L1 L2 ltac:(discriminate) E). apply HE. reflexivity.
Qed.
Print Assumptions C133_blocks_hidden_refuted.
Example C133_example : match cipher_file encrypt 9 (alg Mag) (VBytes magma_test_key) (VInt MODE_CTR) (example_kw CTR P1) 16 (firstn 20 plain8) with
  | Returns ct => cipher_file decrypt 9 (alg Mag) (VBytes magma_test_key) (VInt MODE_CTR) (example_kw CTR P1) 8 ct = Returns (firstn 20 plain8) /\ ct <> firstn 20 plain8
  | _ => False
  end.
Proof. vm_compute. split; [reflexivity | discriminate]. Qed.
