(** * Property C165: an object of the mode CTR is cleared while a thread encrypts with it *)
From Verif Require Import PyBase PyFacts PyState Utils UtilsFacts CipherObj Modes Mac SpecModes CipherLemmas CipherObjFacts ModeSpecFacts ModeFacts CtrFacts ModeLemmas ModeSem ModeMore ModeSim ModeExamples ModeProps MacMore ModeCross ModeCross2 MacKnown Threads ThreadFacts ThreadsModes ThreadModeFacts PropThreads.
From Verif Require Import ThreadsClear ThreadClearFacts ThreadClearFacts2.
Open Scope string_scope.
Open Scope list_scope.
Open Scope Z_scope.

(** C165. In CTR the rest of the message, of any length, is decrypted by anyone who has the ciphertext and the vector: with an object made with any key, cleared after as many blocks. *)
Theorem C165_ctr : forall a key iv m1 m2 o q, bytes_len 32 key -> bytes_len (half a) iv -> in_blocks a m1 -> bytes_ok m2 -> new (alg a) (VBytes key) (VInt MODE_CTR) (with_iv iv) = Ok (NewMode o) -> ctr_clearing q ->
  exists sched c1 c2 q' r o', go sched [p_ctr_encrypt (VBytes (m1 ++ m2)); q] o = ([Ret (c1 ++ c2); q'], o') /\ ended q' = Some r /\ result (encrypt (VBytes m1) o) = Ok c1 /\
    forall key' m0 o3, bytes_len 32 key' -> in_blocks a m0 -> List.length m0 = List.length m1 -> new (alg a) (VBytes key') (VInt MODE_CTR) (with_iv iv) = Ok (NewMode o3) -> result (decrypt (VBytes c2) (snd (clear (snd (encrypt (VBytes m0) o3))))) = Ok m2.
Proof.
  intros a key iv m1 m2 o q Hk Hv Hm1 Hm2 HN HQ. set (ctr := iv ++ py_repeat 0 (half a)).
  assert (New : forall key o, bytes_len 32 key -> new (alg a) (VBytes key) (VInt MODE_CTR) (with_iv iv) = Ok (NewMode o) -> made a key (o_cipher o) /\ block (o_cipher o) ctr /\ o = mk CTR (o_cipher o) 0 iv ctr).
  { intros key0 o0 Hk0 HN0. destruct (new_ctr a key0 (with_iv iv) iv Hk0 eq_refl (proj1 Hv)) as (c & Ec & Hm). rewrite Ec in HN0. injection HN0 as <-. split; [exact Hm|]. split; [exact (ctr_start a key0 c iv Hm Hv) | reflexivity]. }
  destruct (New key o Hk HN) as (HM & Hb & Eo). assert (Hc := proj1 HM). set (c := o_cipher o) in *.
  assert (Whole : forall m, in_blocks a m -> exists bl, m = concat bl /\ Forall (block c) bl /\ blocks (nbs c) m = bl). { intros m Hm. destruct (in_blocks_whole _ _ _ _ HM Hm) as [X Y]. destruct (whole_blocks c m X Y) as (bl & E & F & B & _). exists bl. split; [exact E|]. split; [exact F | exact B]. }
  destruct (Whole m1 Hm1) as (bl1 & E1 & F1 & B1). destruct (data_cut c m2 Hm2) as (bl2 & t & Hcut & F2 & Ht & Hlt & E2 & B2).
  assert (Hcut' : cut (bs c) (concat bl1 ++ concat bl2 ++ t) (bl1 ++ bl2) t). { destruct Hcut as (_ & L & T). split; [now rewrite concat_app, app_assoc|]. split; [|exact T]. apply Forall_app. split; [|exact L]. revert F1. apply Forall_impl. intros b [X _]. exact X. }
  assert (Em : m1 ++ m2 = concat bl1 ++ concat bl2 ++ t) by (rewrite E1; destruct Hcut as (-> & _); reflexivity).
  destruct (clear_is o Hc) as (c' & EC & Hc' & HB & HE). fold c in HB, HE.
  assert (HCw : forall w, clear (set_counter o w) = (Ok tt, set_cipher (set_counter o w) c')). { intros w. unfold clear, bindM, getM, liftM, putM in EC |- *. cbn [o_cipher set_counter]. fold c in EC |- *. destruct (co_clear c) as [c0|e]; [|discriminate EC]. injection EC as EC. now rewrite EC. }
  assert (Ek : o_counter o = ctr) by now rewrite Eo. assert (Ecl : o_class o = CTR) by now rewrite Eo.
  destruct (ctr_between o ctr bl1 bl2 t q c' Hc Hb Ek Hcut' HQ Hc' HB HCw) as (sched & q' & r & o' & G & HR). fold c in G.
  set (k := List.length bl1) in *. set (c1 := concat (ctr_run (oE c) ctr 0 bl1)) in *. set (c2 := concat (ctr_run (oE c') ctr k (bl2 ++ opt_block t))) in *.
  exists sched, c1, c2, q', r, o'. rewrite Em. split; [exact G|]. split; [exact HR|]. split.
  { unfold result. rewrite (sem_ctr_enc o Hc m1 Ecl) by (rewrite ?Ek; first [exact Hb | apply Hm1]). fold c. cbn [fst]. rewrite Ek, B1. reflexivity. }
  intros key' m0 o3 Hk' Hm0 HL HN'. destruct (New key' o3 Hk' HN') as (HM3 & Hb3 & Eo3). assert (Ek3 : o_counter o3 = ctr) by now rewrite Eo3. assert (Ecl3 : o_class o3 = CTR) by now rewrite Eo3.
  assert (EA : co_alg (o_cipher o3) = co_alg c) by (rewrite (proj1 (proj2 HM3)), (proj1 (proj2 HM)); reflexivity). assert (HB3 : bs (o_cipher o3) = bs c) by now rewrite !bs_alg, EA.
  assert (Hn3 : nbs (o_cipher o3) = nbs c) by (unfold nbs; now rewrite HB3).
  rewrite (sem_ctr_enc o3 (proj1 HM3) m0 Ecl3) by (rewrite ?Ek3; first [exact Hb3 | apply Hm0]). cbn [snd]. rewrite Ek3, Hn3.
  assert (Hcount : List.length (blocks (nbs c) m0) = k). { destruct (Whole m0 Hm0) as (bl0 & E0 & F0 & ->). assert (LL : forall l, Forall (block c) l -> List.length (concat l) = (nbs c * List.length l)%nat). { intros l HF. induction HF as [|x l Hx _ IH]; [cbn; lia|]. cbn. rewrite app_length, IH, (block_length _ _ Hx). lia. } pose proof (LL _ F0) as G0. pose proof (LL _ F1) as G1. rewrite <- E0 in G0. rewrite <- E1 in G1. pose proof (nbs_pos c). unfold k. nia. }
  rewrite Hcount. set (o4 := set_counter o3 (ctr_next ctr k)). destruct (clear_is o4 (proj1 HM3)) as (c4 & EC4 & Hc4 & HB4 & HE4). rewrite EC4. cbn [snd].
  set (X := set_cipher (set_counter o (ctr_next ctr k)) c'). set (Y := set_cipher o4 c4).
  change (o_cipher o4) with (o_cipher o3) in HB4, HE4. assert (HBX : bs c' = bs c4) by (rewrite HB, HB4, HB3; reflexivity).
  assert (HX : block c' (ctr_next ctr k)) by (apply ctr_next_block; unfold block in *; now rewrite HB). assert (HY : block c4 (ctr_next ctr k)) by (unfold block in *; now rewrite <- HBX).
  assert (EX : encrypt (VBytes m2) X = (Ok c2, snd (encrypt (VBytes m2) X))).
  { rewrite (sem_ctr_enc X Hc' m2) by (try exact Hm2; try exact HX; unfold X; cbn [o_class set_cipher set_counter]; exact Ecl). cbn [snd]. f_equal. f_equal. change (o_cipher X) with c'. change (o_counter X) with (ctr_next ctr k). rewrite ctr_run_shift. unfold c2. do 2 f_equal. unfold nbs. rewrite HB. exact B2. }
  destruct (rt_ctr X Hc' m2) as (ct & s1 & s2 & R1 & Rok & R2); [unfold X; cbn [o_class set_cipher set_counter]; exact Ecl | exact HX | exact Hm2 |]. rewrite EX in R1. injection R1 as <- _.
  assert (HS : sim X Y).
  { split; unfold X, Y, o4; cbn [o_cipher o_class o_pad_mode o_init_vect o_counter set_cipher set_counter]; try assumption; try reflexivity.
    - now rewrite Ecl, Ecl3.
    - now rewrite Eo, Eo3.
    - now rewrite Eo, Eo3.
    - destruct c', c4; try reflexivity; discriminate HBX.
    - intros b Hb0. destruct (HE b Hb0) as [-> _]. rewrite <- EA. symmetry. apply HE4. unfold block in *. now rewrite <- HBX.
    - intros b Hb0. destruct (HE b Hb0) as [_ ->]. rewrite <- EA. symmetry. apply HE4. unfold block in *. now rewrite <- HBX.
    - split; [exact Hc'|]. cbn [o_class set_cipher set_counter]. rewrite Ecl. exact HX. }
  destruct (sim_step X Y HS (Decrypt (VBytes c2))) as [S1 _]; [exact Rok|]. cbn [step] in S1. unfold result. rewrite R2 in S1. destruct (decrypt (VBytes c2) Y) as [[p|e] s3]; cbn [fst] in S1 |- *; [now injection S1 as <- | discriminate S1].
Qed.
Print Assumptions C165_ctr.
(** Magma, a message of eleven octets, cleared after the first block. *)
Definition ctr_tail : option (res bytes) :=
  match new (alg Mag) (VBytes magma_test_key) (VInt MODE_CTR) (with_iv [0x12; 0x34; 0x56; 0x78]), new (alg Mag) (VBytes (repeat 7 32)) (VInt MODE_CTR) (with_iv [0x12; 0x34; 0x56; 0x78]) with
  | Ok (NewMode o), Ok (NewMode o3) =>
      match fst (go [0; 0; 0; 0; 1; 0; 0]%nat [p_ctr_encrypt (VBytes [1; 2; 3; 4; 5; 6; 7; 8; 9; 10; 11]); p_clear] o) with
      | [Ret c; Ret _] => Some (result (decrypt (VBytes (skipn 8 c)) (snd (clear (snd (encrypt (VBytes (repeat 0 8)) o3))))))
      | _ => None
      end
  | _, _ => None
  end.
Example C165_ctr_example : in_blocks Mag [1; 2; 3; 4; 5; 6; 7; 8] /\ in_blocks Mag (repeat 0 8) /\ ctr_clearing (p_ctr_encrypt VNone) /\ ctr_tail = Some (Ok [9; 10; 11]).
Proof.
  split; [split; [now apply bytes_okb_ok|]; split; [discriminate | reflexivity]|]. split; [split; [now apply bytes_okb_ok|]; split; [discriminate | reflexivity]|]. split; [right; exists VNone; now split|]. vm_compute. reflexivity.
Qed.
