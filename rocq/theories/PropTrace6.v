(** * Properties of the sequence of steps of the modes of encryption: C149 *)
From Coq Require Import ZArith Lia.
From Verif Require Import PyBase PyState PyFacts PyLoop Utils UtilsFacts CipherTables CipherObj Modes Mac SpecKuznechik SpecMagma SpecModes SpecSign SpecNew Kuznechik Magma KuzFacts KuzFacts2 MagmaFacts CipherLemmas CipherObjFacts ModeFacts CtrFacts ModeSpecFacts ModeLemmas ModeSem ModeEmpty ModeSim ModeHist ModeProps ModeNew ModeMore MacFacts.
From Verif Require Import SpecTrace SpecTrace2 SpecTrace3 SpecTraceModes Trace TraceLemmas TraceFacts TraceCipher TraceCipherFacts TraceCipher2 TraceCipher2Facts PropTrace2 PropTrace3 TraceHashErase TraceHashFlow TracePbkdfFacts TraceModes TraceModesErase TraceModesFlow TraceModesUse.
Open Scope string_scope.
Open Scope list_scope.
Open Scope Z_scope.

(** ** Objects in use: made by [new] with a vector that is not empty, and any calls with byte strings afterwards. *)
Definition use_call (k : call) : Prop := match k with Encrypt (VBytes b) => bytes_ok b | Decrypt (VBytes b) => bytes_ok b | ReadIv => True | ReadCounter => True | _ => False end.
Definition in_use (a : balg) (key : bytes) (cl : mode_class) (kw : kwargs) (o : mode_obj) : Prop :=
  bytes_ok key /\ kw_ok kw /\ kw_init_vect kw <> Some (VBytes []) /\
  exists o0 cs, new (alg a) (VBytes key) (VInt (mode_code cl)) kw = Ok (NewMode o0) /\ Forall use_call cs /\ o = snd (run cs o0).

Lemma encrypt_keeps o m : valid o -> bytes_ok m -> o_cipher (snd (encrypt (VBytes m) o)) = o_cipher o.
Proof.
  intros [Hc HV] Hm. destruct (o_class o) eqn:Ecl.
  - destruct HV as [p Hp]. rewrite (sem_ecb_enc o Hc p m Ecl Hp Hm). reflexivity.
  - destruct HV as [[p Hp] HIV]. destruct (iv_cases o HIV) as [He|[R HR]].
    + rewrite (cbc_enc_empty o Hc He p m Ecl Hp Hm). reflexivity.
    + destruct (sem_cbc_enc o Hc R HR p m Ecl Hp Hm) as [-> _]. reflexivity.
  - destruct (iv_cases o HV) as [He|[R HR]].
    + destruct m as [|x m]; [destruct (stream_nil o (or_introl Ecl)) as [-> _]; reflexivity|]. rewrite (cfb_enc_empty o Hc He _ Ecl) by discriminate. reflexivity.
    + destruct (sem_cfb_enc o Hc R HR m Ecl Hm) as [-> _]. reflexivity.
  - destruct (iv_cases o HV) as [He|[R HR]].
    + destruct m as [|x m]; [destruct (stream_nil o (or_intror Ecl)) as [-> _]; reflexivity|]. rewrite (ofb_enc_empty o Hc He _ Ecl) by discriminate. reflexivity.
    + destruct (sem_ofb_enc o Hc R HR m Ecl Hm) as [-> _]. reflexivity.
  - rewrite (sem_ctr_enc o Hc m Ecl HV Hm). reflexivity.
Qed.
Lemma decrypt_keeps o m : valid o -> bytes_ok m -> o_cipher (snd (decrypt (VBytes m) o)) = o_cipher o.
Proof.
  intros Hval Hm. pose proof Hval as [Hc HV]. destruct (o_class o) eqn:Ecl.
  - rewrite (sem_ecb_dec o Hc m Ecl Hm). reflexivity.
  - destruct HV as [_ HIV]. destruct (iv_cases o HIV) as [He|[R HR]].
    + destruct (cbc_dec_empty o Hc He m Ecl Hm) as [-> _]. destruct (whole _ m) as [|c1 cs]; reflexivity.
    + destruct (sem_cbc_dec o Hc R HR m Ecl Hm) as [-> _]. reflexivity.
  - destruct (iv_cases o HV) as [He|[R HR]].
    + destruct m as [|x m]; [destruct (stream_nil o (or_introl Ecl)) as [_ ->]; reflexivity|]. rewrite (cfb_dec_empty o Hc He _ Ecl) by discriminate. reflexivity.
    + destruct (sem_cfb_dec o Hc R HR m Ecl Hm) as [-> _]. reflexivity.
  - rewrite (sem_ofb_dec o m Ecl). now apply encrypt_keeps.
  - rewrite (sem_ctr_dec o m Ecl). now apply encrypt_keeps.
Qed.
Lemma use_call_ok k : use_call k -> call_ok k.
Proof. destruct k as [[]|[]| | |]; cbn; tauto. Qed.
Lemma run_keeps cs : forall o, valid o -> Forall use_call cs -> o_cipher (snd (run cs o)) = o_cipher o.
Proof.
  induction cs as [|k cs IH]; intros o V HF; [reflexivity|]. apply Forall_cons_iff in HF as [Hk HF]. cbn [run]. pose proof (step_valid k o V (use_call_ok k Hk)) as V1.
  assert (E : o_cipher (snd (ModeSim.step k o)) = o_cipher o).
  { destruct k as [[]|[]| | |]; cbn [use_call] in Hk; try contradiction; cbn [ModeSim.step]; [now apply encrypt_keeps | now apply decrypt_keeps | reflexivity | reflexivity]. }
  destruct (ModeSim.step k o) as [r o1]. cbn [snd] in *. specialize (IH o1 V1 HF). destruct (run cs o1) as [rs o2]. cbn [snd] in *. congruence.
Qed.
(** The block cipher object of a new object. *)
Lemma new_base a key cl kw o : new (alg a) (VBytes key) (VInt (mode_code cl)) kw = Ok (NewMode o) -> base_init (alg a) (VBytes key) = Ok (o_cipher o).
Proof.
  destruct cl; cbn [mode_code]; intros H.
  - change 1 with MODE_ECB in H. rewrite new_ecb_eq, padding_init_cases in H. destruct (base_init _ _) as [c|e]; [|discriminate H]. cbn [bind] in H. destruct (pad_check _); [|discriminate H]. destruct (pad_arg kw); try discriminate H. injection H as <-. reflexivity.
  - change 2 with MODE_CBC in H. rewrite new_cbc_eq in H. unfold cbc_init in H. destruct (padding_init _ _ _) as [[c0 p0]|e]; [|discriminate H]. cbn [bind] in H. unfold feedback_init in H. destruct (base_init _ _) as [c|e]; [|discriminate H]. cbn [bind] in H. destruct (iv_arg a CBC kw); try discriminate H. destruct (negb _); [discriminate H|]. injection H as <-. reflexivity.
  - change 3 with MODE_CFB in H. rewrite new_cfb_eq in H. unfold feedback_init in H. destruct (base_init _ _) as [c|e]; [|discriminate H]. cbn [bind] in H. destruct (iv_arg a CFB kw); try discriminate H. destruct (negb _); [discriminate H|]. injection H as <-. reflexivity.
  - change 5 with MODE_OFB in H. rewrite new_ofb_eq in H. unfold feedback_init in H. destruct (base_init _ _) as [c|e]; [|discriminate H]. cbn [bind] in H. destruct (iv_arg a OFB kw); try discriminate H. destruct (negb _); [discriminate H|]. injection H as <-. reflexivity.
  - change 6 with MODE_CTR in H. rewrite new_ctr_eq in H. unfold ctr_init in H. destruct (base_init _ _) as [c|e]; [|discriminate H]. cbn [bind] in H. destruct (iv_arg a CTR kw); try discriminate H. destruct (negb _); [discriminate H|]. injection H as <-. reflexivity.
Qed.
Lemma base_of a key : base_init (alg a) (VBytes key) = if negb (check_value (VBytes key) _KEY_SIZE_13) then Err (GOSTCipherError "GOSTCipherError: invalid key value") else match a with Kuz => let* keys := kuz_new key in Ok (KuzObj keys) | Mag => let* keys := magma_new key in Ok (MagmaObj keys) end.
Proof. unfold base_init. destruct a; reflexivity. Qed.
Lemma base_keys a key c : base_init (alg a) (VBytes key) = Ok c -> match a with Kuz => exists ks, c = KuzObj ks /\ kuz_new key = Ok ks | Mag => exists ks, c = MagmaObj ks /\ magma_new key = Ok ks end.
Proof.
  rewrite base_of. destruct (negb (check_value (VBytes key) _KEY_SIZE_13)); [intros H; discriminate H|]. destruct a; intros H.
  - destruct (kuz_new key) as [ks|e]; [|discriminate H]. exists ks. injection H as H. split; [symmetry; exact H | reflexivity].
  - destruct (magma_new key) as [ks|e]; [|discriminate H]. exists ks. injection H as H. split; [symmetry; exact H | reflexivity].
Qed.
Record used (a : balg) (key : bytes) (cl : mode_class) (kw : kwargs) (o : mode_obj) : Prop := {
  u_valid : valid o; u_class : o_class o = cl; u_alg : co_alg (o_cipher o) = a; u_cm : cm (o_cipher o); u_key : bytes_len 32 key;
  u_base : base_init (alg a) (VBytes key) = Ok (o_cipher o);
  u_pad : match cl with ECB | CBC => pad_arg kw = VInt (o_pad_mode o) | _ => o_pad_mode o = 0 end;
  u_reg : cl = CBC \/ cl = CFB \/ cl = OFB -> exists R, reg o R }.
Lemma in_use_used a key cl kw o : in_use a key cl kw o -> used a key cl kw o.
Proof.
  intros (Hk & Hkw & HI & o0 & cs & Hn & HF & ->). destruct (fresh_facts a key cl kw o0 Hk Hkw Hn) as (V & Hcl & Hmd & HK & _ & Hiv & _).
  assert (HO : object_of a key cl kw (snd (run cs o0))) by (exists o0, cs; split; [exact Hn|]; split; [eapply Forall_impl; [exact use_call_ok | exact HF] | reflexivity]).
  destruct (object_facts a key cl kw _ Hk Hkw HO) as (V1 & C1 & A1 & P1 & R1). pose proof (run_keeps cs o0 V HF) as EC. pose proof (new_base a key cl kw o0 Hn) as EB. rewrite <- EC in EB.
  split; [exact V1 | exact C1 | exact A1 | | exact HK | exact EB | exact P1 | ].
  - apply base_keys in EB. destruct a; destruct EB as (ks & -> & E); [destruct (kuz_new_keys key ks HK E) as (L & HFk & _); split; [apply L | exact HFk] | exact (magma_list' key ks HK E)].
  - intros H. assert (EI : exists b, iv_arg a cl kw = VBytes b /\ b <> []).
    { unfold iv_arg in *. assert (HV : kw_init_vect kw = None \/ exists b, kw_init_vect kw = Some (VBytes b)).
      { pose proof (new_outcome (alg a) (VBytes key) (VInt (mode_code cl)) kw ltac:(destruct cl; discriminate) Hk Hkw) as NO. destruct (kw_init_vect kw) as [[b| | |]|] eqn:EV; [right; now exists b | | | |now left]; exfalso; clear NO; revert Hn;
        destruct H as [-> |[-> | ->]]; [change (mode_code CBC) with MODE_CBC; rewrite new_cbc_eq; unfold cbc_init, feedback_init | change (mode_code CFB) with MODE_CFB; rewrite new_cfb_eq; unfold feedback_init | change (mode_code OFB) with MODE_OFB; rewrite new_ofb_eq; unfold feedback_init | change (mode_code CBC) with MODE_CBC; rewrite new_cbc_eq; unfold cbc_init, feedback_init | change (mode_code CFB) with MODE_CFB; rewrite new_cfb_eq; unfold feedback_init | change (mode_code OFB) with MODE_OFB; rewrite new_ofb_eq; unfold feedback_init | change (mode_code CBC) with MODE_CBC; rewrite new_cbc_eq; unfold cbc_init, feedback_init | change (mode_code CFB) with MODE_CFB; rewrite new_cfb_eq; unfold feedback_init | change (mode_code OFB) with MODE_OFB; rewrite new_ofb_eq; unfold feedback_init];
        unfold iv_arg; rewrite EV; cbn [kw_get]; [destruct (padding_init _ _ _) as [[c p]|e]; [destruct (base_init _ _) as [c'|e]|] | destruct (base_init _ _) as [c|e] | destruct (base_init _ _) as [c|e] | destruct (padding_init _ _ _) as [[c p]|e]; [destruct (base_init _ _) as [c'|e]|] | destruct (base_init _ _) as [c|e] | destruct (base_init _ _) as [c|e] | destruct (padding_init _ _ _) as [[c p]|e]; [destruct (base_init _ _) as [c'|e]|] | destruct (base_init _ _) as [c|e] | destruct (base_init _ _) as [c|e]]; cbn [bind]; discriminate. }
      destruct HV as [-> |(b & EV)]; cbn [kw_get]; [eexists; split; [reflexivity|]; destruct a, cl; discriminate|]. rewrite EV. cbn [kw_get]. exists b. split; [reflexivity|]. intros ->. now apply HI. }
    destruct EI as (b & EI & HB). exact (R1 b H EI HB).
Qed.

(** ** C149 *)
Lemma used_kin a key key' cl kw kw' o o' : used a key cl kw o -> used a key' cl kw' o' -> kw_pad_mode kw = kw_pad_mode kw' -> kin o o'.
Proof.
  intros U U' EP. destruct U as [V C A M K B P R], U' as [V' C' A' M' K' B' P' R']. split; [split; [exact M|]; split; [exact M' | congruence]|].
  assert (EA : pad_arg kw = pad_arg kw') by (unfold pad_arg; now rewrite EP). destruct cl; [rewrite EA, P' in P; injection P as P; now symmetry | rewrite EA, P' in P; injection P as P; now symmetry | congruence | congruence | congruence].
Qed.
Lemma used_counter a key cl kw o : used a key cl kw o -> cl = CTR -> block (o_cipher o) (o_counter o).
Proof. intros U E. destruct (u_valid _ _ _ _ _ U) as [_ HV]. rewrite (u_class _ _ _ _ _ U), E in HV. exact HV. Qed.
(** C149: which functions are entered, how every branch is decided and which places are read depends on the algorithm, the mode, the padding method and the length of the data only (the indices into the tables of substitution apart). *)
Theorem C149_flow : forall a cl kw kw' key key' o o' d d', in_use a key cl kw o -> in_use a key' cl kw' o' -> kw_pad_mode kw = kw_pad_mode kw' -> bytes_ok d -> bytes_ok d' -> len d = len d' ->
  map shape (fst (t_mode_encrypt d o)) = map shape (fst (t_mode_encrypt d' o')) /\ map shape (fst (t_mode_decrypt d o)) = map shape (fst (t_mode_decrypt d' o')).
Proof.
  intros a cl kw kw' key key' o o' d d' H H' EP Hd Hd' L. apply in_use_used in H, H'. pose proof (used_kin _ _ _ _ _ _ _ _ H H' EP) as K. assert (HP : pair_ok d d') by (unfold len in L; split; [lia | split; assumption]).
  unfold t_mode_encrypt, t_mode_decrypt. rewrite (u_class _ _ _ _ _ H), (u_class _ _ _ _ _ H').
  assert (HR : cl = CBC \/ cl = CFB \/ cl = OFB -> reg2 o o') by (intros HC; split; [exact (u_reg _ _ _ _ _ H HC) | exact (u_reg _ _ _ _ _ H' HC)]).
  assert (HC : cl = CTR -> bk2 (o_cipher o) (o_cipher o') (o_counter o) (o_counter o')) by (intros HC; split; [exact (used_counter _ _ _ _ _ H HC) | exact (used_counter _ _ _ _ _ H' HC)]).
  destruct cl.
  - split; [exact (proj1 (flow_ecb_encrypt o o' d d' K HP)) | exact (proj1 (flow_ecb_decrypt o o' d d' K HP))].
  - specialize (HR (or_introl eq_refl)). split; [exact (proj1 (flow_cbc_encrypt o o' d d' K HR HP)) | exact (proj1 (flow_cbc_decrypt o o' d d' K HR HP))].
  - specialize (HR (or_intror (or_introl eq_refl))). split; [exact (proj1 (flow_cfb_encrypt o o' d d' K HR HP)) | exact (proj1 (flow_cfb_decrypt o o' d d' K HR HP))].
  - specialize (HR (or_intror (or_intror eq_refl))). split; [exact (proj1 (flow_ofb_encrypt o o' d d' K HR HP)) | exact (proj1 (flow_ofb_decrypt o o' d d' K HR HP))].
  - specialize (HC eq_refl). split; [exact (proj1 (flow_ctr_encrypt o o' d d' K HC HP)) | exact (proj1 (flow_ctr_decrypt o o' d d' K HC HP))].
Qed.
Print Assumptions C149_flow.
(** The model with the steps computes what the model without them computes. *)
Theorem C149_results : forall d o, snd (t_mode_encrypt d o) = liftO (both (encrypt (VBytes d)) o) /\ snd (t_mode_decrypt d o) = liftO (both (decrypt (VBytes d)) o).
Proof. intros d o. split; [apply erase_mode_encrypt | apply erase_mode_decrypt]. Qed.
Print Assumptions C149_results.

(** ** The number of operations of the block cipher *)
Definition op_of (e : event) : list unit := match e with Enter FCipher l => if (l =? 551) || (l =? 760) || (l =? 532) || (l =? 736) then [tt] else [] | _ => [] end.
Lemma ops_map l : operations l = List.length (flat_map op_of l).
Proof.
  induction l as [|e l IH]; [reflexivity|]. unfold operations in *. cbn [filter flat_map]. rewrite app_length, <- IH. destruct e as [[] n|f n b|f n m i]; cbn [op_of]; try reflexivity. destruct ((n =? 551) || (n =? 760) || (n =? 532) || (n =? 736)); reflexivity.
Qed.
Lemma ops_shape l : operations (map shape l) = operations l.
Proof.
  induction l as [|e l IH]; [reflexivity|]. unfold operations in *. cbn [filter map].
  assert (E : match shape e with Enter FCipher n => (n =? 551) || (n =? 760) || (n =? 532) || (n =? 736) | _ => false end = match e with Enter FCipher n => (n =? 551) || (n =? 760) || (n =? 532) || (n =? 736) | _ => false end) by (destruct e as [f n|f n b|[] n m i]; try reflexivity; cbn [shape]; destruct (m =? 1); reflexivity).
  rewrite E. destruct (match e with Enter FCipher n => _ | _ => _ end); [cbn [List.length]; now rewrite IH | exact IH].
Qed.
(** A block cipher object to compare with. *)
Definition zero_obj (a : balg) : cipher_obj := match a with Kuz => KuzObj (repeat (repeat 0 16) 10) | Mag => MagmaObj (repeat (repeat 0 4) 32) end.
Definition zero_block (a : balg) : bytes := repeat 0 (bsize a).
Lemma forall_repeat {A} (P : A -> Prop) x n : P x -> Forall P (repeat x n).
Proof. intros H. induction n; [constructor | constructor; assumption]. Qed.
Lemma zero_cm a : cm (zero_obj a).
Proof. destruct a; (split; [reflexivity|]); apply forall_repeat; split; try reflexivity; apply forall_repeat; unfold byte_ok; lia. Qed.
Lemma zero_ok a : block (zero_obj a) (zero_block a).
Proof. destruct a; (split; [reflexivity|]); apply forall_repeat; unfold byte_ok; lia. Qed.
Lemma l_ops : l_emits op_of = [].
Proof. vm_compute. reflexivity. Qed.
Lemma x_ops : x_emits op_of = [].
Proof. vm_compute. reflexivity. Qed.
Lemma lr_ops : lr_emits op_of = [].
Proof. vm_compute. reflexivity. Qed.
Lemma op_blind_460 : blind_but_460 op_of.
Proof. intros line i j N. reflexivity. Qed.
Lemma op_blind_467 : blind_but_467 op_of.
Proof. intros line i j N. reflexivity. Qed.
Lemma rounds_ops ks : forall i d, rounds_emits op_of ks i d = [].
Proof. induction ks as [|k ks IH]; intros i d; [reflexivity|]. cbn [rounds_emits]. rewrite IH. unfold round_emits. rewrite l_ops, x_ops. reflexivity. Qed.
Lemma loop_ops ks is : forall d, loop_emits op_of (dec_emits op_of) (dec_round ks) FCipher 545 is d = [].
Proof. induction is as [|i is IH]; intros d; [reflexivity|]. rewrite loop_cons, IH. unfold dec_emits. rewrite lr_ops, x_ops. reflexivity. Qed.
Lemma rounds_len ks : Forall (bytes_len 16) ks -> forall i d, bytes_len 16 d -> List.length (rounds_emits at_460 ks i d) = (16 * List.length ks)%nat.
Proof.
  intros HF. induction HF as [|k ks Hk HF IH]; intros i d Hd; [reflexivity|]. pose proof (kX_block k d Hk Hd) as HX. rewrite rounds_460 by exact HX. rewrite app_length, IH by (apply kL_block, kS_block, HX). destruct HX as [HX _]. unfold len in HX. cbn [List.length]. lia.
Qed.
Lemma loop_len ks is : Forall (fun i => bytes_len 16 (nth (Z.to_nat i) ks [])) is -> forall d, bytes_len 16 d -> List.length (loop_emits at_467 (dec_emits at_467) (dec_round ks) FCipher 545 is d) = (16 * List.length is)%nat.
Proof.
  intros HF. induction HF as [|i is Hi HF IH]; intros d Hd; [reflexivity|]. destruct (dec_row ks i is d Hi Hd) as (z & d' & [Hz _] & _ & Hd' & _ & ->). rewrite app_length, IH by exact Hd'. unfold len in Hz. cbn [List.length]. lia.
Qed.
Lemma zero_enc : operations (fst (t_co_encrypt (zero_obj Mag) (zero_block Mag))) = 1%nat.
Proof. vm_compute. reflexivity. Qed.
Lemma zero_dec : operations (fst (t_co_decrypt (zero_obj Mag) (zero_block Mag))) = 1%nat.
Proof. vm_compute. reflexivity. Qed.
Lemma like_zero a c : cm c -> co_alg c = a -> cm2 c (zero_obj a).
Proof. intros H E. split; [exact H|]. split; [apply zero_cm | rewrite E; destruct a; reflexivity]. Qed.
Lemma with_zero a c b : block c b -> bk2 c (zero_obj a) b (zero_block a).
Proof. intros H. split; [exact H | apply zero_ok]. Qed.
Lemma one_encrypt c b : cm c -> block c b -> operations (fst (t_co_encrypt c b)) = 1%nat.
Proof.
  intros H Hb. destruct (co_alg c) eqn:EA.
  - destruct c as [ks|ks]; [|discriminate EA]. destruct H as [L HF]. destruct (split_last 9 ks L) as (l & k9 & EL & LL). destruct (emits_kuz op_of op_blind_460 ks l k9 b EL LL HF Hb) as [E _].
    rewrite ops_map. cbn [t_co_encrypt]. rewrite E, rounds_ops, x_ops. reflexivity.
  - rewrite <- ops_shape. rewrite (shape_encrypt c _ b _ (like_zero _ c H EA) (with_zero _ c b Hb)). rewrite ops_shape. apply zero_enc.
Qed.
Lemma one_decrypt c b : cm c -> block c b -> operations (fst (t_co_decrypt c b)) = 1%nat.
Proof.
  intros H Hb. destruct (co_alg c) eqn:EA.
  - destruct c as [ks|ks]; [|discriminate EA]. destruct H as [L HF]. destruct (emits_kuz_dec op_of op_blind_467 ks b L HF Hb) as [E _].
    rewrite ops_map. cbn [t_co_decrypt]. rewrite E. unfold dec_all_emits. rewrite loop_ops, x_ops. reflexivity.
  - rewrite <- ops_shape. rewrite (shape_decrypt c _ b _ (like_zero _ c H EA) (with_zero _ c b Hb)). rewrite ops_shape. apply zero_dec.
Qed.
Lemma rows_encrypt c b : cm c -> co_alg c = Kuz -> block c b -> List.length (kuz_indices (fst (t_co_encrypt c b))) = 144%nat.
Proof.
  intros H EA Hb. destruct c as [ks|ks]; [|discriminate EA]. destruct H as [L HF]. destruct (split_last 9 ks L) as (l & k9 & EL & LL). destruct (emits_kuz _ at_460_blind ks l k9 b EL LL HF Hb) as [E _].
  rewrite EL in HF. apply Forall_app in HF as [HF _]. unfold kuz_indices. change (fun e => _) with at_460. cbn [t_co_encrypt]. rewrite E, !app_length, (rounds_len l HF 0 b Hb), LL. change (at_460 (Enter FCipher 551)) with (@nil Z). change (at_460 (Read FCipher 567 3 9)) with (@nil Z). change (List.length (x_emits at_460)) with 0%nat. reflexivity.
Qed.
Lemma rows_decrypt c b : cm c -> co_alg c = Kuz -> block c b -> List.length (kuz_rev_indices (fst (t_co_decrypt c b))) = 144%nat.
Proof.
  intros H EA Hb. destruct c as [ks|ks]; [|discriminate EA]. destruct H as [L HF]. destruct (emits_kuz_dec _ at_467_blind ks b L HF Hb) as [E _].
  assert (HN : forall i, (i < 10)%nat -> bytes_len 16 (nth i ks [])) by (intros i Hi; rewrite Forall_forall in HF; apply HF, nth_In; rewrite L; exact Hi).
  unfold kuz_rev_indices. change (fun e => _) with at_467. cbn [t_co_decrypt]. rewrite E. unfold dec_all_emits. rewrite x_emits_467. change (at_467 (Enter FCipher 532)) with (@nil Z). change (at_467 (Read FCipher 544 3 9)) with (@nil Z). rewrite !app_nil_l.
  rewrite loop_len; [reflexivity | | apply kX_block; [apply HN; lia | exact Hb]]. change (py_range 8 (-1) (-1)) with [8; 7; 6; 5; 4; 3; 2; 1; 0]. do 9 (constructor; [apply HN; cbn; lia|]). constructor.
Qed.
Lemma op_of_cipher : cipher_only op_of.
Proof. intros [[] n|f n b|f n m i] H; try reflexivity. now destruct H. Qed.
Lemma count_ops (op : bytes -> T bytes) c : (forall b, block c b -> operations (fst (op b)) = 1%nat) -> forall bl, Forall (block c) bl -> List.length (concat (map (fun b => flat_map op_of (fst (op b))) bl)) = List.length bl.
Proof. intros H bl HF. induction HF as [|b bl Hb HF IH]; [reflexivity|]. cbn [map concat List.length]. rewrite app_length, IH, <- ops_map, (H b Hb). reflexivity. Qed.
Lemma uses_ops {A} op c n Q (t : T A) : (forall b, block c b -> operations (fst (op b)) = 1%nat) -> uses op_of c op n Q t -> operations (fst t) = n.
Proof. intros H (bl & <- & HF & E & _). rewrite ops_map, E. now apply (count_ops op c). Qed.
Definition second_method (kw : kwargs) : bool := match kw_pad_mode kw with Some (VInt z) => z =? 0x800000f1 | _ => false end.

Lemma pieces_eq n d : 0 < n -> Z.of_nat (pieces_of n d) = pieces n (len d).
Proof.
  intros Hn. unfold pieces_of, whole_of, rest_of, pieces. assert (HL : 0 <= len d) by (unfold len; lia). pose proof (Z.div_pos (len d) n HL Hn) as HQ. pose proof (Z.div_mod (len d) n ltac:(lia)) as HD. pose proof (Z.mod_pos_bound (len d) n Hn) as HM.
  rewrite Nat2Z.inj_add, Z2Nat.id by exact HQ. set (q := len d / n) in *. set (r := len d mod n) in *. clearbody q r. destruct (Z.eqb_spec r 0) as [E|E].
  - cbn [Z.of_nat]. rewrite Z.add_0_r. apply (Z.div_unique _ _ _ (n - 1)); lia.
  - change (Z.of_nat 1) with 1. apply (Z.div_unique _ _ _ (r - 1)); lia.
Qed.
Lemma len_repeat (x : Z) n : 0 <= n -> len (py_repeat x n) = n.
Proof. intros H. unfold len, py_repeat. rewrite repeat_length. apply Z2Nat.id, H. Qed.
Lemma padded_eq n d p (b : bool) : 0 < n -> p = (if b then 0x800000f1 else 0x800000f0) -> Z.of_nat (whole_of n (_set_padding n d p)) = padded_pieces b n (len d) .
Proof.
  intros Hn Ep. assert (HL : 0 <= len d) by (unfold len; lia). pose proof (Z.div_mod (len d) n ltac:(lia)) as HD. pose proof (Z.mod_pos_bound (len d) n Hn) as HM. pose proof (Z.div_pos (len d) n HL Hn) as HQ.
  assert (HS : 0 <= _get_pad_size n d /\ len d + _get_pad_size n d = n * Z.max 1 (pieces n (len d))).
  { unfold _get_pad_size, pieces. set (q := len d / n) in *. set (r := len d mod n) in *. clearbody q r. destruct (Z.ltb_spec (len d) n) as [E|E].
    - assert (E0 : (len d + n - 1) / n <= 1) by (apply Z.lt_succ_r, Z.div_lt_upper_bound; lia). rewrite Z.max_l by exact E0. lia.
    - assert (1 <= q) by nia. destruct (Z.eqb_spec r 0) as [E1|E1].
      + assert (E2 : (len d + n - 1) / n = q) by (symmetry; apply (Z.div_unique _ _ _ (n - 1)); lia). rewrite E2, Z.max_r by assumption. lia.
      + assert (E2 : (len d + n - 1) / n = q + 1) by (symmetry; apply (Z.div_unique _ _ _ (r - 1)); lia). rewrite E2, Z.max_r by lia. lia. }
  destruct HS as [HS0 HS]. unfold padded_pieces, whole_of. set (k := Z.max 1 (pieces n (len d))) in *. assert (1 <= k) by (unfold k; lia).
  assert (EL : len (_set_padding n d p) = n * (k + if b then 1 else 0)).
  { subst p. unfold _set_padding. destruct b.
    - change (0x800000f1 =? PAD_MODE_1) with false. change (0x800000f1 =? PAD_MODE_2) with true. cbv iota. unfold _set_pad_mode_2. rewrite !len_app, len_repeat by lia. change (len [128]) with 1. lia.
    - change (0x800000f0 =? PAD_MODE_1) with true. cbv iota. unfold _set_pad_mode_1. rewrite len_app, len_repeat by lia. lia. }
  rewrite EL, Z.mul_comm, Z.div_mul by lia. apply Z2Nat.id. destruct b; lia.
Qed.
Lemma padding_bytes n d p : bytes_ok d -> bytes_ok (_set_padding n d p).
Proof.
  intros H. unfold _set_padding, _set_pad_mode_1, _set_pad_mode_2. destruct (p =? PAD_MODE_1); [apply Forall_app; split; [exact H | apply forall_repeat; unfold byte_ok; lia]|]. destruct (p =? PAD_MODE_2); [|exact H].
  apply Forall_app. split; [exact H|]. apply Forall_app. split; [constructor; [unfold byte_ok; lia | constructor] | apply forall_repeat; unfold byte_ok; lia].
Qed.
Definition enc_count (cl : mode_class) (o : mode_obj) (d : bytes) : nat := match cl with ECB | CBC => whole_of (block_size o) (_set_padding (block_size o) d (o_pad_mode o)) | _ => pieces_of (block_size o) d end.
Definition dec_count (cl : mode_class) (o : mode_obj) (d : bytes) : nat := match cl with ECB | CBC => whole_of (block_size o) d | _ => pieces_of (block_size o) d end.
Definition dec_op (cl : mode_class) (c : cipher_obj) : bytes -> T bytes := match cl with ECB | CBC => t_co_decrypt c | _ => t_co_encrypt c end.
Section Used.
  Context {X : Type} (f : event -> list X) (HF : cipher_only f) a key cl kw o (U : used a key cl kw o).
  Lemma used_encrypt d : bytes_ok d -> uses f (o_cipher o) (t_co_encrypt (o_cipher o)) (enc_count cl o d) (fun _ => True) (t_mode_encrypt d o).
  Proof using HF U.
    intros Hd. pose proof (proj1 (u_valid _ _ _ _ _ U)) as Hc. pose proof (u_reg _ _ _ _ _ U) as HR. pose proof (used_counter _ _ _ _ _ U) as HC. unfold t_mode_encrypt. rewrite (u_class _ _ _ _ _ U). clear U. destruct cl; cbn [enc_count].
    - apply (use_ecb_encrypt f HF o Hc). now apply padding_bytes.
    - apply (use_cbc_encrypt f HF o Hc); [apply HR; tauto | now apply padding_bytes].
    - apply (use_cfb_encrypt f HF o Hc); [apply HR; tauto | exact Hd].
    - apply (use_ofb_encrypt f HF o Hc); [apply HR; tauto | exact Hd].
    - apply (use_ctr_encrypt f HF o Hc); [now apply HC | exact Hd].
  Qed.
  Lemma used_decrypt d : bytes_ok d -> uses f (o_cipher o) (dec_op cl (o_cipher o)) (dec_count cl o d) (fun _ => True) (t_mode_decrypt d o).
  Proof using HF U.
    intros Hd. pose proof (proj1 (u_valid _ _ _ _ _ U)) as Hc. pose proof (u_reg _ _ _ _ _ U) as HR. pose proof (used_counter _ _ _ _ _ U) as HC. unfold t_mode_decrypt. rewrite (u_class _ _ _ _ _ U). clear U. destruct cl; cbn [dec_count dec_op].
    - apply (use_ecb_decrypt f HF o Hc). exact Hd.
    - apply (use_cbc_decrypt f HF o Hc); [apply HR; tauto | exact Hd].
    - apply (use_cfb_decrypt f HF o Hc); [apply HR; tauto | exact Hd].
    - apply (use_ofb_decrypt f HF o Hc); [apply HR; tauto | exact Hd].
    - apply (use_ctr_decrypt f HF o Hc); [now apply HC | exact Hd].
  Qed.
End Used.
(** Every call uses the block cipher a number of times that follows from the length of the data. *)
Theorem C149_work : forall a cl kw key o d, in_use a key cl kw o -> bytes_ok d ->
  Z.of_nat (operations (fst (t_mode_encrypt d o))) = match cl with ECB | CBC => padded_pieces (second_method kw) (Z.of_nat (bsize a)) (len d) | _ => pieces (Z.of_nat (bsize a)) (len d) end /\
  Z.of_nat (operations (fst (t_mode_decrypt d o))) = match cl with ECB | CBC => len d / Z.of_nat (bsize a) | _ => pieces (Z.of_nat (bsize a)) (len d) end.
Proof.
  intros a cl kw key o d H Hd. apply in_use_used in H. pose proof (object_bs o a (u_alg _ _ _ _ _ H)) as EB. pose proof (u_cm _ _ _ _ _ H) as HM. assert (Hn : 0 < Z.of_nat (bsize a)) by (destruct a; reflexivity).
  rewrite (uses_ops _ _ _ _ _ (fun b => one_encrypt _ b HM) (used_encrypt op_of op_of_cipher _ _ _ _ _ H d Hd)).
  assert (HO : forall b, block (o_cipher o) b -> operations (fst (dec_op cl (o_cipher o) b)) = 1%nat) by (intros b Hb; destruct cl; [exact (one_decrypt _ b HM Hb) | exact (one_decrypt _ b HM Hb) | exact (one_encrypt _ b HM Hb) | exact (one_encrypt _ b HM Hb) | exact (one_encrypt _ b HM Hb)]).
  rewrite (uses_ops _ _ _ _ _ HO (used_decrypt op_of op_of_cipher _ _ _ _ _ H d Hd)). unfold enc_count, dec_count. rewrite EB.
  assert (HP : cl = ECB \/ cl = CBC -> o_pad_mode o = (if second_method kw then 0x800000f1 else 0x800000f0)).
  { intros HC. assert (PA : pad_arg kw = VInt (o_pad_mode o)) by (pose proof (u_pad _ _ _ _ _ H) as P; destruct HC as [-> | ->]; exact P). assert (PV : pad_valid o) by (destruct (u_valid _ _ _ _ _ H) as [_ V]; rewrite (u_class _ _ _ _ _ H) in V; destruct HC as [-> | ->]; [exact V | exact (proj1 V)]).
    destruct PV as [p Ep]. unfold pad_arg, second_method in *. destruct (kw_pad_mode kw) as [[| |z|]|]; cbn [kw_get] in PA; try discriminate PA; injection PA as PA.
    - rewrite <- PA in *. rewrite Ep. destruct p; reflexivity.
    - rewrite <- PA. reflexivity. }
  assert (HW : Z.of_nat (whole_of (Z.of_nat (bsize a)) d) = len d / Z.of_nat (bsize a)) by (unfold whole_of; apply Z2Nat.id, Z.div_pos; [unfold len; lia | exact Hn]).
  destruct cl; (split; [|try exact HW; now apply pieces_eq]); [apply padded_eq; [exact Hn | apply HP; tauto] | apply padded_eq; [exact Hn | apply HP; tauto] | now apply pieces_eq | now apply pieces_eq | now apply pieces_eq].
Qed.
Print Assumptions C149_work.

(** ** What the indices of the table give away *)
Lemma row_app n (l r : list Z) : (16 * n + 16 <= List.length l)%nat -> row n (l ++ r) = row n l.
Proof. intros H. unfold row. rewrite skipn_app, firstn_app, skipn_length. replace (16 - (List.length l - 16 * n))%nat with 0%nat by lia. cbn [firstn]. apply app_nil_r. Qed.
Lemma enc_recover_app s s1 r : kuz_indices s = kuz_indices s1 ++ r -> (64 <= List.length (kuz_indices s1))%nat -> kuz_enc_recover s = kuz_enc_recover s1.
Proof. intros E L. unfold kuz_enc_recover. rewrite E, !row_app by lia. reflexivity. Qed.
Lemma dec_recover_app s s1 r : kuz_rev_indices s = kuz_rev_indices s1 ++ r -> (128 <= List.length (kuz_rev_indices s1))%nat -> kuz_dec_recover s = kuz_dec_recover s1.
Proof. intros E L. unfold kuz_dec_recover. rewrite E, !row_app by lia. reflexivity. Qed.
Lemma idx_only : cipher_only at_460.
Proof. intros [[] n|f n b|[] n m i] H; try reflexivity. now destruct H. Qed.
Lemma rev_only : cipher_only at_467.
Proof. intros [[] n|f n b|[] n m i] H; try reflexivity. now destruct H. Qed.
Lemma uses_first {X A} (f : event -> list X) c op n Q (t : T A) : (0 < n)%nat -> uses f c op n Q t -> exists b r, block c b /\ flat_map f (fst t) = flat_map f (fst (op b)) ++ r.
Proof. intros Hn (bl & L & HF & E & _). destruct bl as [|b bl]; [cbn [List.length] in L; lia|]. apply Forall_cons_iff in HF as [Hb _]. exists b, (concat (map (fun b => flat_map f (fst (op b))) bl)). split; [exact Hb | exact E]. Qed.
Lemma uses_enc_key key cl kw o {A} n Q (t : T A) : used Kuz key cl kw o -> (0 < n)%nat -> uses at_460 (o_cipher o) (t_co_encrypt (o_cipher o)) n Q t -> fst (kuz_enc_recover (fst t)) = key.
Proof.
  intros U Hn HU. destruct (uses_first _ _ _ _ _ _ Hn HU) as (b & r & Hb & E). rewrite (enc_recover_app (fst t) (fst (t_co_encrypt (o_cipher o) b)) r E) by (rewrite (rows_encrypt _ b (u_cm _ _ _ _ _ U) (u_alg _ _ _ _ _ U) Hb); lia).
  destruct (base_keys _ _ _ (u_base _ _ _ _ _ U)) as (ks & Ec & Ek). rewrite Ec in *. rewrite (C128_encrypt key ks b (u_key _ _ _ _ _ U) Ek Hb : kuz_enc_recover (fst (t_co_encrypt (KuzObj ks) b)) = (key, b)). reflexivity.
Qed.
Lemma uses_dec_key key cl kw o {A} n Q (t : T A) : used Kuz key cl kw o -> (0 < n)%nat -> uses at_467 (o_cipher o) (t_co_decrypt (o_cipher o)) n Q t -> fst (kuz_dec_recover (fst t)) = key.
Proof.
  intros U Hn HU. destruct (uses_first _ _ _ _ _ _ Hn HU) as (b & r & Hb & E). rewrite (dec_recover_app (fst t) (fst (t_co_decrypt (o_cipher o) b)) r E) by (rewrite (rows_decrypt _ b (u_cm _ _ _ _ _ U) (u_alg _ _ _ _ _ U) Hb); lia).
  destruct (base_keys _ _ _ (u_base _ _ _ _ _ U)) as (ks & Ec & Ek). rewrite Ec in *. rewrite (C128_decrypt key ks b (u_key _ _ _ _ _ U) Ek Hb : kuz_dec_recover (fst (t_co_decrypt (KuzObj ks) b)) = (key, b)). reflexivity.
Qed.
Lemma some_piece n d : 0 < n -> d <> [] -> (0 < pieces_of n d)%nat.
Proof.
  intros Hn Hd. unfold pieces_of, whole_of, rest_of. assert (HL : 0 < len d) by (destruct d; [contradiction | unfold len; cbn [List.length]; lia]). destruct (Z.eqb_spec (len d mod n) 0) as [E|E]; [|lia].
  pose proof (Z.div_mod (len d) n ltac:(lia)) as HD. assert (0 < len d / n) by nia. lia.
Qed.
(** With Kuznechik the whole key follows from the steps of any call that encrypts something: of [encrypt] for data of any length but zero (also of length zero with ECB and CBC, which pad), and of [decrypt] for a whole block or more. *)
Theorem C149_key : forall cl kw key o d, in_use Kuz key cl kw o -> bytes_ok d ->
  (d <> [] \/ cl = ECB \/ cl = CBC -> fst (kuz_enc_recover (fst (t_mode_encrypt d o))) = key) /\
  (16 <= len d -> fst ((match cl with ECB | CBC => kuz_dec_recover | _ => kuz_enc_recover end) (fst (t_mode_decrypt d o))) = key).
Proof.
  intros cl kw key o d H Hd. pose proof (C149_work Kuz cl kw key o d H Hd) as [W _]. apply in_use_used in H. pose proof (object_bs o Kuz (u_alg _ _ _ _ _ H)) as EB. change (Z.of_nat (bsize Kuz)) with 16 in EB, W.
  split.
  - intros HN. pose proof (used_encrypt at_460 idx_only _ _ _ _ _ H d Hd) as HU. refine (uses_enc_key key cl kw o _ _ _ H _ HU).
    pose proof (uses_ops _ _ _ _ _ (fun b => one_encrypt _ b (u_cm _ _ _ _ _ H)) (used_encrypt op_of op_of_cipher _ _ _ _ _ H d Hd)) as EO. rewrite <- EO. apply Nat2Z.inj_lt. rewrite W. cbn [Z.of_nat].
    assert (HP : 0 <= len d) by (unfold len; lia). assert (HPP : d <> [] -> 0 < pieces 16 (len d)) by (intros HD; rewrite <- pieces_eq by lia; pose proof (some_piece 16 d ltac:(lia) HD); lia).
    unfold padded_pieces. destruct cl; try (apply HPP; destruct HN as [HN|[HN|HN]]; [exact HN | discriminate HN | discriminate HN]); clear; destruct (second_method kw); lia.
  - intros HL. pose proof (used_decrypt at_460 idx_only _ _ _ _ _ H d Hd) as HU. pose proof (used_decrypt at_467 rev_only _ _ _ _ _ H d Hd) as HV.
    assert (HD : d <> []) by (intros ->; cbn in HL; lia). assert (HW : (0 < whole_of 16 d)%nat) by (unfold whole_of; pose proof (Z.div_le_mono 16 (len d) 16 ltac:(lia) HL) as K; change (16 / 16) with 1 in K; lia).
    assert (HC : (0 < dec_count cl o d)%nat) by (unfold dec_count; rewrite EB; destruct cl; [exact HW | exact HW | apply some_piece; [lia | exact HD] | apply some_piece; [lia | exact HD] | apply some_piece; [lia | exact HD]]).
    destruct cl; [exact (uses_dec_key key _ kw o _ _ _ H HC HV) | exact (uses_dec_key key _ kw o _ _ _ H HC HV) | exact (uses_enc_key key _ kw o _ _ _ H HC HU) | exact (uses_enc_key key _ kw o _ _ _ H HC HU) | exact (uses_enc_key key _ kw o _ _ _ H HC HU)].
Qed.
Print Assumptions C149_key.

(** So "the steps of the calls are the same for all keys" is false. *)
Definition modes_hide_key : Prop := forall a cl kw key key' o o' d, in_use a key cl kw o -> in_use a key' cl kw o' -> bytes_ok d -> fst (t_mode_encrypt d o) = fst (t_mode_encrypt d o').
Lemma some_object a key cl kw : bytes_ok key -> kw_ok kw -> kw_init_vect kw <> Some (VBytes []) -> first_failure (conditions (alg a) (VBytes key) (VInt (mode_code cl)) kw) = None -> exists o, in_use a key cl kw o.
Proof.
  intros Hk Hkw HI HF. pose proof (new_outcome (alg a) (VBytes key) (VInt (mode_code cl)) kw ltac:(destruct cl; discriminate) Hk Hkw) as H. rewrite HF in H.
  destruct H as (a' & k' & cl' & o & _ & _ & _ & E & _). exists o. split; [exact Hk|]. split; [exact Hkw|]. split; [exact HI|]. exists o, []. split; [exact E|]. split; [constructor | reflexivity].
Qed.
Definition no_kw : kwargs := {| kw_init_vect := None; kw_data := None; kw_pad_mode := None |}.
Lemma key_object a cl x : byte_ok x -> exists o, in_use a (repeat x 32) cl no_kw o.
Proof. intros Hx. apply some_object; [now apply forall_repeat | split; exact I | discriminate |]. destruct a, cl; reflexivity. Qed.
Theorem C149_hidden_refuted : ~ modes_hide_key.
Proof.
  intros H. assert (HN : [1; 2; 3] <> [] \/ CTR = ECB \/ CTR = CBC) by (left; discriminate). destruct (key_object Kuz CTR 0 ltac:(unfold byte_ok; lia)) as [o HO]. destruct (key_object Kuz CTR 1 ltac:(unfold byte_ok; lia)) as [o' HO'].
  assert (Hd : bytes_ok [1; 2; 3]) by concrete_bytes. specialize (H Kuz CTR no_kw _ _ o o' [1; 2; 3] HO HO' Hd).
  destruct (C149_key CTR no_kw _ o [1; 2; 3] HO Hd) as [K _]. destruct (C149_key CTR no_kw _ o' [1; 2; 3] HO' Hd) as [K' _]. rewrite <- H in K'. pose proof (eq_trans (eq_sym (K HN)) (K' HN)) as EK. clear -EK. discriminate EK.
Qed.
Print Assumptions C149_hidden_refuted.

(** An instance: CBC with the default vector, after an earlier call, and a text of 20 octets. *)
Example C149_example : exists o, in_use Kuz (repeat 7 32) CBC no_kw o /\ operations (fst (t_mode_encrypt (repeat 65 20) o)) = 2%nat /\ fst (kuz_enc_recover (fst (t_mode_encrypt (repeat 65 20) o))) = repeat 7 32.
Proof.
  assert (H7 : byte_ok 7) by (unfold byte_ok; lia). assert (Hd : bytes_ok (repeat 65 20)) by (apply forall_repeat; unfold byte_ok; lia). destruct (key_object Kuz CBC 7 H7) as (o & Hk & Hkw & HI & o0 & cs & Hn & HF & E).
  exists (snd (run (cs ++ [Encrypt (VBytes (repeat 65 20)); ReadIv]) o0)). assert (HU : in_use Kuz (repeat 7 32) CBC no_kw (snd (run (cs ++ [Encrypt (VBytes (repeat 65 20)); ReadIv]) o0))).
  { split; [exact Hk|]. split; [exact Hkw|]. split; [exact HI|]. exists o0, (cs ++ [Encrypt (VBytes (repeat 65 20)); ReadIv]). split; [exact Hn|]. split; [|reflexivity]. apply Forall_app. split; [exact HF|]. constructor; [exact Hd|]. constructor; [exact I | constructor]. }
  split; [exact HU|]. split; [|exact (proj1 (C149_key CBC no_kw _ _ _ HU Hd) (or_intror (or_intror eq_refl)))]. apply Nat2Z.inj. rewrite (proj1 (C149_work Kuz CBC no_kw _ _ _ HU Hd)). reflexivity.
Qed.
