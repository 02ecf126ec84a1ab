(** * Call histories of mode objects; objects that cannot be told apart *)
From Verif Require Import PyBase PyFacts PyState Utils UtilsFacts CipherObj Modes Mac.
From Verif Require Import SpecModes CipherLemmas CipherObjFacts ModeFacts CtrFacts ModeSpecFacts ModeLemmas ModeSem ModeEmpty.

(** ** Histories *)

(** A call on a mode object. *)
Inductive call : Type :=
| Encrypt (d : pyval)
| Decrypt (d : pyval)
| Clear
| ReadIv
| ReadCounter.

(** Byte strings passed as arguments consist of bytes. *)
Definition arg_ok (d : pyval) : Prop := match d with VBytes b => bytes_ok b | _ => True end.
Definition call_ok (c : call) : Prop :=
  match c with Encrypt d => arg_ok d | Decrypt d => arg_ok d | _ => True end.

Definition step (c : call) (o : mode_obj) : res bytes * mode_obj :=
  match c with
  | Encrypt d => encrypt d o
  | Decrypt d => decrypt d o
  | Clear => let (r, o') := clear o in (let* _ := r in Ok [], o')
  | ReadIv => (Ok (iv o), o)
  | ReadCounter => (Ok (o_counter o), o)
  end.

(** The results of a sequence of calls, and the object afterwards. *)
Fixpoint run (cs : list call) (o : mode_obj) : list (res bytes) * mode_obj :=
  match cs with
  | [] => ([], o)
  | c :: cs' => let (r, o') := step c o in let (rs, o'') := run cs' o' in (r :: rs, o'')
  end.

(** ** Valid objects *)

Definition pad_valid (o : mode_obj) : Prop := exists p, o_pad_mode o = pad_code p.
Definition iv_valid (o : mode_obj) : Prop :=
  bytes_ok (o_init_vect o) /\ len (o_init_vect o) mod block_size o = 0.

Definition valid (o : mode_obj) : Prop :=
  co_ok (o_cipher o) /\
  match o_class o with
  | ECB => pad_valid o
  | CBC => pad_valid o /\ iv_valid o
  | CFB | OFB => iv_valid o
  | CTR => block (o_cipher o) (o_counter o)
  end.

Record sim (o o' : mode_obj) : Prop := {
  sim_ok : co_ok (o_cipher o);
  sim_ok' : co_ok (o_cipher o');
  sim_class : o_class o = o_class o';
  sim_pad : o_pad_mode o = o_pad_mode o';
  sim_iv : o_init_vect o = o_init_vect o';
  sim_ctr : o_counter o = o_counter o';
  sim_alg : co_alg (o_cipher o) = co_alg (o_cipher o');
  sim_E : forall b, block (o_cipher o) b -> oE (o_cipher o) b = oE (o_cipher o') b;
  sim_D : forall b, block (o_cipher o) b -> oD (o_cipher o) b = oD (o_cipher o') b;
  sim_valid : valid o
}.

Lemma sim_refl o : valid o -> sim o o.
Proof. intros H. split; auto; apply H. Qed.

Lemma sim_nbs o o' : sim o o' -> nbs (o_cipher o) = nbs (o_cipher o').
Proof. intros H. rewrite !nbs_alg. f_equal. apply H. Qed.
Lemma sim_bs o o' : sim o o' -> block_size o = block_size o'.
Proof. intros H. unfold block_size. rewrite !bs_alg. do 2 f_equal. apply H. Qed.

Lemma iv_cases o : iv_valid o -> o_init_vect o = [] \/ exists R, reg o R.
Proof.
  intros [Hok Hm]. destruct (o_init_vect o) as [|x l] eqn:E; [now left|]. right. apply reg_exists.
  - now rewrite E.
  - rewrite E. discriminate.
  - now rewrite E.
Qed.

Lemma reg_valid o R : reg o R -> iv_valid o.
Proof.
  intros (E & _ & HF). unfold iv_valid. rewrite E. split; [now apply (concat_ok (bs (o_cipher o)))|].
  rewrite (concat_len _ _ (blocks_lens _ _ HF)). rewrite Z.mul_comm. apply Z_mod_mult.
Qed.

(** Changing the register or the counter of both. *)
Lemma sim_set_iv o o' v : sim o o' -> (o_class o = CBC \/ o_class o = CFB \/ o_class o = OFB) ->
  iv_valid (set_iv o v) -> sim (set_iv o v) (set_iv o' v).
Proof.
  intros H Hcl Hv. destruct H. split; auto. unfold valid in *. cbn [set_iv o_class o_cipher].
  destruct sim_valid0 as [Hc Hval]. split; [exact Hc|].
  destruct Hcl as [E|[E|E]]; rewrite E in *; auto. split; [apply Hval | exact Hv].
Qed.
Lemma sim_set_counter o o' v : sim o o' -> o_class o = CTR -> block (o_cipher o) v ->
  sim (set_counter o v) (set_counter o' v).
Proof.
  intros H Hcl Hv. destruct H. split; auto. unfold valid in *. cbn [set_counter o_class o_cipher o_counter].
  split; [apply sim_valid0|]. now rewrite Hcl.
Qed.

Section Step.
  Variables o o' : mode_obj.
  Hypothesis H : sim o o'.
  Let c := o_cipher o.
  Let c' := o_cipher o'.
  Let Hc : co_ok c := sim_ok _ _ H.
  Let Hc' : co_ok c' := sim_ok' _ _ H.
  Let agreeE : forall b, block c b -> oE c b = oE c' b := sim_E _ _ H.
  Let agreeD : forall b, block c b -> oD c b = oD c' b := sim_D _ _ H.
  Let stays b (Hb : block c b) : block c (oE c b) := oE_block c b Hc Hb.

  Lemma sim_reg R : reg o R -> reg o' R.
  Proof.
    intros (E & Hne & HF). split; [rewrite <- E; symmetry; apply H|]. split; [exact Hne|].
    eapply Forall_impl; [|exact HF]. intros b. apply block_alg. apply H.
  Qed.

  Definition same (r r' : res bytes * mode_obj) : Prop := fst r = fst r' /\ sim (snd r) (snd r').

  Lemma sim_encrypt_bytes m : bytes_ok m -> same (encrypt (VBytes m) o) (encrypt (VBytes m) o').
  Proof.
    intros Hm. pose proof (sim_valid _ _ H) as [_ HV]. pose proof (sim_class _ _ H) as HCL.
    pose proof (sim_nbs _ _ H) as HN. pose proof (sim_iv _ _ H) as HIV. pose proof (sim_pad _ _ H) as HP. fold c c' in HN.
    destruct (o_class o) eqn:Ecl.
    - destruct HV as [p Hp]. rewrite HP in Hp.
      rewrite (sem_ecb_enc o Hc p m Ecl (eq_trans HP Hp) Hm), (sem_ecb_enc o' Hc' p m (eq_sym HCL) Hp Hm).
      fold c c'. rewrite <- HN. split; [|exact H]. cbn [fst]. do 2 f_equal. unfold ecb_enc. apply map_ext_in.
      intros b Hb. apply agreeE. destruct (padded_blocks c p m Hm) as (bl & _ & _ & HF & HB & _).
      rewrite HB in Hb. rewrite Forall_forall in HF. auto.
    - destruct HV as [[p Hp] HIVv]. rewrite HP in Hp. destruct (iv_cases o HIVv) as [He|[R HR]].
      + rewrite (cbc_enc_empty o Hc He p m Ecl (eq_trans HP Hp) Hm).
        rewrite HIV in He. rewrite (cbc_enc_empty o' Hc' He p m (eq_sym HCL) Hp Hm). split; [reflexivity | exact H].
      + destruct (sem_cbc_enc o Hc R HR p m Ecl (eq_trans HP Hp) Hm) as [-> Hreg].
        destruct (sem_cbc_enc o' Hc' R (sim_reg R HR) p m (eq_sym HCL) Hp Hm) as [-> _].
        fold c c'. fold c in Hreg. rewrite <- HN.
        destruct (padded_blocks c p m Hm) as (bl & _ & _ & HF & HB & _). rewrite HB in *.
        destruct HR as (_ & Hne & HRF).
        rewrite <- (cbc_enc_ext (block c) (oE c) (oE c') agreeE stays (bxor_block c) R bl Hne HRF HF).
        split; [reflexivity|]. cbn [snd]. apply sim_set_iv; auto. now apply reg_valid in Hreg.
    - destruct (iv_cases o HV) as [He|[R HR]].
      + destruct m as [|x m].
        * destruct (stream_nil o (or_introl Ecl)) as [-> _]. destruct (stream_nil o' (or_introl (eq_sym HCL))) as [-> _]. split; [reflexivity | exact H].
        * rewrite (cfb_enc_empty o Hc He _ Ecl) by discriminate. rewrite HIV in He.
          rewrite (cfb_enc_empty o' Hc' He _ (eq_sym HCL)) by discriminate. split; [reflexivity | exact H].
      + destruct (sem_cfb_enc o Hc R HR m Ecl Hm) as [-> Hreg].
        destruct (sem_cfb_enc o' Hc' R (sim_reg R HR) m (eq_sym HCL) Hm) as [-> _].
        fold c c'. fold c in Hreg. rewrite <- HN.
        destruct (data_cut c m Hm) as (bl & t & Hcut & HF & _ & _ & _ & HB). rewrite HB, (whole_cut _ _ _ _ Hcut) in *.
        destruct HR as (_ & Hne & HRF).
        rewrite <- (cfb_enc_ext (block c) (oE c) (oE c') agreeE stays (bxor_block c) R bl t Hne HRF HF).
        pose proof (cfb_enc_ext (block c) (oE c) (oE c') agreeE stays (bxor_block c) R bl [] Hne HRF HF) as HX.
        cbn [opt_block] in HX. rewrite !app_nil_r in HX. rewrite <- HX.
        split; [reflexivity|]. cbn [snd]. apply sim_set_iv; auto. now apply reg_valid in Hreg.
    - destruct (iv_cases o HV) as [He|[R HR]].
      + destruct m as [|x m].
        * destruct (stream_nil o (or_intror Ecl)) as [-> _]. destruct (stream_nil o' (or_intror (eq_sym HCL))) as [-> _]. split; [reflexivity | exact H].
        * rewrite (ofb_enc_empty o Hc He _ Ecl) by discriminate. rewrite HIV in He.
          rewrite (ofb_enc_empty o' Hc' He _ (eq_sym HCL)) by discriminate. split; [reflexivity | exact H].
      + destruct (sem_ofb_enc o Hc R HR m Ecl Hm) as [-> Hreg].
        destruct (sem_ofb_enc o' Hc' R (sim_reg R HR) m (eq_sym HCL) Hm) as [-> _].
        fold c c'. fold c in Hreg. rewrite <- HN.
        destruct HR as (_ & Hne & HRF).
        rewrite <- (ofb_ext (block c) (oE c) (oE c') agreeE stays R _ Hne HRF).
        rewrite <- (ofb_gamma_ext (block c) (oE c) (oE c') agreeE stays R _ Hne HRF).
        split; [reflexivity|]. cbn [snd]. apply sim_set_iv; auto. now apply reg_valid in Hreg.
    - pose proof (sim_ctr _ _ H) as HCT.
      assert (HV' : block c' (o_counter o')) by (rewrite <- HCT; eapply block_alg; [apply H | exact HV]).
      rewrite (sem_ctr_enc o Hc m Ecl HV Hm), (sem_ctr_enc o' Hc' m (eq_sym HCL) HV' Hm).
      fold c c'. rewrite <- HN, <- HCT.
      rewrite <- (ctr_run_ext (block c) (oE c) (oE c') agreeE) by (intros; now apply ctr_next_block).
      split; [reflexivity|]. cbn [snd]. apply sim_set_counter; auto. now apply ctr_next_block.
  Qed.

  Lemma sim_decrypt_bytes d : bytes_ok d -> same (decrypt (VBytes d) o) (decrypt (VBytes d) o').
  Proof.
    intros Hm. pose proof (sim_valid _ _ H) as [_ HV]. pose proof (sim_class _ _ H) as HCL.
    pose proof (sim_nbs _ _ H) as HN. pose proof (sim_iv _ _ H) as HIV. fold c c' in HN.
    assert (HW := whole_forall c d Hm).
    destruct (o_class o) eqn:Ecl.
    - rewrite (sem_ecb_dec o Hc d Ecl Hm), (sem_ecb_dec o' Hc' d (eq_sym HCL) Hm).
      fold c c'. rewrite <- HN. split; [|exact H]. cbn [fst]. do 2 f_equal. unfold ecb_dec. apply map_ext_in.
      intros b Hb. apply agreeD. rewrite Forall_forall in HW. auto.
    - destruct HV as [_ HIVv]. destruct (iv_cases o HIVv) as [He|[R HR]].
      + destruct (cbc_dec_empty o Hc He d Ecl Hm) as [-> Hreg]. rewrite HIV in He.
        destruct (cbc_dec_empty o' Hc' He d (eq_sym HCL) Hm) as [-> _]. fold c c'. fold c in Hreg. rewrite <- HN.
        destruct (whole (nbs c) d) as [|c1 cs]; [split; [reflexivity | exact H]|].
        inversion HW; subst.
        rewrite <- (cbc_dec_ext (block c) (oD c) (oD c') agreeD [c1] cs) by assumption.
        split; [reflexivity|]. cbn [snd]. apply sim_set_iv; auto. now apply reg_valid in Hreg.
      + destruct (sem_cbc_dec o Hc R HR d Ecl Hm) as [-> Hreg].
        destruct (sem_cbc_dec o' Hc' R (sim_reg R HR) d (eq_sym HCL) Hm) as [-> _].
        fold c c'. fold c in Hreg. rewrite <- HN.
        rewrite <- (cbc_dec_ext (block c) (oD c) (oD c') agreeD R _ HW).
        split; [reflexivity|]. cbn [snd]. apply sim_set_iv; auto. now apply reg_valid in Hreg.
    - destruct (iv_cases o HV) as [He|[R HR]].
      + destruct d as [|x m].
        * destruct (stream_nil o (or_introl Ecl)) as [_ ->]. destruct (stream_nil o' (or_introl (eq_sym HCL))) as [_ ->]. split; [reflexivity | exact H].
        * rewrite (cfb_dec_empty o Hc He _ Ecl) by discriminate. rewrite HIV in He.
          rewrite (cfb_dec_empty o' Hc' He _ (eq_sym HCL)) by discriminate. split; [reflexivity | exact H].
      + destruct (sem_cfb_dec o Hc R HR d Ecl Hm) as [-> Hreg].
        destruct (sem_cfb_dec o' Hc' R (sim_reg R HR) d (eq_sym HCL) Hm) as [-> _].
        fold c c'. fold c in Hreg. rewrite <- HN.
        destruct (data_cut c d Hm) as (bl & t & Hcut & HF & _ & _ & _ & HB). rewrite HB, (whole_cut _ _ _ _ Hcut) in *.
        destruct HR as (_ & Hne & HRF).
        rewrite <- (cfb_dec_ext (block c) (oE c) (oE c') agreeE R bl t Hne HRF HF).
        split; [reflexivity|]. cbn [snd]. apply sim_set_iv; auto. now apply reg_valid in Hreg.
    - rewrite (sem_ofb_dec o d Ecl), (sem_ofb_dec o' d (eq_sym HCL)). now apply sim_encrypt_bytes.
    - rewrite (sem_ctr_dec o d Ecl), (sem_ctr_dec o' d (eq_sym HCL)). now apply sim_encrypt_bytes.
  Qed.

  Lemma sim_clear : fst (clear o) = Ok tt /\ fst (clear o') = Ok tt /\ sim (snd (clear o)) (snd (clear o')).
  Proof.
    destruct (clear_ok o Hc) as (k & -> & K1 & K2 & K3). destruct (clear_ok o' Hc') as (k' & -> & K1' & K2' & K3').
    cbn [fst snd]. split; [reflexivity|]. split; [reflexivity|]. fold c in K2, K3 |- *. fold c' in K2', K3' |- *.
    assert (Ha : co_alg c = co_alg c') by apply H.
    assert (HB : forall b, block k b -> block c b) by (intros b; apply block_alg; congruence).
    assert (HB' : forall b, block k b -> block c' b) by (intros b; apply block_alg; congruence).
    split; cbn [set_cipher o_cipher o_class o_pad_mode o_init_vect o_counter]; auto; try apply H; try congruence.
    - intros b Hb. destruct (K3 b (HB b Hb)) as [-> _]. destruct (K3' b (HB' b Hb)) as [-> _]. now rewrite Ha.
    - intros b Hb. destruct (K3 b (HB b Hb)) as [_ ->]. destruct (K3' b (HB' b Hb)) as [_ ->]. now rewrite Ha.
    - destruct (sim_valid _ _ H) as [_ HV]. split; [exact K1|]. cbn [set_cipher o_class].
      assert (Hbs : bs k = bs c) by (rewrite !bs_alg; congruence).
      destruct (o_class o); unfold pad_valid, iv_valid, block_size, block in *;
        cbn [set_cipher o_pad_mode o_init_vect o_counter o_cipher]; rewrite ?Hbs; exact HV.
  Qed.

  Lemma sim_step k : call_ok k -> same (step k o) (step k o').
  Proof.
    intros Hk. destruct k as [d|d| | |]; cbn [step].
    - destruct d as [b|s|z|]; [now apply sim_encrypt_bytes| | |];
      rewrite !enc_not_bytes by exact I; destruct sim_clear as (E1 & E2 & E3);
      destruct (clear o) as [r1 s1], (clear o') as [r2 s2]; cbn [fst snd] in *; subst; split; auto.
    - destruct d as [b|s|z|]; [now apply sim_decrypt_bytes| | |];
      rewrite !dec_not_bytes by exact I; destruct sim_clear as (E1 & E2 & E3);
      destruct (clear o) as [r1 s1], (clear o') as [r2 s2]; cbn [fst snd] in *; subst; split; auto.
    - destruct sim_clear as (E1 & E2 & E3).
      destruct (clear o) as [r1 s1], (clear o') as [r2 s2]; cbn [fst snd] in *; subst; split; auto.
    - split; [|exact H]. cbn [fst]. unfold iv. rewrite (sim_bs _ _ H), (sim_iv _ _ H). reflexivity.
    - split; [|exact H]. cbn [fst]. now rewrite (sim_ctr _ _ H).
  Qed.
End Step.

Lemma sim_run cs : forall o o', sim o o' -> Forall call_ok cs ->
  fst (run cs o) = fst (run cs o') /\ sim (snd (run cs o)) (snd (run cs o')).
Proof.
  induction cs as [|k cs IH]; intros o o' H HF; [split; [reflexivity | exact H]|].
  inversion HF as [|? ? Hk HF']; subst. cbn [run].
  destruct (sim_step o o' H k Hk) as [H1 H2].
  destruct (step k o) as [r s], (step k o') as [r' s']. cbn [fst snd] in *. subst r'.
  destruct (IH s s' H2 HF') as [H3 H4].
  destruct (run cs s) as [rs t], (run cs s') as [rs' t']. cbn [fst snd] in *. subst rs'. auto.
Qed.

Lemma run_valid cs o : valid o -> Forall call_ok cs -> valid (snd (run cs o)).
Proof. intros Hv HF. destruct (sim_run cs o o (sim_refl o Hv) HF) as [_ H]. apply (sim_valid _ _ H). Qed.
Lemma step_valid k o : valid o -> call_ok k -> valid (snd (step k o)).
Proof. intros Hv Hk. destruct (sim_step o o (sim_refl o Hv) k Hk) as [_ H]. apply (sim_valid _ _ H). Qed.
