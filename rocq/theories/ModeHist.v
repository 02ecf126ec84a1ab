(** * What a call leaves of a mode object; chunked processing *)
From Verif Require Import PyBase PyFacts PyState Utils UtilsFacts CipherObj Modes Mac.
From Verif Require Import SpecModes CipherLemmas CipherObjFacts ModeFacts CtrFacts ModeSpecFacts ModeLemmas ModeSem ModeEmpty ModeSim.

(** ** The frame of a call *)

Record frame (o o' : mode_obj) : Prop := {
  fr_class : o_class o' = o_class o;
  fr_pad : o_pad_mode o' = o_pad_mode o;
  fr_alg : co_alg (o_cipher o') = co_alg (o_cipher o);
  fr_iv : o_init_vect o <> [] -> o_init_vect o' <> []
}.
Lemma frame_refl o : frame o o.
Proof. split; auto. Qed.
Lemma frame_trans o1 o2 o3 : frame o1 o2 -> frame o2 o3 -> frame o1 o3.
Proof. intros [] []. split; try congruence. auto. Qed.
Lemma frame_set_iv o v : v <> [] -> frame o (set_iv o v).
Proof. intros H. split; auto. Qed.
Lemma frame_set_counter o v : frame o (set_counter o v).
Proof. split; auto. Qed.
Lemma reg_nonempty o R : reg o R -> o_init_vect o <> [].
Proof.
  intros (E & Hne & HF). rewrite E. destruct R as [|b R]; [contradiction|]. inversion HF as [|? ? [Hl _] _]; subst.
  cbn [concat]. intros H. apply app_eq_nil in H as [-> _]. cbn in Hl. pose proof (bs_pos (o_cipher o)). lia.
Qed.
Lemma frame_reg o v R : reg (set_iv o v) R -> frame o (set_iv o v).
Proof. intros H. apply frame_set_iv. apply (reg_nonempty _ _ H). Qed.

Lemma encrypt_frame o m : valid o -> bytes_ok m -> frame o (snd (encrypt (VBytes m) o)).
Proof.
  intros [Hc HV] Hm. destruct (o_class o) eqn:Ecl.
  - destruct HV as [p Hp]. rewrite (sem_ecb_enc o Hc p m Ecl Hp Hm). apply frame_refl.
  - destruct HV as [[p Hp] HIV]. destruct (iv_cases o HIV) as [He|[R HR]].
    + rewrite (cbc_enc_empty o Hc He p m Ecl Hp Hm). apply frame_refl.
    + destruct (sem_cbc_enc o Hc R HR p m Ecl Hp Hm) as [-> Hreg]. exact (frame_reg _ _ _ Hreg).
  - destruct (iv_cases o HV) as [He|[R HR]].
    + destruct m as [|x m]; [destruct (stream_nil o (or_introl Ecl)) as [-> _]; apply frame_refl|].
      rewrite (cfb_enc_empty o Hc He _ Ecl) by discriminate. apply frame_refl.
    + destruct (sem_cfb_enc o Hc R HR m Ecl Hm) as [-> Hreg]. exact (frame_reg _ _ _ Hreg).
  - destruct (iv_cases o HV) as [He|[R HR]].
    + destruct m as [|x m]; [destruct (stream_nil o (or_intror Ecl)) as [-> _]; apply frame_refl|].
      rewrite (ofb_enc_empty o Hc He _ Ecl) by discriminate. apply frame_refl.
    + destruct (sem_ofb_enc o Hc R HR m Ecl Hm) as [-> Hreg]. exact (frame_reg _ _ _ Hreg).
  - rewrite (sem_ctr_enc o Hc m Ecl HV Hm). apply frame_set_counter.
Qed.
Lemma decrypt_frame o m : valid o -> bytes_ok m -> frame o (snd (decrypt (VBytes m) o)).
Proof.
  intros Hval Hm. pose proof Hval as [Hc HV]. destruct (o_class o) eqn:Ecl.
  - rewrite (sem_ecb_dec o Hc m Ecl Hm). apply frame_refl.
  - destruct HV as [_ HIV]. destruct (iv_cases o HIV) as [He|[R HR]].
    + destruct (cbc_dec_empty o Hc He m Ecl Hm) as [-> Hreg]. destruct (whole _ m) as [|c1 cs]; [apply frame_refl|].
      exact (frame_reg _ _ _ Hreg).
    + destruct (sem_cbc_dec o Hc R HR m Ecl Hm) as [-> Hreg]. exact (frame_reg _ _ _ Hreg).
  - destruct (iv_cases o HV) as [He|[R HR]].
    + destruct m as [|x m]; [destruct (stream_nil o (or_introl Ecl)) as [_ ->]; apply frame_refl|].
      rewrite (cfb_dec_empty o Hc He _ Ecl) by discriminate. apply frame_refl.
    + destruct (sem_cfb_dec o Hc R HR m Ecl Hm) as [-> Hreg]. exact (frame_reg _ _ _ Hreg).
  - rewrite (sem_ofb_dec o m Ecl). now apply encrypt_frame.
  - rewrite (sem_ctr_dec o m Ecl). now apply encrypt_frame.
Qed.
Lemma clear_frame o : valid o -> frame o (snd (clear o)).
Proof.
  intros [Hc _]. destruct (clear_ok o Hc) as (k & -> & K1 & K2 & _). cbn [snd].
  split; cbn [set_cipher o_class o_pad_mode o_cipher o_init_vect]; auto.
Qed.
Lemma step_frame k o : valid o -> call_ok k -> frame o (snd (step k o)).
Proof.
  intros Hv Hk. destruct k as [d|d| | |]; cbn [step]; try apply frame_refl.
  - destruct d as [b|s|z|]; [now apply encrypt_frame| | |]; rewrite enc_not_bytes by exact I;
    pose proof (clear_frame o Hv); destruct (clear o) as [[|] ?]; cbn [fst snd] in *; assumption.
  - destruct d as [b|s|z|]; [now apply decrypt_frame| | |]; rewrite dec_not_bytes by exact I;
    pose proof (clear_frame o Hv); destruct (clear o) as [[|] ?]; cbn [fst snd] in *; assumption.
  - pose proof (clear_frame o Hv). destruct (clear o). cbn [snd] in *. assumption.
Qed.
Lemma run_frame cs : forall o, valid o -> Forall call_ok cs -> frame o (snd (run cs o)).
Proof.
  induction cs as [|k cs IH]; intros o Hv HF; [apply frame_refl|]. inversion HF as [|? ? Hk HF']; subst. cbn [run].
  pose proof (step_frame k o Hv Hk) as F1. pose proof (step_valid k o Hv Hk) as V1. destruct (step k o) as [r s]. cbn [snd] in *.
  pose proof (IH s V1 HF') as F2. destruct (run cs s) as [rs t]. cbn [snd] in *. eapply frame_trans; eauto.
Qed.

(** ** Two chunks *)

Lemma whole_app c a b : bytes_ok a -> bytes_ok b -> len a mod bs c = 0 ->
  whole (nbs c) (a ++ b) = whole (nbs c) a ++ whole (nbs c) b /\
  blocks (nbs c) (a ++ b) = whole (nbs c) a ++ blocks (nbs c) b /\
  blocks (nbs c) a = whole (nbs c) a.
Proof.
  intros Ha Hb Hm. destruct (whole_blocks c a Ha Hm) as (bl & E & HF & HB & Hcut).
  destruct (data_cut c b Hb) as (bl' & t & Hcut' & HF' & Htok & Ht & E' & HB').
  rewrite (whole_cut _ _ _ _ Hcut), (whole_cut _ _ _ _ Hcut').
  assert (HC : cut (bs c) (a ++ b) (bl ++ bl') t).
  { rewrite E, E', concat_app, concat_opt, app_assoc, <- concat_app.
    assert (H := cut_of c (bl ++ bl') t). rewrite concat_app, concat_opt in H. apply H; [|exact Ht].
    apply Forall_app. now split. }
  rewrite (whole_cut _ _ _ _ HC). split; [reflexivity|].
  split; [unfold nbs; rewrite (blocks_cut _ _ _ _ (bs_pos c) HC); fold (nbs c); now rewrite HB', app_assoc | exact HB].
Qed.

Lemma pad1_whole n (m : bytes) : (0 < n)%nat -> m <> [] -> (List.length m mod n = 0)%nat -> padded P1 n m = m.
Proof.
  intros Hn Hm H0. unfold padded, padding, pad_zeros. destruct m as [|x m]; [contradiction|].
  rewrite H0, Nat.sub_0_r, Nat.mod_same by lia. cbn [repeat]. apply app_nil_r.
Qed.
Lemma pad1_app n (a b : bytes) : (0 < n)%nat -> (List.length a mod n = 0)%nat -> b <> [] ->
  padded P1 n (a ++ b) = a ++ padded P1 n b.
Proof.
  intros Hn Ha Hb. unfold padded, padding, pad_zeros. rewrite <- app_assoc. f_equal. f_equal. f_equal.
  destruct b as [|y b]; [contradiction|]. destruct (a ++ y :: b) as [|z l] eqn:E; [now destruct a|].
  rewrite <- E. rewrite app_length, Nat.add_mod, Ha, Nat.add_0_l, Nat.mod_mod by lia. reflexivity.
Qed.

Lemma len_mod_nat c (a : bytes) : len a mod bs c = 0 -> (List.length a mod nbs c = 0)%nat.
Proof. unfold len. rewrite <- nbs_bs. pose proof (nbs_pos c). intros H0. rewrite <- Nat2Z.inj_mod in H0. lia. Qed.

(** Encryption (in the padding modes, with padding mode 1 and non-empty pieces). *)
Definition pads (o : mode_obj) : bool := match o_class o with ECB | CBC => true | _ => false end.

Lemma set_iv_iv o a b : set_iv (set_iv o a) b = set_iv o b.
Proof. reflexivity. Qed.

Lemma encrypt_two o a b : valid o -> bytes_ok a -> bytes_ok b -> len a mod block_size o = 0 ->
  (pads o = true -> o_pad_mode o = PAD_MODE_1 /\ a <> [] /\ b <> []) ->
  encrypt (VBytes (a ++ b)) o =
  (let! x := encrypt (VBytes a) in let! y := encrypt (VBytes b) in retM (x ++ y)) o.
Proof.
  intros Hval Ha Hb Hm Hpad. pose proof Hval as [Hc HV]. set (c := o_cipher o) in *.
  assert (Hab : bytes_ok (a ++ b)) by (apply bytes_ok_app; now split).
  destruct (whole_app c a b Ha Hb Hm) as (W1 & W2 & W3).
  assert (HmN := len_mod_nat c a Hm). pose proof (nbs_pos c) as Hn.
  unfold pads in Hpad. destruct (o_class o) eqn:Ecl.
  - destruct (Hpad eq_refl) as (Hp & Hae & Hbe). change PAD_MODE_1 with (pad_code P1) in Hp.
    rewrite (sem_ecb_enc o Hc P1 (a ++ b) Ecl Hp Hab). unfold bindM. rewrite (sem_ecb_enc o Hc P1 a Ecl Hp Ha). cbn match.
    rewrite (sem_ecb_enc o Hc P1 b Ecl Hp Hb). cbn match. unfold retM. fold c. rewrite <- concat_app. unfold ecb_enc. rewrite <- map_app.
    rewrite pad1_app, (pad1_whole (nbs c) a) by auto.
    destruct (whole_app c a (padded P1 (nbs c) b) Ha) as (_ & -> & ->); [apply bytes_ok_app; split; [exact Hb | apply padding_ok] | exact Hm | reflexivity].
  - destruct (Hpad eq_refl) as (Hp & Hae & Hbe). change PAD_MODE_1 with (pad_code P1) in Hp. destruct HV as [_ HIV].
    destruct (iv_cases o HIV) as [He|[R HR]].
    + rewrite (cbc_enc_empty o Hc He P1 (a ++ b) Ecl Hp Hab). unfold bindM. now rewrite (cbc_enc_empty o Hc He P1 a Ecl Hp Ha).
    + destruct (sem_cbc_enc o Hc R HR P1 (a ++ b) Ecl Hp Hab) as [-> _]. unfold bindM.
      destruct (sem_cbc_enc o Hc R HR P1 a Ecl Hp Ha) as [-> Hreg].
      match goal with |- _ = match encrypt _ ?s with _ => _ end => set (o1 := s) end.
      destruct (sem_cbc_enc o1 Hc _ Hreg P1 b Ecl Hp Hb) as [-> _]. unfold retM. subst o1. cbn [o_cipher set_iv]. fold c.
      rewrite set_iv_iv, <- concat_app.
      rewrite pad1_app, (pad1_whole (nbs c) a) by auto. destruct HR as (_ & Hne & _).
      destruct (whole_app c a (padded P1 (nbs c) b) Ha) as (_ & -> & ->); [apply bytes_ok_app; split; [exact Hb | apply padding_ok] | exact Hm |].
      rewrite cbc_enc_app by exact Hne. now rewrite shift_app by exact Hne.
  - destruct (iv_cases o HV) as [He|[R HR]].
    + destruct a as [|x a].
      * unfold bindM. destruct (stream_nil o (or_introl Ecl)) as [-> _]. cbn [app]. unfold retM. now destruct (encrypt (VBytes b) o) as [[|] ?].
      * unfold bindM. rewrite !(cfb_enc_empty o Hc He _ Ecl) by discriminate. reflexivity.
    + destruct (sem_cfb_enc o Hc R HR (a ++ b) Ecl Hab) as [-> _]. unfold bindM.
      destruct (sem_cfb_enc o Hc R HR a Ecl Ha) as [-> Hreg].
      match goal with |- _ = match encrypt _ ?s with _ => _ end => set (o1 := s) end.
      destruct (sem_cfb_enc o1 Hc _ Hreg b Ecl Hb) as [-> _]. unfold retM. subst o1. cbn [o_cipher set_iv]. fold c.
      destruct HR as (_ & Hne & _). rewrite set_iv_iv, <- concat_app, W1, W2, W3.
      rewrite !cfb_enc_app by exact Hne. now rewrite shift_app by exact Hne.
  - destruct (iv_cases o HV) as [He|[R HR]].
    + destruct a as [|x a].
      * unfold bindM. destruct (stream_nil o (or_intror Ecl)) as [-> _]. cbn [app]. unfold retM. now destruct (encrypt (VBytes b) o) as [[|] ?].
      * unfold bindM. rewrite !(ofb_enc_empty o Hc He _ Ecl) by discriminate. reflexivity.
    + destruct (sem_ofb_enc o Hc R HR (a ++ b) Ecl Hab) as [-> _]. unfold bindM.
      destruct (sem_ofb_enc o Hc R HR a Ecl Ha) as [-> Hreg].
      match goal with |- _ = match encrypt _ ?s with _ => _ end => set (o1 := s) end.
      destruct (sem_ofb_enc o1 Hc _ Hreg b Ecl Hb) as [-> _]. unfold retM. subst o1. cbn [o_cipher set_iv]. fold c.
      destruct HR as (_ & Hne & _). rewrite set_iv_iv, <- concat_app, W1, W2, W3.
      rewrite !ofb_app by exact Hne. rewrite app_length.
      assert (HG : forall j k R, R <> [] -> ofb_gamma (oE c) R (j + k) = ofb_gamma (oE c) R j ++ ofb_gamma (oE c) (shift R (ofb_gamma (oE c) R j)) k).
      { clear. induction j as [|j IH]; intros k R Hne; [cbn [Nat.add ofb_gamma app]; now rewrite shift_nil|].
        cbn [Nat.add ofb_gamma app]. rewrite shift_cons by exact Hne. rewrite IH by apply tl_snoc_ne. reflexivity. }
      rewrite HG by exact Hne. now rewrite shift_app by exact Hne.
  - rewrite (sem_ctr_enc o Hc (a ++ b) Ecl HV Hab). unfold bindM. rewrite (sem_ctr_enc o Hc a Ecl HV Ha).
    match goal with |- _ = match encrypt _ ?s with _ => _ end => set (o1 := s) end.
    rewrite (sem_ctr_enc o1 Hc b Ecl) by (auto; now apply ctr_next_block). unfold retM. subst o1. cbn [o_cipher o_counter set_counter]. fold c.
    rewrite set_counter_counter, ctr_next_add, ctr_run_shift, <- concat_app, W2, W3, ctr_run_app, app_length. reflexivity.
Qed.

Lemma decrypt_two o a b : valid o -> bytes_ok a -> bytes_ok b -> len a mod block_size o = 0 ->
  decrypt (VBytes (a ++ b)) o =
  (let! x := decrypt (VBytes a) in let! y := decrypt (VBytes b) in retM (x ++ y)) o.
Proof.
  intros Hval Ha Hb Hm. pose proof Hval as [Hc HV]. set (c := o_cipher o) in *.
  assert (Hab : bytes_ok (a ++ b)) by (apply bytes_ok_app; now split).
  destruct (whole_app c a b Ha Hb Hm) as (W1 & W2 & W3).
  destruct (o_class o) eqn:Ecl.
  - rewrite (sem_ecb_dec o Hc (a ++ b) Ecl Hab). unfold bindM. rewrite (sem_ecb_dec o Hc a Ecl Ha). cbn match.
    rewrite (sem_ecb_dec o Hc b Ecl Hb). cbn match. unfold retM. fold c. rewrite <- concat_app. unfold ecb_dec. now rewrite <- map_app, W1.
  - destruct HV as [HP HIV]. destruct (iv_cases o HIV) as [He|[R HR]].
    + destruct (cbc_dec_empty o Hc He (a ++ b) Ecl Hab) as [-> _]. unfold bindM.
      destruct (cbc_dec_empty o Hc He a Ecl Ha) as [-> Hreg]. fold c. fold c in Hreg. rewrite W1.
      destruct (whole (nbs c) a) as [|c1 cs] eqn:Ew.
      * destruct (cbc_dec_empty o Hc He b Ecl Hb) as [-> _]. fold c. cbn [app]. unfold retM. now destruct (whole (nbs c) b).
      * match goal with |- _ = match decrypt _ ?s with _ => _ end => set (o1 := s) end.
        destruct (sem_cbc_dec o1 Hc _ Hreg b Ecl Hb) as [-> _]. unfold retM. subst o1. cbn [app o_cipher set_iv]. fold c.
        rewrite set_iv_iv, <- concat_app, cbc_dec_app by discriminate. now rewrite shift_app by discriminate.
    + destruct (sem_cbc_dec o Hc R HR (a ++ b) Ecl Hab) as [-> _]. unfold bindM.
      destruct (sem_cbc_dec o Hc R HR a Ecl Ha) as [-> Hreg].
      match goal with |- _ = match decrypt _ ?s with _ => _ end => set (o1 := s) end.
      destruct (sem_cbc_dec o1 Hc _ Hreg b Ecl Hb) as [-> _]. unfold retM. subst o1. cbn [o_cipher set_iv]. fold c.
      destruct HR as (_ & Hne & _). rewrite set_iv_iv, <- concat_app, W1, cbc_dec_app by exact Hne. now rewrite shift_app by exact Hne.
  - destruct (iv_cases o HV) as [He|[R HR]].
    + destruct a as [|x a].
      * unfold bindM. destruct (stream_nil o (or_introl Ecl)) as [_ ->]. cbn [app]. unfold retM. now destruct (decrypt (VBytes b) o) as [[|] ?].
      * unfold bindM. rewrite !(cfb_dec_empty o Hc He _ Ecl) by discriminate. reflexivity.
    + destruct (sem_cfb_dec o Hc R HR (a ++ b) Ecl Hab) as [-> _]. unfold bindM.
      destruct (sem_cfb_dec o Hc R HR a Ecl Ha) as [-> Hreg].
      match goal with |- _ = match decrypt _ ?s with _ => _ end => set (o1 := s) end.
      destruct (sem_cfb_dec o1 Hc _ Hreg b Ecl Hb) as [-> _]. unfold retM. subst o1. cbn [o_cipher set_iv]. fold c.
      destruct HR as (_ & Hne & _). rewrite set_iv_iv, <- concat_app, W1, W2, W3.
      rewrite !cfb_dec_app by exact Hne. now rewrite shift_app by exact Hne.
  - rewrite (sem_ofb_dec o _ Ecl), encrypt_two by (auto; unfold pads; rewrite Ecl; discriminate). unfold bindM.
    rewrite (sem_ofb_dec o _ Ecl). pose proof (encrypt_frame o a Hval Ha) as [F _ _ _].
    destruct (encrypt (VBytes a) o) as [[x|e] o1]; [|reflexivity]. cbn [snd] in F. now rewrite (sem_ofb_dec o1 b) by congruence.
  - rewrite (sem_ctr_dec o _ Ecl), encrypt_two by (auto; unfold pads; rewrite Ecl; discriminate). unfold bindM.
    rewrite (sem_ctr_dec o _ Ecl). pose proof (encrypt_frame o a Hval Ha) as [F _ _ _].
    destruct (encrypt (VBytes a) o) as [[x|e] o1]; [|reflexivity]. cbn [snd] in F. now rewrite (sem_ctr_dec o1 b) by congruence.
Qed.

(** ** Any number of chunks *)

(** The outputs of successive calls, joined. *)
Fixpoint calls_joined (f : pyval -> M mode_obj bytes) (chunks : list bytes) : M mode_obj bytes :=
  match chunks with
  | [] => retM []
  | [m] => f (VBytes m)
  | m :: ms => let! x := f (VBytes m) in let! y := calls_joined f ms in retM (x ++ y)
  end.

(** All pieces but the last are whole blocks. *)
Definition whole_but_last (n : Z) (chunks : list bytes) : Prop :=
  Forall (fun m => len m mod n = 0) (removelast chunks).

Lemma bytes_ok_concat (l : list bytes) : Forall bytes_ok l -> bytes_ok (concat l).
Proof. induction 1 as [|b l Hb _ IH]; [constructor|]. cbn [concat]. apply bytes_ok_app. now split. Qed.

Lemma encrypt_valid o m : valid o -> bytes_ok m -> valid (snd (encrypt (VBytes m) o)).
Proof. intros Hv Hm. exact (step_valid (Encrypt (VBytes m)) o Hv Hm). Qed.
Lemma decrypt_valid o m : valid o -> bytes_ok m -> valid (snd (decrypt (VBytes m) o)).
Proof. intros Hv Hm. exact (step_valid (Decrypt (VBytes m)) o Hv Hm). Qed.
Lemma frame_bs o o' : frame o o' -> block_size o' = block_size o.
Proof. intros []. unfold block_size. rewrite !bs_alg. now rewrite fr_alg0. Qed.

Lemma chunked_encrypt chunks : forall o, valid o -> chunks <> [] -> Forall bytes_ok chunks -> whole_but_last (block_size o) chunks ->
  (pads o = true -> o_pad_mode o = PAD_MODE_1 /\ Forall (fun m => m <> []) chunks) ->
  calls_joined encrypt chunks o = encrypt (VBytes (concat chunks)) o.
Proof.
  induction chunks as [|m ms IH]; intros o Hval Hne Hok Hw Hp; [contradiction|].
  destruct ms as [|m2 ms]; [cbn [calls_joined concat]; now rewrite app_nil_r|].
  inversion Hok as [|? ? Hm Hok']; subst. unfold whole_but_last in Hw. cbn [removelast] in Hw. inversion Hw as [|? ? Hmm Hw']; subst.
  change (concat (m :: m2 :: ms)) with (m ++ concat (m2 :: ms)). rewrite encrypt_two; auto using bytes_ok_concat.
  2:{ intros HP. destruct (Hp HP) as [Hp1 HF]. split; [exact Hp1|]. inversion HF as [|? ? Hm0 HF']; subst. split; [exact Hm0|].
      inversion HF'; subst. cbn [concat]. intros H. apply app_eq_nil in H as [-> _]. now apply H1. }
  change (calls_joined encrypt (m :: m2 :: ms) o) with ((let! x := encrypt (VBytes m) in let! y := calls_joined encrypt (m2 :: ms) in retM (x ++ y)) o).
  unfold bindM at 1 3. pose proof (encrypt_valid o m Hval Hm) as V1. pose proof (encrypt_frame o m Hval Hm) as F1.
  destruct (encrypt (VBytes m) o) as [[x|e] o1]; [|reflexivity]. cbn [snd] in V1, F1. unfold bindM. rewrite IH; auto; [discriminate| |].
  - unfold whole_but_last. now rewrite (frame_bs _ _ F1).
  - unfold pads. rewrite (fr_class _ _ F1), (fr_pad _ _ F1). intros HP. destruct (Hp HP) as [Hp1 HF]. split; [exact Hp1|].
    now inversion HF.
Qed.

Lemma chunked_decrypt chunks : forall o, valid o -> chunks <> [] -> Forall bytes_ok chunks -> whole_but_last (block_size o) chunks ->
  calls_joined decrypt chunks o = decrypt (VBytes (concat chunks)) o.
Proof.
  induction chunks as [|m ms IH]; intros o Hval Hne Hok Hw; [contradiction|].
  destruct ms as [|m2 ms]; [cbn [calls_joined concat]; now rewrite app_nil_r|].
  inversion Hok as [|? ? Hm Hok']; subst. unfold whole_but_last in Hw. cbn [removelast] in Hw. inversion Hw as [|? ? Hmm Hw']; subst.
  change (concat (m :: m2 :: ms)) with (m ++ concat (m2 :: ms)). rewrite decrypt_two; auto using bytes_ok_concat.
  change (calls_joined decrypt (m :: m2 :: ms) o) with ((let! x := decrypt (VBytes m) in let! y := calls_joined decrypt (m2 :: ms) in retM (x ++ y)) o).
  unfold bindM at 1 3. pose proof (decrypt_valid o m Hval Hm) as V1. pose proof (decrypt_frame o m Hval Hm) as F1.
  destruct (decrypt (VBytes m) o) as [[x|e] o1]; [|reflexivity]. cbn [snd] in V1, F1. unfold bindM. rewrite IH; auto; [discriminate|].
  unfold whole_but_last. now rewrite (frame_bs _ _ F1).
Qed.
