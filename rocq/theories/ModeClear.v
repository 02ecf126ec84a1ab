(** * Clearing, rejected arguments, empty initialization vectors *)
From Verif Require Import PyBase PyFacts PyState Utils UtilsFacts CipherObj Modes Mac SpecNew.
From Verif Require Import SpecModes CipherLemmas CipherObjFacts ModeFacts CtrFacts ModeSpecFacts ModeLemmas ModeSem ModeConf ModeProps ModeEmpty ModeSim ModeNew ModeHist ModeMore ModePad.
Open Scope string_scope.
Open Scope list_scope.
Open Scope Z_scope.

(** ** Any state of an object with a non-empty IV works *)

(** What decryption gives back. *)
Definition recovered (cl : mode_class) (kw : kwargs) (n : nat) (m pt : bytes) : Prop :=
  match cl with
  | ECB | CBC => exists p, pad_arg kw = VInt (pad_code p) /\ pt = padded p n m
  | _ => pt = m
  end.

Lemma iv_works a key cl kw o m : bytes_ok key -> kw_ok kw -> object_of a key cl kw o -> bytes_ok m ->
  cl = ECB \/ cl = CTR \/ iv_arg a cl kw <> VBytes [] ->
  exists ct pt o1 o2, encrypt (VBytes m) o = (Ok ct, o1) /\ decrypt (VBytes ct) o = (Ok pt, o2) /\ recovered cl kw (bsize a) m pt.
Proof.
  intros Hk Hkw HO Hm Hcl. destruct (object_facts a key cl kw o Hk Hkw HO) as (V & Ecl & Ha & Hpad & _).
  destruct V as [Hc V]. rewrite <- (object_nbs o a Ha).
  assert (HIV : cl = CBC \/ cl = CFB \/ cl = OFB -> exists R, reg o R).
  { intros H. apply (object_iv a key cl kw); auto. destruct Hcl as [-> |[-> |H']]; [| |exact H']; destruct H as [H|[H|H]]; discriminate. }
  rewrite Ecl in V. destruct cl; cbn [recovered].
  - destruct V as [p Hp]. destruct (rt_ecb o Hc p m Ecl Hp Hm) as (ct & H1 & _ & H2). exists ct. eexists _, _, _. split; [exact H1|]. split; [exact H2|].
    exists p. rewrite Hpad, Hp. auto.
  - destruct V as [[p Hp] _]. destruct HIV as [R HR]; [tauto|]. destruct (rt_cbc o Hc R p m Ecl Hp HR Hm) as (ct & o1 & o2 & H1 & _ & H2).
    exists ct. eexists _, _, _. split; [exact H1|]. split; [exact H2|]. exists p. rewrite Hpad, Hp. auto.
  - destruct HIV as [R HR]; [tauto|]. destruct (rt_cfb o Hc R m Ecl HR Hm) as (ct & o1 & o2 & H1 & _ & H2). eauto 8.
  - destruct HIV as [R HR]; [tauto|]. destruct (rt_ofb o Hc R m Ecl HR Hm) as (ct & o1 & o2 & H1 & _ & H2). eauto 8.
  - destruct (rt_ctr o Hc m Ecl V Hm) as (ct & o1 & o2 & H1 & _ & H2). eauto 8.
Qed.

(** ** The empty IV *)

Lemma zero_mod a : len (@nil Z) mod Z.of_nat (bsize a) = 0.
Proof. now destruct a. Qed.
Lemma empty_stream a key kw cl : bytes_len 32 key -> gives_iv kw [] -> cl = CFB \/ cl = OFB ->
  exists o, new (alg a) (VBytes key) (VInt (mode_code cl)) kw = Ok (NewMode o) /\
    forall m, m <> [] -> encrypt (VBytes m) o = (Err IndexError, o) /\ decrypt (VBytes m) o = (Err IndexError, o).
Proof.
  intros Hk Hi [-> | ->].
  - destruct (new_cfb a key kw [] Hk Hi (zero_mod a)) as (c & Hn & Hmd). eexists. split; [exact Hn|]. intros m Hne.
    split; [apply cfb_enc_empty | apply cfb_dec_empty]; auto; apply Hmd.
  - destruct (new_ofb a key kw [] Hk Hi (zero_mod a)) as (c & Hn & Hmd). eexists. split; [exact Hn|]. intros m Hne.
    rewrite sem_ofb_dec by reflexivity. split; apply ofb_enc_empty; auto; apply Hmd.
Qed.
Lemma empty_cbc a key kw p : bytes_len 32 key -> gives_pad kw p -> gives_iv kw [] ->
  exists o, new (alg a) (VBytes key) (VInt MODE_CBC) kw = Ok (NewMode o) /\
    (forall m, bytes_ok m -> encrypt (VBytes m) o = (Err IndexError, o)) /\
    (forall d, bytes_ok d -> result (decrypt (VBytes d) o) =
       match whole (bsize a) d with
       | [] => Ok []
       | c1 :: cs => Ok (concat (cbc_dec (spec_D a key) [c1] cs))
       end).
Proof.
  intros Hk Hp Hi. destruct (new_cbc a key kw p [] Hk Hp Hi (zero_mod a)) as (c & Hn & Hmd). eexists. split; [exact Hn|].
  split.
  - intros m Hm. apply (cbc_enc_empty (mk CBC c (pad_code p) [] []) (proj1 Hmd) eq_refl p); auto.
  - intros d Hd. destruct (cbc_dec_empty (mk CBC c (pad_code p) [] []) (proj1 Hmd) eq_refl d eq_refl Hd) as [-> _]. cbn [o_cipher mk].
    rewrite <- (made_nbs _ _ _ Hmd). assert (HW := whole_forall c d Hd).
    destruct (whole (nbs c) d) as [|c1 cs]; [reflexivity|]. cbn [result fst]. do 2 f_equal.
    apply (conf_cbc_dec a key c Hmd). now inversion HW.
Qed.

(** ** Clearing *)

Definition invalid_plaintext : exn := GOSTCipherError "GOSTCipherError: invalid plaintext data".
Definition invalid_ciphertext : exn := GOSTCipherError "GOSTCipherError: invalid ciphertext data".

Lemma object_valid a key cl kw o : bytes_ok key -> kw_ok kw -> object_of a key cl kw o -> valid o /\ co_alg (o_cipher o) = a /\ o_class o = cl.
Proof. intros Hk Hkw HO. destruct (object_facts a key cl kw o Hk Hkw HO) as (? & ? & ? & _). auto. Qed.

Lemma rejected_clears a key cl kw o d : bytes_ok key -> kw_ok kw -> object_of a key cl kw o -> not_bytes d ->
  encrypt d o = (Err invalid_plaintext, snd (clear o)) /\ decrypt d o = (Err invalid_ciphertext, snd (clear o)).
Proof.
  intros Hk Hkw HO Hd. destruct (object_valid a key cl kw o Hk Hkw HO) as [[Hc _] _].
  rewrite enc_not_bytes, dec_not_bytes by exact Hd. destruct (clear_ok o Hc) as (c & -> & _). auto.
Qed.

(** The object a cleared object cannot be told apart from: its key schedule is a public constant. *)
Definition public_key_object (a : balg) (o : mode_obj) : mode_obj := set_cipher o (cleared_obj a).

Lemma clear_sim o : valid o -> sim (snd (clear o)) (public_key_object (co_alg (o_cipher o)) o) /\ fst (clear o) = Ok tt.
Proof.
  intros HV. assert (HV' := HV). destruct HV' as [Hc V]. destruct (clear_ok o Hc) as (c & -> & K1 & K2 & K3). cbn [fst snd]. split; [|reflexivity].
  set (a := co_alg (o_cipher o)) in *.
  assert (Ha : co_alg (cleared_obj a) = a) by now destruct a.
  split; unfold public_key_object; cbn [set_cipher o_cipher o_class o_pad_mode o_init_vect o_counter]; auto using cleared_ok.
  - congruence.
  - intros b Hb. apply K3. eapply block_alg; [exact K2 | exact Hb].
  - intros b Hb. apply K3. eapply block_alg; [exact K2 | exact Hb].
  - split; [exact K1|]. cbn [set_cipher o_class].
    assert (Hbs : bs c = bs (o_cipher o)) by (rewrite !bs_alg; now rewrite K2).
    destruct (o_class o); unfold pad_valid, iv_valid, block_size, block in *;
      cbn [set_cipher o_pad_mode o_init_vect o_counter o_cipher]; rewrite ?Hbs; exact V.
Qed.

Lemma cleared_behaves a key cl kw o cs : bytes_ok key -> kw_ok kw -> object_of a key cl kw o -> Forall call_ok cs ->
  fst (clear o) = Ok tt /\ fst (run cs (snd (clear o))) = fst (run cs (public_key_object a o)).
Proof.
  intros Hk Hkw HO HF. destruct (object_valid a key cl kw o Hk Hkw HO) as (V & <- & _).
  destruct (clear_sim o V) as [HS E]. split; [exact E|]. apply (sim_run cs _ _ HS HF).
Qed.

Lemma cleared_key_independent a key key' cl kw o o' cs : bytes_ok key -> bytes_ok key' -> kw_ok kw ->
  object_of a key cl kw o -> object_of a key' cl kw o' ->
  o_init_vect o = o_init_vect o' -> o_counter o = o_counter o' -> Forall call_ok cs ->
  fst (run (Clear :: cs) o) = fst (run (Clear :: cs) o').
Proof.
  intros Hk Hk' Hkw HO HO' Hiv Hctr HF.
  destruct (object_facts a key cl kw o Hk Hkw HO) as (V & Ecl & Ha & Hpad & _).
  destruct (object_facts a key' cl kw o' Hk' Hkw HO') as (V' & Ecl' & Ha' & Hpad' & _).
  destruct (clear_sim o V) as [HS E]. destruct (clear_sim o' V') as [HS' E'].
  rewrite Ha in HS. rewrite Ha' in HS'.
  cbn [run step]. destruct (clear o) as [r s], (clear o') as [r' s']. cbn [fst snd] in *. subst r r'.
  destruct (sim_run cs _ _ HS HF) as [H1 _]. destruct (sim_run cs _ _ HS' HF) as [H2 _].
  destruct (run cs s) as [rs t], (run cs s') as [rs' t']. cbn [fst] in *. f_equal. rewrite H1, H2. do 2 f_equal.
  unfold public_key_object, set_cipher. rewrite Ecl, Ecl', Hiv, Hctr.
  assert (HP : o_pad_mode o = o_pad_mode o') by (destruct cl; congruence). now rewrite HP.
Qed.
(** Two fresh objects. *)
Lemma cleared_fresh a key key' cl kw o o' cs : bytes_ok key -> bytes_ok key' -> kw_ok kw ->
  new (alg a) (VBytes key) (VInt (mode_code cl)) kw = Ok (NewMode o) ->
  new (alg a) (VBytes key') (VInt (mode_code cl)) kw = Ok (NewMode o') -> Forall call_ok cs ->
  fst (run (Clear :: cs) o) = fst (run (Clear :: cs) o').
Proof.
  intros Hk Hk' Hkw Hn Hn' HF.
  destruct (fresh_facts a key cl kw o Hk Hkw Hn) as (_ & _ & _ & _ & Hctr & Hiv & _).
  destruct (fresh_facts a key' cl kw o' Hk' Hkw Hn') as (_ & _ & _ & _ & Hctr' & Hiv' & _).
  assert (E : o_init_vect o = o_init_vect o') by congruence.
  apply (cleared_key_independent a key key' cl kw); auto using object_fresh. rewrite Hctr, Hctr', E. reflexivity.
Qed.
