(** * Witnesses: fresh objects of every mode under the test key of Magma *)
From Verif Require Import PyBase PyState Utils CipherObj Modes Mac SpecModes SpecNew CipherLemmas CipherObjFacts ModeFacts ModeLemmas ModeSem ModeProps ModeEmpty ModeSim ModeNew ModeHist ModeMore ModePad ModeClear ModeTrack ModeExamples.
Open Scope string_scope.
Open Scope list_scope.
Open Scope Z_scope.

Lemma key_ok : bytes_len 32 magma_test_key.
Proof. concrete_bytes. Qed.
Lemma key_bytes : bytes_ok magma_test_key.
Proof. apply key_ok. Qed.
Lemma with_pad_ok p : kw_ok (with_pad p).
Proof. split; exact I. Qed.
Lemma with_iv_ok iv p : bytes_ok iv -> kw_ok (with_iv iv p).
Proof. intros H. split; [exact H | exact I]. Qed.

(** The keyword arguments of the examples. *)
Definition example_iv (cl : mode_class) : bytes := match cl with CTR => firstn 4 iv24 | _ => iv24 end.
Definition example_kw (cl : mode_class) (p : pmode) : kwargs := with_iv (example_iv cl) p.
Lemma example_iv_ok cl : bytes_ok (example_iv cl).
Proof. destruct cl; concrete_bytes. Qed.
Lemma example_kw_ok cl p : kw_ok (example_kw cl p).
Proof. apply with_iv_ok, example_iv_ok. Qed.

Definition example_object (cl : mode_class) (p : pmode) : mode_obj :=
  match new (alg Mag) (VBytes magma_test_key) (VInt (mode_code cl)) (example_kw cl p) with
  | Ok (NewMode o) => o
  | _ => mk ECB (MagmaObj []) 0 [] []
  end.
Lemma example_new cl p :
  new (alg Mag) (VBytes magma_test_key) (VInt (mode_code cl)) (example_kw cl p) = Ok (NewMode (example_object cl p)).
Proof.
  pose proof (new_checks (alg Mag) (VBytes magma_test_key) (VInt (mode_code cl)) (example_kw cl p)) as H.
  specialize (H ltac:(destruct cl; discriminate) key_bytes (example_kw_ok cl p)).
  assert (E : first_failure (conditions (alg Mag) (VBytes magma_test_key) (VInt (mode_code cl)) (example_kw cl p)) = None)
    by (destruct cl, p; reflexivity).
  rewrite E in H. destruct H as [o Ho]. unfold example_object. now rewrite Ho.
Qed.
Lemma example_is cl p : object_of Mag magma_test_key cl (example_kw cl p) (example_object cl p).
Proof. apply object_fresh, example_new. Qed.
Lemma example_pad cl p : cl = ECB \/ cl = CBC -> pad_object Mag magma_test_key p (example_object cl p).
Proof.
  intros H. exists cl, (example_kw cl p). split; [apply key_bytes|]. split; [apply example_kw_ok|]. split; [apply example_is|].
  split; [reflexivity|]. destruct H as [-> | ->]; [now left | right; split; [reflexivity | discriminate]].
Qed.
Lemma example_stream cl p : cl = CFB \/ cl = OFB \/ cl = CTR -> stream_object Mag magma_test_key (example_object cl p).
Proof.
  intros H. exists cl, (example_kw cl p). split; [apply key_bytes|]. split; [apply example_kw_ok|]. split; [apply example_is|].
  destruct H as [-> |[-> | ->]]; [right; split; [auto | discriminate] | right; split; [auto | discriminate] | now left].
Qed.
Lemma example_live cl p : cl <> ECB -> cl <> CTR -> live Mag cl (example_object cl p).
Proof.
  intros H1 H2. exists magma_test_key, (example_kw cl p). split; [apply key_bytes|]. split; [apply example_kw_ok|]. split; [apply example_is|].
  destruct cl; try contradiction; discriminate.
Qed.

(** Encrypting and then decrypting with the same object. *)
Definition same_object (cl : mode_class) (p : pmode) (m : bytes) : res bytes :=
  let (r, o1) := encrypt (VBytes m) (example_object cl p) in
  let* ct := r in fst (decrypt (VBytes ct) o1).
Lemma same_object_wrong cl : cl <> ECB -> exists x, same_object cl P1 (firstn 8 plain8) = Ok x /\ x <> firstn 8 plain8.
Proof.
  intros H. destruct cl; [contradiction| | | |]; (eexists; split; [vm_compute; reflexivity | vm_compute; discriminate]).
Qed.
