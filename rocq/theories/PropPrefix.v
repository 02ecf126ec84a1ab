(** * Properties C123, C124: changed ciphertexts and vectors; what equal ciphertexts say *)
From Verif Require Import PyBase PyFacts PyState Utils UtilsFacts CipherObj Modes Mac SpecNew.
From Verif Require Import SpecModes CipherLemmas CipherObjFacts ModeFacts CtrFacts ModeSpecFacts ModeLemmas ModeSem ModeConf ModeProps ModeEmpty ModeSim ModeNew ModeHist ModeMore ModeReuse ModePrefix PropReuse.
Open Scope string_scope.
Open Scope list_scope.
Open Scope Z_scope.

(** C123.  Counter mode and output feedback, an object in any state: whatever is added to the ciphertext is added to the message, without an error, and the object goes on from the same state. *)
Theorem C123_stream : forall a key cl kw o ct d, bytes_ok key -> kw_ok kw -> object_of a key cl kw o ->
  cl = CTR \/ cl = OFB /\ (exists iv, iv_arg a cl kw = VBytes iv /\ iv <> []) -> bytes_ok ct -> bytes_ok d -> List.length d = List.length ct ->
  exists m o', List.length m = List.length ct /\ decrypt (VBytes ct) o = (Ok m, o') /\ decrypt (VBytes (bxor ct d)) o = (Ok (bxor m d), o').
Proof. exact malleable. Qed.
Print Assumptions C123_stream.
(** Cipher block chaining: what is added to the initialization vector is added to the beginning of the message. *)
Theorem C123_vector : forall a key kw1 kw2 p1 p2 iv1 iv2 ct, bytes_len 32 key -> gives_pad kw1 p1 -> gives_pad kw2 p2 -> gives_iv kw1 iv1 -> gives_iv kw2 iv2 -> iv_blocks a iv1 -> iv_blocks a iv2 ->
  List.length iv1 = List.length iv2 -> bytes_ok ct ->
  exists o1 o2 m, new (alg a) (VBytes key) (VInt MODE_CBC) kw1 = Ok (NewMode o1) /\ new (alg a) (VBytes key) (VInt MODE_CBC) kw2 = Ok (NewMode o2) /\
    result (decrypt (VBytes ct) o1) = Ok m /\ result (decrypt (VBytes ct) o2) = Ok (bxor m (bxor iv1 iv2 ++ repeat 0 (List.length ct))).
Proof. exact vector_changed. Qed.
Print Assumptions C123_vector.
(** The claim that a receiver notices a change: of two different ciphertexts of one length at most one is decrypted.  Refuted. *)
Definition changes_noticed : Prop := forall a key cl kw o ct ct' m m', bytes_len 32 key -> kw_ok kw -> object_of a key cl kw o -> bytes_ok ct -> bytes_ok ct' -> List.length ct = List.length ct' ->
  result (decrypt (VBytes ct) o) = Ok m -> result (decrypt (VBytes ct') o) = Ok m' -> ct = ct'.
Theorem C123_noticed_refuted : ~ changes_noticed.
Proof.
  intros H. assert (HK : bytes_len 32 example_key) by (split; [reflexivity|]; unfold example_key; apply Forall_forall; intros x Hx; apply in_map_iff in Hx as (i & <- & Hi); apply in_seq in Hi; unfold byte_ok; lia).
  set (kw := {| kw_init_vect := Some (VBytes [1; 2; 3; 4]); kw_data := None; kw_pad_mode := None |}).
  assert (B1 : bytes_ok [1]) by (apply Forall_cons; [unfold byte_ok; lia | apply Forall_nil]). assert (B2 : bytes_ok [2]) by (apply Forall_cons; [unfold byte_ok; lia | apply Forall_nil]).
  assert (BV : bytes_ok [1; 2; 3; 4]) by (repeat (apply Forall_cons; [unfold byte_ok; lia|]); apply Forall_nil).
  destruct (new_ctr Mag example_key kw [1; 2; 3; 4] HK eq_refl eq_refl) as (c & Hn & Hm).
  assert (KW : kw_ok kw) by (unfold kw_ok, kw; cbn; tauto).
  pose proof (object_fresh Mag example_key CTR kw _ Hn) as HO.
  destruct (C123_stream Mag example_key CTR kw _ [1] [3] (proj2 HK) KW HO (or_introl eq_refl) B1) as (m & o' & _ & E1 & E2); [apply Forall_cons; [unfold byte_ok; lia | apply Forall_nil] | reflexivity |].
  change (bxor [1] [3]) with [2] in E2.
  assert (E : [1] = [2]) by (apply (H Mag example_key CTR kw _ [1] [2] m (bxor m [3]) HK KW HO B1 B2 eq_refl); unfold result; [now rewrite E1 | now rewrite E2]). discriminate E.
Qed.
Print Assumptions C123_noticed_refuted.
Definition decrypted (o : res new_obj) (m : bytes) : res bytes :=
  match o with Ok (NewMode o) => result (decrypt (VBytes m) o) | Ok _ => Err TypeError | Err e => Err e end.
Example C123_example :
  let o := new (VStr "magma") (VBytes example_key) (VInt (mode_code CTR)) {| kw_init_vect := None; kw_data := None; kw_pad_mode := None |} in
  exists m, decrypted o [10; 20; 30; 40; 50; 60; 70; 80; 90; 100] = Ok m /\ decrypted o [10; 20; 30; 40; 50; 60; 70; 81; 90; 100] = Ok (bxor m [0; 0; 0; 0; 0; 0; 0; 1; 0; 0]) /\ m <> [10; 20; 30; 40; 50; 60; 70; 80; 90; 100].
Proof. cbv zeta. eexists. split; [vm_compute; reflexivity|]. split; [vm_compute; reflexivity | discriminate]. Qed.

(** C124.  All modes, two messages encrypted from one state: the ciphertexts have the same first [k] blocks exactly when the messages do. *)
Theorem C124_common_beginning : forall a key cl kw o m1 m2 k, bytes_ok key -> kw_ok kw -> object_of a key cl kw o ->
  (cl = CBC \/ cl = CFB \/ cl = OFB -> exists iv, iv_arg a cl kw = VBytes iv /\ iv <> []) -> bytes_ok m1 -> bytes_ok m2 ->
  (k * bsize a <= List.length m1)%nat -> (k * bsize a <= List.length m2)%nat ->
  exists c1 c2 o1 o2, encrypt (VBytes m1) o = (Ok c1, o1) /\ encrypt (VBytes m2) o = (Ok c2, o2) /\
    (firstn (k * bsize a) c1 = firstn (k * bsize a) c2 <-> firstn (k * bsize a) m1 = firstn (k * bsize a) m2).
Proof. exact common_prefix. Qed.
Print Assumptions C124_common_beginning.
(** Electronic codebook: a block of one ciphertext equals a block of another (or of the same) exactly when the blocks of the messages are equal, wherever they stand. *)
Theorem C124_ecb_blocks : forall a key kw o m1 m2 i j, bytes_ok key -> kw_ok kw -> object_of a key ECB kw o -> bytes_ok m1 -> bytes_ok m2 ->
  ((i + 1) * bsize a <= List.length m1)%nat -> ((j + 1) * bsize a <= List.length m2)%nat ->
  exists c1 c2, encrypt (VBytes m1) o = (Ok c1, o) /\ encrypt (VBytes m2) o = (Ok c2, o) /\
    (nth_block (bsize a) c1 i = nth_block (bsize a) c2 j <-> nth_block (bsize a) m1 i = nth_block (bsize a) m2 j).
Proof. exact ecb_blocks. Qed.
Print Assumptions C124_ecb_blocks.
Example C124_example :
  let o := new (VStr "magma") (VBytes example_key) (VInt (mode_code ECB)) {| kw_init_vect := None; kw_data := None; kw_pad_mode := None |} in
  exists c, ciphertext o (repeat 5 8 ++ repeat 6 8 ++ repeat 5 8) = Ok c /\ nth_block 8 c 0 = nth_block 8 c 2 /\ nth_block 8 c 0 <> nth_block 8 c 1.
Proof. cbv zeta. eexists. split; [vm_compute; reflexivity|]. split; [reflexivity | discriminate]. Qed.
