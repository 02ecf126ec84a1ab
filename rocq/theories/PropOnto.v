(** * Property C139: encryption and decryption undo each other in both orders *)
From Verif Require Import PyBase PyFacts PyState Utils UtilsFacts CipherObj Modes Mac SpecNew.
From Verif Require Import SpecModes CipherLemmas ModeLemmas ModeProps ModeSim ModeNew ModeMore ModePad ModeReuse ModeOnto PropReuse PropPrefix.
Open Scope string_scope.
Open Scope list_scope.
Open Scope Z_scope.

(** C139.  All modes, an object in any state: a message has a given ciphertext exactly when that ciphertext is decrypted to the (padded) message, and both calls leave the object in the same state. *)
Theorem C139_inverse : forall a key cl kw o p m ct o', bytes_ok key -> kw_ok kw -> object_of a key cl kw o -> pad_arg kw = VInt (pad_code p) ->
  (cl = CBC \/ cl = CFB \/ cl = OFB -> exists iv, iv_arg a cl kw = VBytes iv /\ iv <> []) -> bytes_ok m -> bytes_ok ct ->
  (cl = ECB \/ cl = CBC -> (List.length ct mod bsize a = 0)%nat) ->
  (encrypt (VBytes m) o = (Ok ct, o') <-> decrypt (VBytes ct) o = (Ok (match cl with ECB | CBC => padded p (bsize a) m | _ => m end), o')).
Proof. exact inverse_both. Qed.
Print Assumptions C139_inverse.
(** With padding mode 1 every byte string (of whole blocks, not empty, in the two modes with padding) is a ciphertext: of its own decryption. *)
Theorem C139_every_ciphertext : forall a key cl kw o ct, bytes_ok key -> kw_ok kw -> object_of a key cl kw o -> pad_arg kw = VInt (pad_code P1) ->
  (cl = CBC \/ cl = CFB \/ cl = OFB -> exists iv, iv_arg a cl kw = VBytes iv /\ iv <> []) -> bytes_ok ct ->
  (cl = ECB \/ cl = CBC -> ct <> [] /\ (List.length ct mod bsize a = 0)%nat) ->
  exists m o', List.length m = List.length ct /\ decrypt (VBytes ct) o = (Ok m, o') /\ encrypt (VBytes m) o = (Ok ct, o').
Proof. exact every_ciphertext. Qed.
Print Assumptions C139_every_ciphertext.

(** The same claim for both padding modes.  Refuted: no message has a ciphertext of one block with padding mode 2. *)
Definition every_text_is_a_ciphertext : Prop := forall a key cl kw o p ct, bytes_len 32 key -> kw_ok kw -> object_of a key cl kw o -> pad_arg kw = VInt (pad_code p) ->
  cl = ECB -> bytes_ok ct -> ct <> [] -> (List.length ct mod bsize a = 0)%nat -> exists m o', bytes_ok m /\ encrypt (VBytes m) o = (Ok ct, o').
Theorem C139_mode_2_refuted : ~ every_text_is_a_ciphertext.
Proof.
  intros H. assert (HK : bytes_len 32 example_key) by (apply bytes_len_ok; reflexivity).
  set (kw := {| kw_init_vect := None; kw_data := None; kw_pad_mode := Some (VInt PAD_MODE_2) |}).
  destruct (new_ecb Mag example_key kw P2 HK eq_refl) as (c & Hn & Hm).
  assert (KW : kw_ok kw) by (unfold kw_ok, kw; cbn; tauto). pose proof (object_fresh Mag example_key ECB kw _ Hn) as HO.
  set (ct := [1; 2; 3; 4; 5; 6; 7; 8]). assert (BC : bytes_ok ct) by (apply (proj2 (bytes_len_ok 8 ct eq_refl))).
  destruct (H Mag example_key ECB kw _ P2 ct HK KW HO eq_refl eq_refl BC ltac:(discriminate) eq_refl) as (m & o' & Bm & E).
  destruct (encrypt_length_pad Mag example_key P2 (mk ECB c (pad_code P2) [] []) m) as (ct' & o1 & E' & HL).
  - exists ECB, kw. split; [apply HK|]. split; [exact KW|]. split; [exact HO|]. split; [reflexivity | now left].
  - exact Bm.
  - assert (ct' = ct) by congruence. subst ct'. unfold whole_length in HL. cbn [bsize List.length ct] in HL. destruct m as [|x m]; [discriminate HL|]. pose proof (Nat.div_le_lower_bound (List.length (x :: m) + 8 - 1) 8 1 ltac:(lia) ltac:(cbn [List.length]; lia)). lia.
Qed.
Print Assumptions C139_mode_2_refuted.

Example C139_example :
  let o := new (VStr "magma") (VBytes example_key) (VInt (mode_code CBC)) {| kw_init_vect := None; kw_data := None; kw_pad_mode := None |} in
  match decrypted o [1; 2; 3; 4; 5; 6; 7; 8; 9; 10; 11; 12; 13; 14; 15; 16] with Ok m => ciphertext o m = Ok [1; 2; 3; 4; 5; 6; 7; 8; 9; 10; 11; 12; 13; 14; 15; 16] /\ List.length m = 16%nat | Err _ => False end.
Proof. cbv zeta. vm_compute. split; reflexivity. Qed.
