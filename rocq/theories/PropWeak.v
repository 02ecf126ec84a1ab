(** * Property C137: keys under which encrypting is decrypting *)
From Verif Require Import PyBase PyFacts PyState Utils UtilsFacts CipherObj Modes Mac SpecNew.
From Verif Require Import SpecModes CipherLemmas ModeLemmas ModeProps ModeSim ModeMore WeakKeys.
Open Scope string_scope.
Open Scope list_scope.
Open Scope Z_scope.

(** C137.  Magma, a key whose eight words of four bytes read the same in both directions, electronic codebook mode: encrypting and decrypting are the same operation, and encrypting twice gives the message back. *)
Theorem C137_self_inverse : forall key kw o m, bytes_len 32 key -> palindrome key -> gives_pad kw P1 ->
  new (alg Mag) (VBytes key) (VInt MODE_ECB) kw = Ok (NewMode o) -> bytes_ok m -> m <> [] -> (List.length m mod 8 = 0)%nat ->
  exists c, encrypt (VBytes m) o = (Ok c, o) /\ decrypt (VBytes m) o = (Ok c, o) /\ encrypt (VBytes c) o = (Ok m, o).
Proof. exact weak_self_inverse. Qed.
Print Assumptions C137_self_inverse.
(** Under such a key at least 2^32 blocks are their own ciphertexts. *)
Theorem C137_unchanged_blocks : forall key kw o, bytes_len 32 key -> palindrome key -> gives_pad kw P1 ->
  new (alg Mag) (VBytes key) (VInt MODE_ECB) kw = Ok (NewMode o) ->
  exists f : Z -> bytes, (forall x y, 0 <= x < 2 ^ 32 -> 0 <= y < 2 ^ 32 -> f x = f y -> x = y) /\
    forall x, 0 <= x < 2 ^ 32 -> bytes_len 8 (f x) /\ encrypt (VBytes (f x)) o = (Ok (f x), o).
Proof. exact weak_fixed_points. Qed.
Print Assumptions C137_unchanged_blocks.
(** Clearing any object of Magma leaves it in such a state. *)
Theorem C137_cleared : forall key kw o o1 m, bytes_len 32 key -> gives_pad kw P1 ->
  new (alg Mag) (VBytes key) (VInt MODE_ECB) kw = Ok (NewMode o) -> o1 = snd (clear o) -> bytes_ok m -> m <> [] -> (List.length m mod 8 = 0)%nat ->
  exists c, encrypt (VBytes m) o1 = (Ok c, o1) /\ decrypt (VBytes m) o1 = (Ok c, o1) /\ encrypt (VBytes c) o1 = (Ok m, o1).
Proof. exact cleared_self_inverse. Qed.
Print Assumptions C137_cleared.

Definition zero_key : bytes := repeat 0 32.
Lemma zero_key_len : bytes_len 32 zero_key.
Proof. apply bytes_len_ok. reflexivity. Qed.
Lemma zero_key_palindrome : palindrome zero_key.
Proof. intros j Hj. do 8 (destruct j as [|j]; [reflexivity|]). lia. Qed.
Definition no_keywords : kwargs := {| kw_init_vect := None; kw_data := None; kw_pad_mode := Some (VInt PAD_MODE_1) |}.

(** The claim that the library accepts no such key.  Refuted: a key of 32 zero bytes is accepted. *)
Definition no_key_undoes_itself : Prop := forall key kw o, bytes_len 32 key -> gives_pad kw P1 ->
  new (alg Mag) (VBytes key) (VInt MODE_ECB) kw = Ok (NewMode o) ->
  exists m c d o1 o2, bytes_len 8 m /\ encrypt (VBytes m) o = (Ok c, o1) /\ encrypt (VBytes c) o1 = (Ok d, o2) /\ d <> m.
Theorem C137_no_weak_key_refuted : ~ no_key_undoes_itself.
Proof.
  intros H. destruct (new_ecb Mag zero_key no_keywords P1 zero_key_len eq_refl) as (c & Hn & _).
  destruct (H zero_key no_keywords _ zero_key_len eq_refl Hn) as (m & ct & d & o1 & o2 & [HL Hm] & E1 & E2 & Hd).
  destruct (C137_self_inverse zero_key no_keywords _ m zero_key_len zero_key_palindrome eq_refl Hn Hm) as (c' & F1 & _ & F3).
  - intros ->. discriminate HL.
  - unfold len in HL. replace (List.length m) with 8%nat by lia. reflexivity.
  - rewrite F1 in E1. assert (ct = c' /\ o1 = mk ECB c (pad_code P1) [] []) as [-> ->] by (split; congruence). rewrite F3 in E2. apply Hd. congruence.
Qed.
Print Assumptions C137_no_weak_key_refuted.

Definition enc (o : res new_obj) (m : bytes) : res bytes :=
  match o with Ok (NewMode o) => fst (encrypt (VBytes m) o) | Ok _ => Err TypeError | Err e => Err e end.
(** Under the zero key a message of two blocks, encrypted twice; and a block that is its own ciphertext. *)
Example C137_example :
  let o := new (VStr "magma") (VBytes zero_key) (VInt MODE_ECB) no_keywords in
  let m := [1; 2; 3; 4; 5; 6; 7; 8; 9; 10; 11; 12; 13; 14; 15; 16] in
  match enc o m with Ok c => enc o c = Ok m /\ c <> m | Err _ => False end.
Proof. cbv zeta. vm_compute. split; [reflexivity | discriminate]. Qed.
(** The key need not be constant: eight words 1 2 3 4 4 3 2 1. *)
Example C137_example_key : let w i := [i; i + 1; i + 2; i + 3] in palindrome (w 1 ++ w 2 ++ w 3 ++ w 4 ++ w 4 ++ w 3 ++ w 2 ++ w 1).
Proof. intros w j Hj. do 8 (destruct j as [|j]; [reflexivity|]). lia. Qed.
