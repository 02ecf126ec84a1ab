(** * Test data of GOST R 34.13-2015 appendix A (also in tests/test_gost_34_13_2015.py), and the
    small lemmas that use them *)
From Verif Require Import PyBase PyState Utils CipherObj Modes Mac SpecModes SpecNew CipherLemmas ModeLemmas ModeProps ModeSim ModeNew.
Open Scope string_scope.
Open Scope list_scope.
Open Scope Z_scope.

Definition kuz_test_key : bytes := int_to_bytearray 0x8899aabbccddeeff0011223344556677fedcba98765432100123456789abcdef 32.
Definition magma_test_key : bytes := int_to_bytearray 0xffeeddccbbaa99887766554433221100f0f1f2f3f4f5f6f7f8f9fafbfcfdfeff 32.
Definition plain16 : bytes := int_to_bytearray 0x1122334455667700ffeeddccbbaa998800112233445566778899aabbcceeff0a112233445566778899aabbcceeff0a002233445566778899aabbcceeff0a0011 64.
Definition iv32 : bytes := int_to_bytearray 0x1234567890abcef0a1b2c3d4e5f0011223344556677889901213141516171819 32.
Definition ecb_ct16 : bytes := int_to_bytearray 0x7f679d90bebc24305a468d42b9d4edcdb429912c6e0032f9285452d76718d08bf0ca33549d247ceef3f5a5313bd4b157d0b09ccde830b9eb3a02c4c5aa8ada98 64.
Definition cbc_ct16 : bytes := int_to_bytearray 0x689972d4a085fa4d90e52e3d6d7dcc272826e661b478eca6af1e8e448d5ea5acfe7babf1e91999e85640e8b0f49d90d0167688065a895c631a2d9a1560b63970 64.
Definition cfb_ct16 : bytes := int_to_bytearray 0x81800a59b1842b24ff1f795e897abd95ed5b47a7048cfab48fb521369d9326bf79f2a8eb5cc68d38842d264e97a238b54ffebecd4e922de6c75bd9dd44fbf4d1 64.
Definition ofb_ct16 : bytes := int_to_bytearray 0x81800a59b1842b24ff1f795e897abd95ed5b47a7048cfab48fb521369d9326bf66a257ac3ca0b8b1c80fe7fc10288a13203ebbc066138660a0292243f6903150 64.
Definition ctr_ct16 : bytes := int_to_bytearray 0xf195d8bec10ed1dbd57b5fa240bda1b885eee733f6a13e5df33ce4b33c45dee4a5eae88be6356ed3d5e877f13564a3a5cb91fab1f20cbab6d1c6d15820bdba73 64.

Definition plain8 : bytes := int_to_bytearray 0x92def06b3c130a59db54c704f8189d204a98fb2e67a8024c8912409b17b57e41 32.
Definition iv24 : bytes := int_to_bytearray 0x1234567890abcdef234567890abcdef134567890abcdef12 24.
Definition ecb_ct8 : bytes := int_to_bytearray 0x2b073f0494f372a0de70e715d3556e4811d8d9e9eacfbc1e7c68260996c67efb 32.
Definition cbc_ct8 : bytes := int_to_bytearray 0x96d1b05eea683919aff76129abb937b95058b4a1c4bc001920b78b1a7cd7e667 32.
Definition cfb_ct8 : bytes := int_to_bytearray 0xdb37e0e266903c830d46644c1f9a089c24bdd2035315d38bbcc0321421075505 32.
Definition ofb_ct8 : bytes := int_to_bytearray 0xdb37e0e266903c830d46644c1f9a089ca0f83062430e327ec824efb8bd4fdb05 32.
Definition ctr_ct8 : bytes := int_to_bytearray 0x4e98110c97b7b93c3e250d93d6e85d69136d868807b2dbef568eb680ab52a12d 32.

Definition with_pad (p : pmode) : kwargs := {| kw_init_vect := None; kw_data := None; kw_pad_mode := Some (VInt (pad_code p)) |}.
Definition with_iv (iv : bytes) (p : pmode) : kwargs :=
  {| kw_init_vect := Some (VBytes iv); kw_data := None; kw_pad_mode := Some (VInt (pad_code p)) |}.

(** Encrypt with one object, decrypt with another. *)
Definition encdec (a : balg) (key : bytes) (mode : Z) (kw : kwargs) (m : bytes) : res (bytes * bytes) :=
  let* o := new (VStr (alg_name a)) (VBytes key) (VInt mode) kw in
  let* o' := new (VStr (alg_name a)) (VBytes key) (VInt mode) kw in
  match o, o' with
  | NewMode o, NewMode o' =>
      let* ct := fst (encrypt (VBytes m) o) in
      let* p := fst (decrypt (VBytes ct) o') in Ok (ct, p)
  | _, _ => Err TypeError
  end.
Definition beq (a b : bytes) : bool := if list_eq_dec Z.eq_dec a b then true else false.

Lemma ctr_distinct_refuted : ~ (forall a key kw iv m i j,
  bytes_len 32 key -> gives_iv kw iv -> bytes_len (half a) iv -> bytes_ok m ->
  ((i + 1) * bsize a <= List.length m)%nat -> ((j + 1) * bsize a <= List.length m)%nat -> i <> j ->
  exists o ct, new (alg a) (VBytes key) (VInt MODE_CTR) kw = Ok (NewMode o) /\
    result (encrypt (VBytes m) o) = Ok ct /\
    bxor (nth_block (bsize a) ct i) (nth_block (bsize a) ct j) <>
    bxor (nth_block (bsize a) m i) (nth_block (bsize a) m j)).
Proof.
  intros H.
  assert (Hk : bytes_len 32 magma_test_key) by concrete_bytes.
  assert (Hi : bytes_len (half Mag) (firstn 4 iv32)) by concrete_bytes.
  assert (Hm : bytes_ok (repeat 0 2056)) by concrete_bytes.
  assert (L1 : ((0 + 1) * bsize Mag <= List.length (repeat 0%Z 2056))%nat) by (rewrite repeat_length; cbn; lia).
  assert (L2 : ((256 + 1) * bsize Mag <= List.length (repeat 0%Z 2056))%nat) by (rewrite repeat_length; cbn; lia).
  destruct (H Mag magma_test_key (with_iv (firstn 4 iv32) P1) (firstn 4 iv32) (repeat 0 2056) 0%nat 256%nat Hk eq_refl Hi Hm L1 L2 ltac:(discriminate))
    as (o & ct & Hn & He & Hneq).
  destruct (ctr_repeats_iff Mag magma_test_key (with_iv (firstn 4 iv32) P1) (firstn 4 iv32) (repeat 0 2056) 0%nat 256%nat Hk eq_refl Hi Hm L1 L2)
    as (o' & ct' & Hn' & He' & Hiff).
  rewrite Hn in Hn'. injection Hn' as <-. rewrite He in He'. injection He' as <-. apply Hneq, Hiff. reflexivity.
Qed.

Lemma new_checks algorithm key mode kw : mode <> VInt MODE_MAC -> arg_ok key -> kw_ok kw ->
  match first_failure (conditions algorithm key mode kw) with
  | Some msg => new algorithm key mode kw = Err (GOSTCipherError msg)
  | None => exists o, new algorithm key mode kw = Ok (NewMode o)
  end.
Proof.
  intros H1 H2 H3. pose proof (new_outcome algorithm key mode kw H1 H2 H3) as H.
  destruct (first_failure _); [exact H|]. destruct H as (a & k & cl & o & _ & _ & _ & H & _). eauto.
Qed.
