(** * Properties C36-C42 and C31 (MAC): message authentication codes *)
From Verif Require Import PyBase PyState Utils CipherObj Modes Mac SpecModes SpecNew CipherLemmas CipherObjFacts ModeEmpty ModeProps ModeSim ModeNew ModeExamples MacLemmas MacProps MacProps2.
Open Scope string_scope.
Open Scope list_scope.
Open Scope Z_scope.

(** Keyword arguments with a message, and the object. *)
Definition with_data (d : bytes) : kwargs := {| kw_init_vect := None; kw_data := Some (VBytes d); kw_pad_mode := None |}.
Definition example_mac (key d : bytes) : mac_obj :=
  match new (alg Mag) (VBytes key) (VInt MODE_MAC) (with_data d) with
  | Ok (NewMac m) => m
  | _ => {| m_cipher := KuzObj []; m_key_1 := []; m_key_2 := []; m_fin_buff := []; m_iter_buf := []; m_prev_mac := []; m_cur_mac := [] |}
  end.
Lemma example_mac_is : mac_object Mag magma_test_key plain8 (example_mac magma_test_key plain8).
Proof. exists (with_data plain8). split; [reflexivity|]. vm_compute. reflexivity. Qed.
Lemma example_mac_fresh key : key = magma_test_key \/ key = repeat 1 32 -> mac_object Mag key [] (example_mac key []).
Proof. intros H. exists (with_data []). split; [reflexivity|]. destruct H as [-> | ->]; vm_compute; reflexivity. Qed.

(** C31 in MAC mode: a message shorter than a block makes [new] raise IndexError. *)
Theorem C31_constructor_mac : forall algorithm key kw, arg_ok key -> kw_ok kw ->
  match first_failure (conditions algorithm key (VInt MODE_MAC) kw) with
  | Some msg => new algorithm key (VInt MODE_MAC) kw = Err (GOSTCipherError msg)
  | None =>
      match kw_data kw with
      | Some (VBytes d) =>
          if (0 <? len d) && (len d <? block_bytes algorithm) then new algorithm key (VInt MODE_MAC) kw = Err IndexError
          else exists m, new algorithm key (VInt MODE_MAC) kw = Ok (NewMac m)
      | _ => exists m, new algorithm key (VInt MODE_MAC) kw = Ok (NewMac m)
      end
  end.
Proof. exact new_mac_checks. Qed.
Print Assumptions C31_constructor_mac.

Example C31_example_mac : kw_ok (with_data [1; 2; 3]) /\
  first_failure (conditions (VStr "magma") (VBytes magma_test_key) (VInt MODE_MAC) (with_data [1; 2; 3])) = None /\
  first_failure (conditions (VStr "magma") (VBytes magma_test_key) (VInt MODE_MAC)
    {| kw_init_vect := None; kw_data := Some (VStr "text"); kw_pad_mode := None |}) = Some "GOSTCipherError: invalid text data".
Proof. split; [split; [exact I | concrete_bytes]|]. split; reflexivity. Qed.

(** C36: the claim is that after [clear] no result depends on the key. *)
Definition clear_removes_key : Prop := forall a key key' m m' s, bytes_len 32 key -> bytes_len 32 key' ->
  mac_object a key [] m -> mac_object a key' [] m' ->
  fst (mac_digest s (snd (mac_clear m))) = fst (mac_digest s (snd (mac_clear m'))).

Theorem C36_subkey_disclosed : forall a key m, bytes_len 32 key -> mac_object a key [] m ->
  exists d x, mac_digest (Z.of_nat (bsize a)) (snd (mac_clear m)) = (Ok d, snd (mac_clear m)) /\
    co_decrypt (cleared_obj a) d = Ok x /\ bxor x (first_pad (bsize a)) = mac_key2 (spec_E a key) (bsize a).
Proof. exact cleared_digest. Qed.
Print Assumptions C36_subkey_disclosed.
Theorem C36_clear_refuted : ~ clear_removes_key.
Proof.
  intros H. assert (Hk : bytes_len 32 magma_test_key) by concrete_bytes. assert (Hk' : bytes_len 32 (repeat 1 32)) by concrete_bytes.
  specialize (H Mag _ _ _ _ 8 Hk Hk' (example_mac_fresh _ (or_introl eq_refl)) (example_mac_fresh _ (or_intror eq_refl))).
  revert H. vm_compute. discriminate.
Qed.
Print Assumptions C36_clear_refuted.
(** A rejected update is [clear]. *)
Theorem C36_rejected_update : forall a key m d, bytes_len 32 key -> mac_used a key m -> not_bytes d ->
  mac_update d m = (Err (GOSTCipherError "GOSTCipherError: invalid text data"), snd (mac_clear m)).
Proof. exact update_not_bytes. Qed.
Print Assumptions C36_rejected_update.

Example C36_example : mac_object Mag magma_test_key [] (example_mac magma_test_key []) /\ first_pad 8 = [0x80; 0; 0; 0; 0; 0; 0; 0] /\
  mac_key2 (spec_E Mag magma_test_key) 8 = [0xbe; 0x8b; 0x36; 0x66; 0x84; 0xa4; 0x28; 0x48].
Proof. split; [apply example_mac_fresh; now left|]. split; vm_compute; reflexivity. Qed.

(** C37. *)
Theorem C37_mac_conforms : forall a key kw m s, bytes_len 32 key -> bytes_ok m ->
  kw_data kw = Some (VBytes m) \/ kw_data kw = None /\ m = [] ->
  m = [] \/ (bsize a <= List.length m)%nat -> 0 <= s <= Z.of_nat (bsize a) ->
  exists o, new (alg a) (VBytes key) (VInt MODE_MAC) kw = Ok (NewMac o) /\
    mac_digest s o = (Ok (firstn (Z.to_nat s) (mac (spec_E a key) (bsize a) m)), o).
Proof.
  intros a key kw m s Hk Hm Hkw Hl Hs. assert (Hd : kw_get (kw_data kw) (VBytes []) = VBytes m) by (destruct Hkw as [-> | [-> ->]]; reflexivity).
  pose proof (new_mac_cases a key kw m Hk Hd Hm) as H.
  replace ((0 <? len m) && (len m <? Z.of_nat (bsize a))) with false in H
    by (destruct Hl as [-> | Hl]; [reflexivity | unfold len; symmetry; apply andb_false_intro2; lia]).
  destruct H as (o & Hn & HT). exists o. split; [exact Hn|]. now apply (tracks_digest a key).
Qed.
Print Assumptions C37_mac_conforms.

(** The example of the standard (A.2.6), and a partial last block. *)
Example C37_example : fst (mac_digest 4 (example_mac magma_test_key plain8)) = Ok [0x15; 0x4e; 0x72; 0x10] /\
  mac (spec_E Mag magma_test_key) 8 plain8 = [0x15; 0x4e; 0x72; 0x10; 0x20; 0x30; 0xc5; 0xbb] /\
  fst (mac_digest 8 (example_mac magma_test_key (firstn 13 plain8))) = Ok (mac (spec_E Mag magma_test_key) 8 (firstn 13 plain8)).
Proof. repeat match goal with |- _ /\ _ => split end; vm_compute; reflexivity. Qed.

(** C38: updates and digests in any order; [accepted] joins the chunks whose update returned. *)
Theorem C38_streaming : forall a key d0 m0 cs s, bytes_len 32 key -> bytes_ok d0 -> mac_object a key d0 m0 -> Forall plain_call cs ->
  0 <= s <= Z.of_nat (bsize a) ->
  fst (mac_digest s (snd (mrun cs m0))) =
    Ok (firstn (Z.to_nat s) (mac (spec_E a key) (bsize a) (d0 ++ accepted cs (fst (mrun cs m0))))).
Proof. exact streaming. Qed.
Print Assumptions C38_streaming.

Example C38_example :
  let cs := [MUpdate (VBytes (firstn 11 plain8)); MUpdate (VBytes [5]); MDigest 99; MUpdate (VBytes (skipn 11 plain8))] in
  Forall plain_call cs /\ accepted cs (fst (mrun cs (example_mac magma_test_key []))) = plain8 /\
  nth 1 (fst (mrun cs (example_mac magma_test_key []))) (Ok []) = Err IndexError.
Proof.
  cbv zeta. split; [repeat (apply Forall_cons; [cbn [plain_call]; first [exact I | concrete_bytes]|]); apply Forall_nil|]. split; vm_compute; reflexivity.
Qed.

(** C39: the claim of the documentation. *)
Definition any_chunking : Prop := forall a key d0 m0 cs d1 d2 m, bytes_len 32 key -> bytes_ok d0 -> mac_object a key d0 m0 -> Forall plain_call cs ->
  bytes_ok d1 -> bytes_ok d2 -> m = snd (mrun cs m0) ->
  exists m1 m2, mac_update (VBytes d1) m = (Ok tt, m1) /\ mac_update (VBytes d2) m1 = (Ok tt, m2) /\
    mac_update (VBytes (d1 ++ d2)) m = (Ok tt, m2).

(** Exactly when an update is refused; a refused update changes nothing. *)
Theorem C39_update_iff : forall a key d0 m0 cs d, bytes_len 32 key -> bytes_ok d0 -> mac_object a key d0 m0 -> Forall plain_call cs -> bytes_ok d ->
  let m := snd (mrun cs m0) in let msg := d0 ++ accepted cs (fst (mrun cs m0)) in
  if len msg mod Z.of_nat (bsize a) + len d <? Z.of_nat (bsize a)
  then mac_update (VBytes d) m = (Err IndexError, m)
  else exists m', mac_update (VBytes d) m = (Ok tt, m').
Proof. exact update_iff. Qed.
Print Assumptions C39_update_iff.
(** Where both updates return, the documentation is right. *)
Theorem C39_joined : forall a key d0 m0 cs d1 d2 m1 m2, bytes_len 32 key -> bytes_ok d0 -> mac_object a key d0 m0 -> Forall plain_call cs ->
  bytes_ok d1 -> bytes_ok d2 -> let m := snd (mrun cs m0) in
  mac_update (VBytes d1) m = (Ok tt, m1) -> mac_update (VBytes d2) m1 = (Ok tt, m2) ->
  mac_update (VBytes (d1 ++ d2)) m = (Ok tt, m2).
Proof. exact joined_updates. Qed.
Print Assumptions C39_joined.
Theorem C39_chunking_refuted : ~ any_chunking.
Proof.
  intros H. assert (Hk : bytes_len 32 magma_test_key) by concrete_bytes. assert (Hb : bytes_ok [1]) by concrete_bytes.
  destruct (H Mag _ _ _ [] [1] [1] _ Hk (Forall_nil _) (example_mac_fresh _ (or_introl eq_refl)) (Forall_nil _) Hb Hb eq_refl) as (m1 & m2 & E & _).
  pose proof (C39_update_iff Mag _ _ _ [] [1] Hk (Forall_nil _) (example_mac_fresh _ (or_introl eq_refl)) (Forall_nil _) Hb) as HU.
  cbv zeta in HU. cbn [accepted mrun fst app] in HU. change (len (@nil Z) mod Z.of_nat (bsize Mag) + len [1] <? Z.of_nat (bsize Mag)) with true in HU. cbv iota in HU.
  cbn [mrun snd] in E, HU. rewrite E in HU. discriminate HU.
Qed.
Print Assumptions C39_chunking_refuted.

Example C39_example : exists m1 m2, mac_update (VBytes (firstn 9 plain8)) (example_mac magma_test_key []) = (Ok tt, m1) /\
  mac_update (VBytes (skipn 9 plain8)) m1 = (Ok tt, m2) /\ m2 = example_mac magma_test_key plain8.
Proof. do 2 eexists. split; [vm_compute; reflexivity|]. split; [vm_compute; reflexivity|]. vm_compute. reflexivity. Qed.

(** C40: for an object after any calls, also [mac_final], [clear] and rejected updates. *)
Theorem C40_digest : forall a key m, bytes_len 32 key -> mac_used a key m ->
  exists d, List.length d = bsize a /\ forall s,
    (0 <= s <= Z.of_nat (bsize a) -> mac_digest s m = (Ok (firstn (Z.to_nat s) d), m)) /\
    (s < 0 -> mac_digest s m = (Ok (firstn (Z.to_nat (Z.of_nat (bsize a) + s)) d), m)) /\
    (Z.of_nat (bsize a) < s -> mac_digest s m = (Err size_error, m)).
Proof. exact digest_any. Qed.
Print Assumptions C40_digest.
Theorem C40_digest_transparent : forall cs m, snd (mrun cs m) = snd (mrun (filter not_digest cs) m).
Proof. exact digest_transparent. Qed.
Print Assumptions C40_digest_transparent.

Example C40_example : mac_used Mag magma_test_key (snd (mrun [MFinal; MUpdate VNone; MUpdate (VBytes plain8)] (example_mac magma_test_key plain8))) /\
  size_error = GOSTCipherError "GOSTCipherError: invalid message authentication code size" /\
  fst (mac_digest (-5) (example_mac magma_test_key plain8)) = Ok [0x15; 0x4e; 0x72].
Proof.
  split; [|split; [reflexivity | vm_compute; reflexivity]].
  exists plain8, (example_mac magma_test_key plain8), [MFinal; MUpdate VNone; MUpdate (VBytes plain8)].
  split; [concrete_bytes|]. split; [apply example_mac_is|]. split; [|reflexivity].
  repeat (apply Forall_cons; [cbn [mcall_ok arg_ok]; first [exact I | concrete_bytes]|]); apply Forall_nil.
Qed.

(** C41. *)
Theorem C41_subkeys : forall a key m, bytes_len 32 key -> mac_object a key [] m ->
  m_key_1 m = mac_key1 (spec_E a key) (bsize a) /\ m_key_2 m = mac_key2 (spec_E a key) (bsize a).
Proof. intros a key m Hk Hm. pose proof (kw_data_of a key [] m Hm Hk (Forall_nil _)) as HT. split; apply HT. Qed.
Print Assumptions C41_subkeys.

Example C41_example : m_key_1 (example_mac magma_test_key []) = [0x5f; 0x45; 0x9b; 0x33; 0x42; 0x52; 0x14; 0x24] /\
  double 8 0x5f459b3342521424 = 0xbe8b366684a42848 /\ double 8 0xbe8b366684a42848 = 0x7d166ccd0948508b /\ double 16 (2 ^ 127) = 0x87.
Proof. repeat match goal with |- _ /\ _ => split end; vm_compute; reflexivity. Qed.

(** C42: the claim is that [mac_final] may be called again. *)
Definition final_repeatable : Prop := forall a key d m, bytes_len 32 key -> bytes_ok d -> mac_object a key d m ->
  fst (mac_final (snd (mac_final m))) = fst (mac_final m).

(** Exactly when the second call returns the same value; the last disjunct is about the key alone. *)
Theorem C42_final_twice : forall a key d0 m0 cs, bytes_len 32 key -> bytes_ok d0 -> mac_object a key d0 m0 -> Forall plain_call cs ->
  let m := snd (mrun cs m0) in let msg := d0 ++ accepted cs (fst (mrun cs m0)) in
  exists v1 v2 m1 m2, mac_final m = (Ok v1, m1) /\ mac_final m1 = (Ok v2, m2) /\
    v1 = mac (spec_E a key) (bsize a) msg /\
    (v1 = v2 <-> (msg <> [] /\ len msg mod Z.of_nat (bsize a) = 0) \/ spec_E a key (repeat 0 (bsize a)) = repeat 0 (bsize a)).
Proof. intros a key d0 m0 cs Hk Hd Hm Hc. apply final_twice, tracks_run; [exact Hc|]. now apply kw_data_of. Qed.
Print Assumptions C42_final_twice.
(** But later updates are not affected. *)
Theorem C42_final_then_update : forall m d m', mac_update (VBytes d) m = (Ok tt, m') -> mac_update (VBytes d) (snd (mac_final m)) = (Ok tt, m').
Proof. exact final_then_update. Qed.
Print Assumptions C42_final_then_update.
Theorem C42_final_refuted : ~ final_repeatable.
Proof.
  intros H. assert (Hk : bytes_len 32 magma_test_key) by concrete_bytes.
  specialize (H Mag _ _ _ Hk (Forall_nil _) (example_mac_fresh _ (or_introl eq_refl))). revert H. vm_compute. discriminate.
Qed.
Print Assumptions C42_final_refuted.

Example C42_example : spec_E Mag magma_test_key (repeat 0 8) <> repeat 0 8 /\ len plain8 mod 8 = 0 /\
  fst (mac_final (snd (mac_final (example_mac magma_test_key plain8)))) = Ok (mac (spec_E Mag magma_test_key) 8 plain8) /\
  fst (mac_final (snd (mac_final (example_mac magma_test_key (firstn 13 plain8))))) <> Ok (mac (spec_E Mag magma_test_key) 8 (firstn 13 plain8)).
Proof. split; [vm_compute; discriminate|]. split; [reflexivity|]. split; [vm_compute; reflexivity | vm_compute; discriminate]. Qed.
