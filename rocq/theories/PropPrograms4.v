(** * Modules used together: C135 *)
From Coq Require Import ZArith Lia.
From Verif Require Import PyBase PyFacts PyState PyLoop SpecModes SpecNew CipherLemmas CipherObjFacts CipherObj Modes Mac ModeLemmas ModeProps ModeEmpty ModeSim ModeNew ModeHist ModeMore ModePad ModeClear PropModes ModeExamples ModeExamples2 SigArith Programs ProgramFacts PropPrograms3.
From Verif Require World Hmac HmacProps HmacLemmas Pbkdf SpecPbkdf PbkdfLemmas PropPbkdf Random RandomLemmas PropRandom.
Open Scope string_scope.
Open Scope list_scope.
Open Scope Z_scope.

(** ** Keys from the other modules *)
Lemma new_any_key a k k' cl kw o : kw_ok kw -> bytes_ok k -> bytes_len 32 k' -> new (alg a) (VBytes k) (VInt (mode_code cl)) kw = Ok (NewMode o) ->
  exists o', new (alg a) (VBytes k') (VInt (mode_code cl)) kw = Ok (NewMode o').
Proof.
  intros Hkw Hk [HL Hk'] HN. assert (NM : VInt (mode_code cl) <> VInt MODE_MAC) by (destruct cl; discriminate).
  pose proof (C31_constructor (alg a) (VBytes k) (VInt (mode_code cl)) kw NM Hk Hkw) as C. pose proof (C31_constructor (alg a) (VBytes k') (VInt (mode_code cl)) kw NM Hk' Hkw) as C'.
  assert (E : first_failure (conditions (alg a) (VBytes k') (VInt (mode_code cl)) kw) = None).
  { destruct (first_failure (conditions (alg a) (VBytes k) (VInt (mode_code cl)) kw)) eqn:F; [rewrite HN in C; discriminate C|]. revert F. unfold conditions. cbn [bytes_of_length]. rewrite HL, Z.eqb_refl. cbn [first_failure].
    destruct (supported_mode (VInt (mode_code cl))); [|auto]. destruct (supported_algorithm (alg a)); [|auto]. destruct (len k =? 32); [auto | discriminate]. }
  rewrite E in C'. exact C'.
Qed.
Lemma eventually_round a key cl kw n n' file : bytes_ok key -> kw_ok kw -> (exists o, new (alg a) (VBytes key) (VInt (mode_code cl)) kw = Ok (NewMode o)) ->
  0 < n -> n mod Z.of_nat (bsize a) = 0 -> 0 < n' -> n' mod Z.of_nat (bsize a) = 0 -> bytes_ok file -> file <> [] -> cl = CFB \/ cl = OFB \/ cl = CTR -> cl = CTR \/ iv_arg a cl kw <> VBytes [] ->
  exists ct, eventually (fun fuel => cipher_file encrypt fuel (alg a) (VBytes key) (VInt (mode_code cl)) kw n file) (Returns ct) /\
    eventually (fun fuel => cipher_file decrypt fuel (alg a) (VBytes key) (VInt (mode_code cl)) kw n' ct) (Returns file).
Proof.
  intros Hk Hkw HN Hn M Hn' M' Hf Hne Hcl Hiv. destruct (C134_round_trip a key cl kw n n' file Hk Hkw HN Hn M Hn' M' Hf Hne) as (ct & pt & E & D & R).
  - intros [-> | ->]; destruct Hcl as [H|[H|H]]; discriminate.
  - tauto.
  - exists ct. split; [exact E|]. rewrite R in D. destruct Hcl as [-> |[-> | ->]]; exact D.
Qed.
(** C135: a file encrypted with a key derived from a password is decrypted with the key that any other object derives from the same password, salt and number of iterations. *)
Theorem C135_password_file : forall u u' P S c p p' cs cs' a k0 cl kw n n' file, bytes_ok P -> (List.length P <= 64)%nat -> bytes_ok S -> S <> [] ->
  Pbkdf.pbkdf_new u (VBytes P) (Some (VBytes S)) (Some (VInt c)) = Ok p -> Pbkdf.pbkdf_new u' (VBytes P) (Some (VBytes S)) (Some (VInt c)) = Ok p' ->
  bytes_ok k0 -> kw_ok kw -> (exists o, new (alg a) (VBytes k0) (VInt (mode_code cl)) kw = Ok (NewMode o)) -> cl = CFB \/ cl = OFB \/ cl = CTR -> cl = CTR \/ iv_arg a cl kw <> VBytes [] ->
  0 < n -> n mod Z.of_nat (bsize a) = 0 -> 0 < n' -> n' mod Z.of_nat (bsize a) = 0 -> bytes_ok file -> file <> [] ->
  exists key key' ct, fst (Pbkdf.derive 32 (snd (World.run PbkdfLemmas.pstep cs p))) = Ok key /\ eventually (fun fuel => cipher_file encrypt fuel (alg a) (VBytes key) (VInt (mode_code cl)) kw n file) (Returns ct) /\
    fst (Pbkdf.derive 32 (snd (World.run PbkdfLemmas.pstep cs' p'))) = Ok key' /\ eventually (fun fuel => cipher_file decrypt fuel (alg a) (VBytes key') (VInt (mode_code cl)) kw n' ct) (Returns file).
Proof.
  intros u u' P S c p p' cs cs' a k0 cl kw n n' file HP HL HS NS E E' Hk0 Hkw [o0 HN] Hcl Hiv Hn M Hn' M' Hf Hne.
  assert (Hk : HmacProps.key_ok P) by (split; assumption). assert (HM : 32 <= PbkdfLemmas.max_len) by (apply Z.leb_le; vm_compute; reflexivity).
  destruct (PbkdfLemmas.prun_is P S c cs Hk HS p (PbkdfLemmas.new_is u P S _ p Hk NS E)) as [_ H1]. destruct (PbkdfLemmas.derive_is P S c 32 _ Hk HS H1 HM) as (q & D & _).
  destruct (PbkdfLemmas.prun_is P S c cs' Hk HS p' (PbkdfLemmas.new_is u' P S _ p' Hk NS E')) as [_ H2]. destruct (PbkdfLemmas.derive_is P S c 32 _ Hk HS H2 HM) as (q' & D' & _).
  rewrite D, D'. destruct (PbkdfLemmas.pbkdf2_ok P S (Datatypes.S (PbkdfLemmas.more c)) (Z.to_nat 32) Hk HS) as [LK OK]. set (key := SpecPbkdf.pbkdf2 P S (Datatypes.S (PbkdfLemmas.more c)) (Z.to_nat 32)) in *.
  assert (K : bytes_len 32 key) by (split; [unfold len; rewrite LK; reflexivity | exact OK]). destruct (new_any_key a k0 key cl kw o0 Hkw Hk0 K HN) as [o HO].
  destruct (eventually_round a key cl kw n n' file OK Hkw (ex_intro _ o HO) Hn M Hn' M' Hf Hne Hcl Hiv) as (ct & EE & DD). exists key, key, ct. repeat (split; [first [reflexivity | exact EE]|]). exact DD.
Qed.
Print Assumptions C135_password_file.
(** What a generator of 32 octets returns is accepted as a key wherever any key is. *)
Theorem C135_random_key : forall sz s g cs d g' a k0 cl kw, RandomLemmas.random_made sz 32 s g -> Forall (RandomLemmas.rcall_ok sz) cs -> Random.random (snd (World.run RandomLemmas.rstep cs g)) = (Ok d, g') ->
  bytes_ok k0 -> kw_ok kw -> (exists o, new (alg a) (VBytes k0) (VInt (mode_code cl)) kw = Ok (NewMode o)) -> exists o, new (alg a) (VBytes d) (VInt (mode_code cl)) kw = Ok (NewMode o).
Proof.
  intros sz s g cs d g' a k0 cl kw HG HC E Hk0 Hkw [o HN]. destruct (PropRandom.C71_length sz 32 s g cs d g' HG HC ltac:(lia) E) as [L O]. apply (new_any_key a k0 d cl kw o Hkw Hk0); [split; [exact L | exact O] | exact HN].
Qed.
Print Assumptions C135_random_key.
Example C135_example : HmacProps.key_ok PropPbkdf.password /\ bytes_ok PropPbkdf.salt4 /\ (exists p, Pbkdf.pbkdf_new [] (VBytes PropPbkdf.password) (Some (VBytes PropPbkdf.salt4)) (Some (VInt 4096)) = Ok p) /\
  kw_ok (example_kw CTR P1) /\ exists o, new (alg Mag) (VBytes magma_test_key) (VInt MODE_CTR) (example_kw CTR P1) = Ok (NewMode o).
Proof.
  split; [exact PropPbkdf.password_ok|]. split; [exact PropPbkdf.salt4_ok|]. split; [destruct (PbkdfLemmas.new_ok [] PropPbkdf.password PropPbkdf.salt4 (Some (VInt 4096))) as (p & E); [cbn; lia | discriminate | exists p; exact E]|].
  split; [apply example_kw_ok | eexists; apply (example_new CTR P1)].
Qed.
