(** * Modules used together: C136 *)
From Coq Require Import ZArith Lia.
From Verif Require Import PyBase PyFacts PyState PyLoop Utils UtilsFacts SpecStreebog SpecHashHist SpecModes Streebog StreebogFacts StreebogFacts2 StreebogObj StreebogLemmas StreebogProps HmacLemmas PropHash SpecCurve SpecSign SigCurves Sig SigLemmas SigArith SigProps SigSign SigFinal SigBuiltin PropSig Programs ProgramFacts PropPrograms.
Open Scope string_scope.
Open Scope list_scope.
Open Scope Z_scope.

Lemma digest_file_is v n file : 0 < n -> n mod 64 = 0 -> bytes_ok file -> eventually (fun fuel => digest_file fuel (VStr (vname v)) n file) (Returns (streebog v file)) /\ length (streebog v file) = hash_bytes v /\ bytes_ok (streebog v file).
Proof.
  intros Hn M Hf. destruct (fed_new v) as (o & E & H). destruct (each_hash v _ (blocks_bytes (Z.to_nat n) file ltac:(lia) Hf) [] o H) as (o' & E' & H'). cbn [app] in H'.
  assert (EF : effective (blocks (Z.to_nat n) file) = file) by (apply effective_file; [lia | apply (mod_nat n 64); lia]).
  split.
  - destruct (read_file_ends n (fun b => hash_update (VBytes b)) file o Hn) as [f0 HF]. exists f0. intros f L. unfold digest_file. rewrite E. cbn [liftO bindO]. rewrite HF by exact L. rewrite E'. cbn [done bindO].
    rewrite (fed_digest v _ o' H'), EF. reflexivity.
  - pose proof (fed_hash v _ o' H') as HH. rewrite EF in HH. exact HH.
Qed.
Lemma both {A B} (p : nat -> outcome A) (k : nat -> A -> outcome B) a r : eventually p (Returns a) -> eventually (fun f => k f a) r -> eventually (fun f => bindO (p f) (k f)) r.
Proof. intros [f0 H] [f1 H']. exists (f0 + f1)%nat. intros f L. rewrite H by lia. apply H'. lia. Qed.

(** C136: what is signed with the digest of a file is verified with the digest of the file, computed by another program with another buffer ... *)
Theorem C136_signed_file : forall v o ur d rk n n' file sg, usable o -> s_size o = Z.of_nat (hash_bytes v) -> bytes_ok d -> bytes_ok rk -> (forall i, bytes_ok (ur i)) -> len d = s_size o -> 1 <= number d < s_q o ->
  x_coord (ec_mul (s_p o) (s_a o) (number d) (base o)) <> Some 0 -> 0 < n -> n mod 64 = 0 -> 0 < n' -> n' mod 64 = 0 -> bytes_ok file ->
  eventually (fun fuel => sign_file fuel (VStr (vname v)) n o ur (VBytes d) (VBytes rk) file) (Returns sg) ->
  exists pk, eventually (fun m => public_key_generate o m (VBytes d)) (Returns pk) /\ eventually (fun m => verify_file m (VStr (vname v)) n' o (VBytes pk) (VBytes sg) file) (Returns true).
Proof.
  intros v o ur d rk n n' file sg U HS Od Ork Our Ld Hd HX Hn M Hn' M' Hf [f0 E]. destruct (digest_file_is v n file Hn M Hf) as ([f1 D] & LD & _). destruct (digest_file_is v n' file Hn' M' Hf) as (D' & _).
  specialize (E (f0 + f1)%nat ltac:(lia)). unfold sign_file in E. rewrite D in E by lia. cbn [bindO] in E.
  destruct (C83_sign_verify o (f0 + f1) ur d (streebog v file) rk sg U Od Ork Our Ld Hd ltac:(unfold len; rewrite LD; auto) HX E) as (pk & EP & EV). exists pk. split; [exact EP|]. unfold verify_file. exact (both _ (fun m dg => verify o m (VBytes pk) (VBytes dg) (VBytes sg)) _ _ D' EV).
Qed.
Print Assumptions C136_signed_file.
(** ... and a digest of the other length is never signed or verified: the call raises. *)
Theorem C136_other_length : forall v o ur d rk pk sg n file, shaped o -> s_size o <> Z.of_nat (hash_bytes v) -> len d = s_size o -> len pk = s_size o * 2 -> len sg = s_size o * 2 -> 0 < n -> n mod 64 = 0 -> bytes_ok file ->
  eventually (fun fuel => sign_file fuel (VStr (vname v)) n o ur (VBytes d) rk file) (Raises (GOSTSignatureError "GOSTSignatureError: invalid digest value")) /\
  eventually (fun fuel => verify_file fuel (VStr (vname v)) n o (VBytes pk) (VBytes sg) file) (Raises (GOSTSignatureError "GOSTSignatureError: invalid digest value")).
Proof.
  intros v o ur d rk pk sg n file HS N Ld Lp Lg Hn M Hf. destruct (digest_file_is v n file Hn M Hf) as (D & LD & _).
  assert (NO : check_value (VBytes (streebog v file)) (s_size o) = false) by (cbn [check_value]; unfold len; rewrite LD; replace (Z.of_nat (hash_bytes v) =? s_size o) with false by (symmetry; apply Z.eqb_neq; auto); reflexivity).
  split.
  - apply (both _ (fun m dg => sign o m ur (VBytes d) (VBytes dg) rk) _ _ D). exists 0%nat. intros m _. unfold sign. rewrite NO. cbn [check_value]. rewrite Ld, Z.eqb_refl. reflexivity.
  - apply (both _ (fun m dg => verify o m (VBytes pk) (VBytes dg) (VBytes sg)) _ _ D). exists 0%nat. intros m _. unfold verify. rewrite NO. cbn [check_value]. rewrite Lp, Lg, !Z.eqb_refl. reflexivity.
Qed.
Print Assumptions C136_other_length.
(** A case: the smallest or the next private key, and the random number 1. *)
Definition example_sig : sig_obj := sig_attrs MODE_256 curve_2012_256_paramSetA.
Definition small_key (k : Z) : bytes := repeat 0 31 ++ [k].
Lemma small_key_ok k : k = 1 \/ k = 2 -> bytes_ok (small_key k) /\ len (small_key k) = 32 /\ number (small_key k) = k.
Proof. intros [-> | ->]; (split; [apply bytes_ok_app; split; [apply Forall_forall; intros x Hx; apply repeat_spec in Hx; subst x; unfold byte_ok; lia | constructor; [unfold byte_ok; lia | constructor]]|]); split; reflexivity. Qed.
Example C136_example : usable example_sig /\ s_size example_sig = Z.of_nat (hash_bytes S256) /\ forall file, bytes_ok file -> exists k sg, (k = 1 \/ k = 2) /\
  bytes_ok (small_key k) /\ len (small_key k) = s_size example_sig /\ 1 <= number (small_key k) < s_q example_sig /\ x_coord (ec_mul (s_p example_sig) (s_a example_sig) (number (small_key k)) (base example_sig)) <> Some 0 /\
  eventually (fun fuel => sign_file fuel (VStr "streebog256") 128 example_sig (fun _ => []) (VBytes (small_key k)) (VBytes (small_key 1)) file) (Returns sg).
Proof.
  assert (U : usable example_sig) by exact (v_usable _ _ valid_256A). split; [exact U|]. split; [reflexivity|]. intros file Hf. destruct (digest_file_is S256 128 file ltac:(lia) eq_refl Hf) as (D & LD & _).
  destruct (small_key_ok 1 (or_introl eq_refl)) as (O1 & L1 & N1). set (e := gost_e (s_q example_sig) (number (streebog S256 file))). set (r := s_x example_sig mod s_q example_sig). assert (HQ : 2 < s_q example_sig) by (vm_compute; reflexivity).
  assert (NR : r <> 0) by (vm_compute; discriminate). assert (RR : 0 <= r < s_q example_sig) by (apply Z.mod_pos_bound; lia).
  assert (HX : x_coord (ec_mul (s_p example_sig) (s_a example_sig) 1 (base example_sig)) = Some (s_x example_sig)) by (vm_compute; reflexivity).
  assert (HX2 : x_coord (ec_mul (s_p example_sig) (s_a example_sig) 2 (base example_sig)) <> Some 0) by (vm_compute; discriminate).
  assert (S : forall k, k = 1 \/ k = 2 -> (r * k + 1 * e) mod s_q example_sig <> 0 -> exists k sg, (k = 1 \/ k = 2) /\
    bytes_ok (small_key k) /\ len (small_key k) = s_size example_sig /\ 1 <= number (small_key k) < s_q example_sig /\ x_coord (ec_mul (s_p example_sig) (s_a example_sig) (number (small_key k)) (base example_sig)) <> Some 0 /\
    eventually (fun fuel => sign_file fuel (VStr "streebog256") 128 example_sig (fun _ => []) (VBytes (small_key k)) (VBytes (small_key 1)) file) (Returns sg)).
  { intros k Hk NS. destruct (small_key_ok k Hk) as (Ok & Lk & Nk). exists k. eexists. split; [exact Hk|]. split; [exact Ok|]. split; [exact Lk|]. rewrite Nk. split; [lia|].
    split; [destruct Hk as [-> | ->]; [rewrite HX; vm_compute; discriminate | exact HX2]|]. unfold sign_file. apply (both _ (fun fuel dg => sign example_sig fuel (fun _ => []) (VBytes (small_key k)) (VBytes dg) (VBytes (small_key 1))) _ _ D).
    apply (C83_complete example_sig (fun _ => []) (small_key k) (streebog S256 file) (small_key 1) r ((r * k + 1 * e) mod s_q example_sig) U Ok O1 ltac:(discriminate)); [rewrite N1; lia | exact Lk | unfold len; rewrite LD; reflexivity |].
    split; [exists (s_x example_sig); rewrite N1; split; [exact HX | reflexivity]|]. rewrite N1, Nk. split; [reflexivity|]. split; [exact NR | exact NS]. }
  destruct (Z.eq_dec ((r * 1 + 1 * e) mod s_q example_sig) 0) as [E1|E1]; [|apply (S 1 (or_introl eq_refl) E1)]. apply (S 2 (or_intror eq_refl)). intros E2.
  assert (ER : r mod s_q example_sig = 0). { replace r with ((r * 2 + 1 * e) - (r * 1 + 1 * e)) by lia. rewrite Zminus_mod, E1, E2. reflexivity. }
  rewrite Z.mod_small in ER by exact RR. exact (NR ER).
Qed.
