(** * Properties C46-C55: the hash function *)
From Verif Require Import PyBase PyState Utils StreebogTables Streebog SpecKuznechik SpecStreebog SpecHashHist StreebogFacts StreebogFacts2 StreebogObj StreebogLemmas StreebogProps.
Open Scope string_scope.
Open Scope list_scope.
Open Scope Z_scope.

Ltac bytes_by_lia := unfold block64, bytes_ok; repeat (apply Forall_cons; [unfold byte_ok; lia|]); apply Forall_nil.

(** The message M1 of the standard: the octets of "0123...9012" (63 octets). *)
Definition M1 : bytes := map (fun i => 48 + Z.of_nat i mod 10) (seq 0 63).
Lemma M1_ok : bytes_ok M1.
Proof. unfold bytes_ok, M1. rewrite Forall_map. apply Forall_forall. intros i _. unfold byte_ok. lia. Qed.
Definition object (v : variant) (d : bytes) : hash_obj :=
  match hash_new (VStr (vname v)) (Some (VBytes d)) with Ok o => o | Err _ => _hash_init "" "" end.

(** C46. *)
Theorem C46_lps : forall d, block64 d -> _hash_lps d = Ok (sL (sP (sS d))).
Proof. intros d Hd. now apply lps_ok. Qed.
Print Assumptions C46_lps.

Example C46_example : block64 (firstn 64 (M1 ++ [1])) /\ nth 1 (sP (firstn 64 (M1 ++ [1]))) 0 = nth 8 M1 0 /\
  firstn 8 (sL (1 :: repeat 0 63)) = rev [0x64; 0x1c; 0x31; 0x4b; 0x2b; 0x8e; 0xe0; 0x83].
Proof.
  split; [split; [reflexivity|]|split; vm_compute; reflexivity]. apply Forall_forall. intros x Hx. apply (proj1 (Forall_forall byte_ok (M1 ++ [1]))).
  - apply PyFacts.bytes_ok_app. split; [apply M1_ok | bytes_by_lia].
  - rewrite <- (firstn_skipn 64 (M1 ++ [1])). apply in_or_app. now left.
Qed.

(** C47. *)
Theorem C47_hash_conforms : forall v m, bytes_ok m ->
  exists o, hash_new (VStr (vname v)) (Some (VBytes m)) = Ok o /\ hash_digest o = (Ok (streebog v m), o).
Proof. exact conforms. Qed.
Print Assumptions C47_hash_conforms.
Theorem C47_hash_no_data : forall v, exists o, hash_new (VStr (vname v)) None = Ok o /\ hash_digest o = (Ok (streebog v []), o).
Proof. exact conforms_empty. Qed.
Print Assumptions C47_hash_no_data.

(** The short hash of M1 given in the standard (A.1.2; there the octets are written in the other order). *)
Example C47_example : bytes_ok M1 /\ fst (hash_digest (object S256 M1)) = Ok (le_bytes 32 0x00557be5e584fd52a449b16b0251d05d27f94ab76cbaa6da890b59d8ef1e159d).
Proof. split; [apply M1_ok | vm_compute; reflexivity]. Qed.

(** C48. *)
Theorem C48_addition : forall a b, block64 a -> block64 b ->
  exists c, _hash_add_512 a b = Ok c /\ block64 c /\ le_value c = (le_value a + le_value b) mod 2 ^ 512.
Proof.
  intros a b Ha Hb. eexists. split; [exact (add_512_ok a b Ha Hb)|]. split; [apply le_bytes_block | now rewrite le_value_bytes, pow_512].
Qed.
Print Assumptions C48_addition.

Example C48_example : _hash_add_512 (repeat 255 64) (1 :: repeat 0 63) = Ok (repeat 0 64) /\ le_value (repeat 255 64) + 1 = 2 ^ 512.
Proof. split; vm_compute; reflexivity. Qed.

(** C49: the claim of the documentation of [update]. *)
Definition chunking : Prop := forall v a b o o1 o2 o12, bytes_ok a -> bytes_ok b -> hash_new (VStr (vname v)) None = Ok o ->
  hash_update (VBytes a) o = (Ok tt, o1) -> hash_update (VBytes b) o1 = (Ok tt, o2) -> hash_update (VBytes (a ++ b)) o = (Ok tt, o12) ->
  fst (hash_digest o2) = fst (hash_digest o12).

(** What the code computes when the second chunk completes the block: a different message. *)
Theorem C49_stale_block : forall v a b o, bytes_ok a -> bytes_ok b -> hash_new (VStr (vname v)) (Some (VBytes a)) = Ok o ->
  (0 < List.length a < 64)%nat -> ((List.length a + List.length b) mod 64 = 0)%nat ->
  exists o1, hash_update (VBytes b) o = (Ok tt, o1) /\ fst (hash_digest o1) = Ok (streebog v (a ++ b ++ a)).
Proof.
  intros v a b o Ha Hb En Hl Hm. destruct (fed_new_data v a Ha) as (o' & E & H). rewrite En in E. inversion E; subst o'.
  destruct (fed_update v [a] o b H Hb) as (o1 & E1 & H1). exists o1. split; [exact E1|]. rewrite (fed_digest v _ o1 H1). cbn [app]. now rewrite (stale a b Hl Hm).
Qed.
Print Assumptions C49_stale_block.
(** So two different messages fed to the documented interface have one digest. *)
Theorem C49_collision : forall v a b, bytes_ok a -> bytes_ok b -> (0 < List.length a < 64)%nat -> ((List.length a + List.length b) mod 64 = 0)%nat ->
  exists o o1 o', hash_new (VStr (vname v)) (Some (VBytes a)) = Ok o /\ hash_update (VBytes b) o = (Ok tt, o1) /\
    hash_new (VStr (vname v)) (Some (VBytes (a ++ b ++ a))) = Ok o' /\ fst (hash_digest o1) = fst (hash_digest o') /\ a ++ b <> a ++ b ++ a.
Proof.
  intros v a b Ha Hb Hl Hm. destruct (fed_new_data v a Ha) as (o & E & _). destruct (C49_stale_block v a b o Ha Hb E Hl Hm) as (o1 & E1 & H1).
  destruct (conforms v (a ++ b ++ a)) as (o' & E' & H'); [rewrite !PyFacts.bytes_ok_app; tauto|]. exists o, o1, o'. rewrite H'. cbn [fst].
  repeat match goal with |- _ /\ _ => split end; try assumption. intros HX. apply (f_equal (@List.length Z)) in HX. rewrite !app_length in HX. lia.
Qed.
Print Assumptions C49_collision.

Lemma hashes_differ : streebog S256 (repeat 0 64) <> streebog S256 (repeat 0 65).
Proof.
  assert (HZ : forall n, bytes_ok (repeat 0 n)) by (intros n; replace n with (Z.to_nat (Z.of_nat n)) by lia; apply PyFacts.bytes_ok_repeat; unfold byte_ok; lia).
  assert (HO : forall m, bytes_ok m -> fst (hash_digest (object S256 m)) = Ok (streebog S256 m)).
  { intros m Hm. destruct (conforms S256 m Hm) as (o & E & H). unfold object. rewrite E, H. reflexivity. }
  assert (HD : fst (hash_digest (object S256 (repeat 0 64))) <> fst (hash_digest (object S256 (repeat 0 65)))) by (vm_compute; discriminate).
  intros E. apply HD. rewrite !HO by apply HZ. now rewrite E.
Qed.
Theorem C49_chunking_refuted : ~ chunking.
Proof.
  intros H. assert (Ha : bytes_ok [0]) by bytes_by_lia. assert (Hb : bytes_ok (repeat 0 63)) by (apply PyFacts.bytes_ok_repeat with (n := 63); unfold byte_ok; lia).
  assert (Hab : bytes_ok ([0] ++ repeat 0 63)) by (now apply PyFacts.bytes_ok_app).
  destruct (fed_new S256) as (o & E & F). destruct (fed_update _ _ _ _ F Ha) as (o1 & E1 & F1). destruct (fed_update _ _ _ _ F1 Hb) as (o2 & E2 & F2).
  destruct (fed_update _ _ _ _ F Hab) as (o12 & E12 & F12). specialize (H S256 [0] (repeat 0 63) o o1 o2 o12 Ha Hb E E1 E2 E12).
  rewrite (fed_digest _ _ _ F2), (fed_digest _ _ _ F12) in H. cbn [fst app] in H. rewrite stale in H; [| cbn; lia | reflexivity]. cbn [app] in H. rewrite one_effective in H. apply hashes_differ. symmetry. assert (HX : forall x y : bytes, Ok x = Ok y -> x = y) by (intros x y HX; congruence). exact (HX _ _ H).
Qed.
Print Assumptions C49_chunking_refuted.

Example C49_example : (0 < List.length [7; 7; 7] < 64)%nat /\ ((List.length [7; 7; 7] + List.length (repeat 9 61)) mod 64 = 0)%nat.
Proof. cbn; lia. Qed.

(** C50: also with digests and rejected updates in between. *)
Theorem C50_update_law : forall v data cs o, match data with Some d => bytes_ok d | None => True end ->
  hash_new (VStr (vname v)) (option_map VBytes data) = Ok o -> Forall plain_hcall cs ->
  fst (hash_digest (snd (hrun cs o))) = Ok (streebog v (effective (opt_chunk data ++ chunks cs))).
Proof. exact history. Qed.
Print Assumptions C50_update_law.

Example C50_example :
  effective [[1; 2]; repeat 3 61; [4]; [5; 6]; repeat 7 70] = [1; 2] ++ repeat 3 61 ++ [4] ++ ([1; 2] ++ repeat 3 61) ++ [5] ++ [6] ++ repeat 7 70 /\
  chunks [HUpdate (VBytes [1]); HDigest; HUpdate VNone; HUpdate (VBytes [2])] = [[1]; [2]].
Proof. split; vm_compute; reflexivity. Qed.

(** C51: the histories that hash the concatenation are exactly the safe ones. *)
Theorem C51_safe_histories : forall v data cs o, match data with Some d => bytes_ok d | None => True end ->
  hash_new (VStr (vname v)) (option_map VBytes data) = Ok o -> Forall plain_hcall cs -> safe 0 (opt_chunk data ++ chunks cs) ->
  fst (hash_digest (snd (hrun cs o))) = Ok (streebog v (concat (opt_chunk data ++ chunks cs))).
Proof. intros v data cs o Hd En HF HS. rewrite (history v data cs o Hd En HF). f_equal. f_equal. now apply effective_safe. Qed.
Print Assumptions C51_safe_histories.
Theorem C51_exact : forall cs, effective cs = concat cs <-> safe 0 cs.
Proof. exact effective_safe. Qed.
Print Assumptions C51_exact.
Theorem C51_whole_blocks : forall cs d, Forall (fun c : bytes => List.length c mod 64 = 0)%nat cs -> safe 0 (cs ++ [d]).
Proof. exact safe_blocks. Qed.
Print Assumptions C51_whole_blocks.

Example C51_example : safe 0 [repeat 1 30; repeat 2 50; repeat 3 47; repeat 4 10] /\ ~ safe 0 [repeat 1 30; repeat 2 50; repeat 3 48; repeat 4 10].
Proof. split; [repeat split; right; cbn; discriminate|]. intros (_ & _ & [H|H] & _); [discriminate H | apply H; reflexivity]. Qed.

(** C52: an object after any calls. *)
Theorem C52_digest_reads : forall v o, hash_used v o -> exists d, hash_digest o = (Ok d, o) /\ hash_hexdigest o = (Ok (hex_of d), o).
Proof. intros v o H. destruct (digest_reads v o H) as (d & E1 & E2 & _). now exists d. Qed.
Print Assumptions C52_digest_reads.
Theorem C52_reading_transparent : forall cs o, snd (hrun cs o) = snd (hrun (filter not_reading cs) o).
Proof. exact reading_transparent. Qed.
Print Assumptions C52_reading_transparent.
(** Several objects used in any order: each behaves as if alone; a copy starts with the state of its origin. *)
Theorem C52_independent : forall xs w j o, nth_error w j = Some o ->
  results_on j (fst (wrun xs w)) = fst (hrun (calls_on j xs) o) /\ nth_error (snd (wrun xs w)) j = Some (snd (hrun (calls_on j xs) o)).
Proof. exact independent. Qed.
Print Assumptions C52_independent.
Theorem C52_copy : forall w i o, nth_error w i = Some o -> nth_error (snd (wstep (WCopy i) w)) (List.length w) = Some o.
Proof. exact copy_equal. Qed.
Print Assumptions C52_copy.

Example C52_example : hex_of [0; 10; 255; 0x3c] = "000aff3c" /\
  calls_on 1 [WCopy 0; WCall 1 HDigest; WCall 0 (HUpdate VNone); WCall 1 HFinal] = [HDigest; HFinal].
Proof. split; vm_compute; reflexivity. Qed.

(** C53: also after [hash_final]. *)
Theorem C53_reset : forall v o o0, hash_used v o -> hash_new (VStr (vname v)) None = Ok o0 -> hash_reset o = (Ok tt, o0).
Proof. exact reset_new. Qed.
Print Assumptions C53_reset.

Example C53_example : hash_used S512 (snd (hrun [HUpdate (VBytes M1); HFinal; HUpdate VNone] (object S512 [1]))).
Proof.
  exists (Some (VBytes [1])), (object S512 [1]), [HUpdate (VBytes M1); HFinal; HUpdate VNone]. split; [cbn; bytes_by_lia|]. split; [reflexivity|]. split; [|reflexivity].
  apply Forall_cons; [exact M1_ok|]. apply Forall_cons; [exact I|]. apply Forall_cons; [exact I | apply Forall_nil].
Qed.

(** C54. *)
Theorem C54_digest_size : forall v o, hash_used v o ->
  exists d, hash_digest o = (Ok d, o) /\ List.length d = hash_bytes v /\ bytes_ok d /\ digest_size o = Z.of_nat (hash_bytes v).
Proof. intros v o H. destruct (digest_reads v o H) as (d & E1 & _ & R). now exists d. Qed.
Print Assumptions C54_digest_size.

Example C54_example : hash_bytes S256 = 32%nat /\ hash_bytes S512 = 64%nat.
Proof. split; reflexivity. Qed.

(** C55. *)
Theorem C55_new_checks : forall name data, match data with Some d => varg_ok d | None => True end ->
  (~ is_variant name -> hash_new name data = Err (GOSTHashError "GOSTHashError: unsupported hash type")) /\
  (is_variant name ->
     match data with
     | Some x => if is_bytes x then exists o, hash_new name data = Ok o else hash_new name data = Err (GOSTHashError "GOSTHashError: invalid data value")
     | None => exists o, hash_new name data = Ok o
     end).
Proof. exact new_checks. Qed.
Print Assumptions C55_new_checks.
Theorem C55_update_checks : forall x o, match x with VBytes _ => False | _ => True end ->
  hash_update x o = (Err (GOSTHashError "GOSTHashError: invalid data value"), o).
Proof. exact update_not_bytes. Qed.
Print Assumptions C55_update_checks.
(** [new] with data is [new] and [update], as far as any later calls can tell. *)
Theorem C55_new_data : forall v d o o' cs, bytes_ok d -> hash_new (VStr (vname v)) None = Ok o -> hash_new (VStr (vname v)) (Some (VBytes d)) = Ok o' ->
  Forall hcall_ok cs -> exists o1, hash_update (VBytes d) o = (Ok tt, o1) /\ fst (hrun cs o1) = fst (hrun cs o').
Proof. exact new_then_update. Qed.
Print Assumptions C55_new_data.

Example C55_example : ~ is_variant (VStr "streebog384") /\ ~ is_variant (VInt 256) /\ is_variant (VStr "streebog256") /\
  hash_new (VStr "streebog256") (Some (VStr "")) = Err (GOSTHashError "GOSTHashError: invalid data value").
Proof.
  split; [intros [[|] H]; discriminate H|]. split; [intros [[|] H]; discriminate H|]. split; [now exists S256 | reflexivity].
Qed.
