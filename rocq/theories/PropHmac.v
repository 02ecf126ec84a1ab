(** * Properties C56-C63: HMAC *)
From Verif Require Import PyBase PyState Utils Streebog SpecStreebog SpecHashHist StreebogObj StreebogLemmas StreebogProps Hmac SpecHmac World HmacLemmas HmacProps.
Open Scope string_scope.
Open Scope list_scope.
Open Scope Z_scope.

Definition key3 : bytes := [1; 2; 3].
Ltac small_bytes := unfold bytes_ok; repeat (apply Forall_cons; [unfold byte_ok; lia|]); apply Forall_nil.
Lemma key3_ok : key_ok key3.
Proof. split; [small_bytes | cbn; lia]. Qed.
Definition hobject (v : variant) (key d : bytes) : hmac_obj :=
  match hmac_new (VStr (mname v)) (VBytes key) (Some (VBytes d)) with Ok o => o | Err _ => hmac_base v key end.

(** C56. *)
Theorem C56_hmac_conforms : forall v key m, bytes_ok key -> (List.length key <= 64)%nat -> bytes_ok m ->
  exists o o', hmac_new (VStr (mname v)) (VBytes key) None = Ok o /\ hmac_update (VBytes m) o = (Ok tt, o') /\ hmac_digest o' = (Ok (hmac v key m), o').
Proof.
  intros v key m Hk Hl Hm. destruct (hmac_new_ok v key None Hk Hl I) as (o & E). pose proof (hmac_new_is v key None o Hk Hl I E) as H.
  destruct (update_is _ _ _ _ _ m H Hm) as (o' & E' & H'). exists o, o'. split; [exact E|]. split; [exact E'|]. rewrite (digest_is _ _ _ _ _ H'). cbn [first_chunk hashed app List.length].
  change (Z.of_nat 0 =? 0) with true. cbv iota. rewrite one_effective, K0_firstn by (split; assumption). reflexivity.
Qed.
Print Assumptions C56_hmac_conforms.
Theorem C56_hmac_with_data : forall v key m, bytes_ok key -> (List.length key <= 64)%nat -> bytes_ok m -> m <> [] ->
  exists o, hmac_new (VStr (mname v)) (VBytes key) (Some (VBytes m)) = Ok o /\ hmac_digest o = (Ok (hmac v key m), o).
Proof.
  intros v key m Hk Hl Hm N. destruct (hmac_new_ok v key (Some m) Hk Hl Hm) as (o & E). exists o. split; [exact E|].
  pose proof (hmac_new_is v key (Some m) o Hk Hl Hm E) as H. rewrite (digest_is _ _ _ _ _ H). rewrite K0_firstn by (split; assumption). destruct m as [|x m]; [contradiction|].
  rewrite tag_hashed by now apply K0_length. cbn [first_chunk]. rewrite tag_hmac by discriminate. now rewrite one_effective.
Qed.
Print Assumptions C56_hmac_with_data.

(** The control example of R 50.1.113-2016 (256 bits). *)
Definition control_key : bytes := map Z.of_nat (seq 0 32).
Definition control_data : bytes := [0x01; 0x26; 0xbd; 0xb8; 0x78; 0x00; 0xaf; 0x21; 0x43; 0x41; 0x45; 0x65; 0x63; 0x78; 0x01; 0x00].
Example C56_example : (List.length control_key <= 64)%nat /\ fst (hmac_digest (hobject S256 control_key control_data)) =
  Ok [0xa1; 0xaa; 0x5f; 0x7d; 0xe4; 0x02; 0xd7; 0xb3; 0xd3; 0x23; 0xf2; 0x99; 0x1c; 0x8d; 0x45; 0x34;
      0x01; 0x31; 0x37; 0x01; 0x0a; 0x83; 0x75; 0x4f; 0xd0; 0xaf; 0x6d; 0x7c; 0xd4; 0x92; 0x2e; 0xd9].
Proof. split; [cbn; lia | vm_compute; reflexivity]. Qed.

(** C57: the claim, and what is computed instead. *)
Definition empty_message : Prop := forall v key o, key_ok key -> made v key None o \/ made v key (Some []) o ->
  fst (hmac_digest o) = Ok (hmac v key []).
Theorem C57_empty_message_value : forall v key o, key_ok key -> made v key None o \/ made v key (Some []) o ->
  fst (hmac_digest o) = Ok (outer v (K0 key) (streebog v [])).
Proof.
  intros v key o Hk [E|E].
  - exact (hmac_history v key None [] o Hk I E ltac:(apply Forall_nil)).
  - exact (hmac_history v key (Some []) [] o Hk ltac:(apply Forall_nil) E ltac:(apply Forall_nil)).
Qed.
Print Assumptions C57_empty_message_value.

Lemma empty_differ : fst (hmac_digest (hmac_base S256 [])) <> fst (hmac_digest (snd (hmac_update (VBytes []) (hmac_base S256 [])))).
Proof. vm_compute. discriminate. Qed.
Theorem C57_empty_message_refuted : ~ empty_message.
Proof.
  intros H. assert (Hk : key_ok []) by (split; [apply Forall_nil | cbn; lia]). specialize (H S256 [] (hmac_base S256 []) Hk (or_introl eq_refl)).
  destruct (C56_hmac_conforms S256 [] [] (proj1 Hk) (proj2 Hk) ltac:(apply Forall_nil)) as (o & o' & E & E' & ED). inversion E; subst o. apply empty_differ.
  rewrite H. change {| hm_key := store_key []; hm_hasher := _; hm_counter := 0; hm_oid := _ |} with (hmac_base S256 []) in E'. rewrite E'. cbn [snd]. rewrite ED. reflexivity.
Qed.
Print Assumptions C57_empty_message_refuted.

Example C57_example : made S512 key3 (Some []) (hmac_base S512 key3) /\ key_ok key3.
Proof. split; [reflexivity | exact key3_ok]. Qed.

(** C58. *)
Theorem C58_padded_keys : forall name k1 k2 data, (List.length k1 <= 64)%nat -> (List.length k2 <= 64)%nat ->
  k1 ++ repeat 0 (64 - List.length k1) = k2 ++ repeat 0 (64 - List.length k2) ->
  hmac_new name (VBytes k1) data = hmac_new name (VBytes k2) data.
Proof. exact padded_same. Qed.
Print Assumptions C58_padded_keys.

Example C58_example : [1; 2; 3] <> [1; 2; 3; 0; 0] /\ [1; 2; 3] ++ repeat 0 (64 - 3) = [1; 2; 3; 0; 0] ++ repeat 0 (64 - 5).
Proof. split; [discriminate | reflexivity]. Qed.

(** C59. *)
Theorem C59_new_checks : forall name key data, varg_ok key -> match data with Some d => varg_ok d | None => True end ->
  (~ is_mac_name name -> hmac_new name key data = Err (GOSTHMACError "GOSTHMACError: unsupported mode")) /\
  (is_mac_name name -> good_key key = false -> hmac_new name key data = Err (GOSTHMACError "GOSTHMACError: invalid key value")) /\
  (is_mac_name name -> good_key key = true ->
     match data with
     | Some x => if is_bytes x then exists o, hmac_new name key data = Ok o else hmac_new name key data = Err (GOSTHMACError "GOSTHMACError: invalid data value")
     | None => exists o, hmac_new name key data = Ok o
     end).
Proof. exact hmac_new_checks. Qed.
Print Assumptions C59_new_checks.
Theorem C59_update_checks : forall x o, match x with VBytes _ => False | _ => True end ->
  hmac_update x o = (Err (GOSTHMACError "GOSTHMACError: invalid data value"), o).
Proof. exact hmac_update_not_bytes. Qed.
Print Assumptions C59_update_checks.

Example C59_example : ~ is_mac_name (VStr "streebog256") /\ is_mac_name (VStr "HMAC_GOSTR3411_2012_256") /\ good_key (VBytes (repeat 1 64)) = true /\
  good_key (VBytes (repeat 1 65)) = false /\ good_key (VStr "key") = false /\ good_key (VBytes []) = true.
Proof. split; [intros [[|] H]; discriminate H|]. split; [now exists S256|]. repeat split; reflexivity. Qed.

(** C60: the claim of the documentation of [update], and the law for every history of updates (with
    digests and rejected updates in between). *)
Definition hmac_chunking : Prop := forall v key a b o o1 o2 o12, key_ok key -> bytes_ok a -> bytes_ok b -> made v key None o ->
  hmac_update (VBytes a) o = (Ok tt, o1) -> hmac_update (VBytes b) o1 = (Ok tt, o2) -> hmac_update (VBytes (a ++ b)) o = (Ok tt, o12) ->
  fst (hmac_digest o2) = fst (hmac_digest o12).
Theorem C60_update_law : forall v key data cs o, key_ok key -> opt_ok data -> made v key data o -> Forall plain_mcall cs ->
  first_chunk data ++ mchunks cs <> [] ->
  fst (hmac_digest (snd (World.run mstep cs o))) = Ok (hmac v key (effective (first_chunk data ++ mchunks cs))).
Proof. intros v key data cs o Hk Hd E HF N. rewrite (hmac_history v key data cs o Hk Hd E HF). now rewrite tag_hmac. Qed.
Print Assumptions C60_update_law.
Theorem C60_safe_histories : forall v key data cs o, key_ok key -> opt_ok data -> made v key data o -> Forall plain_mcall cs ->
  first_chunk data ++ mchunks cs <> [] -> safe 0 (first_chunk data ++ mchunks cs) ->
  fst (hmac_digest (snd (World.run mstep cs o))) = Ok (hmac v key (concat (first_chunk data ++ mchunks cs))).
Proof. intros v key data cs o Hk Hd E HF N HS. rewrite (C60_update_law v key data cs o Hk Hd E HF N). f_equal. f_equal. now apply effective_safe. Qed.
Print Assumptions C60_safe_histories.

Lemma law2 v key a b o : key_ok key -> bytes_ok a -> bytes_ok b -> made v key None o ->
  exists o1 o2, hmac_update (VBytes a) o = (Ok tt, o1) /\ hmac_update (VBytes b) o1 = (Ok tt, o2) /\ fst (hmac_digest o2) = Ok (hmac v key (effective [a; b])).
Proof.
  intros Hk Ha Hb E. pose proof (hmac_new_is v key None o (proj1 Hk) (proj2 Hk) I E) as H. destruct (update_is _ _ _ _ _ a H Ha) as (o1 & E1 & H1).
  destruct (update_is _ _ _ _ _ b H1 Hb) as (o2 & E2 & H2). exists o1, o2. split; [exact E1|]. split; [exact E2|].
  pose proof (C60_update_law v key None [MUpdate (VBytes a); MUpdate (VBytes b)] o Hk I E) as L. cbn [World.run mstep] in L. rewrite E1 in L. cbn [mmap] in L. rewrite E2 in L. cbn [mmap snd mchunks first_chunk app] in L.
  apply L; [apply Forall_cons; [exact Ha|]; apply Forall_cons; [exact Hb | apply Forall_nil] | discriminate].
Qed.
(** Different messages with one tag, whatever the key. *)
Theorem C60_collision : forall v key a b o, key_ok key -> bytes_ok a -> bytes_ok b -> made v key None o ->
  (0 < List.length a < 64)%nat -> ((List.length a + List.length b) mod 64 = 0)%nat ->
  exists o1 o2 o3, hmac_update (VBytes a) o = (Ok tt, o1) /\ hmac_update (VBytes b) o1 = (Ok tt, o2) /\
    hmac_update (VBytes (a ++ b ++ a)) o = (Ok tt, o3) /\ fst (hmac_digest o2) = fst (hmac_digest o3) /\ a ++ b <> a ++ b ++ a.
Proof.
  intros v key a b o Hk Ha Hb E Hl Hm. destruct (law2 v key a b o Hk Ha Hb E) as (o1 & o2 & E1 & E2 & H2).
  destruct (C56_hmac_conforms v key (a ++ b ++ a) (proj1 Hk) (proj2 Hk)) as (o' & o3 & E' & E3 & H3); [rewrite !PyFacts.bytes_ok_app; tauto|].
  unfold made in E. cbn [option_map] in E. rewrite E in E'. inversion E'; subst o'. exists o1, o2, o3. rewrite H2, H3, (stale a b Hl Hm). repeat match goal with |- _ /\ _ => split end; try assumption; try reflexivity.
  intros HX. apply (f_equal (@List.length Z)) in HX. rewrite !app_length in HX. lia.
Qed.
Print Assumptions C60_collision.

Lemma tags_differ :
  fst (hmac_digest (snd (hmac_update (VBytes (repeat 0 63)) (snd (hmac_update (VBytes [0]) (hmac_base S256 [])))))) <>
  fst (hmac_digest (snd (hmac_update (VBytes (repeat 0 64)) (hmac_base S256 [])))).
Proof. vm_compute. discriminate. Qed.
Theorem C60_chunking_refuted : ~ hmac_chunking.
Proof.
  intros H. assert (Hk : key_ok []) by (split; [apply Forall_nil | cbn; lia]). assert (Ha : bytes_ok [0]) by small_bytes. assert (Hb : bytes_ok (repeat 0 63)) by (apply PyFacts.bytes_ok_repeat with (n := 63); unfold byte_ok; lia).
  assert (Hab : bytes_ok ([0] ++ repeat 0 63)) by (now apply PyFacts.bytes_ok_app).
  destruct (law2 S256 [] [0] (repeat 0 63) (hmac_base S256 []) Hk Ha Hb eq_refl) as (o1 & o2 & E1 & E2 & _).
  destruct (update_is _ _ _ _ _ _ (base_is S256 [] (proj1 Hk) (proj2 Hk)) Hab) as (o3 & E3 & _).
  specialize (H S256 [] [0] (repeat 0 63) (hmac_base S256 []) o1 o2 o3 Hk Ha Hb eq_refl E1 E2 E3). apply tags_differ. rewrite E1. cbn [snd]. rewrite E2.
  change (repeat 0 64) with ([0] ++ repeat 0 63). rewrite E3. exact H.
Qed.
Print Assumptions C60_chunking_refuted.

Example C60_example : safe 0 [repeat 1 30; repeat 2 50; repeat 3 47] /\ effective [[1]; repeat 2 63] = [1] ++ repeat 2 63 ++ [1] /\ made S512 key3 None (hmac_base S512 key3).
Proof. split; [repeat split; right; cbn; discriminate|]. split; [vm_compute; reflexivity | reflexivity]. Qed.

(** C61: the two objects are equal, so every later result is the same. *)
Theorem C61_clear_forgets_key : forall v k1 k2 data cs o1 o2, key_ok k1 -> key_ok k2 -> opt_ok data -> made v k1 data o1 -> made v k2 data o2 -> Forall mcall_ok cs ->
  hmac_clear (snd (World.run mstep cs o1)) = hmac_clear (snd (World.run mstep cs o2)).
Proof. intros v k1 k2 data cs o1 o2 H1 H2 Hd E1 E2 HF. apply (clear_same v). apply alike_run; [exact HF|]. exact (made_alike v k1 k2 data o1 o2 H1 H2 Hd E1 E2). Qed.
Print Assumptions C61_clear_forgets_key.
(** What a cleared object computes: with a public key block, and without the inner key block if it was
    updated before. *)
Theorem C61_cleared_object : forall v key data cs o cs', key_ok key -> opt_ok data -> made v key data o -> Forall plain_mcall cs -> Forall plain_mcall cs' ->
  mchunks cs' <> [] ->
  fst (hmac_digest (snd (World.run mstep (cs ++ MClear :: cs') o))) =
  Ok (match first_chunk data ++ mchunks cs with
      | [] => hmac v public_block (effective (mchunks cs'))
      | _ => outer v public_block (streebog v (effective (mchunks cs')))
      end).
Proof.
  intros v key data cs o cs' Hk Hd E HF HF' N. rewrite (clear_history v key data cs o cs' Hk Hd E HF HF'). destruct (first_chunk data ++ mchunks cs); [|reflexivity].
  change public_block with (K0 public_block) at 1. now rewrite tag_hmac.
Qed.
Print Assumptions C61_cleared_object.

Example C61_example : key_ok key3 /\ key_ok (repeat 255 64) /\ made S256 (repeat 255 64) None (hmac_base S256 (repeat 255 64)) /\
  mchunks [MUpdate (VBytes [1]); MUpdate VNone; MDigest] = [[1]].
Proof.
  split; [exact key3_ok|]. split; [split; [apply PyFacts.bytes_ok_repeat with (n := 64); unfold byte_ok; lia | cbn; lia]|]. split; reflexivity.
Qed.

(** C62. *)
Theorem C62_reset : forall v key data o cs o0, key_ok key -> opt_ok data -> made v key data o -> Forall no_clear cs -> made v key None o0 ->
  hmac_reset (snd (World.run mstep cs o)) = (Ok tt, o0).
Proof. exact hmac_reset_new. Qed.
Print Assumptions C62_reset.

Example C62_example : Forall no_clear [MUpdate (VBytes [5]); MReset; MUpdate VNone; MDigest].
Proof. apply Forall_cons; [cbn; small_bytes|]. repeat (apply Forall_cons; [exact I|]). apply Forall_nil. Qed.

(** C63: an object after any calls. *)
Theorem C63_digest_reads : forall v o, hmac_used v o -> exists d, hmac_digest o = (Ok d, o) /\ hmac_hexdigest o = (Ok (hex_of d), o) /\
  List.length d = hash_bytes v /\ bytes_ok d /\ hmac_digest_size o = Z.of_nat (hash_bytes v) /\ hmac_block_size o = 64 /\ hmac_name o = mname v.
Proof. exact hmac_reads. Qed.
Print Assumptions C63_digest_reads.
Theorem C63_independent : forall xs w j o, nth_error w j = Some o ->
  results_on j (fst (wrun mstep xs w)) = fst (World.run mstep (calls_on j xs) o) /\ nth_error (snd (wrun mstep xs w)) j = Some (snd (World.run mstep (calls_on j xs) o)).
Proof. exact (World.independent mstep). Qed.
Print Assumptions C63_independent.
Theorem C63_copy : forall w i o, nth_error w i = Some o -> nth_error (snd (wstep mstep (WCopy i) w)) (List.length w) = Some o.
Proof. exact (World.copy_equal mstep). Qed.
Print Assumptions C63_copy.

Example C63_example : hmac_used S512 (snd (World.run mstep [MUpdate (VBytes [5]); MClear; MUpdate VNone] (hmac_base S512 key3))).
Proof.
  exists key3, None, (hmac_base S512 key3), [MUpdate (VBytes [5]); MClear; MUpdate VNone]. split; [exact key3_ok|]. split; [exact I|]. split; [reflexivity|]. split; [|reflexivity].
  apply Forall_cons; [cbn; small_bytes|]. repeat (apply Forall_cons; [exact I|]). apply Forall_nil.
Qed.
