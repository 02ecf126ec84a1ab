(** * Properties of the programs of the documentation: C130, C131 *)
From Coq Require Import ZArith Lia.
From Verif Require Import PyBase PyFacts PyState PyLoop Utils UtilsFacts SpecStreebog SpecHashHist SpecHmac SpecModes Streebog StreebogFacts StreebogFacts2 StreebogObj StreebogLemmas StreebogProps Hmac World HmacLemmas HmacProps PropHash PropHmac SigArith Programs ProgramFacts.
Open Scope string_scope.
Open Scope list_scope.
Open Scope Z_scope.

(** ** Hash of a file *)
Lemma each_hash v ps : Forall bytes_ok ps -> forall cs o, fed v cs o -> exists o', each (fun b => hash_update (VBytes b)) ps o = (Ok tt, o') /\ fed v (cs ++ ps) o'.
Proof.
  induction 1 as [|p ps Hp HF IH]; intros cs o Ho; [exists o; rewrite app_nil_r; split; [reflexivity | exact Ho]|].
  destruct (fed_update v cs o p Ho Hp) as (o1 & E1 & H1). cbn [each]. unfold bindM. rewrite E1. destruct (IH _ _ H1) as (o2 & E2 & H2). exists o2. split; [exact E2|]. rewrite <- app_assoc in H2. exact H2.
Qed.
Lemma hash_file_any v n file : 0 < n -> bytes_ok file -> eventually (fun fuel => hash_file fuel (VStr (vname v)) n file) (Returns (hex_of (streebog v (effective (blocks (Z.to_nat n) file))))).
Proof.
  intros Hn Hf. destruct (fed_new v) as (o & E & H). destruct (each_hash v _ (blocks_bytes (Z.to_nat n) file ltac:(lia) Hf) [] o H) as (o' & E' & H').
  destruct (read_file_ends n (fun b => hash_update (VBytes b)) file o Hn) as [f0 HF]. exists f0. intros f L. unfold hash_file. rewrite E. cbn [liftO bindO]. rewrite HF by exact L. rewrite E'. cbn [done bindO].
  unfold hash_hexdigest, bindM. rewrite (fed_digest v _ o' H'). unfold retM. cbn [fst liftO]. rewrite hex_eq; [reflexivity|]. apply (fed_hash v _ o' H').
Qed.
Lemma file_safe n file : (0 < n)%nat -> (n mod 64 = 0)%nat -> safe 0 (blocks n file).
Proof.
  intros Hn M. destruct (blocks n file) as [|b bs] eqn:E; [exact I|]. rewrite <- E. destruct (exists_last (l := blocks n file)) as (l & x & EL); [rewrite E; discriminate|].
  destruct (blocks_pieces n file Hn) as [_ HR]. rewrite EL, removelast_last in HR. rewrite EL. apply safe_blocks. eapply Forall_impl; [|exact HR]. intros c ->. exact M.
Qed.
Lemma effective_file n file : (0 < n)%nat -> (n mod 64 = 0)%nat -> effective (blocks n file) = file.
Proof. intros Hn M. rewrite (proj2 (effective_safe _) (file_safe n file Hn M)). apply concat_blocks, Hn. Qed.
Lemma mod_nat n m : 0 <= n -> 0 < m -> n mod m = 0 -> (Z.to_nat n mod Z.to_nat m = 0)%nat.
Proof. intros H1 H2 E. rewrite <- Z2Nat.inj_mod by lia. rewrite E. reflexivity. Qed.

(** C130: with a buffer as the note in the documentation asks for, the program returns the hash of the file ... *)
Theorem C130_hash_of_file : forall v n file, 0 < n -> n mod 64 = 0 -> bytes_ok file -> eventually (fun fuel => hash_file fuel (VStr (vname v)) n file) (Returns (hex_of (streebog v file))).
Proof.
  intros v n file Hn M Hf. pose proof (hash_file_any v n file Hn Hf) as H. rewrite effective_file in H; [exact H | lia | apply (mod_nat n 64); lia].
Qed.
Print Assumptions C130_hash_of_file.
(** ... and the note is needed: with any other positive size, some file is hashed as another message. *)
Theorem C130_note_needed : forall n, 0 < n -> n mod 64 <> 0 -> exists file m, bytes_ok file /\ m <> file /\ forall v, eventually (fun fuel => hash_file fuel (VStr (vname v)) n file) (Returns (hex_of (streebog v m))).
Proof.
  intros n Hn M. set (k := Z.to_nat n). assert (Hk : (0 < k)%nat) by lia. assert (Mk : (k mod 64 <> 0)%nat) by (intros E; apply M; rewrite <- (Z2Nat.id n) by lia; fold k; change 64 with (Z.of_nat 64); rewrite <- Nat2Z.inj_mod, E; reflexivity).
  exists (repeat 0 (64 * k)), (effective (blocks k (repeat 0 (64 * k)))). split; [apply Forall_forall; intros x Hx; apply repeat_spec in Hx; subst x; unfold byte_ok; lia|]. split.
  - intros E. rewrite <- (concat_blocks k (repeat 0 (64 * k)) Hk) in E at 2. apply effective_safe in E. revert E. clearbody k. clear n Hn M.
    assert (HB : forall j, blocks k (repeat 0 (j * k)) = repeat (repeat 0 k) j).
    { induction j as [|j IH]; [reflexivity|]. rewrite blocks_step; [|exact Hk|]. 2:{ destruct k; [lia|]. discriminate. }
      change (S j * k)%nat with (k + j * k)%nat. rewrite repeat_app. rewrite firstn_app, repeat_length, Nat.sub_diag, firstn_O, app_nil_r, (firstn_all2 (repeat 0 k)) by (rewrite repeat_length; lia). rewrite skipn_app, repeat_length, Nat.sub_diag, (skipn_all2 (repeat 0 k)) by (rewrite repeat_length; lia). cbn [app skipn repeat]. rewrite IH. reflexivity. }
    rewrite HB. clear HB. assert (HS : forall j t, (t < 64)%nat -> (t mod 64 <> 0)%nat -> safe t (repeat (repeat 0 k) j) -> ((t + j * k) mod 64 <> 0)%nat).
    { induction j as [|j IH]; intros t Lt Nt; [cbn [Nat.mul]; rewrite Nat.add_0_r; auto|]. cbn [repeat safe]. rewrite repeat_length. intros [[E|E] HS].
      - subst t. cbn in Nt. lia.
      - apply IH in HS; [|apply Nat.mod_upper_bound; lia | rewrite Nat.mod_mod by lia; exact E]. rewrite Nat.add_mod_idemp_l in HS by lia. replace (t + S j * k)%nat with (t + k + j * k)%nat by lia. exact HS. }
    change (repeat (repeat 0 k) 64) with (repeat 0 k :: repeat (repeat 0 k) 63). cbn [safe]. rewrite repeat_length. intros [_ H]. cbn [Nat.add] in H. apply HS in H; [|apply Nat.mod_upper_bound; lia | rewrite Nat.mod_mod by lia; exact Mk].
    rewrite Nat.add_mod_idemp_l in H by lia. apply H. replace (k + 63 * k)%nat with (k * 64)%nat by lia. apply Nat.mod_mul. lia.
  - intros v. apply hash_file_any; [exact Hn|]. apply Forall_forall; intros x Hx; apply repeat_spec in Hx; subst x; unfold byte_ok; lia.
Qed.
Print Assumptions C130_note_needed.
(** Reading nothing at a time hashes nothing, reading all at once (a negative size) hashes the file. *)
Theorem C130_other_sizes : forall v n file, n <= 0 -> bytes_ok file -> eventually (fun fuel => hash_file fuel (VStr (vname v)) n file) (Returns (hex_of (streebog v (if n =? 0 then [] else file)))).
Proof.
  intros v n file Hn Hf. destruct (fed_new v) as (o & E & H). assert (HX : forall m o', fed v m o' -> liftO (fst (hash_hexdigest o')) = Returns (hex_of (streebog v (effective m)))).
  { intros m o' H'. unfold hash_hexdigest, bindM. rewrite (fed_digest v _ o' H'). unfold retM. cbn [fst liftO]. rewrite hex_eq; [reflexivity|]. apply (fed_hash v _ o' H'). }
  destruct (Z.eqb_spec n 0) as [->|N].
  - destruct (read_file_none (fun b => hash_update (VBytes b)) file o) as [f0 HF]. exists f0. intros f L. unfold hash_file. rewrite E. cbn [liftO bindO]. rewrite HF by exact L. cbn [bindO]. apply (HX [] o H).
  - destruct (read_file_all n (fun b => hash_update (VBytes b)) file o ltac:(lia)) as [f0 HF]. exists f0. intros f L. unfold hash_file. rewrite E. cbn [liftO bindO]. rewrite HF by exact L. destruct file as [|x file]; [apply (HX [] o H)|].
    replace (0 <? len (x :: file)) with true by (unfold len; cbn [length]; lia). destruct (fed_update v [] o (x :: file) H Hf) as (o' & -> & H'). cbn [done bindO]. rewrite (HX _ o' H'). cbn [app]. rewrite (proj2 (effective_safe [x :: file])); [cbn [concat]; rewrite app_nil_r; reflexivity|]. split; [left; reflexivity | exact I].
Qed.
Print Assumptions C130_other_sizes.
Definition file300 : bytes := repeat 7 300.
Lemma file300_ok : bytes_ok file300.
Proof. apply Forall_forall. intros x Hx. apply repeat_spec in Hx. subst x. unfold byte_ok. lia. Qed.
Example C130_example : map (@length Z) (blocks 128 file300) = [128%nat; 128%nat; 44%nat] /\ eventually (fun fuel => hash_file fuel (VStr "streebog512") 128 file300) (Returns (hex_of (streebog S512 file300))).
Proof. split; [reflexivity | apply (C130_hash_of_file S512); [lia | reflexivity | exact file300_ok]]. Qed.

(** ** HMAC of a file *)
Definition upd (p : bytes) : mcall := MUpdate (VBytes p).
Lemma each_hmac v ps : Forall bytes_ok ps -> forall k l n o, state_is v k l n o -> each (fun b => hmac_update (VBytes b)) ps o = (Ok tt, snd (mrun (map upd ps) o)).
Proof.
  induction 1 as [|p ps Hp HF IH]; intros k l n o Ho; [reflexivity|]. destruct (update_is v k l n o p Ho Hp) as (o1 & E1 & H1). cbn [each map]. unfold bindM. rewrite E1, run_cons. cbn [snd]. unfold upd at 2. cbn [mstep]. rewrite E1. cbn [mmap snd]. apply (IH _ _ _ _ H1).
Qed.
Lemma upd_plain ps : Forall bytes_ok ps -> Forall plain_mcall (map upd ps).
Proof. induction 1; constructor; assumption. Qed.
Lemma upd_chunks ps : mchunks (map upd ps) = ps.
Proof. induction ps as [|p ps IH]; [reflexivity|]. cbn [map mchunks upd]. rewrite IH. reflexivity. Qed.
Lemma tag_ok v key ps : key_ok key -> Forall bytes_ok ps -> bytes_ok (tag v (K0 key) ps).
Proof.
  intros Hk HF. destruct (hmac_new_ok v key None (proj1 Hk) (proj2 Hk) I) as (o & E). pose proof (hmac_history v key None (map upd ps) o Hk I E (upd_plain ps HF)) as HD. rewrite upd_chunks in HD. cbn [first_chunk app] in HD.
  pose proof (made_run v key None (map upd ps) o Hk I E (upd_plain ps HF)) as HS. rewrite (digest_is _ _ _ _ _ HS) in HD. assert (HI : forall a b : bytes, Ok a = Ok b -> a = b) by congruence. apply HI in HD. rewrite <- HD. apply outer_ok; [apply bytes_ok_firstn, (st_kok _ _ _ _ _ HS) | exact (proj2 (fed_hash v _ _ (st_fed _ _ _ _ _ HS)))].
Qed.
Lemma hmac_file_any v key n file : key_ok key -> 0 < n -> bytes_ok file -> eventually (fun fuel => hmac_file fuel (VStr (mname v)) (VBytes key) n file) (Returns (hex_of (tag v (K0 key) (blocks (Z.to_nat n) file)))).
Proof.
  intros Hk Hn Hf. pose proof (blocks_bytes (Z.to_nat n) file ltac:(lia) Hf) as HF. destruct (hmac_new_ok v key None (proj1 Hk) (proj2 Hk) I) as (o & E). cbn [option_map] in E.
  pose proof (hmac_new_is v key None o (proj1 Hk) (proj2 Hk) I E) as H. destruct (read_file_ends n (fun b => hmac_update (VBytes b)) file o Hn) as [f0 HL]. exists f0. intros f L. unfold hmac_file. rewrite E. cbn [liftO bindO]. rewrite HL by exact L. rewrite (each_hmac v _ HF _ _ _ _ H). cbn [done bindO].
  pose proof (hmac_history v key None (map upd (blocks (Z.to_nat n) file)) o Hk I E (upd_plain _ HF)) as HD. rewrite upd_chunks in HD. cbn [first_chunk app] in HD. unfold hmac_hexdigest, bindM. destruct (hmac_digest _) as [r o'] eqn:ED. cbn [fst] in HD. subst r. unfold retM. cbn [fst liftO]. rewrite hex_eq by (apply tag_ok; assumption). reflexivity.
Qed.
(** C131: the program returns the HMAC of the file, if the file is not empty ... *)
Theorem C131_hmac_of_file : forall v key n file, key_ok key -> 0 < n -> n mod 64 = 0 -> bytes_ok file -> file <> [] ->
  eventually (fun fuel => hmac_file fuel (VStr (mname v)) (VBytes key) n file) (Returns (hex_of (hmac v key file))).
Proof.
  intros v key n file Hk Hn M Hf N. pose proof (hmac_file_any v key n file Hk Hn Hf) as H. rewrite tag_hmac in H by (intros E; apply N, (blocks_nil (Z.to_nat n)); [lia | exact E]).
  rewrite effective_file in H; [exact H | lia | apply (mod_nat n 64); lia].
Qed.
Print Assumptions C131_hmac_of_file.
(** ... and for the empty file a value from which the inner key block is missing. *)
Theorem C131_empty_file : forall v key n, key_ok key -> 0 < n ->
  eventually (fun fuel => hmac_file fuel (VStr (mname v)) (VBytes key) n []) (Returns (hex_of (streebog v (map (fun x => Z.lxor x 0x5c) (key ++ repeat 0 (64 - length key)) ++ streebog v [])))).
Proof.
  intros v key n Hk Hn. pose proof (hmac_file_any v key n [] Hk Hn ltac:(constructor)) as H. cbn [blocks blocks_fuel length tag] in H. exact H.
Qed.
Print Assumptions C131_empty_file.

Lemma hex_digit_inj a b : 0 <= a < 16 -> 0 <= b < 16 -> hex_digit a = hex_digit b -> a = b.
Proof.
  intros Ha Hb E. assert (H : forallb (fun a => forallb (fun b => implb (Ascii.eqb (hex_digit a) (hex_digit b)) (a =? b)) (map Z.of_nat (seq 0 16))) (map Z.of_nat (seq 0 16)) = true) by (vm_compute; reflexivity).
  rewrite forallb_forall in H. assert (HIn : forall x, 0 <= x < 16 -> In x (map Z.of_nat (seq 0 16))) by (intros x Hx; apply in_map_iff; exists (Z.to_nat x); split; [lia | apply in_seq; lia]).
  specialize (H a (HIn a Ha)). rewrite forallb_forall in H. specialize (H b (HIn b Hb)). rewrite E, Ascii.eqb_refl in H. cbn [implb] in H. lia.
Qed.
Lemma hex_inj : forall a b, bytes_ok a -> bytes_ok b -> hex_of a = hex_of b -> a = b.
Proof.
  intros a b Ha Hb. rewrite <- (hex_eq a Ha), <- (hex_eq b Hb). revert b Hb. induction Ha as [|x a Hx HF IH]; intros [|y b] Hb E; try reflexivity; try discriminate E. inversion Hb; subst. unfold byte_ok in *. cbn [py_hex] in E. inversion E.
  f_equal; [|apply IH; assumption]. pose proof (Z.div_mod x 16 ltac:(lia)). pose proof (Z.div_mod y 16 ltac:(lia)). pose proof (Z.mod_pos_bound x 16 ltac:(lia)). pose proof (Z.mod_pos_bound y 16 ltac:(lia)).
  assert (x / 16 = y / 16) by (apply hex_digit_inj; auto; split; (apply Z.div_pos; lia) || (apply Z.div_lt_upper_bound; lia)). assert (x mod 16 = y mod 16) by (apply hex_digit_inj; auto). lia.
Qed.
(** The claim of the documentation: HMAC of a file. *)
Definition hmac_of_every_file : Prop := forall v key n file, key_ok key -> 0 < n -> n mod 64 = 0 -> bytes_ok file ->
  eventually (fun fuel => hmac_file fuel (VStr (mname v)) (VBytes key) n file) (Returns (hex_of (hmac v key file))).
Theorem C131_every_file_refuted : ~ hmac_of_every_file.
Proof.
  intros H. apply C57_empty_message_refuted. intros v key o Hk HO. rewrite (C57_empty_message_value v key o Hk HO). f_equal.
  pose proof (H v key 64 [] Hk ltac:(lia) eq_refl ltac:(constructor)) as H1. pose proof (hmac_file_any v key 64 [] Hk ltac:(lia) ltac:(constructor)) as H2. pose proof (eventually_unique _ _ _ H2 H1) as E.
  assert (HI : forall a b : string, Returns a = Returns b -> a = b) by congruence. apply HI in E. apply hex_inj in E; [exact E | apply tag_ok; [exact Hk | constructor] | ].
  change (hmac v key []) with (tag v (K0 key) [[]]). apply tag_ok; [exact Hk|]. constructor; constructor.
Qed.
Print Assumptions C131_every_file_refuted.
Example C131_example : key_ok key3 /\ eventually (fun fuel => hmac_file fuel (VStr "HMAC_GOSTR3411_2012_512") (VBytes key3) 128 file300) (Returns (hex_of (hmac S512 key3 file300))).
Proof. split; [exact (proj2 C57_example) | apply (C131_hmac_of_file S512); [exact (proj2 C57_example) | lia | reflexivity | exact file300_ok | discriminate]]. Qed.
