(** * Property C155: one secret as password and as key of HMAC *)
From Verif Require Import PyBase PyFacts PyState Utils UtilsFacts UtilsLemmas Streebog SpecStreebog StreebogLemmas StreebogProps Hmac SpecHmac World HmacLemmas HmacProps Pbkdf SpecPbkdf PbkdfLemmas PropHmac PropPbkdf SpecTags.
Open Scope string_scope.
Open Scope list_scope.
Open Scope Z_scope.

(** The tag that a new object with the key gives for the message. *)
Definition tag_answer (key m : bytes) : bytes :=
  match hmac_new (VStr (mname S512)) (VBytes key) None with
  | Ok o => match fst (hmac_digest (snd (hmac_update (VBytes m) o))) with Ok t => t | Err _ => [] end
  | Err _ => []
  end.
(** The key of [n] octets that a new object derives. *)
Definition key_answer (P salt : bytes) (c n : Z) : bytes :=
  match pbkdf_new [] (VBytes P) (Some (VBytes salt)) (Some (VInt c)) with
  | Ok o => match fst (derive n o) with Ok k => k | Err _ => [] end
  | Err _ => []
  end.
Lemma tag_is P m : key_ok P -> bytes_ok m -> tag_answer P m = PRF P m.
Proof. intros [HP HL] Hm. destruct (C56_hmac_conforms S512 P m HP HL Hm) as (o & o' & E & E' & E''). unfold tag_answer. rewrite E, E'. cbn [snd]. rewrite E''. reflexivity. Qed.
Lemma key_is P S c n : key_ok P -> bytes_ok S -> S <> [] -> 1 <= c -> 0 <= n <= (2 ^ 32 - 1) * 64 -> key_answer P S c n = pbkdf2 P S (Z.to_nat c) (Z.to_nat n).
Proof. intros [HP HL] HS N Hc Hn. destruct (C64_pbkdf2 [] P S c n HP HL HS N Hc Hn) as (o & o' & E & E'). unfold key_answer. rewrite E, E'. reflexivity. Qed.
Lemma collect_is P S i : key_ok P -> bytes_ok S -> forall c j, collect (tag_answer P) c (SpecPbkdf.T P S i j) (U P S i j) = SpecPbkdf.T P S i (c + j).
Proof.
  intros Hk HS. induction c as [|c IH]; intros j; [reflexivity|]. cbn [collect]. cbv zeta. rewrite (tag_is P _ Hk (proj2 (U_ok P S i j Hk HS))). change (PRF P (U P S i j)) with (U P S i (Datatypes.S j)).
  change (plus (SpecPbkdf.T P S i j) (U P S i (Datatypes.S j))) with (SpecPbkdf.T P S i (Datatypes.S j)). rewrite IH. f_equal. lia.
Qed.
Lemma block_is P S c i : key_ok P -> bytes_ok S -> ask_block (tag_answer P) S c i = SpecPbkdf.T P S (Z.of_nat i) (c - 1).
Proof.
  intros Hk HS. unfold ask_block. cbv zeta. change (number i) with (INT (Z.of_nat i)). assert (HO : bytes_ok (S ++ INT (Z.of_nat i))) by (apply bytes_ok_app; split; [exact HS | apply INT_ok]). rewrite (tag_is P _ Hk HO).
  change (PRF P (S ++ INT (Z.of_nat i))) with (U P S (Z.of_nat i) 0). change (U P S (Z.of_nat i) 0) with (SpecPbkdf.T P S (Z.of_nat i) 0) at 1. rewrite (collect_is P S (Z.of_nat i) Hk HS). f_equal. lia.
Qed.

(** C155. Tags give every derived key. *)
Theorem C155_keys : forall P salt c n, bytes_ok P -> (List.length P <= 64)%nat -> bytes_ok salt -> salt <> [] -> 1 <= c -> 0 <= n <= (2 ^ 32 - 1) * 64 ->
  key_answer P salt c n = ask_key (tag_answer P) salt (Z.to_nat c) (Z.to_nat n).
Proof.
  intros P S c n HP HL HS N Hc Hn. assert (Hk : key_ok P) by (split; assumption). rewrite key_is by assumption. unfold pbkdf2, ask_key. f_equal. rewrite flat_map_concat_map. f_equal. apply map_ext. intros i. symmetry. now apply block_is.
Qed.
Print Assumptions C155_keys.
(** Derived keys give the tags of all messages that end in 0, 0, 0, 1 (and are longer). *)
Theorem C155_tags : forall P m, bytes_ok P -> (List.length P <= 64)%nat -> bytes_ok m -> m <> [] -> tag_answer P (m ++ [0; 0; 0; 1]) = key_answer P m 1 64.
Proof.
  intros P m HP HL Hm N. assert (Hk : key_ok P) by (split; assumption). rewrite (C155_keys P m 1 64 HP HL Hm N ltac:(lia) ltac:(lia)). unfold ask_key. change (seq 1 ((Z.to_nat 64 + 63) / 64)) with [1%nat]. cbn [flat_map]. rewrite app_nil_r.
  assert (HO : bytes_ok (m ++ [0; 0; 0; 1])) by (apply bytes_ok_app; split; [exact Hm | small_bytes]). change (ask_block (tag_answer P) m (Z.to_nat 1) 1) with (tag_answer P (m ++ [0; 0; 0; 1])). rewrite tag_is by assumption.
  destruct (PRF_ok P _ Hk HO) as [HLen _]. symmetry. apply firstn_all2. rewrite HLen. apply le_n.
Qed.
Print Assumptions C155_tags.
(** And two derived keys give the tag of a tag: the message is the key derived with one iteration. *)
Theorem C155_next : forall P salt, bytes_ok P -> (List.length P <= 64)%nat -> bytes_ok salt -> salt <> [] -> tag_answer P (key_answer P salt 1 64) = plus (key_answer P salt 1 64) (key_answer P salt 2 64).
Proof.
  intros P S HP HL HS N. assert (Hk : key_ok P) by (split; assumption). rewrite (key_is P S 1 64), (key_is P S 2 64) by (try assumption; lia). unfold pbkdf2. change (seq 1 ((Z.to_nat 64 + 63) / 64)) with [1%nat]. change (Z.to_nat 1 - 1)%nat with 0%nat. change (Z.to_nat 2 - 1)%nat with 1%nat. cbn [map concat]. rewrite !app_nil_r.
  destruct (U_ok P S 1 0 Hk HS) as [L0 O0]. destruct (U_ok P S 1 1 Hk HS) as [L1 O1]. change (Z.of_nat 1) with 1. change (SpecPbkdf.T P S 1 0) with (U P S 1 0). change (SpecPbkdf.T P S 1 1) with (plus (U P S 1 0) (U P S 1 1)).
  assert (LP : List.length (plus (U P S 1 0) (U P S 1 1)) = 64%nat) by (unfold plus; rewrite map_length, combine_length, L0, L1; reflexivity). change (Z.to_nat 64) with 64%nat.
  rewrite (firstn_all2 (U P S 1 0)) by (rewrite L0; apply le_n). rewrite (firstn_all2 (plus _ _)) by (rewrite LP; apply le_n). rewrite (tag_is P _ Hk O0). change (PRF P (U P S 1 0)) with (U P S 1 1).
  generalize dependent (U P S 1 1). generalize dependent (U P S 1 0). clear. intros x Hx _ y Hy _ _. rewrite <- Hx in Hy. clear Hx. revert y Hy. induction x as [|a x IH]; intros [|b y] H; try discriminate H; [reflexivity|].
  unfold plus in *. cbn [combine map fst snd]. f_equal; [now rewrite <- Z.lxor_assoc, Z.lxor_nilpotent | apply IH; now injection H].
Qed.
Print Assumptions C155_next.
(** The claim: no rule computes derived keys from tags. *)
Definition separate_uses : Prop := forall salt c n, bytes_ok salt -> salt <> [] -> 1 <= c -> 0 <= n <= (2 ^ 32 - 1) * 64 ->
  ~ exists rule : (bytes -> bytes) -> bytes, forall P, bytes_ok P -> (List.length P <= 64)%nat -> rule (tag_answer P) = key_answer P salt c n.
Theorem C155_refuted : ~ separate_uses.
Proof.
  intros H. apply (H salt4 2000 32 salt4_ok ltac:(discriminate) ltac:(lia) ltac:(lia)). exists (fun tag => ask_key tag salt4 (Z.to_nat 2000) (Z.to_nat 32)). intros P HP HL. symmetry. apply C155_keys; try assumption; [exact salt4_ok | discriminate | lia | lia].
Qed.
Print Assumptions C155_refuted.
(** The key of the first control example of R 50.1.111-2016 is a tag of eight octets, and a tag is not empty. *)
Example C155_example : tag_answer password [0x73; 0x61; 0x6c; 0x74; 0; 0; 0; 1] = key_answer password salt4 1 64 /\ List.length (key_answer password salt4 1 64) = 64%nat.
Proof.
  assert (E := C155_tags password salt4 (proj1 password_ok) (proj2 password_ok) salt4_ok ltac:(discriminate)). change (salt4 ++ [0; 0; 0; 1]) with [0x73; 0x61; 0x6c; 0x74; 0; 0; 0; 1] in E. split; [exact E|]. rewrite <- E, tag_is by (exact password_ok || small_bytes). apply PRF_ok; [exact password_ok | small_bytes].
Qed.
