(** * Properties C111-C113: equivalent passwords, what clear leaves in memory, sizes of random outputs *)
From Verif Require Import PyBase PyState PyFacts Utils UtilsFacts Streebog SpecStreebog StreebogFacts StreebogLemmas StreebogProps Hmac SpecHmac World HmacLemmas HmacProps Pbkdf SpecPbkdf PbkdfLemmas PbkdfSame.
From Verif Require Random SpecRandom RandomLemmas PropRandom.
From Verif Require Import CipherObj Modes Mac Heap HeapLogic HeapCipher HeapModes HeapHmac HeapHmacFacts AliasLemmas.
From Verif Require HeapWorld HeapWorldFacts PropAlias.
Open Scope string_scope.
Open Scope list_scope.
Open Scope Z_scope.

(** C111.  Passwords equal up to trailing zero octets: every history of calls gives the same results. *)
Theorem C111_padded_passwords : forall u P Q s c, (List.length P <= 64)%nat -> (List.length Q <= 64)%nat ->
  P ++ repeat 0 (64 - List.length P) = Q ++ repeat 0 (64 - List.length Q) ->
  match pbkdf_new u (VBytes P) s c, pbkdf_new u (VBytes Q) s c with
  | Ok o1, Ok o2 => forall cs, fst (World.run pstep cs o1) = fst (World.run pstep cs o2)
  | Err e1, Err e2 => e1 = e2
  | _, _ => False
  end.
Proof.
  intros u P Q s c HP HQ E. pose proof (passwords_same u P Q s c HP HQ E) as H.
  destruct (pbkdf_new u (VBytes P) s c) as [o1|e1], (pbkdf_new u (VBytes Q) s c) as [o2|e2]; try exact H. intros cs. now apply run_same.
Qed.
Print Assumptions C111_padded_passwords.
(** The claim that different passwords derive different keys, refuted. *)
Definition passwords_differ : Prop := forall P Q S c n o1 o2, bytes_ok P -> bytes_ok Q -> bytes_ok S -> S <> [] -> 1 <= c -> 64 <= n <= (2 ^ 32 - 1) * 64 -> P <> Q ->
  pbkdf_new [] (VBytes P) (Some (VBytes S)) (Some (VInt c)) = Ok o1 -> pbkdf_new [] (VBytes Q) (Some (VBytes S)) (Some (VInt c)) = Ok o2 ->
  fst (derive n o1) <> fst (derive n o2).
Theorem C111_injective_refuted : ~ passwords_differ.
Proof.
  intros H. set (S0 := [1]). pose proof (C111_padded_passwords [] [5] [5; 0] (Some (VBytes S0)) (Some (VInt 1)) ltac:(cbn; lia) ltac:(cbn; lia) eq_refl) as HS.
  assert (HB : forall l, Forall (fun x => 0 <= x < 256) l -> bytes_ok l) by (intros l; apply Forall_impl; intros x Hx; exact Hx).
  assert (B1 : bytes_ok [5]) by (repeat (apply Forall_cons; [unfold byte_ok; lia|]); apply Forall_nil).
  assert (B2 : bytes_ok [5; 0]) by (repeat (apply Forall_cons; [unfold byte_ok; lia|]); apply Forall_nil).
  assert (B3 : bytes_ok S0) by (repeat (apply Forall_cons; [unfold byte_ok; lia|]); apply Forall_nil).
  destruct (new_ok [] [5] S0 (Some (VInt 1)) ltac:(cbn; lia) ltac:(discriminate)) as (o1 & E1).
  destruct (new_ok [] [5; 0] S0 (Some (VInt 1)) ltac:(cbn; lia) ltac:(discriminate)) as (o2 & E2).
  rewrite E1, E2 in HS. apply (H [5] [5; 0] S0 1 64 o1 o2 B1 B2 B3 ltac:(discriminate) ltac:(lia) ltac:(lia) ltac:(discriminate) E1 E2).
  specialize (HS [PDerive 64]). cbn [World.run pstep] in HS. destruct (derive 64 o1) as [[d1|x1] s1], (derive 64 o2) as [[d2|x2] s2]; cbn in HS |- *; congruence.
Qed.
Print Assumptions C111_injective_refuted.
Example C111_example : [0x70; 0x77] ++ repeat 0 (64 - 2) = [0x70; 0x77; 0; 0; 0] ++ repeat 0 (64 - 5) /\
  exists o, pbkdf_new [] (VBytes [0x70; 0x77]) (Some (VBytes [1])) None = Ok o.
Proof. split; [reflexivity|]. apply new_ok; [cbn; lia | discriminate]. Qed.

(** C112.  [clear] only makes new buffers: every buffer that exists keeps its contents. *)
Definition grows {A} (m : M heap A) : Prop := forall h, exists x, snd (m h) = h ++ x.
Lemma grows_ret A (a : A) : grows (retM a).
Proof. intros h. exists []. now rewrite app_nil_r. Qed.
Lemma grows_lift A (r : res A) : grows (liftM r).
Proof. intros h. exists []. now rewrite app_nil_r. Qed.
Lemma grows_bind A B (c : M heap A) (k : A -> M heap B) : grows c -> (forall a, grows (k a)) -> grows (bindM c k).
Proof.
  intros Hc Hk h. unfold bindM. destruct (Hc h) as [x E]. destruct (c h) as [[a|e] h']; cbn [snd] in *; subst h'; [|now exists x].
  destruct (Hk a (h ++ x)) as [y E']. exists (x ++ y). now rewrite E', app_assoc.
Qed.
Lemma grows_for A B (xs : list A) (body : A -> B -> M heap B) : (forall a b, grows (body a b)) -> forall acc, grows (forM xs acc body).
Proof. intros H. induction xs as [|a xs IH]; intros acc; cbn [forM]; [apply grows_ret|]. apply grows_bind; [apply H | intros; apply IH]. Qed.
Lemma grows_rd v : grows (rd v).
Proof. intros h. exists []. unfold rd. destruct (content h v); cbn [snd]; now rewrite app_nil_r. Qed.
Lemma grows_zero v : grows (h_zero_fill v).
Proof.
  unfold h_zero_fill. apply grows_bind.
  - unfold h_len. apply grows_bind; [apply grows_rd | intros; apply grows_ret].
  - intros n. unfold h_bytearray. apply grows_bind; [apply grows_rd|]. intros l h. exists [l]. reflexivity.
Qed.
Lemma grows_keys n ks : grows (h_keys_clear n ks).
Proof. apply grows_for. intros i keys. apply grows_bind; [apply grows_lift|]. intros k. apply grows_bind; [apply grows_zero|]. intros z. apply grows_lift. Qed.
Lemma grows_cipher c : grows (hc_clear c).
Proof. destruct c; apply grows_bind; try apply grows_keys; intros; apply grows_ret. Qed.
Lemma mode_clear_grows s h : exists x, snd (snd (h_clear (s, h))) = h ++ x.
Proof. unfold h_clear, bindM, getO, onheap, putO. cbn. destruct (grows_cipher (h_cipher s) h) as [x E]. destruct (hc_clear (h_cipher s) h) as [[c|e] h']; cbn [snd] in *; now exists x. Qed.
Lemma mac_clear_grows s h : exists x, snd (snd (hcm_clear (s, h))) = h ++ x.
Proof. unfold hcm_clear, bindM, getO, onheap, putO. cbn. destruct (grows_cipher (hcm_cipher s) h) as [x E]. destruct (hc_clear (hcm_cipher s) h) as [[c|e] h']; cbn [snd] in *; now exists x. Qed.

Theorem C112_cipher_clear : forall w k a l, nth_error (HeapWorld.w_heap w) a = Some l -> nth_error (HeapWorld.w_heap (snd (HeapWorld.step (HeapWorld.CClear k) w))) a = Some l.
Proof.
  intros w k a l N. assert (HX : exists x, HeapWorld.w_heap (snd (HeapWorld.step (HeapWorld.CClear k) w)) = HeapWorld.w_heap w ++ x).
  { cbn [HeapWorld.step]. destruct (nth_error (HeapWorld.w_objs w) k) as [[s|s]|].
    - unfold HeapWorld.on_mode_unit. destruct (mode_clear_grows s (HeapWorld.w_heap w)) as [x E]. destruct (h_clear (s, HeapWorld.w_heap w)) as [r [s' h']]. cbn [snd] in E. subst h'. exists x. destruct r; reflexivity.
    - unfold HeapWorld.on_mac_unit. destruct (mac_clear_grows s (HeapWorld.w_heap w)) as [x E]. destruct (hcm_clear (s, HeapWorld.w_heap w)) as [r [s' h']]. cbn [snd] in E. subst h'. exists x. destruct r; reflexivity.
    - exists []. now rewrite app_nil_r. }
  destruct HX as [x ->]. rewrite nth_error_app1; [exact N|]. apply nth_error_Some. congruence.
Qed.
Print Assumptions C112_cipher_clear.
Definition grows_o {S A} (m : M (S * heap) A) : Prop := forall s h, exists x, snd (snd (m (s, h))) = h ++ x.
Lemma grows_o_bind S A B (c : M (S * heap) A) (k : A -> M (S * heap) B) : grows_o c -> (forall a, grows_o (k a)) -> grows_o (bindM c k).
Proof.
  intros Hc Hk s h. unfold bindM. destruct (Hc s h) as [x E]. destruct (c (s, h)) as [[a|e] [s' h']]; cbn [snd] in *; subst h'; [|now exists x].
  destruct (Hk a s' (h ++ x)) as [y E']. exists (x ++ y). now rewrite E', app_assoc.
Qed.
Lemma grows_o_same S A (m : M (S * heap) A) : (forall s h, snd (snd (m (s, h))) = h) -> grows_o m.
Proof. intros H s h. exists []. now rewrite H, app_nil_r. Qed.
Lemma grows_o_heap S A (m : M heap A) : grows m -> grows_o (S := S) (onheap m).
Proof. intros H s h. destruct (H h) as [x E]. exists x. unfold onheap. destruct (m h) as [r h']. exact E. Qed.
Lemma hmac_clear_grows : grows_o hh_clear.
Proof.
  unfold hh_clear. apply grows_o_bind.
  - apply grows_o_same. intros s h. unfold hh_on_hasher. now destruct (hash_reset (hh_hasher s)).
  - intros _. apply grows_o_bind; [apply grows_o_same; reflexivity|]. intros s. apply grows_o_bind; [apply grows_o_heap, grows_zero|].
    intros z. apply grows_o_same. reflexivity.
Qed.
Theorem C112_hmac_clear : forall s h a l, nth_error h a = Some l -> nth_error (snd (snd (hh_clear (s, h)))) a = Some l.
Proof. intros s h a l N. destruct (hmac_clear_grows s h) as [x ->]. rewrite nth_error_app1; [exact N|]. apply nth_error_Some. congruence. Qed.
Print Assumptions C112_hmac_clear.

(** The claim that [clear] overwrites the round keys in memory, refuted. *)
Definition clear_overwrites : Prop := forall cs k s a l, Forall HeapWorld.cmd_ok cs -> nth_error (HeapWorld.w_objs (AliasLemmas.after cs)) k = Some (HNewMode s) ->
  In (Ref a) (hc_keys (h_cipher s)) -> nth_error (HeapWorld.w_heap (snd (HeapWorld.step (HeapWorld.CClear k) (AliasLemmas.after cs)))) a = Some l -> Forall (fun x => x = 0) l.
Theorem C112_clear_overwrites_refuted : ~ clear_overwrites.
Proof.
  intros H. set (w := AliasLemmas.after PropAlias.prog).
  assert (N : exists s a l, nth_error (HeapWorld.w_objs w) 0 = Some (HNewMode s) /\ In (Ref a) (hc_keys (h_cipher s)) /\ nth_error (HeapWorld.w_heap w) a = Some (1 :: l)).
  { unfold w. vm_compute. eexists _, _, _. split; [reflexivity|]. split; [left; reflexivity|]. reflexivity. }
  destruct N as (s & a & l & N1 & N2 & N3). pose proof (H PropAlias.prog 0%nat s a (1 :: l) PropAlias.prog_ok N1 N2 (C112_cipher_clear w 0 a (1 :: l) N3)) as F.
  apply Forall_inv in F. discriminate F.
Qed.
Print Assumptions C112_clear_overwrites_refuted.
(** The first round key of the first object of the program, before and after [clear]. *)
Example C112_example : let w := AliasLemmas.after PropAlias.prog in let w' := snd (HeapWorld.step (HeapWorld.CClear 0) w) in
  exists s s' a a', nth_error (HeapWorld.w_objs w) 0 = Some (HNewMode s) /\ nth_error (HeapWorld.w_objs w') 0 = Some (HNewMode s') /\
    nth 0 (hc_keys (h_cipher s)) (Imm []) = Ref a /\ nth 0 (hc_keys (h_cipher s')) (Imm []) = Ref a' /\
    nth_error (HeapWorld.w_heap w') a = Some [1; 2; 3; 4] /\ nth_error (HeapWorld.w_heap w') a' = Some [47; 120; 48; 48; 47; 120; 48; 48; 47; 120; 48; 48; 47; 120; 48; 48].
Proof. cbv zeta. vm_compute. eexists _, _, _, _. split; [reflexivity|]. split; [reflexivity|]. split; [reflexivity|]. split; [reflexivity|]. split; reflexivity. Qed.

(** C113.  Generators with one seed and different sizes.  [output] is the text of the standard (C72). *)
Import Random SpecRandom RandomLemmas PropRandom.
Lemma firsts sz a b s o1 o2 : random_made sz a s o1 -> random_made sz b s o2 -> ~ Forall (fun x => x = 0) s ->
  fst (random o1) = Ok (output (start sz s) a) /\ fst (random o2) = Ok (output (start sz s) b).
Proof.
  intros M1 M2 N. destruct (made_fresh sz a s o1 M1) as (_ & _ & H1). destruct (made_fresh sz b s o2 M2) as (_ & _ & H2). pose proof M1 as (Hz & Hs & HL).
  assert (HP : seed_part sz (start sz s) <> 0).
  { rewrite start_seed; [|exact Hz|exact Hs|apply (made_fresh sz a s o1 M1)]. intros E. apply N. now apply (value_zero s Hs). }
  pose proof (random_is sz a _ o1 H1) as R1. pose proof (random_is sz b _ o2 H2) as R2.
  destruct (Z.eqb_spec (seed_part sz (start sz s)) 0) as [E|_]; [contradiction|].
  destruct R1 as (x1 & -> & _). destruct R2 as (x2 & -> & _). split; reflexivity.
Qed.
Lemma skip_twice (l : bytes) : forall i j, skipn i (skipn j l) = skipn (i + j) l.
Proof. induction l as [|x l IH]; intros i [|j]; rewrite ?skipn_nil, ?Nat.add_0_r; try reflexivity. rewrite Nat.add_succ_r. cbn [skipn]. apply IH. Qed.
Lemma output_whole u a : output u a = List.concat (map (fun t => block u (Z.of_nat t)) (seq 1 (whole a))) ++
  (if Nat.eqb (rest a) 0 then [] else skipn (64 - rest a) (block u (Z.of_nat (S (whole a))))).
Proof. reflexivity. Qed.

(** A size that is a multiple of 64: the shorter output is a prefix of the longer one. *)
Theorem C113_prefix : forall sz a b s o1 o2, random_made sz a s o1 -> random_made sz b s o2 -> ~ Forall (fun x => x = 0) s ->
  0 <= a <= b -> a mod 64 = 0 -> exists d1 d2, fst (random o1) = Ok d1 /\ fst (random o2) = Ok d2 /\ d1 = firstn (Z.to_nat a) d2.
Proof.
  intros sz a b s o1 o2 M1 M2 N Hab Ha. destruct (firsts sz a b s o1 o2 M1 M2 N) as [E1 E2]. eexists _, _. split; [exact E1|]. split; [exact E2|].
  set (u := start sz s). rewrite (output_whole u a), (output_whole u b). replace (rest a) with 0%nat by (unfold rest; lia). cbn [Nat.eqb]. rewrite app_nil_r.
  assert (HW : (whole a <= whole b)%nat) by (unfold whole; apply Z2Nat.inj_le; try apply Z.div_le_mono; try apply Z.div_pos; lia).
  replace (whole b) with (whole a + (whole b - whole a))%nat by lia. rewrite seq_app, map_app, concat_app, <- !app_assoc.
  assert (HL : List.length (List.concat (map (fun t => block u (Z.of_nat t)) (seq 1 (whole a)))) = Z.to_nat a).
  { rewrite blocks_length. unfold whole. pose proof (Z.div_mod a 64 ltac:(lia)) as D. rewrite Ha in D. assert (0 <= a / 64) by (apply Z.div_pos; lia). lia. }
  rewrite <- HL. rewrite firstn_app, firstn_all, Nat.sub_diag. cbn [firstn]. now rewrite app_nil_r.
Qed.
Print Assumptions C113_prefix.
(** Sizes below 64: the shorter output is the end of the longer one. *)
Theorem C113_suffix : forall sz a b s o1 o2, random_made sz a s o1 -> random_made sz b s o2 -> ~ Forall (fun x => x = 0) s ->
  0 <= a <= b -> b < 64 -> exists d1 d2, fst (random o1) = Ok d1 /\ fst (random o2) = Ok d2 /\ d1 = skipn (Z.to_nat (b - a)) d2.
Proof.
  intros sz a b s o1 o2 M1 M2 N Hab Hb. destruct (firsts sz a b s o1 o2 M1 M2 N) as [E1 E2]. eexists _, _. split; [exact E1|]. split; [exact E2|].
  set (u := start sz s). pose proof (output_length u b ltac:(lia)) as HLb. destruct (Z.eq_dec a 0) as [->|Na].
  - rewrite Z.sub_0_r. rewrite skipn_all2 by lia. reflexivity.
  - rewrite (output_whole u a), (output_whole u b). unfold whole, rest. rewrite !(Z.div_small _ 64), !(Z.mod_small _ 64) by lia. cbn [Z.to_nat seq map List.concat app].
    replace (Nat.eqb (Z.to_nat a) 0) with false by (symmetry; apply Nat.eqb_neq; lia). replace (Nat.eqb (Z.to_nat b) 0) with false by (symmetry; apply Nat.eqb_neq; lia).
    rewrite skip_twice. f_equal. lia.
Qed.
Print Assumptions C113_suffix.
(** The claim that the size only says where the stream is cut, refuted. *)
Definition sizes_consistent : Prop := forall sz a b s o1 o2 d1 d2, random_made sz a s o1 -> random_made sz b s o2 -> 0 <= a <= b ->
  fst (random o1) = Ok d1 -> fst (random o2) = Ok d2 -> d1 = firstn (Z.to_nat a) d2.
Lemma seed1_made : forall size, random_made 1 size [1] (fresh 1 size [1]).
Proof.
  intros size. assert (HB : bytes_ok [1]) by (apply bytes_ok_cons; split; [unfold byte_ok; lia | apply bytes_ok_nil]).
  split; [unfold sizes_ok; lia|]. split; [exact HB|]. exists [1], (VBytes [1]). split; [exact HB|]. split; [reflexivity|]. split; [reflexivity|].
  apply init_fresh; [unfold sizes_ok; lia | reflexivity | reflexivity].
Qed.
Theorem C113_sizes_refuted : ~ sizes_consistent.
Proof.
  intros H. assert (E : exists d1 d2, fst (random (fresh 1 1 [1])) = Ok d1 /\ fst (random (fresh 1 2 [1])) = Ok d2 /\ d1 <> firstn 1 d2).
  { vm_compute. eexists _, _. split; [reflexivity|]. split; [reflexivity|]. discriminate. }
  destruct E as (d1 & d2 & E1 & E2 & D). apply D. exact (H 1 1 2 [1] _ _ d1 d2 (seed1_made 1) (seed1_made 2) ltac:(lia) E1 E2).
Qed.
Print Assumptions C113_sizes_refuted.
Example C113_example : random_made 1 64 [1] (fresh 1 64 [1]) /\ random_made 1 100 [1] (fresh 1 100 [1]) /\ 64 mod 64 = 0 /\ ~ Forall (fun x => x = 0) [1].
Proof. split; [apply seed1_made|]. split; [apply seed1_made|]. split; [reflexivity|]. intros F. inversion F. discriminate. Qed.
