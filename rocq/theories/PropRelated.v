(** C141: related keys of Magma. *)
From Verif Require Import PyBase PyFacts PyState Utils UtilsFacts CipherObj Modes Mac.
From Verif Require Import SpecMagma MagmaFacts SpecModes CipherLemmas CipherObjFacts ModeFacts ModeSpecFacts ModeLemmas ModeSem ModeConf ModeProps ModeSim WeakKeys Related.
Open Scope string_scope.
Open Scope list_scope.
Open Scope Z_scope.

Lemma whole_toggle m : whole 8 (toggle m) = map toggle (whole 8 m).
Proof. unfold whole. rewrite toggle_blocks, firstn_map. replace (List.length (toggle m)) with (List.length m) by (symmetry; apply toggle_at_length). reflexivity. Qed.
Lemma block8_of bl : Forall (block (cleared_obj Mag)) bl -> Forall block8 bl.
Proof. intros H. exact H. Qed.
Lemma cut8 m : bytes_ok m -> exists bl t, blocks 8 m = bl ++ opt_block t /\ Forall block8 bl /\ (List.length t < 8)%nat.
Proof. intros Hm. destruct (data_cut (cleared_obj Mag) m Hm) as (bl & t & _ & HF & _ & HL & _ & E). exists bl, t. auto. Qed.
Lemma whole8_blocks m : bytes_ok m -> Forall block8 (whole 8 m).
Proof. intros Hm. exact (whole_forall (cleared_obj Mag) m Hm). Qed.
Lemma whole_len8 m : bytes_ok m -> len m mod 8 = 0 -> Forall block8 (blocks 8 m).
Proof.
  intros Hm HL. destruct (whole_message (cleared_obj Mag) m Hm) as (bl & E & HF & EW).
  { change (nbs (cleared_obj Mag)) with 8%nat. unfold len in HL. apply Nat2Z.inj. rewrite Nat2Z.inj_mod. exact HL. }
  change (nbs (cleared_obj Mag)) with 8%nat in EW. unfold whole in EW. rewrite firstn_all2 in EW; [now rewrite EW|].
  destruct (data_cut (cleared_obj Mag) m Hm) as (bl' & t & (E1 & HB & Ht) & HF' & _ & HLt & _ & EB). change (nbs (cleared_obj Mag)) with 8%nat in *. rewrite EB.
  assert (LC : forall l, Forall block8 l -> List.length (concat l) = (8 * List.length l)%nat).
  { clear. induction 1 as [|b l [L _] _ IH]; [reflexivity|]. cbn [concat List.length]. rewrite app_length, IH. unfold len in L. lia. }
  assert (Et : t = []). { unfold len in HL. rewrite E1, app_length, (LC bl' HF') in HL. destruct t as [|x t]; [reflexivity|]. exfalso. rewrite Nat2Z.inj_add, Nat2Z.inj_mul, Z.add_comm, Z.mul_comm, Z.mod_add, Z.mod_small in HL by (cbn [List.length] in *; lia). cbn [List.length] in HL. lia. }
  subst t. rewrite E1, app_nil_r. cbn [opt_block]. rewrite app_nil_r, (LC bl' HF'), Nat.mul_comm, Nat.div_mul by lia. lia.
Qed.

Lemma Eb key : bytes_len 32 key -> forall b, block8 b -> block8 (spec_E Mag key b).
Proof. intros Hk b Hb. rewrite form_E by assumption. apply mblock_block. Qed.
Lemma Db key : bytes_len 32 key -> forall b, block8 b -> block8 (spec_D Mag key b).
Proof. intros Hk b Hb. rewrite form_D by assumption. apply mblock_block. Qed.

(** Electronic codebook: an object with the related key answers the changed message with the changed ciphertext. *)
Theorem C141_ecb key kw : bytes_len 32 key -> gives_pad kw P1 -> exists o o',
  new (VStr "magma") (VBytes key) (VInt MODE_ECB) kw = Ok (NewMode o) /\
  new (VStr "magma") (VBytes (toggle key)) (VInt MODE_ECB) kw = Ok (NewMode o') /\
  forall m, bytes_ok m -> m <> [] -> len m mod 8 = 0 -> exists c d,
    encrypt (VBytes m) o = (Ok c, o) /\ encrypt (VBytes (toggle m)) o' = (Ok (toggle c), o') /\
    decrypt (VBytes m) o = (Ok d, o) /\ decrypt (VBytes (toggle m)) o' = (Ok (toggle d), o').
Proof.
  intros Hk Hp. destruct (conforms_ecb Mag key kw P1 [] Hk Hp (Forall_nil _)) as (o & HO & _). destruct (conforms_ecb Mag (toggle key) kw P1 [] (key_toggle _ Hk) Hp (Forall_nil _)) as (o' & HO' & _).
  exists o, o'. split; [exact HO|]. split; [exact HO'|]. intros m Hm Hne HL.
  destruct (conforms_ecb Mag key kw P1 m Hk Hp Hm) as (o1 & H1 & E1 & E2). assert (o1 = o) by congruence. subst o1.
  destruct (conforms_ecb Mag (toggle key) kw P1 (toggle m) (key_toggle _ Hk) Hp (toggle_at_ok _ Hm 0)) as (o2 & H2 & E3 & E4). assert (o2 = o') by congruence. subst o2.
  cbn [bsize] in *.
  assert (HLn : (List.length m mod 8 = 0)%nat) by (unfold len in HL; apply Nat2Z.inj; rewrite Nat2Z.inj_mod; exact HL).
  assert (HLt : (List.length (toggle m) mod 8 = 0)%nat) by (unfold toggle; now rewrite toggle_at_length).
  assert (Hnt : toggle m <> []) by now destruct m.
  rewrite padded_whole in E1, E3 by (auto; lia). rewrite toggle_blocks in E3. rewrite whole_toggle in E4.
  assert (HB := whole_len8 m Hm HL). assert (HW := whole8_blocks m Hm).
  exists (concat (ecb_enc (spec_E Mag key) (blocks 8 m))), (concat (ecb_dec (spec_D Mag key) (whole 8 m))).
  split; [exact E1|]. split; [|split; [exact E2|]].
  - rewrite E3. do 2 f_equal. unfold ecb_enc. rewrite map_map. rewrite <- concat_toggle.
    + rewrite map_map. f_equal. apply map_ext_in. intros b Hb. rewrite Forall_forall in HB. apply E_toggle; auto.
    + rewrite <- (app_nil_r (map _ _)). apply (pieces_opt _ []). apply Forall_map. apply Forall_impl with (2 := HB). now apply Eb.
  - rewrite E4. do 2 f_equal. unfold ecb_dec. rewrite map_map. rewrite <- concat_toggle.
    + rewrite map_map. f_equal. apply map_ext_in. intros b Hb. rewrite Forall_forall in HW. apply D_toggle; auto.
    + rewrite <- (app_nil_r (map _ _)). apply (pieces_opt _ []). apply Forall_map. apply Forall_impl with (2 := HW). now apply Db.
Qed.
Print Assumptions C141_ecb.

(** The modes with a vector: the same message, with the related key and the changed vector, has the changed
    ciphertext; and a changed ciphertext is decrypted to the same message. *)
Definition related (mode : Z) (key iv : bytes) (kw kw' : kwargs) : Prop :=
  exists o o',
    new (VStr "magma") (VBytes key) (VInt mode) kw = Ok (NewMode o) /\
    new (VStr "magma") (VBytes (toggle key)) (VInt mode) kw' = Ok (NewMode o') /\
    forall m, bytes_ok m ->
      (exists c, result (encrypt (VBytes m) o) = Ok c /\ result (encrypt (VBytes m) o') = Ok (toggle c)) /\
      (exists d, result (decrypt (VBytes m) o) = Ok d /\ result (decrypt (VBytes (toggle m)) o') = Ok d).

Lemma iv_register iv : iv_blocks Mag iv -> blocks 8 iv <> [] /\ Forall block8 (blocks 8 iv).
Proof.
  intros (Hok & Hne & HL). split; [|now apply whole_len8]. intros H. apply Hne. destruct (cut8 iv Hok) as (bl & t & E & _). 
  destruct (data_cut (cleared_obj Mag) iv Hok) as (bl' & t' & _ & _ & _ & _ & ED & EB). change (nbs (cleared_obj Mag)) with 8%nat in EB. rewrite H in EB. rewrite ED, <- EB. reflexivity.
Qed.
Lemma iv_toggle iv : iv_blocks Mag iv -> iv_blocks Mag (toggle iv).
Proof. intros (Hok & Hne & HL). split; [now apply toggle_at_ok|]. split; [now destruct iv|]. now rewrite toggle_len. Qed.
Lemma padded_len8 p m : bytes_ok m -> bytes_ok (padded p 8 m) /\ len (padded p 8 m) mod 8 = 0.
Proof.
  intros Hm. split; [apply bytes_ok_app; split; [exact Hm | apply padding_ok]|].
  destruct (padded_length (cleared_obj Mag) p m) as (k & _ & HL). change (nbs (cleared_obj Mag)) with 8%nat in HL. unfold len. rewrite HL, Nat2Z.inj_mul. apply Z_mod_mult.
Qed.

Theorem C141_cbc key kw kw' p iv : bytes_len 32 key -> gives_pad kw p -> gives_pad kw' p -> iv_blocks Mag iv -> gives_iv kw iv -> gives_iv kw' (toggle iv) ->
  related MODE_CBC key iv kw kw'.
Proof.
  intros Hk Hp Hp' HI Hiv Hiv'. assert (Hk' := key_toggle _ Hk). assert (HI' := iv_toggle _ HI).
  destruct (conforms_cbc Mag key kw p iv [] Hk Hp Hiv HI (Forall_nil _)) as (o & HO & _). destruct (conforms_cbc Mag (toggle key) kw' p (toggle iv) [] Hk' Hp' Hiv' HI' (Forall_nil _)) as (o' & HO' & _).
  exists o, o'. split; [exact HO|]. split; [exact HO'|]. intros m Hm. destruct (iv_register iv HI) as [Hne HR].
  destruct (conforms_cbc Mag key kw p iv m Hk Hp Hiv HI Hm) as (o1 & H1 & E1 & E2). assert (o1 = o) by congruence. subst o1.
  destruct (conforms_cbc Mag (toggle key) kw' p (toggle iv) m Hk' Hp' Hiv' HI' Hm) as (o2 & H2 & E3 & _). assert (o2 = o') by congruence. subst o2.
  destruct (conforms_cbc Mag (toggle key) kw' p (toggle iv) (toggle m) Hk' Hp' Hiv' HI' (toggle_at_ok _ Hm 0)) as (o2 & H3 & _ & E4). assert (o2 = o') by congruence. subst o2.
  cbn [bsize] in *. rewrite toggle_blocks in E3, E4. rewrite whole_toggle in E4. destruct (padded_len8 p m Hm) as [HP1 HP2]. assert (HB := whole_len8 _ HP1 HP2).
  split.
  - eexists. split; [exact E1|]. rewrite E3. f_equal. rewrite (cbc_enc_toggle (spec_E Mag key) _ (fun b => E_toggle key b Hk) (Eb key Hk)) by assumption.
    apply concat_toggle. rewrite <- (app_nil_r (cbc_enc _ _ _)). apply (pieces_opt _ []). now apply cbc_enc_blocks; [apply Eb | | |].
  - eexists. split; [exact E2|]. rewrite E4. f_equal. f_equal. apply (cbc_dec_toggle (spec_D Mag key) _ (fun b => D_toggle key b Hk)); [now apply whole8_blocks | exact Hne].
Qed.
Print Assumptions C141_cbc.

Theorem C141_cfb key kw kw' iv : bytes_len 32 key -> iv_blocks Mag iv -> gives_iv kw iv -> gives_iv kw' (toggle iv) ->
  related MODE_CFB key iv kw kw'.
Proof.
  intros Hk HI Hiv Hiv'. assert (Hk' := key_toggle _ Hk). assert (HI' := iv_toggle _ HI).
  destruct (conforms_cfb Mag key kw iv [] Hk Hiv HI (Forall_nil _)) as (o & HO & _). destruct (conforms_cfb Mag (toggle key) kw' (toggle iv) [] Hk' Hiv' HI' (Forall_nil _)) as (o' & HO' & _).
  exists o, o'. split; [exact HO|]. split; [exact HO'|]. intros m Hm. destruct (iv_register iv HI) as [Hne HR].
  destruct (conforms_cfb Mag key kw iv m Hk Hiv HI Hm) as (o1 & H1 & E1 & E2). assert (o1 = o) by congruence. subst o1.
  destruct (conforms_cfb Mag (toggle key) kw' (toggle iv) m Hk' Hiv' HI' Hm) as (o2 & H2 & E3 & _). assert (o2 = o') by congruence. subst o2.
  destruct (conforms_cfb Mag (toggle key) kw' (toggle iv) (toggle m) Hk' Hiv' HI' (toggle_at_ok _ Hm 0)) as (o2 & H3 & _ & E4). assert (o2 = o') by congruence. subst o2.
  cbn [bsize] in *. rewrite toggle_blocks in E3, E4. rewrite toggle_blocks in E4. destruct (cut8 m Hm) as (bl & t & EB & HF & Ht). rewrite EB in *.
  split.
  - eexists. split; [exact E1|]. rewrite E3. f_equal. rewrite (cfb_enc_toggle (spec_E Mag key) _ (fun b => E_toggle key b Hk) (Eb key Hk)) by assumption.
    apply concat_toggle. apply (pieces_lengths (bl ++ opt_block t)); [apply cfb_enc_pieces; auto using Eb | now apply pieces_opt].
  - eexists. split; [exact E2|]. rewrite E4. f_equal. f_equal. now apply (cfb_dec_toggle (spec_E Mag key) _ (fun b => E_toggle key b Hk)).
Qed.
Print Assumptions C141_cfb.

Theorem C141_ofb key kw kw' iv : bytes_len 32 key -> iv_blocks Mag iv -> gives_iv kw iv -> gives_iv kw' (toggle iv) ->
  related MODE_OFB key iv kw kw'.
Proof.
  intros Hk HI Hiv Hiv'. assert (Hk' := key_toggle _ Hk). assert (HI' := iv_toggle _ HI).
  destruct (conforms_ofb Mag key kw iv [] Hk Hiv HI (Forall_nil _)) as (o & HO & _). destruct (conforms_ofb Mag (toggle key) kw' (toggle iv) [] Hk' Hiv' HI' (Forall_nil _)) as (o' & HO' & _).
  exists o, o'. split; [exact HO|]. split; [exact HO'|]. intros m Hm. destruct (iv_register iv HI) as [Hne HR].
  destruct (conforms_ofb Mag key kw iv m Hk Hiv HI Hm) as (o1 & H1 & E1 & E2). assert (o1 = o) by congruence. subst o1.
  destruct (conforms_ofb Mag (toggle key) kw' (toggle iv) m Hk' Hiv' HI' Hm) as (o2 & H2 & E3 & _). assert (o2 = o') by congruence. subst o2.
  destruct (conforms_ofb Mag (toggle key) kw' (toggle iv) (toggle m) Hk' Hiv' HI' (toggle_at_ok _ Hm 0)) as (o2 & H3 & _ & E4). assert (o2 = o') by congruence. subst o2.
  cbn [bsize] in *. rewrite toggle_blocks in E3, E4. rewrite toggle_blocks in E4. destruct (cut8 m Hm) as (bl & t & EB & HF & Ht). rewrite EB in *.
  split.
  - eexists. split; [exact E1|]. rewrite E3. f_equal. rewrite (ofb_toggle (spec_E Mag key) _ (fun b => E_toggle key b Hk) (Eb key Hk)) by assumption.
    apply concat_toggle. apply (pieces_lengths (bl ++ opt_block t)); [apply ofb_pieces; auto using Eb | now apply pieces_opt].
  - eexists. split; [exact E2|]. rewrite E4. f_equal. f_equal. now apply (ofb_toggle_dec (spec_E Mag key) _ (fun b => E_toggle key b Hk) (Eb key Hk)).
Qed.
Print Assumptions C141_ofb.

(** The changed key is another key; so "no ciphertext says anything about another key" is false: with a function
    that knows nothing, each answer of one object is computed from an answer of the other. *)
Lemma toggle_other l : l <> [] -> toggle l <> l.
Proof. destruct l as [|x l]; [contradiction|]. intros _ [= E _]. apply (f_equal (fun z => Z.lxor x z)) in E. rewrite <- Z.lxor_assoc, Z.lxor_nilpotent, Z.lxor_0_l in E. discriminate. Qed.
Theorem C141_unrelated_refuted :
  ~ (forall key key' kw o o', bytes_len 32 key -> bytes_len 32 key' -> key <> key' -> gives_pad kw P1 ->
     new (VStr "magma") (VBytes key) (VInt MODE_ECB) kw = Ok (NewMode o) ->
     new (VStr "magma") (VBytes key') (VInt MODE_ECB) kw = Ok (NewMode o') ->
     forall f g : bytes -> bytes, exists m, bytes_ok m /\ m <> [] /\ len m mod 8 = 0 /\
       forall c, result (encrypt (VBytes (f m)) o) = Ok c -> result (encrypt (VBytes m) o') <> Ok (g c)).
Proof.
  intros H. set (kw := {| kw_init_vect := None; kw_data := None; kw_pad_mode := Some (VInt PAD_MODE_1) |}).
  assert (Hk : bytes_len 32 (py_repeat 5 32)) by concrete_bytes.
  assert (Hn0 : py_repeat 5 32 <> []) by (clear; intros E; apply (f_equal len) in E; discriminate E).
  destruct (C141_ecb (py_repeat 5 32) kw Hk eq_refl) as (o & o' & HO & HO' & HM).
  destruct (H _ _ kw o o' Hk (key_toggle _ Hk) (not_eq_sym (toggle_other _ Hn0)) eq_refl HO HO' toggle toggle) as (m & Hm & Hne & HL & HC).
  destruct (HM (toggle m)) as (c & d & E1 & E2 & _); [now apply toggle_at_ok | now destruct m | now rewrite toggle_len |].
  apply (HC c); [now rewrite E1|]. rewrite toggle_twice in E2. now rewrite E2.
Qed.
Print Assumptions C141_unrelated_refuted.

Example C141_example :
  toggle [1; 2; 3; 4; 255; 6; 7; 8; 0] = [129; 2; 3; 4; 127; 6; 7; 8; 128] /\
  spec_E Mag (py_repeat 17 32) [1; 2; 3; 4; 5; 6; 7; 8] = toggle (spec_E Mag (toggle (py_repeat 17 32)) [129; 2; 3; 4; 133; 6; 7; 8]).
Proof. split; [reflexivity|]. vm_compute. reflexivity. Qed.
