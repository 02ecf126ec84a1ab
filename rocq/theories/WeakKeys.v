(** * Magma keys under which encryption is decryption *)
From Verif Require Import PyBase PyFacts PyState Utils UtilsFacts UtilsLemmas Magma CipherObj Modes Mac SpecNew.
From Verif Require Import SpecMagma MagmaFacts SpecModes CipherLemmas CipherObjFacts ModeFacts ModeSpecFacts ModeLemmas ModeSem ModeConf ModeProps ModeSim ModeHist ModeMore ModeEmpty.
Open Scope Z_scope.

(** ** Specification: the eight words of four bytes of the key read the same forwards and backwards. *)
Definition key_word (key : bytes) (j : nat) : bytes := firstn 4 (skipn (4 * j) key).
Definition palindrome (key : bytes) : Prop := forall j, (j < 8)%nat -> key_word key j = key_word key (7 - j).

Lemma palindrome_kwords key : palindrome key -> rev (kwords key) = kwords key.
Proof.
  intros H. assert (H0 := H 0%nat ltac:(lia)). assert (H1 := H 1%nat ltac:(lia)). assert (H2 := H 2%nat ltac:(lia)). assert (H3 := H 3%nat ltac:(lia)).
  unfold key_word in H0, H1, H2, H3. unfold kwords, kword. cbn [seq map rev app]. cbn [Nat.sub] in *. now rewrite H0, H1, H2, H3.
Qed.

Lemma palindrome_round_keys key : bytes_len 32 key -> palindrome key ->
  exists h, magma_round_keys (be_value key) = h ++ rev h /\ h <> [].
Proof.
  intros Hk HP. rewrite be_value_eq, <- magma_round_keys_ok by exact Hk. unfold magma_key_list. rewrite (palindrome_kwords key HP).
  exists (map wint (kwords key ++ kwords key)). split; [|discriminate]. rewrite <- map_rev, rev_app_distr, (palindrome_kwords key HP), <- map_app. now rewrite <- !app_assoc.
Qed.

Lemma spec_same key b : bytes_len 32 key -> palindrome key -> spec_E Mag key b = spec_D Mag key b.
Proof.
  intros Hk HP. destruct (palindrome_round_keys key Hk HP) as (h & E & _). unfold spec_E, spec_D, spec_magma_encrypt, spec_magma_decrypt.
  rewrite E, rev_app_distr, rev_involutive. reflexivity.
Qed.

(** ** Blocks that encryption leaves alone *)
Notation feed := (fold_left (fun p k => mG k p)).
Lemma feed_ok ks p : pair_ok p -> pair_ok (feed ks p).
Proof. revert p; induction ks as [|k ks IH]; intros p Hp; [exact Hp|]. cbn. apply IH. now apply mG_ok. Qed.
Lemma swap_ok p : pair_ok p -> pair_ok (swap p).
Proof. intros [H1 H2]. now split. Qed.

Definition middle (h : list Z) (x : Z) : Z * Z := swap (feed (rev h) (x, x)).
Lemma middle_feed h x : feed h (middle h x) = (x, x).
Proof. unfold middle. rewrite <- (rev_involutive h) at 1. now rewrite feistel. Qed.
Lemma middle_fixed h x : h <> [] -> magma_rounds (h ++ rev h) (middle h x) = middle h x.
Proof.
  intros Hne. rewrite magma_rounds_swap by (destruct h; [contradiction | discriminate]). rewrite fold_left_app, middle_feed. reflexivity.
Qed.
Lemma middle_inj h x y : middle h x = middle h y -> x = y.
Proof. intros E. apply (f_equal (feed h)) in E. rewrite !middle_feed in E. now injection E. Qed.
Lemma middle_ok h x : 0 <= x < 2 ^ 32 -> pair_ok (middle h x).
Proof. intros Hx. apply swap_ok, feed_ok. split; exact Hx. Qed.

Lemma mblock_inj p q : pair_ok p -> pair_ok q -> mblock p = mblock q -> p = q.
Proof. intros Hp Hq E. rewrite <- (mpair_mblock p), <- (mpair_mblock q) by assumption. now rewrite E. Qed.
Lemma block_fixed key h x : magma_round_keys (be_value key) = h ++ rev h -> h <> [] -> 0 <= x < 2 ^ 32 ->
  spec_E Mag key (mblock (middle h x)) = mblock (middle h x).
Proof.
  intros E Hne Hx. set (p := middle h x). assert (Hp : pair_ok p) by now apply middle_ok. unfold spec_E, spec_magma_encrypt.
  rewrite E, !be_value_eq, <- mpair_split by apply mblock_block. rewrite mpair_mblock by exact Hp. unfold p at 1. rewrite middle_fixed by exact Hne. fold p.
  rewrite be_bytes_eq, <- mblock_join by exact Hp. destruct (mblock_block p) as [HL HB]. change (Z.of_nat 8) with 8. rewrite <- HL. now apply of_int_to_int.
Qed.

(** ** Objects in electronic codebook mode *)
Lemma whole_message c m : bytes_ok m -> (List.length m mod nbs c = 0)%nat -> exists bl, m = concat bl /\ Forall (block c) bl /\ whole (nbs c) m = bl.
Proof.
  intros Hm Hl. destruct (data_cut c m Hm) as (bl & t & Hcut & HF & Ht & HLt & E & _). destruct Hcut as (E1 & HL & Ht'). assert (Hcut : cut (bs c) m bl t) by (now split).
  assert (LB : List.length (concat bl) = (List.length bl * nbs c)%nat).
  { clear - HF. induction HF as [|b bl Hb _ IH]; [reflexivity|]. cbn [concat List.length]. rewrite app_length, IH, (block_length c b Hb). lia. }
  assert (t = []). { rewrite E1, app_length, LB, Nat.add_comm, Nat.mod_add in Hl by (pose proof (nbs_pos c); lia). rewrite Nat.mod_small in Hl by exact HLt. now destruct t. }
  subst t. exists bl. rewrite app_nil_r in E1. split; [exact E1|]. split; [exact HF|]. exact (whole_cut _ _ _ _ Hcut).
Qed.
Lemma padded_whole n m : m <> [] -> (List.length m mod n = 0)%nat -> (0 < n)%nat -> padded P1 n m = m.
Proof.
  intros Hne Hl Hn. unfold padded, padding, pad_zeros. destruct m as [|x m]; [contradiction|]. rewrite Hl, Nat.sub_0_r, Nat.mod_same by lia. apply app_nil_r.
Qed.

Lemma ecb_same o m : co_ok (o_cipher o) -> o_class o = ECB -> o_pad_mode o = pad_code P1 -> bytes_ok m -> m <> [] -> (List.length m mod nbs (o_cipher o) = 0)%nat ->
  (forall b, block (o_cipher o) b -> oE (o_cipher o) b = oD (o_cipher o) b) ->
  exists c, encrypt (VBytes m) o = (Ok c, o) /\ decrypt (VBytes m) o = (Ok c, o) /\ encrypt (VBytes c) o = (Ok m, o) /\ List.length c = List.length m.
Proof.
  intros Hc Hcl Hp Hm Hne Hl HS. set (c := o_cipher o) in *.
  assert (EN : forall d bl, d <> [] -> d = concat bl -> Forall (block c) bl -> encrypt (VBytes d) o = (Ok (concat (map (oE c) bl)), o)).
  { intros d bl Hd -> HF. assert (HB : bytes_ok (concat bl)) by exact (concat_ok _ _ HF).
    assert (HLd : (List.length (concat bl) mod nbs c = 0)%nat).
    { assert (LB : List.length (concat bl) = (List.length bl * nbs c)%nat). { clear - HF. induction HF as [|b bl Hb _ IH]; [reflexivity|]. cbn [concat List.length]. rewrite app_length, IH, (block_length c b Hb). lia. }
      rewrite LB. apply Nat.mod_mul. pose proof (nbs_pos c). lia. }
    unfold encrypt, bindM, getM. rewrite Hcl. apply ecb_encrypt_ok; auto. unfold block_size. fold c. rewrite Hp. rewrite pad_ok. apply padded_whole; auto. apply nbs_pos. }
  destruct (whole_message c m Hm Hl) as (bl & E & HF & HW).
  assert (HF' : Forall (block c) (map (oE c) bl)) by (apply Forall_map; eapply Forall_impl; [|exact HF]; intros b Hb; now apply oE_block).
  exists (concat (map (oE c) bl)). rewrite (EN m bl Hne E HF). split; [reflexivity|]. split; [|split].
  - rewrite (sem_ecb_dec o Hc m Hcl Hm). fold c. rewrite HW. do 2 f_equal. f_equal. unfold ecb_dec. apply map_ext_in. intros b Hb. symmetry. apply HS. rewrite Forall_forall in HF. now apply HF.
  - rewrite (EN _ (map (oE c) bl)); [| |reflexivity|exact HF'].
    + rewrite E. do 2 f_equal. f_equal. rewrite map_map. rewrite <- (map_id bl) at 2. apply map_ext_in. intros b Hb. rewrite Forall_forall in HF. rewrite HS by (apply oE_block; auto). now apply oD_oE; auto.
    + destruct bl as [|b bl]; [now subst m|]. inversion HF'; subst. intros EE. apply (f_equal (@List.length Z)) in EE. cbn [map concat] in EE. rewrite app_length, (block_length c _ H1) in EE. pose proof (nbs_pos c). cbn in EE. lia.
  - rewrite E. clear - HF HF'. induction HF as [|b bl Hb _ IH]; [reflexivity|]. cbn [map concat] in *. inversion HF'; subst. rewrite !app_length, IH by assumption. f_equal. rewrite (block_length c _ Hb). now apply block_length.
Qed.

Lemma weak_self_inverse key kw o m : bytes_len 32 key -> palindrome key -> gives_pad kw P1 ->
  new (alg Mag) (VBytes key) (VInt MODE_ECB) kw = Ok (NewMode o) -> bytes_ok m -> m <> [] -> (List.length m mod 8 = 0)%nat ->
  exists c, encrypt (VBytes m) o = (Ok c, o) /\ decrypt (VBytes m) o = (Ok c, o) /\ encrypt (VBytes c) o = (Ok m, o).
Proof.
  intros Hk HP Hp Hn Hm Hne Hl. destruct (new_ecb Mag key kw P1 Hk Hp) as (c & Hn' & Hmd). assert (Ho : o = mk ECB c (pad_code P1) [] []) by congruence. subst o.
  destruct Hmd as (Hc & Ha & HS). destruct (ecb_same (mk ECB c (pad_code P1) [] []) m) as (ct & H1 & H2 & H3 & _); cbn [o_cipher o_class o_pad_mode mk]; auto.
  - now rewrite nbs_alg, Ha.
  - intros b Hb. destruct (HS b Hb) as [-> ->]. now apply spec_same.
  - eauto.
Qed.

Lemma weak_fixed_points key kw o : bytes_len 32 key -> palindrome key -> gives_pad kw P1 ->
  new (alg Mag) (VBytes key) (VInt MODE_ECB) kw = Ok (NewMode o) ->
  exists f : Z -> bytes, (forall x y, 0 <= x < 2 ^ 32 -> 0 <= y < 2 ^ 32 -> f x = f y -> x = y) /\
    forall x, 0 <= x < 2 ^ 32 -> bytes_len 8 (f x) /\ encrypt (VBytes (f x)) o = (Ok (f x), o).
Proof.
  intros Hk HP Hp Hn. destruct (new_ecb Mag key kw P1 Hk Hp) as (c & Hn' & Hmd). assert (Ho : o = mk ECB c (pad_code P1) [] []) by congruence. subst o.
  destruct Hmd as (Hc & Ha & HS). destruct (palindrome_round_keys key Hk HP) as (h & E & Hne). exists (fun x => mblock (middle h x)). split.
  - intros x y Hx Hy EE. apply mblock_inj in EE; [|now apply middle_ok|now apply middle_ok]. now apply middle_inj in EE.
  - intros x Hx. destruct (mblock_block (middle h x)) as [HL HB]. split; [now split|].
    assert (Hbl : block c (mblock (middle h x))) by (split; [rewrite bs_alg, Ha; exact HL | exact HB]).
    unfold encrypt, bindM, getM. cbn [mk o_class]. rewrite ecb_encrypt_ok with (bl := [mblock (middle h x)]); cbn [mk o_cipher o_pad_mode]; auto.
    + unfold ecb_enc. cbn [map concat]. rewrite app_nil_r. destruct (HS _ Hbl) as [-> _]. now rewrite (block_fixed key h x E Hne Hx).
    + unfold block_size. cbn [mk o_cipher concat]. rewrite app_nil_r. change PAD_MODE_1 with (pad_code P1). rewrite pad_ok. apply padded_whole; [|rewrite nbs_alg, Ha; unfold len in HL; replace (List.length (mblock (middle h x))) with 8%nat by lia; reflexivity | apply nbs_pos].
      intros EE. rewrite EE in HL. discriminate HL.
Qed.

(** A cleared object has such a key. *)
Lemma cleared_same b : block (cleared_obj Mag) b -> oE (cleared_obj Mag) b = oD (cleared_obj Mag) b.
Proof.
  intros Hb. unfold oE, oD. cbn [cleared_obj co_encrypt co_decrypt]. rewrite magma_encrypt_ok, magma_decrypt_ok; [reflexivity| | | |]; try exact (cleared_ok Mag); now apply block8_wide.
Qed.
Lemma cleared_self_inverse key kw o o1 m : bytes_len 32 key -> gives_pad kw P1 -> 
  new (alg Mag) (VBytes key) (VInt MODE_ECB) kw = Ok (NewMode o) -> o1 = snd (clear o) -> bytes_ok m -> m <> [] -> (List.length m mod 8 = 0)%nat ->
  exists c, encrypt (VBytes m) o1 = (Ok c, o1) /\ decrypt (VBytes m) o1 = (Ok c, o1) /\ encrypt (VBytes c) o1 = (Ok m, o1).
Proof.
  intros Hk Hp Hn -> Hm Hne Hl. destruct (new_ecb Mag key kw P1 Hk Hp) as (c & Hn' & Hmd). assert (Ho : o = mk ECB c (pad_code P1) [] []) by congruence. subst o.
  destruct Hmd as (Hc & Ha & _). destruct (clear_ok (mk ECB c (pad_code P1) [] []) Hc) as (k & E & K1 & K2 & K3). rewrite E. cbn [snd].
  cbn [mk o_cipher] in K2, K3. destruct (ecb_same (set_cipher (mk ECB c (pad_code P1) [] []) k) m) as (ct & H1 & H2 & H3 & _); cbn [set_cipher o_cipher o_class o_pad_mode mk]; auto.
  - rewrite nbs_alg, K2, Ha. exact Hl.
  - intros b Hb. assert (Hb' : block c b) by (apply (block_alg k); [congruence | exact Hb]). destruct (K3 b Hb') as [-> ->]. rewrite Ha. apply cleared_same. apply (block_alg k); [now rewrite K2, Ha | exact Hb].
  - eauto.
Qed.
