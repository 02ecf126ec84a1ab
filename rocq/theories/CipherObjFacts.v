(** * What the modes need to know about a block cipher object *)
From Verif Require Import PyBase PyFacts PyState Utils UtilsFacts UtilsLemmas Kuznechik Magma CipherObj.
From Verif Require Import SpecKuznechik SpecMagma SpecModes KuzFacts KuzFacts2 MagmaFacts CipherLemmas.

(** A fresh or cleared object. *)
Definition co_ok (o : cipher_obj) : Prop :=
  match o with KuzObj ks => kuz_keys ks | MagmaObj ks => magma_keys ks end.

Definition okval (r : res bytes) : bytes := match r with Ok a => a | Err _ => [] end.

(** The permutations of blocks computed by an object. *)
Definition oE (o : cipher_obj) (b : bytes) : bytes := okval (co_encrypt o b).
Definition oD (o : cipher_obj) (b : bytes) : bytes := okval (co_decrypt o b).

Notation bs o := (co_block_size o).
Definition nbs (o : cipher_obj) : nat := Z.to_nat (bs o).
Definition block (o : cipher_obj) (b : bytes) : Prop := bytes_len (bs o) b.

Lemma bs_cases o : bs o = 16 \/ bs o = 8.
Proof. destruct o; auto. Qed.
Lemma bs_pos o : 0 < bs o.
Proof. destruct (bs_cases o); lia. Qed.
Lemma nbs_bs o : Z.of_nat (nbs o) = bs o.
Proof. unfold nbs. pose proof (bs_pos o). lia. Qed.
Lemma nbs_pos o : (0 < nbs o)%nat.
Proof. pose proof (nbs_bs o). pose proof (bs_pos o). lia. Qed.

Lemma co_enc o b : co_ok o -> block o b -> co_encrypt o b = Ok (oE o b) /\ block o (oE o b).
Proof.
  intros Ho Hb. unfold oE. destruct o as [ks|ks]; cbn [co_encrypt co_ok] in *.
  - destruct (kuz_inverse ks b Ho Hb) as (c & -> & Hc & _). split; [reflexivity | exact Hc].
  - destruct (magma_inverse ks b Ho Hb) as (c & -> & Hc & _). split; [reflexivity | exact Hc].
Qed.

Lemma co_dec o b : co_ok o -> block o b -> co_decrypt o b = Ok (oD o b) /\ block o (oD o b).
Proof.
  intros Ho Hb. unfold oD. destruct o as [ks|ks]; cbn [co_decrypt co_ok] in *.
  - destruct (kuz_inverse_dec ks b Ho Hb) as (c & -> & Hc & _). split; [reflexivity | exact Hc].
  - destruct (magma_inverse_dec ks b Ho Hb) as (c & -> & Hc & _). split; [reflexivity | exact Hc].
Qed.

Lemma oD_oE o b : co_ok o -> block o b -> oD o (oE o b) = b.
Proof.
  intros Ho Hb. unfold oE, oD. destruct o as [ks|ks]; cbn [co_encrypt co_decrypt co_ok] in *.
  - destruct (kuz_inverse ks b Ho Hb) as (c & -> & Hc & H). cbn [okval]. now rewrite H.
  - destruct (magma_inverse ks b Ho Hb) as (c & -> & Hc & H). cbn [okval]. now rewrite H.
Qed.

Lemma oE_oD o b : co_ok o -> block o b -> oE o (oD o b) = b.
Proof.
  intros Ho Hb. unfold oE, oD. destruct o as [ks|ks]; cbn [co_encrypt co_decrypt co_ok] in *.
  - destruct (kuz_inverse_dec ks b Ho Hb) as (c & -> & Hc & H). cbn [okval]. now rewrite H.
  - destruct (magma_inverse_dec ks b Ho Hb) as (c & -> & Hc & H). cbn [okval]. now rewrite H.
Qed.

Lemma oE_block o b : co_ok o -> block o b -> block o (oE o b).
Proof. intros Ho Hb. now destruct (co_enc o b Ho Hb). Qed.
Lemma oD_block o b : co_ok o -> block o b -> block o (oD o b).
Proof. intros Ho Hb. now destruct (co_dec o b Ho Hb). Qed.
Lemma oE_inj o a b : co_ok o -> block o a -> block o b -> oE o a = oE o b -> a = b.
Proof. intros Ho Ha Hb H. rewrite <- (oD_oE o a), <- (oD_oE o b) by auto. now rewrite H. Qed.

Lemma co_enc_short o b : co_ok o -> bytes_ok b -> len b < bs o -> co_encrypt o b = Err IndexError.
Proof.
  intros Ho Hb Hl. destruct o as [ks|ks]; cbn [co_encrypt co_ok co_block_size] in *.
  - now apply kuz_encrypt_short.
  - now apply magma_encrypt_short.
Qed.

(** ** Clearing *)

(** The permutation computed by a cleared object: round keys made of the bytes '/x00'. *)
Definition cleared_keys (a : balg) : list bytes :=
  match a with
  | Kuz => repeat (bytes_mul slash_x00 4) 10
  | Mag => repeat slash_x00 32
  end.
Definition cleared_obj (a : balg) : cipher_obj :=
  match a with Kuz => KuzObj (cleared_keys Kuz) | Mag => MagmaObj (cleared_keys Mag) end.

Definition co_alg (o : cipher_obj) : balg := match o with KuzObj _ => Kuz | MagmaObj _ => Mag end.

Lemma bs_alg o : bs o = Z.of_nat (bsize (co_alg o)).
Proof. now destruct o. Qed.
Lemma nbs_alg o : nbs o = bsize (co_alg o).
Proof. unfold nbs. rewrite bs_alg. lia. Qed.

Lemma cleared_ok a : co_ok (cleared_obj a).
Proof.
  destruct a; cbn [cleared_obj co_ok].
  - split; [reflexivity|]. cbn [cleared_keys repeat]. repeat (apply Forall_cons; [split; [concrete_bytes | vm_compute; discriminate]|]). constructor.
  - split; [reflexivity|]. cbn [cleared_keys repeat]. repeat (apply Forall_cons; [split; [concrete_bytes | vm_compute; discriminate]|]). constructor.
Qed.

Lemma repeat_S {A} (x : A) n : repeat x (S n) = x :: repeat x n.
Proof. reflexivity. Qed.

Lemma zero_fill_firstn k n : 4 * Z.of_nat n <= len (zero_fill k) ->
  firstn (4 * n) (zero_fill k) = concat (repeat slash_x00 n).
Proof.
  rewrite zero_fill_len. unfold zero_fill, zero_fill_val, bytes_mul, py_repeat, len. intros H.
  assert (Hn : (n <= List.length k)%nat) by lia.
  replace (Z.to_nat (Z.of_nat (List.length k))) with (n + (List.length k - n))%nat by lia.
  rewrite repeat_app, concat_app.
  assert (L : List.length (concat (repeat slash_x00 n)) = (4 * n)%nat).
  { clear. induction n; [reflexivity|]. cbn [repeat concat]. rewrite app_length, IHn. cbn [slash_x00 List.length]. lia. }
  rewrite firstn_app, L, Nat.sub_diag, firstn_O, app_nil_r. now apply firstn_all2; lia.
Qed.

Lemma co_clear_ok o : co_ok o ->
  exists o', co_clear o = Ok o' /\ co_ok o' /\ co_alg o' = co_alg o /\
    (forall b, block o b -> oE o' b = oE (cleared_obj (co_alg o)) b /\ oD o' b = oD (cleared_obj (co_alg o)) b).
Proof.
  intros Ho. destruct o as [ks|ks]; cbn [co_ok co_clear co_alg] in *.
  - destruct (kuz_clear_ok ks Ho) as [-> Hk]. cbn [bind]. eexists; split; [reflexivity|].
    split; [exact Hk|]. split; [reflexivity|]. intros b Hb. unfold oE, oD. cbn [co_encrypt co_decrypt cleared_obj].
    assert (HC := cleared_ok Kuz). cbn [cleared_obj co_ok] in HC.
    rewrite !kuz_encrypt_ok, !kuz_decrypt_ok by auto using block_wide.
    assert (EQ : map (firstn 16) (map zero_fill ks) = map (firstn 16) (cleared_keys Kuz)).
    { destruct Ho as [Hl HF]. rewrite map_map. transitivity (repeat (concat (repeat slash_x00 4)) (List.length ks)).
      - clear Hl Hk HC Hb. induction HF as [|k ks [Hk1 Hk2] _ IH]; [reflexivity|]. cbn [map List.length]. rewrite repeat_S.
        f_equal; [|exact IH]. change 16%nat with (4 * 4)%nat. apply zero_fill_firstn. rewrite zero_fill_len. lia.
      - rewrite Hl. reflexivity. }
    rewrite EQ. split; reflexivity.
  - destruct (magma_clear_ok ks Ho) as [-> Hk]. cbn [bind]. eexists; split; [reflexivity|].
    split; [exact Hk|]. split; [reflexivity|]. intros b Hb. unfold oE, oD. cbn [co_encrypt co_decrypt cleared_obj].
    assert (HC := cleared_ok Mag). cbn [cleared_obj co_ok] in HC.
    rewrite !magma_encrypt_ok, !magma_decrypt_ok by auto using block8_wide.
    assert (EQ : map wint (map zero_fill ks) = map wint (cleared_keys Mag)).
    { destruct Ho as [Hl HF]. rewrite map_map. transitivity (repeat (wint slash_x00) (List.length ks)).
      - clear Hl Hk HC Hb. induction HF as [|k ks [Hk1 Hk2] _ IH]; [reflexivity|]. cbn [map List.length]. rewrite repeat_S.
        f_equal; [|exact IH]. unfold wint. f_equal. change 4%nat with (4 * 1)%nat at 1. rewrite zero_fill_firstn; [reflexivity|].
        rewrite zero_fill_len. lia.
      - rewrite Hl. reflexivity. }
    rewrite EQ. split; reflexivity.
Qed.

(** Equal key lengths give equal cleared objects. *)
Lemma block_alg o o' b : co_alg o = co_alg o' -> block o b -> block o' b.
Proof. unfold block. now rewrite !bs_alg; intros ->. Qed.

(** ** A fresh object computes the standard's permutation *)

Lemma be_value_eq l : be_value l = bytearray_to_int l.
Proof.
  symmetry. unfold be_value. induction l as [|x l IH]; [reflexivity|].
  rewrite bytearray_to_int_cons, IH.
  cbn [List.length seq]. rewrite <- seq_shift.
  assert (Hs : rev (0%nat :: map S (seq 0 (List.length l))) = List.length l :: rev (seq 0 (List.length l))).
  { rewrite seq_shift. change (0%nat :: seq 1 (List.length l)) with (seq 0 (S (List.length l))).
    rewrite seq_S, rev_app_distr. reflexivity. }
  rewrite Hs. cbn [combine fold_right fst snd]. unfold len. reflexivity.
Qed.

Lemma be_bytes_eq n v : be_bytes n v = int_to_bytearray v (Z.of_nat n).
Proof.
  rewrite int_to_bytearray_seq. unfold be_bytes. rewrite Nat2Z.id. apply map_ext_in. intros i Hi.
  apply in_seq in Hi. do 3 f_equal. lia.
Qed.

Lemma bxor_eq a b : bxor a b = add_xor a b.
Proof.
  unfold bxor. revert b; induction a as [|x a IH]; intros [|y b]; try reflexivity.
  cbn [combine map fst snd add_xor]. now rewrite IH.
Qed.

Lemma kuz_obj_spec key ks b : bytes_len 32 key -> kuz_new key = Ok ks -> bytes_len 16 b ->
  oE (KuzObj ks) b = spec_E Kuz key b /\ oD (KuzObj ks) b = spec_D Kuz key b.
Proof.
  intros Hk He Hb. destruct (kuz_conforms key ks b Hk He Hb) as [H1 H2]. unfold oE, oD.
  cbn [co_encrypt co_decrypt]. rewrite H1, H2. split; reflexivity.
Qed.

Lemma magma_obj_spec key ks b : bytes_len 32 key -> magma_new key = Ok ks -> bytes_len 8 b ->
  oE (MagmaObj ks) b = spec_E Mag key b /\ oD (MagmaObj ks) b = spec_D Mag key b.
Proof.
  intros Hk He Hb. destruct (magma_conforms key ks b Hk He Hb) as [H1 H2]. unfold oE, oD.
  cbn [co_encrypt co_decrypt]. rewrite H1, H2. unfold spec_E, spec_D. rewrite !be_bytes_eq, !be_value_eq. split; reflexivity.
Qed.
