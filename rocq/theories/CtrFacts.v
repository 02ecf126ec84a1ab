(** * Counter mode: refinement of the model to the specification *)
From Verif Require Import PyBase PyFacts PyState Utils UtilsFacts CipherObj Modes.
From Verif Require Import SpecModes MagmaFacts CipherLemmas CipherObjFacts ModeFacts.

Lemma upd_same {A} (l : list A) n d : upd l n (nth n l d) = l.
Proof. revert n; induction l as [|x l IH]; intros [|n]; cbn; auto. now rewrite IH. Qed.

Lemma repeat_snoc {A} (x : A) n : repeat x (S n) = repeat x n ++ [x].
Proof. induction n as [|n IH]; [reflexivity|]. cbn [repeat app] in *. now rewrite <- IH. Qed.

(** The counter as the code increments it: the last byte alone, without a carry. *)
Definition ctr_next (c : bytes) (k : nat) : bytes := removelast c ++ [(last c 0 + Z.of_nat k) mod 256].

Lemma ctr_next_0 c : c <> [] -> bytes_ok c -> ctr_next c 0 = c.
Proof.
  intros Hne Hok. unfold ctr_next. destruct (exists_last Hne) as (p & x & ->).
  rewrite removelast_last, last_last. apply bytes_ok_app in Hok as [_ Hx]. inversion Hx as [|? ? Hb _]; subst.
  unfold byte_ok in Hb. cbn [Z.of_nat]. now rewrite Z.add_0_r, Z.mod_small.
Qed.
Lemma ctr_next_add c j k : ctr_next (ctr_next c j) k = ctr_next c (j + k).
Proof.
  unfold ctr_next. rewrite removelast_last, last_last. f_equal. f_equal.
  rewrite Zplus_mod_idemp_l. f_equal. lia.
Qed.
Lemma ctr_next_256 c j : ctr_next c (j + 256) = ctr_next c j.
Proof.
  unfold ctr_next. f_equal. f_equal. replace (last c 0 + Z.of_nat (j + 256)) with (last c 0 + Z.of_nat j + 1 * 256) by lia.
  apply Z_mod_plus_full.
Qed.
Lemma ctr_next_block o c k : block o c -> block o (ctr_next c k).
Proof.
  intros [Hl Hok]. pose proof (bs_pos o). assert (Hne : c <> []) by (intros ->; cbn in Hl; lia).
  unfold ctr_next. destruct (exists_last Hne) as (p & x & ->). rewrite removelast_last.
  apply bytes_ok_app in Hok as [Hp Hx]. split.
  - rewrite len_app in *. exact Hl.
  - apply bytes_ok_app. split; [exact Hp|]. constructor; [|constructor]. unfold byte_ok. lia.
Qed.

Lemma inc_ctr_ok o c : block o c -> _inc_ctr (bs o) c = Ok (ctr_next c 1).
Proof.
  intros [Hl Hok]. pose proof (bs_pos o) as Hp. assert (Hne : c <> []) by (intros ->; cbn in Hl; lia).
  set (n := bs o) in *. destruct (exists_last Hne) as (p & x & E). unfold _inc_ctr.
  assert (Hlp : len p = n - 1) by (rewrite E, len_app in Hl; unfold len in *; cbn in Hl; lia).
  assert (Hbit : py_set (py_repeat 0 n) (n - 1) 1 = Ok (py_repeat 0 (n - 1) ++ [1])).
  { rewrite py_set_ok by (rewrite ?len_repeat; unfold byte_ok; lia). f_equal. unfold py_repeat.
    replace (Z.to_nat n) with (S (Z.to_nat (n - 1))) by lia. rewrite repeat_snoc.
    rewrite <- (repeat_length 0 (Z.to_nat (n - 1))) at 2. apply upd_app_mid. }
  rewrite Hbit. cbn [bind].
  replace n with (n - 1 + 1) at 1 by lia. rewrite py_range_snoc by lia. rewrite for_app.
  match goal with |- context [for_ (py_range 0 (n - 1) 1) _ ?bd] => set (body := bd) end.
  destruct (for_fold (py_range 0 (n - 1) 1) (0, c) body
    (fun s i => (nth (Z.to_nat i) c 0 + Z.shiftl (fst s) 8, c)) (fun s => snd s = c)) as [-> HP]; [reflexivity| |].
  - intros i [int ctr] Hi Hs. cbn [snd fst] in *. subst ctr. apply in_py_range in Hi. split; [|reflexivity].
    unfold body. rewrite (py_get_nth c i 0) by lia. cbn [bind].
    rewrite (py_get_nth _ i 0) by (rewrite len_app, len_repeat; unfold len; cbn; lia). cbn [bind].
    rewrite app_nth1 by (unfold py_repeat; rewrite repeat_length; lia).
    unfold py_repeat. rewrite nth_repeat, Z.add_0_r.
    assert (Hb : byte_ok (nth (Z.to_nat i) c 0)).
    { apply (proj1 (Forall_forall _ _) Hok). apply nth_In. unfold len in Hl. lia. }
    assert (Hland : Z.land (nth (Z.to_nat i) c 0 + Z.shiftl int 8) 255 = nth (Z.to_nat i) c 0).
    { rewrite land_255. rewrite Z.shiftl_mul_pow2 by lia. change (2 ^ 8) with 256. rewrite Z_mod_plus_full.
      apply Z.mod_small, Hb. }
    rewrite Hland, py_set_ok by (auto; lia). now rewrite upd_same.
  - set (s := fold_left _ _ _) in *. destruct s as [int ctr]. cbn [snd] in HP. subst ctr. cbn [bind for_].
    unfold body. rewrite (py_get_nth c (n - 1) 0) by lia. cbn [bind].
    rewrite (py_get_nth _ (n - 1) 0) by (rewrite len_app, len_repeat; unfold len; cbn; lia). cbn [bind].
    assert (H1 : nth (Z.to_nat (n - 1)) (py_repeat 0 (n - 1) ++ [1]) 0 = 1).
    { unfold py_repeat. rewrite app_nth2; rewrite repeat_length; [|lia]. now rewrite Nat.sub_diag. }
    rewrite H1.
    assert (H2 : nth (Z.to_nat (n - 1)) c 0 = x).
    { rewrite E, app_nth2; unfold len in Hlp; [|lia]. now replace (Z.to_nat (n - 1) - List.length p)%nat with 0%nat by lia. }
    rewrite H2. rewrite land_255, Z.shiftl_mul_pow2 by lia. change (2 ^ 8) with 256. rewrite Z_mod_plus_full.
    rewrite py_set_ok by (unfold byte_ok; lia). cbn [bind]. f_equal. unfold ctr_next.
    rewrite E, removelast_last, last_last. unfold len in Hlp.
    replace (Z.to_nat (n - 1)) with (List.length p) by lia. apply upd_app_mid.
Qed.

(** What the code computes: [k]-th piece is added to [E (ctr_next c k)]. *)
Definition ctr_run (E : bytes -> bytes) (c : bytes) (j : nat) (ps : list bytes) : list bytes :=
  map (fun p => bxor (fst p) (E (ctr_next c (snd p)))) (combine ps (seq j (List.length ps))).

Lemma ctr_run_cons E c j p ps : ctr_run E c j (p :: ps) = bxor p (E (ctr_next c j)) :: ctr_run E c (S j) ps.
Proof. reflexivity. Qed.
Lemma ctr_run_app E c j a b : ctr_run E c j (a ++ b) = ctr_run E c j a ++ ctr_run E c (j + List.length a) b.
Proof.
  revert j; induction a as [|p a IH]; intros j; cbn [app List.length]; [now rewrite Nat.add_0_r|].
  rewrite !ctr_run_cons, IH. cbn [app]. now replace (S j + List.length a)%nat with (j + S (List.length a))%nat by lia.
Qed.
Lemma ctr_run_shift E c j ps : ctr_run E (ctr_next c j) 0 ps = ctr_run E c j ps.
Proof.
  enough (G : forall i, ctr_run E (ctr_next c j) i ps = ctr_run E c (j + i) ps)
    by (rewrite G; now rewrite Nat.add_0_r).
  induction ps as [|p ps IH]; intros i; [reflexivity|]. rewrite !ctr_run_cons, ctr_next_add, IH.
  now replace (j + S i)%nat with (S (j + i)) by lia.
Qed.
Lemma ctr_run_length E c j ps : List.length (ctr_run E c j ps) = List.length ps.
Proof. unfold ctr_run. rewrite map_length, combine_length, seq_length. lia. Qed.

Lemma set_counter_counter o a b : set_counter (set_counter o a) b = set_counter o b.
Proof. reflexivity. Qed.

Lemma ctr_step_ok o c : co_ok (o_cipher o) -> block (o_cipher o) (o_counter o) ->
  c = o_counter o ->
  ctr_step o = (Ok (oE (o_cipher o) c), set_counter o (ctr_next c 1)).
Proof.
  intros Hc Hb ->. unfold ctr_step, bindM, getM, liftM, putM, retM.
  destruct (co_enc _ _ Hc Hb) as [-> _]. unfold block_size. now rewrite (inc_ctr_ok _ _ Hb).
Qed.

Lemma ctr_loop o (bl : list bytes) c : co_ok (o_cipher o) -> block (o_cipher o) c ->
  forall acc j, forM bl acc ctr_body (set_counter o (ctr_next c j)) =
  (Ok (acc ++ concat (ctr_run (oE (o_cipher o)) c j bl)), set_counter o (ctr_next c (j + List.length bl))).
Proof.
  intros Hc Hb. induction bl as [|b bl IH]; intros acc j.
  - cbn [forM List.length]. unfold retM. rewrite Nat.add_0_r. cbn. now rewrite app_nil_r.
  - cbn [forM]. unfold bindM at 1, ctr_body at 1, bindM at 1.
    rewrite (ctr_step_ok (set_counter o (ctr_next c j)) (ctr_next c j)); [|exact Hc|now apply ctr_next_block|reflexivity].
    cbn [o_cipher set_counter]. rewrite ctr_next_add, set_counter_counter. unfold retM at 1.
    replace (j + 1)%nat with (S j) by lia. rewrite IH, ctr_run_cons. cbn [concat List.length].
    rewrite <- app_assoc, bxor_eq. now replace (j + S (List.length bl))%nat with (S j + List.length bl)%nat by lia.
Qed.

Lemma ctr_encrypt_ok o c data bl t : co_ok (o_cipher o) -> o_counter o = c -> block (o_cipher o) c ->
  cut (block_size o) data bl t ->
  ctr_encrypt (VBytes data) o =
  (Ok (concat (ctr_run (oE (o_cipher o)) c 0 (bl ++ opt_block t))),
   set_counter o (ctr_next c (List.length (bl ++ opt_block t)))).
Proof.
  intros Hc Ec Hb Hcut. unfold ctr_encrypt, check_plaintext.
  unfold bindM at 1. unfold retM at 1. unfold bindM at 1, getM at 1.
  pose proof (forM_blocks _ _ _ _ [] ctr_body o (bs_pos (o_cipher o)) Hcut) as HL.
  assert (Hne : c <> []) by (intros ->; destruct Hb as [Hb _]; pose proof (bs_pos (o_cipher o)); cbn in Hb; lia).
  pose proof (ctr_loop o bl c Hc Hb [] 0) as Hrun.
  rewrite (ctr_next_0 c Hne (proj2 Hb)) in Hrun. rewrite <- Ec in Hrun at 1. rewrite set_counter_same in Hrun.
  rewrite Hrun in HL. unfold bindM at 1.
  change (fun i acc => ctr_body (_get_block (bs (o_cipher o)) data i) acc) with
    (fun i result => let! gamma := ctr_step in retM (result ++ add_xor (_get_block (block_size o) data i) gamma)) in HL.
  unfold block_size in *. rewrite HL. cbn [app Nat.add].
  rewrite (cut_mod _ _ _ _ Hcut). destruct t as [|x t].
  - change (len (@nil Z)) with 0. cbn [negb Z.eqb opt_block]. unfold retM. now rewrite app_nil_r.
  - replace (len (x :: t) =? 0) with false by (rewrite len_cons; pose proof (len_nonneg t); lia). cbn [negb].
    unfold bindM at 1.
    rewrite (ctr_step_ok _ (ctr_next c (List.length bl))); [|exact Hc|now apply ctr_next_block|reflexivity].
    unfold retM. cbn [o_cipher set_counter]. rewrite ctr_next_add, set_counter_counter.
    rewrite (cut_final _ _ _ _ (bs_pos (o_cipher o)) Hcut). cbn [opt_block].
    rewrite ctr_run_app, concat_app, app_length. cbn [List.length Nat.add]. do 3 f_equal.
    rewrite ctr_run_cons. cbn [ctr_run combine map List.length seq concat]. rewrite bxor_eq. now rewrite app_nil_r.
Qed.

Lemma ctr_decrypt_eq data o : ctr_decrypt (VBytes data) o = ctr_encrypt (VBytes data) o.
Proof. reflexivity. Qed.
