(** * The functions of HeapCipher.v compute the values of the value model

    Each function returns a new bytearray with the content given by the value model, raises the
    same exception, and changes no buffer that existed before the call. *)
From Verif Require Import PyBase PyState PyFacts Utils UtilsFacts CipherTables Kuznechik Magma Heap HeapLogic HeapCipher.

Ltac conj := repeat match goal with |- _ /\ _ => split end.
(** One more step on both sides. *)
Ltac new_buf :=
  let h' := fresh "h" in let a := fresh "a" in let S := fresh "S" in let L := fresh "L" in
  let H := fresh "H" in let N := fresh "N" in
  intros h' a S L H N; others N; clear N; carry S.

Lemma add_xor_sim h va a vb b : has h va a -> has h vb b ->
  psim h (h_add_xor va vb) (Ok (add_xor a b)) (fresh h).
Proof.
  intros Ha Hb. unfold psim, h_add_xor.
  rewrite <- (add_xor_loop_ok a b) by (apply Ha || apply Hb). unfold add_xor_loop.
  set (n := List.length h).
  eapply s_bytearray; [lia|exact Ha|]. new_buf.
  eapply s_bytearray; [lia|exact Hb|]. new_buf.
  eapply s_len; [eassumption|]. eapply s_len; [eassumption|]. cbv beta.
  apply s_alloc; [lia|apply bytes_ok_repeat; unfold byte_ok; lia|]. new_buf.
  rewrite <- (bind_ok (for_ _ _ _)).
  eapply sim_bind.
  - apply (sim_for _ _ (fun h' (_ : unit) r => has h' (Ref a0) a /\ has h' (Ref a1) b /\ has h' (Ref a2) r)); [auto|].
    intros i h' [] r _ (Xa & Xb & Xr).
    eapply s_get; [exact Xa|]. intros x _. eapply s_get; [exact Xb|]. intros y _. cbv beta.
    rewrite <- (bind_ok (py_set _ _ _)).
    eapply s_set; [left; lia|exact Xr|]. intros h'' l' R _ K _. carry_wr K. apply sim_ret. auto.
  - intros h' [] r _ (_ & _ & R). apply sim_ret. exists a2. repeat split; auto; try apply R. lia.
Qed.

Lemma byte_0 : byte_ok 0.
Proof. unfold byte_ok. lia. Qed.
#[global] Hint Resolve byte_0 bytes_ok_repeat : core.

Ltac got H := let E := fresh "E" in eapply s_get; [exact H|]; intros ? _; cbv beta.
Ltac lifted := eapply sim_lift; intros ? _; cbv beta.
Ltac call lem :=
  eapply sim_call; [eapply lem; eauto using fresh_has|lia|];
  let h' := fresh "h" in let v := fresh "v" in let l := fresh "l" in let S := fresh "S" in let F := fresh "F" in
  intros h' v l S F; carry S; pose proof (fresh_has _ _ _ _ F).
Ltac call_l lem :=
  eapply sim_call_l; [eapply lem; eauto using fresh_has|lia|];
  let h' := fresh "h" in let v := fresh "v" in let S := fresh "S" in let F := fresh "F" in
  intros h' v S F; carry S; pose proof (fresh_has _ _ _ _ F).

Lemma fresh_le h0 h h' v l : (List.length h0 <= List.length h)%nat -> fresh h h' v l -> fresh h0 h' v l.
Proof. intros L (a & -> & L2 & H). exists a. repeat split; try apply H. lia. Qed.
Lemma fresh_mk h h' a l : (List.length h <= a)%nat -> has h' (Ref a) l -> fresh h h' (Ref a) l.
Proof. intros L H. exists a. auto. Qed.
Ltac tail lem :=
  eapply sim_tail; [eapply lem; eauto using fresh_has|lia|];
  let h' := fresh "h" in let v := fresh "v" in let l := fresh "l" in let S := fresh "S" in let F := fresh "F" in
  intros h' v l S F; try (eapply fresh_le; [|exact F]; lia).

Lemma bytearray_sim h v l : has h v l -> psim h (h_bytearray v) (Ok l) (fresh h).
Proof.
  intros H. unfold psim. rewrite <- (bind_ok (Ok l)). cbn [bind].
  assert (X : sim (List.length h) [] h (bindM (h_bytearray v) retM) (Ok l) (fresh h)).
  { eapply s_bytearray; [lia|exact H|]. new_buf. apply sim_ret. apply fresh_mk; auto. }
  unfold sim, bindM in X. unfold sim. destruct (h_bytearray v h) as [[x|e] h']; exact X.
Qed.

Lemma zero_fill_sim h v l : has h v l -> psim h (h_zero_fill v) (Ok (zero_fill l)) (fresh h).
Proof.
  intros H. unfold psim, h_zero_fill. eapply s_len; [exact H|]. apply bytearray_sim. apply has_imm. apply bytes_mul_ok, slash_x00_ok.
Qed.
Lemma int_to_bytearray_sim h x n : psim h (h_int_to_bytearray x n) (Ok (int_to_bytearray x n)) (fresh h).
Proof.
  unfold h_int_to_bytearray, alloc, psim. split; [apply same_app|]. apply fresh_mk; [lia|]. split; [apply content_alloc|apply int_to_bytearray_ok].
Qed.

(** ** Kuznechik *)
Lemma cipher_s_with_sim sbox h v d : has h v d -> psim h (h_cipher_s_with sbox v) (cipher_s_with sbox d) (fresh h).
Proof.
  intros Hd. unfold psim, h_cipher_s_with, cipher_s_with.
  apply s_alloc; [lia|auto|]. new_buf.
  rewrite <- (bind_ok (for_ _ _ _)). eapply sim_bind.
  - apply (sim_for _ _ (fun h' (_ : unit) r => has h' v d /\ has h' (Ref a) r)); [auto|].
    intros i h' [] r _ (Xd & Xr). got Xd. lifted.
    rewrite <- (bind_ok (py_set _ _ _)).
    eapply s_set; [left; lia|exact Xr|]. intros h'' l' R _ K _. carry_wr K. apply sim_ret. auto.
  - intros h' [] r _ (_ & R). apply sim_ret. apply fresh_mk; auto.
Qed.
Lemma cipher_s_sim h v d : has h v d -> psim h (h_cipher_s v) (_cipher_s d) (fresh h).
Proof. apply cipher_s_with_sim. Qed.
Lemma cipher_s_reverse_sim h v d : has h v d -> psim h (h_cipher_s_reverse v) (_cipher_s_reverse d) (fresh h).
Proof. apply cipher_s_with_sim. Qed.

Lemma cipher_r_sim h v d : has h v d -> psim h (h_cipher_r v) (_cipher_r d) (fresh h).
Proof.
  intros Hd. unfold psim, h_cipher_r, _cipher_r.
  apply s_alloc; [lia|auto|]. new_buf.
  eapply sim_bind.
  - apply (sim_for _ _ (fun h' a0 '(b0, r) => a0 = b0 /\ has h' v d /\ has h' (Ref a) r)); [auto|].
    intros i h' a0 [b0 r] _ (-> & Xd & Xr). got Xd.
    eapply s_set; [left; lia|exact Xr|]. intros h'' l' R _ K _. carry_wr K. lifted. got R. lifted. apply sim_ret. auto.
  - intros h' a0 [b0 r] _ (-> & _ & R). rewrite <- (bind_ok (py_set _ _ _)).
    eapply s_set; [left; lia|exact R|]. intros h'' l' R' _ _ _. apply sim_ret. apply fresh_mk; auto.
Qed.

Lemma py_get_det {A} (l : list A) i x y : py_get l i = Ok x -> py_get l i = Ok y -> x = y.
Proof. congruence. Qed.

Lemma cipher_r_reverse_sim h v d : has h v d -> psim h (h_cipher_r_reverse v) (_cipher_r_reverse d) (fresh h).
Proof.
  intros Hd. unfold psim, h_cipher_r_reverse, _cipher_r_reverse.
  apply s_alloc; [lia|auto|]. new_buf.
  eapply sim_bind.
  - apply (sim_for _ _ (fun h' a0 '(b0, r) => a0 = b0 /\ has h' v d /\ has h' (Ref a) r)); [auto|].
    intros i h' a0 [b0 r] _ (-> & Xd & Xr). eapply s_get; [exact Xd|]. intros x Ex. cbv beta.
    eapply s_set; [left; lia|exact Xr|]. intros h'' l' R _ K _. carry_wr K. lifted.
    match goal with |- sim _ _ _ _ ?r _ => change r with (bind (Ok x) (fun _ => r)); rewrite <- Ex end.
    eapply s_get; [exact Xd|]. intros y Ey. cbv beta. rewrite (py_get_det _ _ _ _ Ey Ex). lifted. apply sim_ret. auto.
  - intros h' a0 [b0 r] _ (-> & _ & R). rewrite <- (bind_ok (py_set _ _ _)).
    eapply s_set; [left; lia|exact R|]. intros h'' l' R' _ _ _. apply sim_ret. apply fresh_mk; auto.
Qed.

Definition known (n0 : nat) (h' : heap) (v : buf) (l : bytes) : Prop := (n0 <= List.length h')%nat /\ has h' v l.
Definition made (n0 : nat) (h' : heap) (v : buf) (l : bytes) : Prop := (n0 <= List.length h')%nat /\ exists a, v = Ref a /\ (n0 <= a)%nat /\ has h' (Ref a) l.

Lemma made_known n0 h' v l : made n0 h' v l -> known n0 h' v l.
Proof. intros (L & a & -> & _ & H). now split. Qed.
Lemma fresh_made h h' v l n0 : fresh h h' v l -> (n0 <= List.length h)%nat -> made n0 h' v l.
Proof. intros (a & -> & L & H) N. split; [apply has_lt in H; lia|]. exists a. split; [reflexivity|]. split; [lia|exact H]. Qed.
Lemma made_fresh h h' v l : made (List.length h) h' v l -> fresh h h' v l.
Proof. intros (L & a & -> & L2 & H). now apply fresh_mk. Qed.

Lemma sim_made {A} n W h (m : M heap A) r Q (Q' : heap -> A -> bytes -> Prop) : sim n W h m r Q -> (forall h' a b, Q h' a b -> Q' h' a b) -> sim n W h m r Q'.
Proof. intros S C. eapply sim_conseq; [exact S|]. auto. Qed.

Lemma cipher_l_sim h v d : has h v d -> psim h (h_cipher_l v) (_cipher_l d) (fresh h).
Proof.
  intros Hd. unfold psim, h_cipher_l, _cipher_l. eapply sim_made; [|intros h' x l; apply made_fresh].
  eapply (sim_for1 _ _ (known (List.length h)) (made (List.length h))); [discriminate|now split|intros h' a b; apply made_known|].
  intros _ h' a b (L & X). eapply sim_tail; [apply cipher_r_sim, X|lia|]. intros h2 x l S F. eapply fresh_made; [exact F|lia].
Qed.
Lemma cipher_l_reverse_sim h v d : has h v d -> psim h (h_cipher_l_reverse v) (_cipher_l_reverse d) (fresh h).
Proof.
  intros Hd. unfold psim, h_cipher_l_reverse, _cipher_l_reverse. eapply sim_made; [|intros h' x l; apply made_fresh].
  eapply (sim_for1 _ _ (known (List.length h)) (made (List.length h))); [discriminate|now split|intros h' a b; apply made_known|].
  intros _ h' a b (L & X). eapply sim_tail; [apply cipher_r_reverse_sim, X|lia|]. intros h2 x l S F. eapply fresh_made; [exact F|lia].
Qed.

(** A list of such buffers. *)
Definition all_new (n0 : nat) (vs : list buf) : Prop := Forall (newer n0) vs.

Lemma get_c_sim h : psim h h_cipher_get_c _cipher_get_c has_all.
Proof.
  unfold psim, h_cipher_get_c, _cipher_get_c.
  eapply (sim_conseq _ _ _ _ _ (fun h' vs ls => (List.length h <= List.length h')%nat /\ has_all h' vs ls)); [|intros h' vs ls [_ I] _; exact I].
  apply (sim_for _ _ (fun h' vs ls => (List.length h <= List.length h')%nat /\ has_all h' vs ls)); [split; [lia|constructor]|].
  intros i h' vs ls _ (L & I). apply s_alloc; [lia|auto|]. new_buf.
  eapply s_set; [left; lia|eassumption|]. intros h2 l' R _ K L2. carry_wr K.
  call cipher_l_sim. apply sim_ret.
  split; [lia|]. apply has_all_app; [assumption|]. now apply has_all_one.
Qed.

Lemma Forall_snoc2 {A} (P : A -> Prop) l x y : Forall P l -> P x -> P y -> Forall P (l ++ [x] ++ [y]).
Proof. intros. apply Forall_app. split; [assumption|]. now repeat constructor. Qed.

(** The round keys are in new buffers (or in [bytes] objects): none is the caller's. *)
Lemma kuz_new_sim h v k : has h v k -> psim h (h_kuz_new v) (kuz_new k) (fun h' vs ls => has_all h' vs ls /\ all_new (List.length h) vs).
Proof.
  intros Hk. unfold psim, h_kuz_new, kuz_new.
  set (n := List.length h).
  eapply sim_call; [apply get_c_sim|lia|]. intros h1 cs c S1 Hc. carry S1.
  eapply s_upto; [lia|exact Hk|]. intros h2 k1 S2 K1 N1. carry S2. apply (newer_le _ n) in N1; [|lia].
  eapply s_from; [lia|exact Hk|]. intros h3 k2 S3 K2 N2. carry S3. apply (newer_le _ n) in N2; [|lia].
  set (P := fun (h' : heap) '(vs, a, b) '(ls, a', b') => (List.length h3 <= List.length h')%nat /\ has_all h' cs c /\
              has_all h' vs ls /\ all_new n vs /\ has h' a a' /\ has h' b b' /\ newer n a /\ newer n b).
  eapply (sim_bind _ _ _ _ _ _ _ P).
  - apply (sim_for _ _ P).
    { unfold P. conj; try assumption; [lia|constructor; [exact K1|now apply has_all_one]|now repeat constructor]. }
    intros i h' [[vs a] b] [[ls a'] b'] _ (L & Xc & Xl & Xn & Xa & Xb & Na & Nb).
    set (R := fun (h2 : heap) '(a, b) '(a', b') => (List.length h' <= List.length h2)%nat /\ has_all h2 cs c /\ has_all h2 vs ls /\ has h2 a a' /\ has h2 b b' /\ newer n a /\ newer n b).
    eapply (sim_bind _ _ _ _ _ _ _ R).
    + apply (sim_for _ _ R).
      { unfold R. conj; try assumption. lia. }
      intros j h'' [p q] [p' q'] _ (L2 & Yc & Yl & Yp & Yq & Np & Nq).
      eapply s_getk; [exact Yc|]. intros x x' Hx.
      call_l add_xor_sim. call cipher_s_sim. call cipher_l_sim. call_l add_xor_sim. apply sim_ret.
      unfold R. conj; try assumption; try lia.
      match goal with F : fresh _ _ ?x _ |- newer _ ?x => destruct F as (z & -> & L3 & _); cbn; lia end.
    + intros h4 [p q] [p' q'] _ (L2 & Yc & Yl & Yp & Yq & Np & Nq). apply sim_ret.
      unfold P. conj; try assumption; try lia.
      * apply has_all_app; [assumption|]. apply (has_all_app _ [p] [p'] [q] [q']); now apply has_all_one.
      * now apply Forall_snoc2.
  - intros h' [[vs a] b] [[ls a'] b'] _ (L & Xc & Xl & Xn & _). apply sim_ret. now split.
Qed.

Lemma fresh_newer h h' v l : fresh h h' v l -> newer (List.length h) v.
Proof. intros (a & -> & L & _). exact L. Qed.

Section Blocks.
Context (h : heap) (vs : list buf) (ls : list bytes).
Let n := List.length h.
Definition K0 (h' : heap) (v : buf) (l : bytes) : Prop := (n <= List.length h')%nat /\ has_all h' vs ls /\ has h' v l.
Definition K1 (h' : heap) (v : buf) (l : bytes) : Prop := (n <= List.length h')%nat /\ has_all h' vs ls /\ has h' v l /\ exists a, v = Ref a /\ (n <= a)%nat.
Lemma K1_K0 h' v l : K1 h' v l -> K0 h' v l.
Proof. intros (L & A & H & _). now split. Qed.
Lemma K1_fresh h' v l : K1 h' v l -> fresh h h' v l.
Proof. intros (L & A & H & a & -> & La). now apply fresh_mk. Qed.
Lemma mk_K1 h2 h' v l : (n <= List.length h2)%nat -> same h2 h' -> has_all h2 vs ls -> fresh h2 h' v l -> K1 h' v l.
Proof.
  intros L S A F. pose proof (same_len _ _ S). split; [lia|]. split; [now apply (has_all_same h2)|]. split; [now apply fresh_has in F|].
  destruct F as (a & -> & La & _). exists a. split; [reflexivity|lia].
Qed.
End Blocks.

Lemma kuz_encrypt_sim h vs ls v b : has_all h vs ls -> has h v b -> psim h (h_kuz_encrypt vs v) (kuz_encrypt ls b) (fresh h).
Proof.
  intros Hk Hb. unfold psim, h_kuz_encrypt, kuz_encrypt.
  eapply s_bytearray; [lia|exact Hb|]. new_buf.
  eapply (sim_bind _ _ _ _ _ _ _ (K1 h vs ls)).
  - apply (sim_for1 _ _ (K0 h vs ls) (K1 h vs ls)); [discriminate|unfold K0; auto|apply K1_K0|].
    intros i h' x l (L9 & A & X). eapply s_getk; [exact A|]. intros k k' Hx.
    call_l add_xor_sim. call cipher_s_sim.
    eapply sim_tail; [apply cipher_l_sim; eassumption|lia|]. intros. eapply mk_K1; [|eassumption|eassumption|assumption]. lia.
  - intros h' x l _ (L9 & A & X & _). eapply s_getk; [exact A|]. intros k k' Hx.
    eapply sim_tail; [apply add_xor_sim; eassumption|lia|]. intros. eapply fresh_le; [|eassumption]. exact L9.
Qed.
Lemma kuz_decrypt_sim h vs ls v b : has_all h vs ls -> has h v b -> psim h (h_kuz_decrypt vs v) (kuz_decrypt ls b) (fresh h).
Proof.
  intros Hk Hb. unfold psim, h_kuz_decrypt, kuz_decrypt.
  eapply s_bytearray; [lia|exact Hb|]. new_buf.
  eapply s_getk; [exact Hk|]. intros k k' Hx.
  call_l add_xor_sim. eapply sim_made; [|apply K1_fresh with (vs := vs) (ls := ls)].
  apply (sim_for1 _ _ (K0 h vs ls) (K1 h vs ls)); [discriminate|unfold K0; conj; auto; lia|apply K1_K0|].
  intros i h' x l (L' & A & X).
  call cipher_l_reverse_sim. call cipher_s_reverse_sim. eapply s_getk; [exact A|]. intros k2 k2' Hx2.
  eapply sim_tail; [apply add_xor_sim; eassumption|lia|]. intros. eapply mk_K1; [|eassumption|eassumption|assumption]. lia.
Qed.

Lemma keys_clear_sim m h vs ls : has_all h vs ls ->
  psim h (h_keys_clear m vs) (for_ (py_range 0 m 1) ls (fun i keys => let* k := py_get keys i in py_set_list keys i (zero_fill k)))
    (fun h' vs' ls' => has_all h' vs' ls' /\ Forall2 (fun v v' => v' = v \/ newer (List.length h) v') vs vs').
Proof.
  intros Hk. unfold psim, h_keys_clear.
  set (P := fun h' vs' ls' => (List.length h <= List.length h')%nat /\ has_all h' vs' ls' /\ Forall2 (fun v v' => v' = v \/ newer (List.length h) v') vs vs').
  eapply (sim_conseq _ _ _ _ _ P); [|intros h' a b (_ & X) _; exact X].
  apply (sim_for _ _ P).
  { unfold P. conj; auto. clear. induction vs; constructor; auto. }
  intros i h' ws rs _ (L & A & C). eapply s_getk; [exact A|]. intros k k' Hx.
  call_l zero_fill_sim. apply sim_setk; [now apply has_all_len in A|]. intros j. unfold P. conj; [lia|now apply has_all_upd|].
  apply fresh_newer in F. apply (newer_le _ (List.length h)) in F; [|exact L]. clear - C F.
  revert j. induction C as [|x y xs ys XY C IH]; intros [|j]; cbn; constructor; auto.
Qed.
Lemma kuz_clear_sim h vs ls : has_all h vs ls ->
  psim h (h_kuz_clear vs) (kuz_clear ls) (fun h' vs' ls' => has_all h' vs' ls' /\ Forall2 (fun v v' => v' = v \/ newer (List.length h) v') vs vs').
Proof. apply keys_clear_sim. Qed.

(** ** Magma *)
Lemma expand_sim at_ h vs ls v k : has h v k -> has_all h vs ls ->
  psim h (h_expand at_ vs v)
    (for_ (py_range 0 8 1) ls (fun j keys => let* iter_key := for_ (py_range 0 4 1) (py_repeat 0 4) (fun i iter_key => let* k := py_get k (at_ j i) in py_set iter_key i k) in Ok (keys ++ [iter_key])))
    (fun h' vs' ls' => has_all h' vs' ls' /\ exists ws, vs' = vs ++ ws /\ all_new (List.length h) ws).
Proof.
  intros Hk Hv. unfold psim, h_expand.
  set (P := fun h' vs' ls' => (List.length h <= List.length h')%nat /\ has h' v k /\ has_all h' vs' ls' /\ exists ws, vs' = vs ++ ws /\ all_new (List.length h) ws).
  eapply (sim_conseq _ _ _ _ _ P); [|intros h' a b (_ & _ & X) _; exact X].
  apply (sim_for _ _ P).
  { unfold P. conj; auto. exists []. rewrite app_nil_r. split; [reflexivity|constructor]. }
  intros j h' vs' ls' _ (L & Xk & A & ws & -> & NW).
  apply s_alloc; [lia|auto|]. new_buf.
  set (R := fun h2 (_ : unit) r => (List.length h0 <= List.length h2)%nat /\ has h2 v k /\ has_all h2 (vs ++ ws) ls' /\ has h2 (Ref a) r).
  eapply (sim_bind _ _ _ _ _ _ _ R).
  - apply (sim_for _ _ R); [unfold R; auto|].
    intros i h2 [] r _ (L2 & Yk & YA & Yr). got Yk. rewrite <- (bind_ok (py_set _ _ _)).
    eapply s_set; [left; lia|exact Yr|]. intros h3 l' Z _ K L3. carry_wr K. apply sim_ret. unfold R. conj; auto. lia.
  - intros h2 [] r _ (L2 & Yk & YA & Yr). apply sim_ret. unfold P. conj; [lia|exact Yk|apply has_all_app; [exact YA|now apply has_all_one]|].
    exists (ws ++ [Ref a]). split; [now rewrite app_assoc|]. apply Forall_app. split; [exact NW|]. constructor; [cbn; lia|constructor].
Qed.

Lemma magma_new_sim h v k : has h v k -> psim h (h_magma_new v) (magma_new k) (fun h' vs ls => has_all h' vs ls /\ all_new (List.length h) vs).
Proof.
  intros Hk. unfold psim, h_magma_new, magma_new, _expand_iter_key, _expand_iter_key_final.
  eapply sim_call; [apply (expand_sim (fun j i => j * 4 + i)); [exact Hk|constructor]|lia|]. intros h1 vs1 ls1 S1 (A1 & w1 & -> & N1). carry S1.
  eapply sim_call; [apply (expand_sim (fun j i => j * 4 + i)); [exact Hk|exact A1]|lia|]. intros h2 vs2 ls2 S2 (A2 & w2 & -> & N2). carry S2.
  eapply sim_call; [apply (expand_sim (fun j i => j * 4 + i)); [exact Hk|exact A2]|lia|]. intros h3 vs3 ls3 S3 (A3 & w3 & -> & N3). carry S3.
  eapply sim_tail; [apply (expand_sim (fun j i => 28 - j * 4 + i)); [exact Hk|exact A3]|lia|]. intros h4 vs4 ls4 S4 (A4 & w4 & -> & N4).
  split; [exact A4|]. cbn [app].
  assert (UP : forall m w, (List.length h <= m)%nat -> all_new m w -> all_new (List.length h) w).
  { clear. intros m w L. apply Forall_impl. intros x. now apply newer_le. }
  repeat (apply Forall_app; split); [exact N1|apply (UP _ _ H N2)|apply (fun X => UP _ _ X N3); lia|apply (fun X => UP _ _ X N4); lia].
Qed.

Lemma cipher_t_sim h v d : has h v d -> psim h (h_cipher_t v) (_cipher_t d) (fresh h).
Proof.
  intros Hd. unfold psim, h_cipher_t, _cipher_t.
  apply s_alloc; [lia|auto|]. new_buf. eapply s_bytearray; [lia|exact Hd|]. new_buf.
  rewrite <- (bind_ok (for_ _ _ _)). eapply sim_bind.
  - apply (sim_for _ _ (fun h' (_ : unit) r => has h' (Ref a0) d /\ has h' (Ref a) r)); [auto|].
    intros i h' [] r _ (Xd & Xr). eapply s_get; [exact Xd|]. intros x Ex. cbv beta zeta.
    match goal with |- sim _ _ _ _ ?r _ => change r with (bind (Ok x) (fun _ => r)); rewrite <- Ex end.
    eapply s_get; [exact Xd|]. intros y Ey. cbv beta. rewrite (py_get_det _ _ _ _ Ey Ex).
    lifted. lifted. lifted. lifted. rewrite <- (bind_ok (py_set _ _ _)).
    eapply s_set; [left; lia|exact Xr|]. intros h'' l' R _ K _. carry_wr K. apply sim_ret. auto.
  - intros h' [] r _ (_ & R). apply sim_ret. apply fresh_mk; auto.
Qed.

Lemma cipher_add_32_sim h va a vb b : has h va a -> has h vb b -> psim h (h_cipher_add_32 va vb) (_cipher_add_32 a b) (fresh h).
Proof.
  intros Ha Hb. unfold psim, h_cipher_add_32, _cipher_add_32.
  eapply s_bytearray; [lia|exact Ha|]. new_buf. eapply s_bytearray; [lia|exact Hb|]. new_buf.
  apply s_alloc; [lia|auto|]. new_buf.
  eapply sim_bind.
  - apply (sim_for _ _ (fun h' x '(y, r) => x = y /\ has h' (Ref a0) a /\ has h' (Ref a1) b /\ has h' (Ref a2) r)); [auto|].
    intros i h' x [y r] _ (-> & Xa & Xb & Xr). got Xa. got Xb.
    eapply s_set; [left; lia|exact Xr|]. intros h'' l' R _ K _. carry_wr K. apply sim_ret. auto.
  - intros h' x [y r] _ (_ & _ & _ & R). apply sim_ret. apply fresh_mk; auto. lia.
Qed.

Lemma cipher_g_sim h vk k va a : has h vk k -> has h va a -> psim h (h_cipher_g vk va) (_cipher_g k a) (fresh h).
Proof.
  intros Hk Ha. unfold psim, h_cipher_g, _cipher_g.
  eapply s_bytearray; [lia|exact Hk|]. new_buf. eapply s_bytearray; [lia|exact Ha|]. new_buf.
  call cipher_add_32_sim. call cipher_t_sim.
  match goal with H : has ?h v0 l0 |- _ => got H; got H; got H; got H end.
  eapply sim_tail; [apply bytearray_sim, has_imm, int_to_bytearray_ok|lia|]. intros. eapply fresh_le; [|eassumption]. lia.
Qed.

Lemma g_iter_result_sim h v0 a0 v1 a1 : has h v0 a0 -> has h v1 a1 -> psim h (h_cipher_g_iter_result v0 v1) (Ok (_cipher_g_iter_result a0 a1)) (fresh h).
Proof.
  intros H0 H1. unfold psim, h_cipher_g_iter_result, _cipher_g_iter_result.
  apply s_alloc; [lia|auto|]. new_buf.
  eapply s_slice_set; [left; lia|eassumption|exact H1|]. intros h1 R K L1. carry_wr K.
  eapply s_slice_set; [left; lia|exact R|exact H0|]. intros h2 R2 K2 L2. apply sim_ret. now apply fresh_mk.
Qed.

Lemma g_iter_sim h vk k va a : has h vk k -> has h va a ->
  psim h (h_cipher_g_iter vk va) (_cipher_g_iter k a) (fun h' '(x, y, z) '(x', y', z') => has h' x x' /\ has h' y y' /\ has h' z z').
Proof.
  intros Hk Ha. unfold psim, h_cipher_g_iter, _cipher_g_iter.
  eapply s_bytearray; [lia|exact Hk|]. new_buf. eapply s_bytearray; [lia|exact Ha|]. new_buf.
  eapply s_slice; [lia|eassumption|]. intros h2 x S2 X _. carry S2.
  eapply s_slice; [lia|eassumption|]. intros h3 y S3 Y _. carry S3.
  call cipher_g_sim. call_l add_xor_sim. apply sim_ret. auto.
Qed.
Lemma g_prev_sim h vk k va a : has h vk k -> has h va a -> psim h (h_cipher_g_prev vk va) (_cipher_g_prev k a) (fresh h).
Proof.
  intros Hk Ha. unfold psim, h_cipher_g_prev, _cipher_g_prev.
  eapply sim_call; [apply g_iter_sim; eassumption|lia|]. intros h' [[x y] z] [[x' y'] z'] S (X & Y & Z). carry S.
  eapply sim_tail; [apply g_iter_result_sim; eassumption|lia|]. intros. eapply fresh_le; [|eassumption]. lia.
Qed.
Lemma g_fin_sim h vk k va a : has h vk k -> has h va a -> psim h (h_cipher_g_fin vk va) (_cipher_g_fin k a) (fresh h).
Proof.
  intros Hk Ha. unfold psim, h_cipher_g_fin, _cipher_g_fin.
  eapply sim_call; [apply g_iter_sim; eassumption|lia|]. intros h' [[x y] z] [[x' y'] z'] S (X & Y & Z). carry S.
  eapply sim_tail; [apply g_iter_result_sim; eassumption|lia|]. intros. eapply fresh_le; [|eassumption]. lia.
Qed.

Lemma magma_encrypt_sim h vs ls v b : has_all h vs ls -> has h v b -> psim h (h_magma_encrypt vs v) (magma_encrypt ls b) (fresh h).
Proof.
  intros Hk Hb. unfold psim, h_magma_encrypt, magma_encrypt.
  eapply s_getk; [exact Hk|]. intros k k' Hx. call g_prev_sim.
  eapply (sim_bind _ _ _ _ _ _ _ (K0 h vs ls)).
  - apply (sim_for _ _ (K0 h vs ls)); [unfold K0; auto|].
    intros i h' x r _ (L & A & X). eapply s_getk; [exact A|]. intros k2 k2' Hx2.
    eapply sim_tail; [apply g_prev_sim; eassumption|lia|]. intros. apply K1_K0. eapply mk_K1; [|eassumption|eassumption|assumption]. lia.
  - intros h' x r _ (L & A & X). eapply s_getk; [exact A|]. intros k2 k2' Hx2.
    eapply sim_tail; [apply g_fin_sim; eassumption|lia|]. intros. eapply fresh_le; [|eassumption]. exact L.
Qed.
Lemma magma_decrypt_sim h vs ls v b : has_all h vs ls -> has h v b -> psim h (h_magma_decrypt vs v) (magma_decrypt ls b) (fresh h).
Proof.
  intros Hk Hb. unfold psim, h_magma_decrypt, magma_decrypt.
  eapply s_getk; [exact Hk|]. intros k k' Hx. call g_prev_sim.
  eapply (sim_bind _ _ _ _ _ _ _ (K0 h vs ls)).
  - apply (sim_for _ _ (K0 h vs ls)); [unfold K0; auto|].
    intros i h' x r _ (L & A & X). eapply s_getk; [exact A|]. intros k2 k2' Hx2.
    eapply sim_tail; [apply g_prev_sim; eassumption|lia|]. intros. apply K1_K0. eapply mk_K1; [|eassumption|eassumption|assumption]. lia.
  - intros h' x r _ (L & A & X). eapply s_getk; [exact A|]. intros k2 k2' Hx2.
    eapply sim_tail; [apply g_fin_sim; eassumption|lia|]. intros. eapply fresh_le; [|eassumption]. exact L.
Qed.
Lemma magma_clear_sim h vs ls : has_all h vs ls ->
  psim h (h_magma_clear vs) (magma_clear ls) (fun h' vs' ls' => has_all h' vs' ls' /\ Forall2 (fun v v' => v' = v \/ newer (List.length h) v') vs vs').
Proof. apply keys_clear_sim. Qed.
