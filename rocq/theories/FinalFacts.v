(** * Facts about finalisers *)
From Verif Require Import PyBase PyFacts PyState Utils UtilsFacts Kuznechik KuzFacts KuzFacts2 Magma MagmaFacts CipherObj Modes Mac Streebog Hmac Pbkdf Random.
From Verif Require Import SpecKuznechik SpecModes CipherLemmas CipherObjFacts ModeLemmas Final.
Open Scope string_scope.
Open Scope list_scope.
Open Scope Z_scope.

(** ** Clearing a list of keys that is too short *)
Definition clear_loop (n : nat) (keys : list bytes) : res (list bytes) :=
  for_ (py_range 0 (Z.of_nat n) 1) keys
    (fun i keys =>
       let* k := py_get keys i in
       py_set_list keys i (zero_fill k)).

Lemma clear_loop_short n keys : (List.length keys < n)%nat -> clear_loop n keys = Err IndexError.
Proof.
  intros H. unfold clear_loop. rewrite py_range_up, Nat2Z.id.
  replace n with (List.length keys + S (n - S (List.length keys)))%nat by lia. rewrite seq_app, map_app. cbn [seq map].
  apply (for_out _ _ _ _ (fun l => List.length l = List.length keys)); [reflexivity| |].
  - intros i l Hi HL. apply in_map_iff in Hi as (j & <- & Hj). apply in_seq in Hj.
    rewrite (py_get_nth l (Z.of_nat j) []) by (unfold len; lia). cbn [bind]. unfold py_set_list. replace (Z.of_nat j <? 0) with false by lia.
    replace ((0 <=? Z.of_nat j) && (Z.of_nat j <? len l)) with true by (unfold len; lia). eexists. split; [reflexivity|]. now rewrite upd_length.
  - intros l HL. rewrite py_get_out by (unfold len; lia). reflexivity.
Qed.
Lemma kuz_clear_short keys : (List.length keys < 10)%nat -> kuz_clear keys = Err IndexError.
Proof. exact (clear_loop_short 10 keys). Qed.
Lemma magma_clear_short keys : (List.length keys < 32)%nat -> magma_clear keys = Err IndexError.
Proof. exact (clear_loop_short 32 keys). Qed.

(** ** The initialisers of the block ciphers against those of Kuznechik.v and Magma.v *)

(** The attributes after an initialiser that gives [r] in the value model and has [n] keys in the end. *)
Definition attrs_agree (n : nat) (r : res (list bytes)) (x : res unit * list bytes) : Prop :=
  match r with
  | Ok keys => x = (Ok tt, keys)
  | Err e => exists keys, x = (Err e, keys) /\ (List.length keys < n)%nat
  end.

Lemma rounds_agree {A} (n : nat) (g : A -> list bytes) (f : Z -> A -> res A) (B : Z -> A -> M (list bytes) A) xs :
  (0 < n)%nat -> (forall a, List.length (g a) = n) ->
  (forall x a keys, B x a keys = match f x a with Ok a' => (Ok a', keys ++ g a') | Err e => (Err e, keys) end) -> forall keys a,
  attrs_agree (List.length keys + n * List.length xs)
    (let* (keys, _) := for_ xs (keys, a) (fun i '(keys, a) => let* a := f i a in Ok (keys ++ g a, a)) in Ok keys)
    ((forM xs a B ;! retM tt) keys).
Proof.
  intros Hn Hg HB. induction xs as [|x xs IH]; intros keys a; cbn [for_ forM]; [reflexivity|].
  unfold bindM in *. rewrite HB. destruct (f x a) as [a'|e]; cbn [bind].
  - specialize (IH (keys ++ g a') a'). rewrite app_length, Hg in IH. cbn [List.length].
    replace (List.length keys + n * S (List.length xs))%nat with (List.length keys + n + n * List.length xs)%nat by lia. exact IH.
  - eexists. split; [reflexivity|]. cbn [List.length]. nia.
Qed.

Lemma for_pair {A K} (f : Z -> A * A -> res (A * A)) (g : K -> A -> A -> K) xs : forall keys a b,
  for_ xs (keys, a, b) (fun i '(keys, a, b) => let* (a, b) := f i (a, b) in Ok (g keys a b, a, b)) =
  let* (keys, p) := for_ xs (keys, (a, b)) (fun i '(keys, p) => let* p := f i p in Ok (g keys (fst p) (snd p), p)) in Ok (keys, fst p, snd p).
Proof.
  induction xs as [|x xs IH]; intros keys a b; cbn [for_]; [reflexivity|].
  destruct (f x (a, b)) as [[a' b']|e]; cbn [bind fst snd]; [apply IH | reflexivity].
Qed.

Lemma kuz_attrs_agree key : attrs_agree 10 (kuz_new key) (kuz_attrs key []).
Proof.
  unfold kuz_new, kuz_attrs. rewrite cipher_get_c_ok. cbn [bind]. cbv zeta. set (C := map kC (seq 1 32)). clearbody C.
  set (k1 := py_upto key (Kuznechik._KEY_SIZE / 2)). set (k2 := py_from key (Kuznechik._KEY_SIZE / 2)). clearbody k1 k2.
  set (f := fun i p => for_ (py_range 0 8 1) p (fun j '(key_1, key_2) =>
                let* c := py_get C (i * 8 + j) in
                let* internal := _cipher_s (add_xor key_1 c) in
                let* internal := _cipher_l internal in
                Ok (add_xor internal key_2, key_1))).
  pose proof (rounds_agree 2 (fun p : bytes * bytes => [fst p] ++ [snd p]) f
    (fun i '(key_1, key_2) => let! (key_1, key_2) := liftM (f i (key_1, key_2)) in append_key key_1 ;! append_key key_2 ;! retM (key_1, key_2))
    (py_range 0 4 1) ltac:(lia) ltac:(reflexivity)) as H.
  specialize (H ltac:(intros x [a b] keys; unfold bindM, liftM; destruct (f x (a, b)) as [[a' b']|e]; [|reflexivity]; cbn [append_key retM fst snd]; now rewrite <- app_assoc) [k1; k2] (k1, k2)).
  change (List.length [k1; k2] + 2 * List.length (py_range 0 4 1))%nat with 10%nat in H.
  rewrite (for_pair f (fun keys a b => keys ++ [a] ++ [b])).
  match type of H with attrs_agree _ ?r _ => match goal with |- attrs_agree _ ?r' _ => replace r' with r end end.
  - exact H.
  - match goal with |- bind ?x _ = _ => destruct x as [[keys p]|e]; reflexivity end.
Qed.

Lemma expand_agree at_ key keys :
  attrs_agree (List.length keys + 8)
    (for_ (py_range 0 8 1) keys (fun j keys =>
       let* iter_key := for_ (py_range 0 4 1) (py_repeat 0 4) (fun i iter_key => let* k := py_get key (at_ j i) in py_set iter_key i k) in
       Ok (keys ++ [iter_key])))
    (expand_attrs at_ key keys).
Proof.
  unfold expand_attrs. set (f := fun j => for_ (py_range 0 4 1) (py_repeat 0 4) (fun i iter_key => let* k := py_get key (at_ j i) in py_set iter_key i k)).
  change (List.length keys + 8)%nat with (List.length keys + List.length (py_range 0 8 1))%nat. generalize (py_range 0 8 1). intros xs. revert keys.
  induction xs as [|x xs IH]; intros keys; cbn [for_ forM]; [reflexivity|].
  unfold bindM at 1 2, liftM. fold (f x). destruct (f x) as [k|e]; cbn [bind].
  - unfold append_key at 1. specialize (IH (keys ++ [k])). rewrite app_length in IH. cbn [List.length] in *. rewrite <- Nat.add_assoc in IH. exact IH.
  - eexists. split; [reflexivity|]. cbn [List.length]. lia.
Qed.
Lemma expand_length (f : Z -> res bytes) xs : forall keys keys',
  for_ xs keys (fun j keys => let* k := f j in Ok (keys ++ [k])) = Ok keys' -> List.length keys' = (List.length keys + List.length xs)%nat.
Proof.
  induction xs as [|x xs IH]; intros keys keys'; cbn [for_]; [intros [= <-]; cbn; lia|].
  destruct (f x) as [k|e]; cbn [bind]; [|discriminate]. intros H. rewrite (IH _ _ H), app_length. cbn [List.length]. lia.
Qed.
Lemma agree_more n m r x : attrs_agree n r x -> (n <= m)%nat -> attrs_agree m r x.
Proof. destruct r as [keys|e]; [tauto|]. intros (keys & -> & H) L. exists keys. split; [reflexivity | lia]. Qed.
Lemma magma_attrs_agree key : attrs_agree 32 (magma_new key) (magma_attrs key []).
Proof.
  unfold magma_new, magma_attrs. set (K0 := @nil bytes) at 1. assert (L0 : List.length K0 = 0%nat) by reflexivity. change [] with K0. change (putM K0 ;! ?k) with (fun _ : list bytes => k K0). cbv beta. clearbody K0.
  pose proof (expand_agree (fun j i => j * 4 + i) key) as HE. pose proof (expand_agree (fun j i => 28 - j * 4 + i) key) as HF.
  fold (_expand_iter_key_final K0 key) in HF. change (forall keys, attrs_agree (List.length keys + 8) (_expand_iter_key keys key) (expand_attrs (fun j i => j * 4 + i) key keys)) in HE.
  change (forall keys, attrs_agree (List.length keys + 8) (_expand_iter_key_final keys key) (expand_attrs (fun j i => 28 - j * 4 + i) key keys)) in HF.
  assert (HL : forall keys keys', _expand_iter_key keys key = Ok keys' -> List.length keys' = (List.length keys + 8)%nat) by (intros keys keys'; apply expand_length).
  set (E := expand_attrs (fun j i => j * 4 + i) key) in *. set (F := expand_attrs (fun j i => 28 - j * 4 + i) key) in *. clearbody E F.
  unfold bindM.
  pose proof (HE K0) as H. destruct (_expand_iter_key K0 key) as [K1|e] eqn:E1; [|destruct H as (k & -> & H); exists k; split; [reflexivity | lia]]. cbn in H. rewrite H. cbn [bind]. apply HL in E1.
  clear H. pose proof (HE K1) as H. destruct (_expand_iter_key K1 key) as [K2|e] eqn:E2; [|destruct H as (k & -> & H); exists k; split; [reflexivity | lia]]. cbn in H. rewrite H. cbn [bind]. apply HL in E2.
  clear H. pose proof (HE K2) as H. destruct (_expand_iter_key K2 key) as [K3|e] eqn:E3; [|destruct H as (k & -> & H); exists k; split; [reflexivity | lia]]. cbn in H. rewrite H. cbn [bind]. apply HL in E3.
  apply (agree_more (List.length K3 + 8)); [apply HF | lia].
Qed.

(** ** Keys that are too short *)
Lemma bytes_xor a b : bytes_ok a -> bytes_ok b -> bytes_ok (add_xor a b).
Proof. apply add_xor_ok. Qed.
Lemma kuz_new_short key : bytes_ok key -> len key < 32 -> kuz_new key = Err IndexError.
Proof.
  intros Hb HL. unfold kuz_new. rewrite cipher_get_c_ok. cbn [bind]. cbv zeta. change (Kuznechik._KEY_SIZE / 2) with 16. rewrite py_upto_firstn, py_from_skipn by lia. change (Z.to_nat 16) with 16%nat.
  assert (H1 : bytes_ok (firstn 16 key)) by now apply bytes_ok_firstn. assert (H2 : bytes_ok (skipn 16 key)) by now apply bytes_ok_skipn.
  assert (HC : len (firstn 16 key) < 16 \/ len (firstn 16 key) = 16 /\ len (skipn 16 key) < 16) by (unfold len in *; rewrite firstn_length, skipn_length; lia).
  generalize dependent (firstn 16 key). generalize dependent (skipn 16 key). intros k2 H2 k1 H1 HC.
  change (py_range 0 4 1) with [0; 1; 2; 3]. change (py_range 0 8 1) with [0; 1; 2; 3; 4; 5; 6; 7]. cbn [for_].
  rewrite get_c by lia. cbn [bind]. destruct (kC_block (S (Z.to_nat (0 * 8 + 0))) ltac:(lia)) as [LC BC].
  destruct HC as [HC|[L1 L2]].
  - rewrite cipher_s_short; [reflexivity | now apply bytes_xor|]. rewrite add_xor_len. lia.
  - set (c := kC (S (Z.to_nat (0 * 8 + 0)))) in *. assert (HX : block16 (add_xor k1 c)) by (split; [rewrite add_xor_len; lia | now apply bytes_xor]).
    rewrite cipher_s_ok by (destruct HX; auto; lia). cbn [bind]. rewrite firstn_block by exact HX. rewrite cipher_l_ok by now apply kS_block. cbn [bind].
    assert (HI : block16 (kL (kS (add_xor k1 c)))) by now apply kL_block, kS_block. set (x := kL (kS (add_xor k1 c))) in *. clearbody x.
    rewrite get_c by lia. cbn [bind]. destruct (kC_block (S (Z.to_nat (0 * 8 + 1))) ltac:(lia)) as [LC' BC'].
    rewrite cipher_s_short; [reflexivity | apply bytes_xor; [apply bytes_xor; [apply HI | exact H2] | exact BC'] |]. rewrite !add_xor_len. lia.
Qed.
Lemma range_split a n : 0 <= a < n -> py_range 0 n 1 = py_range 0 a 1 ++ a :: py_range (a + 1) n 1.
Proof.
  intros H. rewrite !py_range_up. replace (Z.to_nat n) with (Z.to_nat a + S (Z.to_nat (n - (a + 1))))%nat by lia. rewrite seq_app, map_app. f_equal.
  cbn [seq map plus]. f_equal; [lia|]. rewrite py_range_up_from. rewrite <- seq_shift, map_map. 
  assert (G : forall m k, map Z.of_nat (seq (S k) m) = map (fun i => Z.of_nat k + 1 + Z.of_nat i) (seq 0 m)).
  { clear. induction m as [|m IH]; intros k; [reflexivity|]. cbn [seq map]. f_equal; [lia|]. rewrite IH, <- seq_shift, map_map. apply map_ext. intros; lia. }
  transitivity (map Z.of_nat (seq (S (Z.to_nat a)) (Z.to_nat (n - (a + 1))))); [now rewrite <- seq_shift, map_map|]. rewrite G. apply map_ext. intros; lia.
Qed.
Lemma magma_new_short key : bytes_ok key -> len key < 32 -> magma_new key = Err IndexError.
Proof.
  intros Hb HL. unfold magma_new. pose proof (len_nonneg key). enough (E : _expand_iter_key [] key = Err IndexError) by now rewrite E.
  unfold _expand_iter_key. rewrite (range_split (len key / 4) 8) by lia. apply (for_out _ _ _ _ (fun _ => True)); [exact I| |].
  - intros j keys Hj _. apply in_py_range in Hj.
    destruct (for_fold (py_range 0 4 1) (py_repeat 0 4) (fun i iter_key => let* k := py_get key (j * 4 + i) in py_set iter_key i k)
      (fun l i => upd l (Z.to_nat i) (nth (Z.to_nat (j * 4 + i)) key 0)) (fun l => len l = 4)) as [-> _].
    + reflexivity.
    + intros i l Hi Hl. apply in_py_range in Hi. rewrite (py_get_nth key (j * 4 + i) 0) by lia. cbn [bind].
      rewrite py_set_ok; [|lia|]. { split; [reflexivity|]. unfold len in *. now rewrite upd_length. }
      unfold bytes_ok in Hb. rewrite Forall_forall in Hb. apply Hb, nth_In. unfold len in *. lia.
    + cbn [bind]. eauto.
  - intros keys _. rewrite (range_split (len key mod 4) 4) by lia.
    rewrite (for_out _ _ _ _ (fun l => len l = 4) _ IndexError); [reflexivity|reflexivity| |].
    + intros i l Hi Hl. apply in_py_range in Hi. rewrite (py_get_nth key (len key / 4 * 4 + i) 0) by lia. cbn [bind].
      rewrite py_set_ok; [|lia|]. { eexists. split; [reflexivity|]. unfold len in *. now rewrite upd_length. }
      unfold bytes_ok in Hb. rewrite Forall_forall in Hb. apply Hb, nth_In. unfold len in *. lia.
    + intros l _. rewrite py_get_out by lia. reflexivity.
Qed.

(** ** Mode and MAC objects *)
Definition quiet (l : life) : Prop := Forall (eq Done) (l_calls l) /\ match l_cipher l with Some c => co_ok c | None => True end.
Definition arg_bytes (x : pyval) : Prop := match x with VBytes b => bytes_ok b | _ => True end.

Lemma co_del_done c : co_ok c -> co_del c = Done.
Proof. intros H. destruct (co_clear_ok c H) as (c' & E & _). unfold co_del. now rewrite E. Qed.
Lemma quiet_set c l : quiet l -> co_ok c -> quiet (snd (set_cipher_obj c l)).
Proof.
  intros [HF HC] Hc. split; [|exact Hc]. cbn [snd set_cipher_obj l_calls]. apply Forall_app. split; [exact HF|].
  destruct (l_cipher l) as [old|]; [|constructor]. constructor; [symmetry; now apply co_del_done | constructor].
Qed.
Lemma make_cipher_is back n r attrs l : attrs_agree n r (attrs []) ->
  make_cipher back attrs l = match r with Ok keys => set_cipher_obj (back keys) l | Err e => (Err e, snd (make_cipher back attrs l)) end.
Proof.
  unfold attrs_agree, make_cipher. destruct r as [keys|e].
  - intros ->. reflexivity.
  - intros (keys & -> & _). reflexivity.
Qed.
Lemma base_attrs_is algorithm key l : arg_bytes key ->
  base_attrs algorithm key l = match base_init algorithm key with Ok c => set_cipher_obj c l | Err e => (Err e, l) end /\
  (forall c, base_init algorithm key = Ok c -> co_ok c).
Proof.
  intros Hk. unfold base_attrs, base_init. cbv zeta. destruct (negb match algorithm with VStr a => _ | _ => _ end); [split; [reflexivity | discriminate]|].
  destruct (check_value key _KEY_SIZE_13) eqn:Ck; cbn [negb]; [|split; [reflexivity | discriminate]].
  destruct algorithm as [b|a|z|]; try (split; [reflexivity | discriminate]). destruct key as [k|b|z|]; try (split; [reflexivity | discriminate]).
  assert (K : bytes_len 32 k) by (unfold check_value, _KEY_SIZE_13 in Ck; split; [destruct (len k =? 32) eqn:Ek; [now apply Z.eqb_eq | discriminate Ck] | exact Hk]).
  destruct (String.eqb a "kuznechik").
  - destruct (kuz_new_total k K) as [ks E]. rewrite (make_cipher_is _ _ _ _ _ (kuz_attrs_agree k)), E. cbn [bind]. split; [reflexivity|]. intros c [= <-]. exact (kuz_new_good k ks K E).
  - destruct (magma_new_total k K) as [ks E]. rewrite (make_cipher_is _ _ _ _ _ (magma_attrs_agree k)), E. cbn [bind]. split; [reflexivity|]. intros c [= <-]. exact (magma_new_good k ks K E).
Qed.
Lemma clear_attrs_is l : quiet l -> exists l', clear_attrs l = (Ok tt, l') /\ quiet l'.
Proof.
  intros [HF HC]. unfold clear_attrs, bindM, getM, liftM. destruct (l_cipher l) as [c|] eqn:E.
  - destruct (co_clear_ok c HC) as (c' & E' & Hc' & _). rewrite E'. eexists. split; [reflexivity|]. split; [exact HF | exact Hc'].
  - eexists. split; [reflexivity|]. split; [exact HF | now rewrite E].
Qed.
Lemma clear_raise_is l e : quiet l -> exists l', (clear_attrs ;! raiseM e : M life unit) l = (Err e, l') /\ quiet l'.
Proof. intros H. destruct (clear_attrs_is l H) as (l' & E & H'). exists l'. unfold bindM. now rewrite E. Qed.

(** What an initialiser leaves: the exception of the value model, or the cipher object of the value. *)
Definition init_agrees {A} (cipher : A -> cipher_obj) (r : res A) (m : M life unit) (l : life) : Prop :=
  quiet (snd (m l)) /\
  match r with
  | Ok a => fst (m l) = Ok tt /\ l_cipher (snd (m l)) = Some (cipher a)
  | Err e => fst (m l) = Err e
  end.
Lemma bind_base algorithm key (k : M life unit) l : arg_bytes key ->
  (base_attrs algorithm key ;! k) l = match base_init algorithm key with Ok c => k (snd (set_cipher_obj c l)) | Err e => (Err e, l) end.
Proof. intros Hk. unfold bindM. rewrite (proj1 (base_attrs_is algorithm key l Hk)). now destruct (base_init algorithm key). Qed.
Lemma padding_agrees algorithm key pad_mode l : arg_bytes key -> quiet l ->
  init_agrees fst (padding_init algorithm key pad_mode) (padding_attrs algorithm key pad_mode) l.
Proof.
  intros Hk Q. unfold init_agrees, padding_init, padding_attrs. rewrite !bind_base by exact Hk. pose proof (proj2 (base_attrs_is algorithm key l Hk)) as HC.
  destruct (base_init algorithm key) as [c|e]; cbn [bind]; [|now split].
  pose proof (quiet_set c l Q (HC c eq_refl)) as Q1. cbn [set_cipher_obj fst snd] in *. set (l1 := {| l_cipher := Some c; l_calls := _ |}) in *.
  assert (B : forall e, quiet (snd ((clear_attrs ;! raiseM e : M life unit) l1)) /\ fst ((clear_attrs ;! raiseM e : M life unit) l1) = Err e).
  { intros e. destruct (clear_raise_is l1 e Q1) as (l2 & -> & Q2). now split. }
  destruct pad_mode as [b|b|p|]; try (now apply B). destruct ((p =? PAD_MODE_1) || (p =? PAD_MODE_2)); [|now apply B].
  split; [exact Q1|]. split; reflexivity.
Qed.
Lemma vector_agrees good algorithm key init_vect l {A} (r : cipher_obj -> bytes -> A) (cipher : A -> cipher_obj) : arg_bytes key -> quiet l -> (forall c iv, cipher (r c iv) = c) ->
  init_agrees cipher (let* c := base_init algorithm key in
    match init_vect with
    | VBytes iv => if negb (good (len iv) (co_block_size c)) then Err (GOSTCipherError "GOSTCipherError: invalid initialization vector value") else Ok (r c iv)
    | _ => Err (GOSTCipherError "GOSTCipherError: invalid initialization vector value")
    end) (vector_attrs good algorithm key init_vect) l.
Proof.
  intros Hk Q HR. unfold init_agrees, vector_attrs. rewrite !bind_base by exact Hk. pose proof (proj2 (base_attrs_is algorithm key l Hk)) as HC.
  destruct (base_init algorithm key) as [c|e]; cbn [bind]; [|now split].
  pose proof (quiet_set c l Q (HC c eq_refl)) as Q1. cbn [set_cipher_obj fst snd] in *. set (l1 := {| l_cipher := Some c; l_calls := _ |}) in *.
  assert (B : forall e, quiet (snd ((clear_attrs ;! raiseM e : M life unit) l1)) /\ fst ((clear_attrs ;! raiseM e : M life unit) l1) = Err e).
  { intros e. destruct (clear_raise_is l1 e Q1) as (l2 & -> & Q2). now split. }
  change (size_attr l1) with (@Ok Z (co_block_size c), l1).
  assert (SZ : forall (k : Z -> M life unit), (let! bs := size_attr in k bs) l1 = k (co_block_size c) l1) by reflexivity. rewrite !SZ.
  destruct init_vect as [iv|b|p|]; try (now apply B). destruct (negb (good (len iv) (co_block_size c))); [now apply B|].
  split; [exact Q1|]. split; [reflexivity|]. now rewrite HR.
Qed.
Lemma cbc_agrees algorithm key init_vect pad_mode l : arg_bytes key -> quiet l ->
  init_agrees (fun x => fst (fst x)) (cbc_init algorithm key init_vect pad_mode) (cbc_attrs algorithm key init_vect pad_mode) l.
Proof.
  intros Hk Q. unfold init_agrees, cbc_init, cbc_attrs. unfold bindM. destruct (padding_agrees algorithm key pad_mode l Hk Q) as [Q1 H1].
  destruct (padding_init algorithm key pad_mode) as [[c0 p]|e]; destruct (padding_attrs algorithm key pad_mode l) as [r l1]; cbn [fst snd bind] in *; [|subst r; now split].
  destruct H1 as [-> _]. pose proof (vector_agrees (fun n bs => n mod bs =? 0) algorithm key init_vect l1 (fun c (iv : bytes) => (c, iv)) fst Hk Q1 (fun _ _ => eq_refl)) as [Q2 H2].
  fold (feedback_init algorithm key init_vect) in H2. change (vector_attrs (fun n bs => n mod bs =? 0) algorithm key init_vect l1) with (feedback_attrs algorithm key init_vect l1) in *.
  split; [exact Q2|]. destruct (feedback_init algorithm key init_vect) as [[c iv]|e]; cbn [bind fst]; exact H2.
Qed.

Lemma forM_lift_state {S A B} (xs : list A) (f : A -> B -> res B) (a : B) (s : S) : snd (forM xs a (fun x a => liftM (f x a)) s) = s.
Proof.
  revert a. induction xs as [|x xs IH]; intros a; cbn [forM]; [reflexivity|]. unfold bindM, liftM in *. destruct (f x a) as [a'|e]; [apply IH | reflexivity].
Qed.
Lemma mac_update_cipher data m : co_ok (m_cipher m) -> co_ok (m_cipher (snd (mac_update data m))).
Proof.
  intros Hc. destruct data as [d|s|z|]; cbn [mac_update].
  2-4: unfold mac_clear, bindM, getM, liftM, putM; destruct (co_clear_ok (m_cipher m) Hc) as (c' & -> & Hc' & _); exact Hc'.
  unfold bindM, getM. cbv beta iota. cbv zeta.
  match goal with |- context [forM ?xs ?a (fun i p => liftM (@?f i p)) m] => pose proof (forM_lift_state xs f a m) as HS; destruct (forM xs a (fun i p => liftM (f i p)) m) as [[p|e] m'] end; cbn [snd] in HS; subst m'; [|exact Hc].
  destruct (_get_pad_size _ _ =? 0); unfold liftM; destruct (co_encrypt _ _); exact Hc.
Qed.
Lemma bind_getM {S A} (k : S -> M S A) s : (let! x := getM in k x) s = k s s.
Proof. reflexivity. Qed.
Lemma mac_agrees algorithm key data l : arg_bytes key -> quiet l -> init_agrees m_cipher (mac_init algorithm key data) (mac_attrs algorithm key data) l.
Proof.
  intros Hk Q. unfold init_agrees, mac_attrs, mac_init. rewrite !bind_base by exact Hk. pose proof (proj2 (base_attrs_is algorithm key l Hk)) as HC.
  destruct (base_init algorithm key) as [c|e]; cbn [bind]; [|now split].
  pose proof (quiet_set c l Q (HC c eq_refl)) as Q1. specialize (HC c eq_refl). cbn [set_cipher_obj fst snd] in *. set (l1 := {| l_cipher := Some c; l_calls := _ |}) in *.
  rewrite !bind_getM. change (l_cipher l1) with (Some c). cbv iota beta.
  unfold bindM, liftM. destruct (co_encrypt c (py_repeat 0 (co_block_size c))) as [v|e]; cbn [bind]; [|split; [exact Q1 | reflexivity]].
  destruct (_get_mac_key (co_block_size c) v) as [[k1 k2]|e]; cbn [bind]; [|split; [exact Q1 | reflexivity]].
  set (self := {| m_cipher := c; m_key_1 := k1; m_key_2 := k2; m_fin_buff := []; m_iter_buf := []; m_prev_mac := py_repeat 0 (co_block_size c); m_cur_mac := py_repeat 0 (co_block_size c) |}).
  pose proof (mac_update_cipher data self HC) as HU.
  assert (G : init_agrees m_cipher (match mac_update data self with (Ok _, self) => Ok self | (Err e, _) => Err e end)
    (let (r, self) := mac_update data self in fun l => let (r0, s') := putM {| l_cipher := Some (m_cipher self); l_calls := l_calls l1 |} l in match r0 with Ok _ => (r, s') | Err e => (Err e, s') end) l1).
  { unfold init_agrees. destruct (mac_update data self) as [[[]|e] self']; cbn [putM fst snd] in *; (split; [split; [apply Q1 | exact HU]|]); [now split | reflexivity]. }
  assert (G0 : init_agrees m_cipher (Ok self) (retM tt) l1) by (split; [exact Q1 | now split]).
  destruct data as [[|d0 d]|s|z|]; [exact G0 | exact G | exact G | exact G | exact G].
Qed.

Lemma give_up_quiet l : quiet l -> Forall (eq Done) (l_calls (snd (give_up l))).
Proof.
  intros Q. unfold give_up. unfold bindM at 1, getM at 1. destruct (clear_attrs_is l Q) as (l' & E & [HF HC]). rewrite E. unfold bindM, putM, record, getM. cbn [l_cipher l_calls].
  destruct (l_cipher l') as [c|]; cbn [snd l_calls retM].
  - apply Forall_app. split; [apply Forall_app; split; [exact HF | constructor; [reflexivity|constructor]]|]. rewrite co_del_done by exact HC. constructor; [reflexivity|constructor].
  - apply Forall_app; split; [exact HF | constructor; [reflexivity|constructor]].
Qed.
Lemma drop_quiet o : co_ok (cipher_of o) -> Forall (eq Done) (drop_cipher o).
Proof. intros H. apply give_up_quiet. split; [constructor | exact H]. Qed.

(** [new_life] agrees with [new], and no finaliser raises. *)
Lemma new_life_is algorithm key mode kw : arg_bytes key ->
  match new algorithm key mode kw with
  | Ok o => fst (new_life algorithm key mode kw) = Ok tt /\ l_cipher (snd (new_life algorithm key mode kw)) = Some (cipher_of o) /\ co_ok (cipher_of o)
  | Err e => fst (new_life algorithm key mode kw) = Err e
  end /\ Forall (eq Done) (l_calls (snd (new_life algorithm key mode kw))).
Proof.
  intros Hk. set (l0 := {| l_cipher := None; l_calls := [] |}). assert (Q0 : quiet l0) by (split; [constructor | exact I]).
  assert (G : forall A (cipher : A -> cipher_obj) (r : res A) (back : A -> new_obj) m, init_attrs algorithm key mode kw = Some m -> init_agrees cipher r m l0 -> (forall a, cipher_of (back a) = cipher a) ->
    new algorithm key mode kw = (let* a := r in Ok (back a)) ->
    match new algorithm key mode kw with
    | Ok o => fst (new_life algorithm key mode kw) = Ok tt /\ l_cipher (snd (new_life algorithm key mode kw)) = Some (cipher_of o) /\ co_ok (cipher_of o)
    | Err e => fst (new_life algorithm key mode kw) = Err e
    end /\ Forall (eq Done) (l_calls (snd (new_life algorithm key mode kw)))).
  { intros A cipher r back m EI [Q H] HB ->. unfold new_life. rewrite EI. fold l0. destruct (m l0) as [x l]. cbn [fst snd] in *. destruct r as [a|e]; cbn [bind].
    - destruct H as [-> H]. rewrite HB. split; [|apply Q]. split; [reflexivity|]. split; [exact H|]. destruct Q as [_ Q]. now rewrite H in Q.
    - subst x. split; [reflexivity|]. now apply give_up_quiet. }
  assert (IVS : forall k m, kw_get (kw_init_vect kw) (VBytes (if is_magma algorithm then m else k)) = if is_magma algorithm then kw_get (kw_init_vect kw) (VBytes m) else kw_get (kw_init_vect kw) (VBytes k)) by (intros; now destruct (is_magma algorithm)).
  destruct mode as [b|b|mode|]; try (split; [reflexivity | constructor]).
  destruct (mode =? MODE_ECB) eqn:E1; [|destruct (mode =? MODE_CBC) eqn:E2; [|destruct (mode =? MODE_CFB) eqn:E3; [|destruct (mode =? MODE_OFB) eqn:E4; [|destruct (mode =? MODE_CTR) eqn:E5; [|destruct (mode =? MODE_MAC) eqn:E6]]]]].
  - refine (G _ fst (padding_init algorithm key (kw_get (kw_pad_mode kw) (VInt PAD_MODE_1))) (fun x => NewMode {| o_class := ECB; o_cipher := fst x; o_pad_mode := snd x; o_init_vect := []; o_counter := [] |}) (padding_attrs algorithm key (kw_get (kw_pad_mode kw) (VInt PAD_MODE_1))) _ _ (fun _ => eq_refl) _).
    + cbn [init_attrs]. now rewrite E1.
    + now apply padding_agrees.
    + unfold new. rewrite E1. now destruct (padding_init _ _ _) as [[c p]|e].
  - set (iv := kw_get (kw_init_vect kw) (VBytes (if is_magma algorithm then _DEFAULT_IV_CBC_MAGMA else _DEFAULT_IV_KUZNECHIK))).
    refine (G _ (fun x => fst (fst x)) (cbc_init algorithm key iv (kw_get (kw_pad_mode kw) (VInt PAD_MODE_1))) (fun x => NewMode {| o_class := CBC; o_cipher := fst (fst x); o_pad_mode := snd (fst x); o_init_vect := snd x; o_counter := [] |}) (cbc_attrs algorithm key iv (kw_get (kw_pad_mode kw) (VInt PAD_MODE_1))) _ _ (fun _ => eq_refl) _).
    + cbn [init_attrs]. now rewrite E1, E2.
    + now apply cbc_agrees.
    + unfold new. rewrite E1, E2. cbv zeta. rewrite <- IVS. fold iv. now destruct (cbc_init _ _ _ _) as [[[c p] v]|e].
  - set (iv := kw_get (kw_init_vect kw) (VBytes (if is_magma algorithm then _DEFAULT_IV_MAGMA else _DEFAULT_IV_KUZNECHIK))).
    refine (G _ fst (feedback_init algorithm key iv) (fun x => NewMode {| o_class := CFB; o_cipher := fst x; o_pad_mode := 0; o_init_vect := snd x; o_counter := [] |}) (feedback_attrs algorithm key iv) _ _ (fun _ => eq_refl) _).
    + cbn [init_attrs]. now rewrite E1, E2, E3.
    + now apply (vector_agrees (fun n bs => n mod bs =? 0) algorithm key iv l0 (fun c (iv : bytes) => (c, iv)) fst).
    + unfold new. rewrite E1, E2, E3. cbv zeta. rewrite <- IVS. fold iv. now destruct (feedback_init _ _ _) as [[c v]|e].
  - set (iv := kw_get (kw_init_vect kw) (VBytes (if is_magma algorithm then _DEFAULT_IV_MAGMA else _DEFAULT_IV_KUZNECHIK))).
    refine (G _ fst (feedback_init algorithm key iv) (fun x => NewMode {| o_class := OFB; o_cipher := fst x; o_pad_mode := 0; o_init_vect := snd x; o_counter := [] |}) (feedback_attrs algorithm key iv) _ _ (fun _ => eq_refl) _).
    + cbn [init_attrs]. now rewrite E1, E2, E3, E4.
    + now apply (vector_agrees (fun n bs => n mod bs =? 0) algorithm key iv l0 (fun c (iv : bytes) => (c, iv)) fst).
    + unfold new. rewrite E1, E2, E3, E4. cbv zeta. rewrite <- IVS. fold iv. now destruct (feedback_init _ _ _) as [[c v]|e].
  - set (iv := kw_get (kw_init_vect kw) (VBytes (if is_magma algorithm then _DEFAULT_IV_CTR_MAGMA else _DEFAULT_IV_CTR_KUZNECHIK))).
    refine (G _ (fun x => fst (fst x)) (ctr_init algorithm key iv) (fun x => NewMode {| o_class := CTR; o_cipher := fst (fst x); o_pad_mode := 0; o_init_vect := snd (fst x); o_counter := snd x |}) (ctr_attrs algorithm key iv) _ _ (fun _ => eq_refl) _).
    + cbn [init_attrs]. now rewrite E1, E2, E3, E4, E5.
    + now apply (vector_agrees (fun n bs => n =? bs / 2) algorithm key iv l0 (fun c (iv : bytes) => (c, iv, iv ++ py_repeat 0x00 (co_block_size c / 2))) (fun x => fst (fst x))).
    + unfold new. rewrite E1, E2, E3, E4, E5. cbv zeta. rewrite <- IVS. fold iv. now destruct (ctr_init _ _ _) as [[[c p] v]|e].
  - refine (G _ m_cipher (mac_init algorithm key (kw_get (kw_data kw) (VBytes []))) NewMac (mac_attrs algorithm key (kw_get (kw_data kw) (VBytes []))) _ _ (fun _ => eq_refl) _).
    + cbn [init_attrs]. now rewrite E1, E2, E3, E4, E5, E6.
    + now apply mac_agrees.
    + unfold new. now rewrite E1, E2, E3, E4, E5, E6.
  - unfold new, new_life, init_attrs. rewrite E1, E2, E3, E4, E5, E6. split; [reflexivity | constructor].
Qed.
