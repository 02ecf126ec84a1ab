(** * HMAC: the methods of the object against the specification *)
From Verif Require Import PyBase PyState PyFacts Utils UtilsFacts Streebog SpecStreebog SpecHashHist StreebogFacts StreebogFacts2 StreebogObj StreebogLemmas StreebogProps Hmac SpecHmac World.
Open Scope string_scope.
Open Scope list_scope.
Open Scope Z_scope.

Definition mname (v : variant) : string := match v with S256 => "HMAC_GOSTR3411_2012_256" | S512 => "HMAC_GOSTR3411_2012_512" end.
Definition moid (v : variant) : string := match v with S256 => "1.2.643.7.1.1.4.1" | S512 => "1.2.643.7.1.1.4.2" end.

(** ** Pads *)

Lemma xor_pad p n : forall k, add_xor k (repeat p n) = with_pad p (firstn n k).
Proof.
  induction n as [|n IH]; intros [|x k]; try reflexivity. cbn [repeat add_xor firstn with_pad map]. f_equal. apply IH.
Qed.
Lemma i_pad k : add_xor k _I_PAD = with_pad 0x36 (firstn 64 k).
Proof. exact (xor_pad 0x36 64 k). Qed.
Lemma o_pad k : add_xor k _O_PAD = with_pad 0x5c (firstn 64 k).
Proof. exact (xor_pad 0x5c 64 k). Qed.

Lemma with_pad_length p k : List.length (with_pad p k) = List.length k.
Proof. apply map_length. Qed.
Lemma with_pad_ok p k : byte_ok p -> bytes_ok k -> bytes_ok (with_pad p k).
Proof. intros Hp. induction 1 as [|x k Hx HF IH]; [apply Forall_nil|]. apply Forall_cons; [now apply lxor_byte | exact IH]. Qed.

Lemma stored key : (List.length key <= 64)%nat -> store_key key = K0 key.
Proof.
  intros H. unfold store_key, K0, _KEY_SIZE, len, py_repeat. destruct (Z.ltb_spec (Z.of_nat (List.length key)) 64).
  - do 2 f_equal. lia.
  - replace (64 - List.length key)%nat with 0%nat by lia. cbn [repeat]. now rewrite app_nil_r.
Qed.
Lemma K0_length key : (List.length key <= 64)%nat -> List.length (K0 key) = 64%nat.
Proof. intros H. unfold K0. rewrite app_length, repeat_length. lia. Qed.
Lemma K0_ok key : bytes_ok key -> bytes_ok (K0 key).
Proof. intros H. apply bytes_ok_app. split; [exact H|]. unfold bytes_ok. apply Forall_forall. intros x Hx. apply repeat_spec in Hx. subst. unfold byte_ok. lia. Qed.

(** ** The effective message with a first chunk that starts with a whole block *)

Lemma feed_prefix Q p c : let (P, t) := feed p c in feed (Q ++ fst p, snd p) c = (Q ++ P, t).
Proof. destruct p as [P t]. cbn [feed fst snd]. now rewrite app_assoc. Qed.

Lemma feed_all_prefix Q cs : forall p, fold_left feed cs (Q ++ fst p, snd p) = (Q ++ fst (fold_left feed cs p), snd (fold_left feed cs p)).
Proof.
  induction cs as [|c cs IH]; intros p; [reflexivity|]. cbn [fold_left]. pose proof (feed_prefix Q p c) as H.
  destruct (feed p c) as [P t] eqn:E. rewrite H. exact (IH (P, t)).
Qed.

Lemma feed_block B c : List.length B = 64%nat -> feed ([], []) (B ++ c) = (B ++ fst (feed ([], []) c), snd (feed ([], []) c)).
Proof.
  intros HB. cbn [feed app fst snd]. rewrite (app_length B c), HB.
  replace ((64 + List.length c) / 64)%nat with (S (List.length c / 64)) by (replace (64 + List.length c)%nat with (1 * 64 + List.length c)%nat by lia; rewrite Nat.div_add_l by lia; lia).
  replace ((64 + List.length c) mod 64)%nat with (List.length c mod 64)%nat by (replace (64 + List.length c)%nat with (List.length c + 1 * 64)%nat by lia; rewrite Nat.mod_add by lia; reflexivity).
  replace (64 * S (List.length c / 64))%nat with (List.length B + 64 * (List.length c / 64))%nat by lia.
  rewrite firstn_app_2, skipn_app, skipn_all2 by lia. cbn [app]. replace (_ + _ - _)%nat with (64 * (List.length c / 64))%nat by lia. reflexivity.
Qed.

Lemma effective_block B c cs : List.length B = 64%nat -> effective ((B ++ c) :: cs) = B ++ effective (c :: cs).
Proof.
  intros HB. unfold effective. cbn [fold_left]. rewrite feed_block by exact HB. destruct (feed ([], []) c) as [P t] eqn:E. cbn [fst snd].
  pose proof (feed_all_prefix B cs (P, t)) as HA. cbn [fst snd] in HA. rewrite HA. destruct (fold_left feed cs (P, t)) as [P' t']. cbn [fst snd]. now rewrite app_assoc.
Qed.

(** ** The state of an object *)

Record state_is (v : variant) (k : bytes) (l : list bytes) (n : Z) (o : hmac_obj) : Prop := {
  st_key : hm_key o = k;
  st_long : (64 <= List.length k)%nat;
  st_kok : bytes_ok k;
  st_fed : fed v l (hm_hasher o);
  st_counter : hm_counter o = n;
  st_pos : 0 <= n;
  st_oid : hm_oid o = moid v
}.

Lemma hash_init_new v d : hash_init (vname v) d = hash_new (VStr (vname v)) (Some d).
Proof. destruct v; reflexivity. Qed.
Lemma hash_init_fed v : hash_init (vname v) (VBytes []) = Ok (_hash_init (vname v) (void v)) /\ fed v [] (_hash_init (vname v) (void v)).
Proof. destruct (fed_new v) as (o & E & H). destruct v; (split; [reflexivity|]); inversion E; subst; exact H. Qed.

Lemma fed_reset v l o : fed v l o -> hash_reset o = (Ok tt, _hash_init (vname v) (void v)).
Proof.
  unfold fed. destruct (fold_left feed l ([], [])) as [P b]. intros (Ho & _). unfold hash_reset, bindM, getM, putM. now rewrite (ho_name _ _ _ _ Ho), (ho_oid _ _ _ _ Ho).
Qed.
Lemma fed_name v l o : fed v l o -> h_name o = vname v.
Proof. unfold fed. destruct (fold_left feed l ([], [])) as [P b]. intros (Ho & _). exact (ho_name _ _ _ _ Ho). Qed.

Lemma fed_hash v l o : fed v l o -> List.length (streebog v (effective l)) = hash_bytes v /\ bytes_ok (streebog v (effective l)).
Proof.
  intros H. pose proof (fed_digest v l o H) as ED. unfold fed in H. destruct (fold_left feed l ([], [])) as [P b]. destruct H as (Ho & _).
  pose proof (finished_length v _ b o Ho) as HF. rewrite (digest_holds v _ b o Ho) in ED.
  assert (HX : forall (x y : bytes) (a b : hash_obj), (Ok x, a) = (Ok y, b) -> x = y) by (intros; congruence). apply HX in ED. now rewrite <- ED.
Qed.
Lemma streebog_ok v m : bytes_ok m -> List.length (streebog v m) = hash_bytes v /\ bytes_ok (streebog v m).
Proof. intros Hm. destruct (fed_new_data v m Hm) as (o & E & H). rewrite <- (one_effective m). exact (fed_hash v [m] o H). Qed.

(** The tag for a block key and an inner hash. *)
Lemma digest_is v k l n o : state_is v k l n o -> hmac_digest o = (Ok (outer v (firstn 64 k) (streebog v (effective l))), o).
Proof.
  intros [H1 H2 H3 H4 H5 H6 H7]. unfold hmac_digest. unfold bindM at 1. unfold getM at 1. unfold bindM at 1. unfold liftM at 1. rewrite (fed_name _ _ _ H4).
  destruct (hash_init_fed v) as [EI FI]. rewrite EI. unfold bindM at 1. unfold on_hasher. pose proof (fed_digest v l _ H4) as ED. rewrite ED.
  assert (EO : hm_set_hasher o (hm_hasher o) = o) by (destruct o; reflexivity). rewrite EO, H1, o_pad.
  assert (HB : bytes_ok (with_pad 0x5c (firstn 64 k) ++ streebog v (effective l))).
  { apply bytes_ok_app. split; [apply with_pad_ok; [unfold byte_ok; lia | now apply bytes_ok_firstn] | exact (proj2 (fed_hash v l _ H4))]. }
  destruct (fed_update v [] _ _ FI HB) as (o' & E & H). rewrite E. unfold bindM, liftM. rewrite (fed_digest v _ o' H). cbn [app fst]. now rewrite one_effective.
Qed.

Lemma update_is v k l n o d : state_is v k l n o -> bytes_ok d ->
  exists o', hmac_update (VBytes d) o = (Ok tt, o') /\
    state_is v k (l ++ [if n =? 0 then with_pad 0x36 (firstn 64 k) ++ d else d]) (n + 1) o'.
Proof.
  intros [H1 H2 H3 H4 H5 H6 H7] Hd. unfold hmac_update. unfold bindM at 1. unfold getM at 1. unfold bindM at 1. unfold putM at 1. unfold bindM at 1. unfold getM at 1.
  cbn [hm_set_counter hm_counter hm_key hm_hasher hm_oid]. rewrite H5, H1, i_pad. replace (n + 1 =? 1) with (n =? 0) by lia.
  assert (HB : bytes_ok (with_pad 0x36 (firstn 64 k) ++ d)) by (apply bytes_ok_app; split; [apply with_pad_ok; [unfold byte_ok; lia | now apply bytes_ok_firstn] | exact Hd]).
  destruct (n =? 0); unfold on_hasher; cbn [hm_hasher hm_set_counter];
    [destruct (fed_update v l _ _ H4 HB) as (h & E & H) | destruct (fed_update v l _ _ H4 Hd) as (h & E & H)]; rewrite E; eexists; (split; [reflexivity|]);
    split; cbn [hm_set_hasher hm_counter hm_key hm_hasher hm_oid]; try assumption; try reflexivity; lia.
Qed.

Lemma hmac_update_not_bytes x o : match x with VBytes _ => False | _ => True end ->
  hmac_update x o = (Err (GOSTHMACError "GOSTHMACError: invalid data value"), o).
Proof. destruct x; [contradiction | reflexivity..]. Qed.

Lemma reset_is v k l n o : state_is v k l n o ->
  hmac_reset o = (Ok tt, {| hm_key := k; hm_hasher := _hash_init (vname v) (void v); hm_counter := 0; hm_oid := moid v |}).
Proof.
  intros [H1 H2 H3 H4 H5 H6 H7]. unfold hmac_reset. unfold bindM at 1. unfold on_hasher. rewrite (fed_reset v l _ H4). unfold bindM, getM, putM.
  unfold hm_set_hasher, hm_set_counter. cbn [hm_key hm_hasher hm_counter hm_oid]. now rewrite H1, H7.
Qed.
Lemma clear_is v k l n o : state_is v k l n o ->
  hmac_clear o = (Ok tt, {| hm_key := zero_fill k; hm_hasher := _hash_init (vname v) (void v); hm_counter := n; hm_oid := moid v |}).
Proof.
  intros [H1 H2 H3 H4 H5 H6 H7]. unfold hmac_clear. unfold bindM at 1. unfold on_hasher. rewrite (fed_reset v l _ H4). unfold bindM, getM, putM.
  unfold hm_set_hasher, hm_set_key. cbn [hm_key hm_hasher hm_counter hm_oid]. now rewrite H1, H5, H7.
Qed.

Lemma made_is v k n : (64 <= List.length k)%nat -> bytes_ok k -> 0 <= n ->
  state_is v k [] n {| hm_key := k; hm_hasher := _hash_init (vname v) (void v); hm_counter := n; hm_oid := moid v |}.
Proof. intros H1 H2 H3. split; try assumption; try reflexivity. exact (proj2 (hash_init_fed v)). Qed.

Lemma zero_fill_long k : (64 <= List.length k)%nat -> (64 <= List.length (zero_fill k))%nat.
Proof. intros H. pose proof (zero_fill_len k). unfold len in *. lia. Qed.

Lemma concat_repeat_add {A} (x : list A) n m : concat (repeat x (n + m)) = concat (repeat x n) ++ concat (repeat x m).
Proof. now rewrite repeat_app, concat_app. Qed.

Lemma zero_fill_public k : (16 <= List.length k)%nat -> firstn 64 (zero_fill k) = public_block.
Proof.
  intros H. unfold zero_fill, zero_fill_val, bytes_mul, py_repeat, len. rewrite Nat2Z.id.
  replace (List.length k) with (16 + (List.length k - 16))%nat by lia. rewrite concat_repeat_add, firstn_app.
  change (concat (repeat slash_x00 16)) with public_block. change (List.length public_block) with 64%nat. rewrite Nat.sub_diag. rewrite firstn_all2 by (change (List.length public_block) with 64%nat; lia). apply app_nil_r.
Qed.

(** ** Construction *)

Definition hmac_base (v : variant) (key : bytes) : hmac_obj :=
  {| hm_key := K0 key; hm_hasher := _hash_init (vname v) (void v); hm_counter := 0; hm_oid := moid v |}.

Lemma hmac_init_base v key data : (List.length key <= 64)%nat ->
  hmac_init (VStr (mname v)) (VBytes key) data =
  match data with
  | VBytes [] => Ok (hmac_base v key)
  | _ => match hmac_update data (hmac_base v key) with (Ok _, self) => Ok self | (Err e, _) => Err e end
  end.
Proof.
  intros Hk. unfold hmac_init. assert (EK : (len key >? _KEY_SIZE) = false) by (unfold len, _KEY_SIZE; lia). rewrite EK, stored by exact Hk. destruct v; reflexivity.
Qed.

Lemma base_is v key : bytes_ok key -> (List.length key <= 64)%nat -> state_is v (K0 key) [] 0 (hmac_base v key).
Proof. intros H1 H2. apply made_is; [rewrite K0_length; lia | now apply K0_ok | lia]. Qed.

(** ** Calls *)

Inductive mcall : Type :=
| MUpdate (x : pyval)
| MDigest
| MHexdigest
| MReset
| MClear.

Definition mmap {A} (f : A -> hres) (p : res A * hmac_obj) : res hres * hmac_obj :=
  match p with (Ok a, o) => (Ok (f a), o) | (Err e, o) => (Err e, o) end.

Definition mstep (c : mcall) (o : hmac_obj) : res hres * hmac_obj :=
  match c with
  | MUpdate x => mmap (fun _ => RNone) (hmac_update x o)
  | MDigest => mmap RBytes (hmac_digest o)
  | MHexdigest => mmap RStr (hmac_hexdigest o)
  | MReset => mmap (fun _ => RNone) (hmac_reset o)
  | MClear => mmap (fun _ => RNone) (hmac_clear o)
  end.
Notation mrun := (World.run mstep).

Definition mcall_ok (c : mcall) : Prop := match c with MUpdate x => varg_ok x | _ => True end.

(** The state after a call, and its result. *)
Definition mnext (c : mcall) (v : variant) (k : bytes) (l : list bytes) (n : Z) : res hres * (bytes * list bytes * Z) :=
  match c with
  | MUpdate (VBytes d) => (Ok RNone, (k, l ++ [if n =? 0 then with_pad 0x36 (firstn 64 k) ++ d else d], n + 1))
  | MUpdate _ => (Err (GOSTHMACError "GOSTHMACError: invalid data value"), (k, l, n))
  | MDigest => (Ok (RBytes (outer v (firstn 64 k) (streebog v (effective l)))), (k, l, n))
  | MHexdigest => (Ok (RStr (py_hex (outer v (firstn 64 k) (streebog v (effective l))))), (k, l, n))
  | MReset => (Ok RNone, (k, [], 0))
  | MClear => (Ok RNone, (zero_fill k, [], n))
  end.

Lemma mstep_is v k l n o c : state_is v k l n o -> mcall_ok c ->
  fst (mstep c o) = fst (mnext c v k l n) /\
  let '(k', l', n') := snd (mnext c v k l n) in state_is v k' l' n' (snd (mstep c o)).
Proof.
  intros Ho Hc. destruct c as [x| | | |]; cbn [mstep mnext mcall_ok] in *.
  - destruct x as [d|str|z|]; try (split; [reflexivity | exact Ho]).
    destruct (update_is v k l n o d Ho Hc) as (o' & E & H). rewrite E. split; [reflexivity | exact H].
  - rewrite (digest_is v k l n o Ho). split; [reflexivity | exact Ho].
  - unfold hmac_hexdigest, bindM. rewrite (digest_is v k l n o Ho). split; [reflexivity | exact Ho].
  - rewrite (reset_is v k l n o Ho). split; [reflexivity|]. destruct Ho. apply made_is; [assumption | assumption | lia].
  - rewrite (clear_is v k l n o Ho). split; [reflexivity|]. destruct Ho. apply made_is; [now apply zero_fill_long | apply zero_fill_ok | assumption].
Qed.

(** Construction with data. *)
Definition first_chunk (data : option bytes) : list bytes := match data with Some (x :: d) => [x :: d] | _ => [] end.
(** The chunks given to the hash object. *)
Definition hashed (k : bytes) (cs : list bytes) : list bytes := match cs with [] => [] | c :: cs => (with_pad 0x36 k ++ c) :: cs end.

Definition hargs_ok (key : bytes) (data : option pyval) : Prop :=
  bytes_ok key /\ (List.length key <= 64)%nat /\ match data with Some d => varg_ok d | None => True end.

Lemma hmac_new_is v key data o : bytes_ok key -> (List.length key <= 64)%nat -> match data with Some d => bytes_ok d | None => True end ->
  hmac_new (VStr (mname v)) (VBytes key) (option_map VBytes data) = Ok o ->
  state_is v (K0 key) (hashed (K0 key) (first_chunk data)) (Z.of_nat (List.length (first_chunk data))) o.
Proof.
  intros Hk Hl Hd E. unfold hmac_new in E. rewrite hmac_init_base in E by exact Hl. pose proof (base_is v key Hk Hl) as HB.
  destruct data as [[|x d]|]; cbn [option_map] in E; try (inversion E; subst; exact HB).
  destruct (update_is v _ _ _ _ _ HB Hd) as (o' & E' & H). rewrite E' in E. inversion E; subst. cbn [app first_chunk hashed List.length] in *.
  change (0 =? 0) with true in H. cbv iota in H. rewrite firstn_all2 in H by (rewrite K0_length; lia). exact H.
Qed.

Lemma hmac_new_ok v key data : bytes_ok key -> (List.length key <= 64)%nat -> match data with Some d => bytes_ok d | None => True end ->
  exists o, hmac_new (VStr (mname v)) (VBytes key) (option_map VBytes data) = Ok o.
Proof.
  intros Hk Hl Hd. unfold hmac_new. rewrite hmac_init_base by exact Hl. pose proof (base_is v key Hk Hl) as HB.
  destruct data as [[|x d]|]; cbn [option_map]; try (eexists; reflexivity).
  destruct (update_is v _ _ _ _ _ HB Hd) as (o' & E' & H). rewrite E'. eexists; reflexivity.
Qed.
