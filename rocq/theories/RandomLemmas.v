(** * The generator: the object against the specification *)
From Verif Require Import PyBase PyState PyFacts Utils UtilsFacts Streebog SpecStreebog SpecHashHist StreebogFacts StreebogFacts2 StreebogObj StreebogLemmas StreebogProps HmacLemmas World Random SpecRandom.
Open Scope string_scope.
Open Scope list_scope.
Open Scope Z_scope.

Lemma register_eq : register_size = 256 ^ 63.
Proof. reflexivity. Qed.
Lemma register_pos : 0 < register_size.
Proof. reflexivity. Qed.

Lemma be_eq n u : be_bytes n u = int_to_bytearray u (Z.of_nat n).
Proof. unfold be_bytes. rewrite le_bytes_rev. apply rev_involutive. Qed.
Lemma be_length n u : List.length (be_bytes n u) = n.
Proof. unfold be_bytes. rewrite rev_length. apply le_bytes_length. Qed.
Lemma be_ok n u : bytes_ok (be_bytes n u).
Proof. rewrite be_eq. apply int_to_bytearray_ok. Qed.
Lemma be_value u : 0 <= u < register_size -> bytearray_to_int (be_bytes 63 u) = u.
Proof. intros H. rewrite be_eq. apply to_int_of_int_small; [lia | exact H]. Qed.
Lemma be_mod u : be_bytes 63 (u mod register_size) = be_bytes 63 u.
Proof. rewrite !be_eq. apply int_to_bytearray_mod. lia. Qed.

Lemma split_value (l : bytes) k : bytes_ok l -> (k <= List.length l)%nat ->
  bytearray_to_int (firstn k l) = bytearray_to_int l / 256 ^ Z.of_nat (List.length l - k) /\
  bytearray_to_int (skipn k l) = bytearray_to_int l mod 256 ^ Z.of_nat (List.length l - k).
Proof.
  intros Hl Hk. set (n := (List.length l - k)%nat). assert (Hn : len (skipn k l) = Z.of_nat n) by (unfold len, n; rewrite skipn_length; reflexivity).
  pose proof (bytearray_to_int_bound (skipn k l) (bytes_ok_skipn k l Hl)) as HB. rewrite Hn in HB.
  assert (E : bytearray_to_int l = bytearray_to_int (firstn k l) * 256 ^ Z.of_nat n + bytearray_to_int (skipn k l)) by (rewrite <- (firstn_skipn k l) at 1; rewrite bytearray_to_int_app, Hn; reflexivity).
  set (m := 256 ^ Z.of_nat n) in *. split.
  - rewrite E. rewrite Z.div_add_l by lia. rewrite Z.div_small by lia. lia.
  - rewrite E, Z.add_comm, Z.mod_add by lia. symmetry. apply Z.mod_small. lia.
Qed.

(** ** The state *)

Definition H0 : hash_obj := _hash_init "streebog512" "1.2.643.7.1.1.2.3".

Record rnd_is (sz size u : Z) (o : random_obj) : Prop := {
  rn_range : 0 <= sz <= 63;
  rn_size : r_size_s o = sz;
  rn_u : r_rand_u o = be_bytes 63 u;
  rn_bound : 0 <= u < register_size;
  rn_q : r_q o = size / 64;
  rn_r : r_r o = size mod 64;
  rn_limit : r_limit o = 2 ^ ((64 - sz) * 8);
  rn_hash : r_hash o = H0
}.

Lemma below_limit sz u : 0 <= sz <= 63 -> 0 <= u < register_size -> (bytearray_to_int (py_from (be_bytes 63 u) sz) >=? 2 ^ ((64 - sz) * 8)) = false.
Proof.
  intros Hs Hu. rewrite py_from_skipn by lia.
  pose proof (bytearray_to_int_bound (skipn (Z.to_nat sz) (be_bytes 63 u)) ltac:(apply bytes_ok_skipn, be_ok)) as HB.
  assert (HL : len (skipn (Z.to_nat sz) (be_bytes 63 u)) = 63 - sz) by (unfold len; rewrite skipn_length, be_length; lia). rewrite HL in HB.
  assert (HP : 256 ^ (63 - sz) < 2 ^ ((64 - sz) * 8)) by (change 256 with (2 ^ 8); rewrite <- Z.pow_mul_r by lia; apply Z.pow_lt_mono_r; lia).
  set (x := bytearray_to_int _) in *. lia.
Qed.

Lemma seed_value sz u : 0 <= sz <= 63 -> 0 <= u < register_size -> bytearray_to_int (py_upto (be_bytes 63 u) sz) = seed_part sz u.
Proof.
  intros Hs Hu. rewrite py_upto_firstn by lia. destruct (split_value (be_bytes 63 u) (Z.to_nat sz) (be_ok _ _)) as [E _]; [rewrite be_length; lia|].
  rewrite E, be_value by exact Hu. rewrite be_length. unfold seed_part. do 2 f_equal. lia.
Qed.

Lemma H0_fed : fed S512 [] H0.
Proof. exact (proj2 (hash_init_fed S512)). Qed.

(** One step. *)
Lemma iter_is sz size u o : rnd_is sz size u o ->
  exists o', _rand_iter o = (Ok (block u 1), o') /\ rnd_is sz size ((u + 1) mod register_size) o'.
Proof.
  intros [H1 H2 H3 H4 H5 H6 H7 H8]. unfold _rand_iter. unfold bindM at 1. unfold getM at 1. rewrite H2, H3, H7, below_limit by assumption.
  unfold bindM at 1. unfold _inc_rand_u. unfold bindM at 1. unfold getM at 1. unfold putM at 1. rewrite H3, be_value by exact H4.
  change (1 mod 2 ^ (_SIZE_M - 1)) with 1. change (_SIZE_M - 1) with (Z.of_nat 63). rewrite <- be_eq.
  unfold bindM at 1. unfold getM at 1. unfold bindM at 1. unfold on_hash at 1. cbn [set_rand_u r_rand_u r_hash]. rewrite H8.
  destruct (fed_update S512 [] H0 (be_bytes 63 (u + 1)) H0_fed (be_ok _ _)) as (h & E & F). rewrite E.
  unfold bindM at 1. unfold on_hash at 1. cbn [set_hash r_hash]. rewrite (fed_digest S512 _ _ F). cbn [app]. rewrite one_effective.
  unfold bindM at 1. unfold on_hash at 1. cbn [set_hash r_hash]. rewrite (fed_reset S512 _ _ F). eexists. split.
  - unfold retM. unfold block, input. now rewrite be_mod.
  - split; cbn [set_hash set_rand_u r_size_s r_rand_u r_q r_r r_limit r_hash]; try assumption; [now rewrite be_mod | apply Z.mod_pos_bound, register_pos | reflexivity].
Qed.

Lemma input_shift u a t : input ((u + a) mod register_size) t = input u (a + t).
Proof. unfold input. rewrite Zplus_mod_idemp_l. now rewrite Z.add_assoc. Qed.
Lemma block_shift u a t : block ((u + a) mod register_size) t = block u (a + t).
Proof. unfold block. now rewrite input_shift. Qed.
Lemma input_length u t : List.length (input u t) = 63%nat.
Proof. apply be_length. Qed.
Lemma block_ok u t : List.length (block u t) = 64%nat /\ bytes_ok (block u t).
Proof. apply (streebog_ok S512). apply be_ok. Qed.

Lemma block_eq u t : block u t = streebog S512 (be_bytes 63 ((u + t) mod register_size)).
Proof. reflexivity. Qed.

Opaque block.

Definition rnd_body : unit -> bytes -> M random_obj bytes := fun _ result => let! b := _rand_iter in retM (result ++ b).

Lemma rnd_loop sz size n : forall u acc o, rnd_is sz size u o ->
  exists o', forM (repeat tt n) acc rnd_body o = (Ok (acc ++ concat (map (fun t => block u (Z.of_nat t)) (seq 1 n))), o') /\ rnd_is sz size ((u + Z.of_nat n) mod register_size) o'.
Proof.
  induction n as [|n IH]; intros u acc o Ho.
  - exists o. cbn [repeat forM seq map concat]. rewrite app_nil_r. split; [reflexivity|]. rewrite Z.add_0_r, Z.mod_small by apply Ho. exact Ho.
  - cbn [repeat forM]. unfold bindM at 1. unfold rnd_body at 1. unfold bindM at 1. destruct (iter_is sz size u o Ho) as (o1 & E1 & H1). rewrite E1. unfold retM at 1.
    destruct (IH _ (acc ++ block u 1) o1 H1) as (o' & E & H). exists o'. split.
    + rewrite E. assert (EM : map (fun t => block ((u + 1) mod register_size) (Z.of_nat t)) (seq 1 n) = map (fun t => block u (Z.of_nat t)) (seq 2 n)).
      { rewrite <- (seq_shift n 1), map_map. apply map_ext. intros t. rewrite block_shift. f_equal. lia. }
      rewrite EM. change (seq 1 (S n)) with (1%nat :: seq 2 n). rewrite map_cons, List.concat_cons, <- app_assoc. reflexivity.
    + rewrite Zplus_mod_idemp_l in H. replace (u + Z.of_nat (S n)) with (u + 1 + Z.of_nat n) by lia. exact H.
Qed.

Lemma rest_zero size : (size mod 64 =? 0) = Nat.eqb (rest size) 0.
Proof. unfold rest. assert (H := Z.mod_pos_bound size 64 ltac:(lia)). destruct (Z.eqb_spec (size mod 64) 0); symmetry; [apply Nat.eqb_eq | apply Nat.eqb_neq]; lia. Qed.

Lemma random_is sz size u o : rnd_is sz size u o ->
  if seed_part sz u =? 0 then random o = (Err (GOSTRandomError "GOSTRandomError: the seed value is zero"), o)
  else exists o', random o = (Ok (output u size), o') /\ rnd_is sz size ((u + steps size) mod register_size) o'.
Proof.
  intros Ho. pose proof Ho as [H1 H2 H3 H4 H5 H6 H7 H8]. unfold random. assert (E0 : bytearray_to_int (py_upto (r_rand_u o) (r_size_s o)) = seed_part sz u) by (rewrite H2, H3; now apply seed_value).
  destruct (seed_part sz u =? 0) eqn:ES; unfold bindM at 1; unfold getM; rewrite E0, ES; [reflexivity|].
  unfold bindM at 1. rewrite H5, H6. fold (whole size). rewrite rest_zero. change (fun (_ : unit) (result : list Z) => _) with rnd_body.
  destruct (rnd_loop sz size (whole size) u [] o Ho) as (o1 & E1 & O1). rewrite E1. cbn [app]. unfold output, steps. destruct (Nat.eqb (rest size) 0) eqn:ER; cbn [negb].
  - exists o1. unfold retM. rewrite app_nil_r, Nat.add_0_r. split; [reflexivity | exact O1].
  - unfold bindM at 1. destruct (iter_is _ _ _ _ O1) as (o2 & E2 & O2). rewrite E2. exists o2. unfold retM. rewrite block_shift in *. split.
    + do 3 f_equal. replace (Z.of_nat (whole size) + 1) with (Z.of_nat (S (whole size))) by lia. destruct (block_ok u (Z.of_nat (S (whole size)))) as [HL _].
      assert (HM := Z.mod_pos_bound size 64 ltac:(lia)). unfold _SIZE_H. rewrite py_slice_mid by (unfold len; rewrite ?HL; lia).
      rewrite firstn_all2 by (rewrite skipn_length, HL; unfold rest; lia). f_equal. unfold rest. lia.
    + rewrite Zplus_mod_idemp_l in O2. replace (u + Z.of_nat (whole size + 1)) with (u + Z.of_nat (whole size) + 1) by lia. exact O2.
Qed.

(** ** Cleared objects *)

Definition seed_error : exn := GOSTRandomError "GOSTRandomError: the seed value is zero".
Definition limit_error : exn := GOSTRandomError "GOSTRandomError: exceeded the limit value of the counter".
Definition value_error : exn := GOSTRandomError "GOSTRandomError: invalid seed value".

Record wiped (sz size : Z) (o : random_obj) : Prop := {
  wi_range : 0 <= sz <= 63;
  wi_size : r_size_s o = sz;
  wi_u : exists b, r_rand_u o = zero_fill b /\ 63 <= len b;
  wi_q : r_q o = size / 64;
  wi_r : r_r o = size mod 64;
  wi_limit : r_limit o = 2 ^ ((64 - sz) * 8);
  wi_hash : r_hash o = H0
}.

Lemma no_zero_big (l : bytes) : bytes_ok l -> ~ In 0 l -> l <> [] -> 256 ^ (len l - 1) <= bytearray_to_int l.
Proof.
  intros Hl N HN. destruct l as [|x l]; [contradiction|]. rewrite bytearray_to_int_cons, len_cons. replace (1 + len l - 1) with (len l) by lia.
  apply bytes_ok_cons in Hl as [Hx Hl]. assert (x <> 0) by (intros ->; apply N; now left). unfold byte_ok in Hx.
  pose proof (bytearray_to_int_bound l Hl). assert (0 < 256 ^ len l) by (apply Z.pow_pos_nonneg; [lia | apply len_nonneg]). nia.
Qed.

Lemma wiped_iter sz size o : wiped sz size o -> exists o', _rand_iter o = (Err limit_error, o') /\ wiped sz size o'.
Proof.
  intros [H1 H2 (b & H3 & HB) H4 H5 H6 H7]. unfold _rand_iter. unfold bindM at 1. unfold getM at 1.
  assert (HL : len (zero_fill b) = 4 * len b) by apply zero_fill_len.
  assert (E : (bytearray_to_int (py_from (r_rand_u o) (r_size_s o)) >=? r_limit o) = true).
  { rewrite H2, H3, H6, py_from_skipn by lia. set (l := skipn (Z.to_nat sz) (zero_fill b)).
    assert (LL : len l = 4 * len b - sz) by (unfold l, len in *; rewrite skipn_length; lia).
    assert (HBig : 256 ^ (len l - 1) <= bytearray_to_int l).
    { apply no_zero_big; [apply bytes_ok_skipn, zero_fill_ok| |].
      - intros HI. apply (zero_fill_no_zero b). rewrite <- (firstn_skipn (Z.to_nat sz) (zero_fill b)). apply in_or_app. now right.
      - intros E. rewrite E, len_nil in LL. lia. }
    assert (HP : 2 ^ ((64 - sz) * 8) <= 256 ^ (len l - 1)) by (change 256 with (2 ^ 8); rewrite <- Z.pow_mul_r by lia; apply Z.pow_le_mono_r; lia).
    apply Z.geb_le. lia. }
  rewrite E. unfold bindM, putM, raiseM. eexists. split; [reflexivity|]. split; cbn [set_rand_u r_size_s r_rand_u r_q r_r r_limit r_hash]; try assumption.
  exists (r_rand_u o). split; [reflexivity|]. rewrite H3, HL. lia.
Qed.

(** Every call that has to produce something fails. *)
Lemma wiped_seed sz size o : wiped sz size o -> (bytearray_to_int (py_upto (r_rand_u o) (r_size_s o)) =? 0) = (sz =? 0).
Proof.
  intros [H1 H2 (b & H3 & HB) H4 H5 H6 H7]. rewrite H2, H3, py_upto_firstn by lia. destruct (Z.eqb_spec sz 0) as [->|N]; [reflexivity|]. apply Z.eqb_neq.
  assert (HL : len (zero_fill b) = 4 * len b) by apply zero_fill_len. set (l := firstn (Z.to_nat sz) (zero_fill b)).
  assert (LL : len l = sz) by (unfold l, len in *; rewrite firstn_length; lia).
  assert (HBig : 256 ^ (len l - 1) <= bytearray_to_int l).
  { apply no_zero_big; [apply bytes_ok_firstn, zero_fill_ok| |].
    - intros HI. apply (zero_fill_no_zero b). rewrite <- (firstn_skipn (Z.to_nat sz) (zero_fill b)). apply in_or_app. now left.
    - intros E. rewrite E, len_nil in LL. lia. }
  assert (0 < 256 ^ (len l - 1)) by (apply Z.pow_pos_nonneg; lia). lia.
Qed.

Lemma wiped_random sz size o : wiped sz size o -> exists o', random o = (if sz =? 0 then Err seed_error else if steps size =? 0 then Ok [] else Err limit_error, o') /\ wiped sz size o'.
Proof.
  intros Ho. pose proof Ho as [H1 H2 H3 H4 H5 H6 H7]. unfold random. unfold bindM at 1. unfold getM at 1. rewrite (wiped_seed sz size o Ho). destruct (sz =? 0); [eexists; split; [reflexivity | exact Ho]|].
  rewrite H4, H5. fold (whole size). rewrite rest_zero. unfold steps. unfold bindM at 1. change (fun (_ : unit) (result : list Z) => _) with rnd_body. destruct (wiped_iter sz size o Ho) as (o' & E & W).
  destruct (whole size) as [|n] eqn:EQ.
  - cbn [repeat forM]. unfold retM at 1. destruct (Nat.eqb (rest size) 0); cbn [negb]; [exists o; split; [reflexivity | exact Ho]|]. exists o'. unfold bindM at 1. rewrite E. split; [reflexivity | exact W].
  - cbn [repeat forM]. unfold bindM at 1. unfold rnd_body at 1. unfold bindM at 1. rewrite E. exists o'. split; [|exact W].
    replace (Z.of_nat (S n + _) =? 0) with false; [reflexivity|]. symmetry. apply Z.eqb_neq. lia.
Qed.

(** ** Construction and reset *)

Definition sizes_ok (sz : Z) : Prop := 0 <= sz <= 63.
Definition fill (sz : Z) (s : bytes) : bytes := s ++ repeat 0 (Z.to_nat (63 - sz)).

Lemma fill_is sz s : sizes_ok sz -> bytes_ok s -> len s = sz -> fill sz s = be_bytes 63 (start sz s) /\ 0 <= start sz s < register_size.
Proof.
  intros Hz Hs HL. unfold start. rewrite le_value_rev, rev_involutive. pose proof (bytearray_to_int_bound s Hs) as HB. rewrite HL in HB.
  assert (EP : register_size = 256 ^ sz * 256 ^ (63 - sz)) by (rewrite <- Z.pow_add_r by (unfold sizes_ok in Hz; lia); unfold register_size; f_equal; lia).
  assert (P1 : 0 < 256 ^ (63 - sz)) by (apply Z.pow_pos_nonneg; unfold sizes_ok in Hz; lia).
  split; [|nia]. assert (HF : bytes_ok (fill sz s)) by (apply bytes_ok_app; split; [exact Hs|]; apply (bytes_ok_repeat 0 (63 - sz)); unfold byte_ok; lia).
  assert (LF : len (fill sz s) = 63) by (unfold fill; rewrite len_app, HL; unfold len; rewrite repeat_length; unfold sizes_ok in Hz; lia).
  rewrite be_eq. change (Z.of_nat 63) with 63. rewrite <- (of_int_to_int (fill sz s) HF), LF. f_equal. unfold fill. rewrite bytearray_to_int_app.
  unfold len at 1. rewrite repeat_length, Z2Nat.id by (unfold sizes_ok in Hz; lia).
  assert (EZ : bytearray_to_int (repeat 0 (Z.to_nat (63 - sz))) = 0) by (clear; induction (Z.to_nat (63 - sz)) as [|n IH]; [reflexivity|]; cbn [repeat]; rewrite bytearray_to_int_cons, IH; lia).
  rewrite EZ. lia.
Qed.

(** The seed that is used: the argument, or the value of [os.urandom]. *)
Definition seed_of (u : bytes) (k : pyval) : pyval := match k with VBytes [] => VBytes u | _ => k end.

Lemma filling_seed u sz k s : 0 <= sz -> seed_of u k = VBytes s -> len s = sz -> filling u sz k = Ok (s ++ py_repeat 0 (64 - sz - 1)).
Proof.
  intros Hz E HL. unfold filling. destruct k as [[|x k]|str|z|]; cbn [seed_of] in E; try discriminate E; inversion E; subst s.
  - replace (sz <? 0) with false by lia. reflexivity.
  - unfold check_value. rewrite HL, Z.eqb_refl. reflexivity.
Qed.
Lemma filling_fill u sz k s : sizes_ok sz -> seed_of u k = VBytes s -> len s = sz -> filling u sz k = Ok (fill sz s).
Proof. intros Hz E HL. unfold sizes_ok in Hz. rewrite (filling_seed u sz k s) by (assumption || lia). unfold fill, py_repeat. do 3 f_equal. lia. Qed.
Lemma filling_bad u sz k : match k with VBytes [] => False | VBytes s => len s <> sz | _ => True end ->
  filling u sz k = Err (GOSTRandomError "GOSTRandomError: invalid seed value").
Proof.
  intros H. unfold filling, check_value. destruct k as [[|x k]|str|z|]; try contradiction; try reflexivity. replace (len (x :: k) =? sz) with false by lia. reflexivity.
Qed.

(** The object that construction and reset give. *)
Definition fresh (sz size : Z) (s : bytes) : random_obj :=
  {| r_size_s := sz; r_rand_u := fill sz s; r_q := size / 64; r_r := size mod 64; r_limit := 2 ^ ((64 - sz) * 8); r_hash := H0 |}.

Lemma init_fresh u size k sz s : sizes_ok sz -> seed_of u k = VBytes s -> len s = sz -> random_init u size k sz = Ok (fresh sz size s).
Proof.
  intros Hz E HL. unfold random_init. rewrite (filling_fill u sz k s Hz E HL). cbn [bind]. unfold limit_of, _SIZE_M, sizes_ok in *. replace (sz <=? 64) with true by lia. reflexivity.
Qed.

Lemma fresh_is sz size s : sizes_ok sz -> bytes_ok s -> len s = sz -> rnd_is sz size (start sz s) (fresh sz size s).
Proof. intros Hz Hs HL. destruct (fill_is sz s Hz Hs HL) as [E B]. split; try assumption; try reflexivity. Qed.

(** An object in use: with a register, or wiped. *)
Definition in_use (sz size : Z) (o : random_obj) : Prop := (exists u, rnd_is sz size u o) \/ wiped sz size o.

Lemma in_use_attrs sz size o : in_use sz size o -> sizes_ok sz /\ r_size_s o = sz /\ r_q o = size / 64 /\ r_r o = size mod 64 /\ r_limit o = 2 ^ ((64 - sz) * 8) /\ r_hash o = H0.
Proof. intros [(u & [])|[]]; repeat split; try assumption; unfold sizes_ok; lia. Qed.

Lemma reset_fresh u k sz size s o : in_use sz size o -> seed_of u k = VBytes s -> len s = sz -> random_reset u k o = (Ok tt, fresh sz size s).
Proof.
  intros Ho E HL. destruct (in_use_attrs sz size o Ho) as (Hz & H1 & H2 & H3 & H4 & H5). unfold random_reset. unfold bindM at 1. unfold getM at 1. unfold bindM at 1. unfold liftM at 1. rewrite H1, (filling_fill u sz k s Hz E HL).
  unfold bindM at 1. unfold putM at 1. unfold on_hash. cbn [set_rand_u r_hash]. rewrite H5, (fed_reset S512 _ _ H0_fed). unfold set_hash, set_rand_u, fresh. cbn [r_size_s r_rand_u r_q r_r r_limit]. now rewrite H1, H2, H3, H4.
Qed.
Lemma reset_bad u k sz size o : in_use sz size o -> match k with VBytes [] => False | VBytes s => len s <> sz | _ => True end ->
  random_reset u k o = (Err (GOSTRandomError "GOSTRandomError: invalid seed value"), o).
Proof.
  intros Ho H. destruct (in_use_attrs sz size o Ho) as (Hz & H1 & _). unfold random_reset. unfold bindM at 1. unfold getM at 1. unfold bindM at 1. unfold liftM at 1. rewrite H1, filling_bad by exact H. reflexivity.
Qed.

Lemma clear_wiped sz size o : in_use sz size o -> exists o', random_clear o = (Ok tt, o') /\ wiped sz size o'.
Proof.
  intros Ho. destruct (in_use_attrs sz size o Ho) as (Hz & H1 & H2 & H3 & H4 & H5). eexists. split; [reflexivity|].
  split; cbn [set_rand_u r_size_s r_rand_u r_q r_r r_limit r_hash]; try assumption. exists (r_rand_u o). split; [reflexivity|].
  destruct Ho as [(u & Hu)|W]; [rewrite (rn_u _ _ _ _ Hu); unfold len; rewrite be_length; lia | destruct (wi_u _ _ _ W) as (b & -> & HB); rewrite zero_fill_len; lia].
Qed.

(** ** Calls *)

Inductive rcall : Type :=
| RRandom
| RReset (urandom : bytes) (k : pyval)
| RClear.

Definition rmap {A} (f : A -> hres) (p : res A * random_obj) : res hres * random_obj :=
  match p with (Ok a, o) => (Ok (f a), o) | (Err e, o) => (Err e, o) end.
Definition rstep (c : rcall) (o : random_obj) : res hres * random_obj :=
  match c with
  | RRandom => rmap RBytes (random o)
  | RReset u k => rmap (fun _ => RNone) (random_reset u k o)
  | RClear => rmap (fun _ => RNone) (random_clear o)
  end.

(** The byte strings are byte strings, and [os.urandom] returned what was asked for. *)
Definition rcall_ok (sz : Z) (c : rcall) : Prop :=
  match c with RReset u k => bytes_ok u /\ len u = sz /\ varg_ok k | _ => True end.

Lemma seed_cases u k sz : bytes_ok u -> len u = sz -> varg_ok k ->
  (exists s, seed_of u k = VBytes s /\ len s = sz /\ bytes_ok s) \/ (match k with VBytes [] => False | VBytes s => len s <> sz | _ => True end).
Proof.
  intros Hu HL Hk. destruct k as [[|x k]|str|z|]; cbn [seed_of]; try (right; exact I); [left; now exists u|].
  destruct (Z.eq_dec (len (x :: k)) sz) as [E|E]; [left; exists (x :: k); now split | right; exact E].
Qed.

Lemma wiped_random_any sz size o : wiped sz size o -> wiped sz size (snd (random o)).
Proof. intros Ho. destruct (wiped_random sz size o Ho) as (o' & E & W). rewrite E. exact W. Qed.

Lemma snd_rmap {A} (f : A -> hres) (p : res A * random_obj) : snd (rmap f p) = snd p.
Proof. destruct p as [[a|e] o]; reflexivity. Qed.

Lemma step_in_use sz size o c : in_use sz size o -> rcall_ok sz c -> in_use sz size (snd (rstep c o)).
Proof.
  intros Ho Hc. destruct c as [|u k|]; cbn [rstep]; rewrite snd_rmap.
  - destruct Ho as [(u & Hu)|W]; [|right; now apply wiped_random_any]. pose proof (random_is sz size u o Hu) as R. destruct (seed_part sz u =? 0).
    + rewrite R. left. now exists u.
    + destruct R as (o' & E & H). rewrite E. left. eexists. exact H.
  - destruct Hc as (Hu & HL & Hk). destruct (seed_cases u k sz Hu HL Hk) as [(s & E & HS & HB)|H].
    + rewrite (reset_fresh u k sz size s o Ho E HS). left. eexists. apply fresh_is; try assumption. exact (proj1 (in_use_attrs sz size o Ho)).
    + rewrite (reset_bad u k sz size o Ho H). exact Ho.
  - destruct (clear_wiped sz size o Ho) as (o' & E & W). rewrite E. right. exact W.
Qed.
Lemma run_in_use sz size cs : Forall (rcall_ok sz) cs -> forall o, in_use sz size o -> in_use sz size (snd (World.run rstep cs o)).
Proof. induction 1 as [|c cs Hc HF IH]; intros o Ho; [exact Ho|]. rewrite run_cons. cbn [snd]. apply IH. now apply step_in_use. Qed.

(** Construction by [new]. *)
Definition random_made (sz size : Z) (s : bytes) (o : random_obj) : Prop :=
  sizes_ok sz /\ bytes_ok s /\ exists u k, bytes_ok u /\ len u = sz /\ seed_of u k = VBytes s /\ random_new u size (Some k) (Some sz) = Ok o.

Lemma made_fresh sz size s o : random_made sz size s o -> len s = sz /\ o = fresh sz size s /\ rnd_is sz size (start sz s) o.
Proof.
  intros (Hz & Hs & u & k & Hu & HLu & Ek & En). unfold random_new in En.
  assert (HL : len s = sz).
  { destruct k as [[|x k]|str|z|]; cbn [seed_of] in Ek; try discriminate Ek; inversion Ek; subst s; [exact HLu|].
    destruct (Z.eq_dec (len (x :: k)) sz) as [E|E]; [exact E|]. unfold random_init in En. rewrite filling_bad in En by exact E. discriminate En. }
  rewrite (init_fresh u size k sz s Hz Ek HL) in En. split; [exact HL|]. assert (EO : o = fresh sz size s) by congruence. split; [exact EO|]. rewrite EO. now apply fresh_is.
Qed.
Lemma made_in_use sz size s o : random_made sz size s o -> in_use sz size o.
Proof. intros H. left. eexists. exact (proj2 (proj2 (made_fresh sz size s o H))). Qed.

(** ** Lengths *)

Lemma blocks_length u n : forall k, List.length (List.concat (map (fun t => block u (Z.of_nat t)) (seq k n))) = (64 * n)%nat.
Proof.
  induction n as [|n IH]; intros k; [rewrite Nat.mul_0_r; reflexivity|].
  change (seq k (S n)) with (k :: seq (S k) n). rewrite map_cons, List.concat_cons, app_length, IH, (proj1 (block_ok u _)). lia.
Qed.

Lemma output_length u size : 0 <= size -> Z.of_nat (List.length (output u size)) = size.
Proof.
  intros H. unfold output. rewrite app_length. assert (HC : List.length (concat (map (fun t => block u (Z.of_nat t)) (seq 1 (whole size)))) = (64 * whole size)%nat).
  { apply blocks_length. }
  rewrite HC. assert (HM := Z.mod_pos_bound size 64 ltac:(lia)). destruct (Nat.eqb_spec (rest size) 0) as [E|E].
  - cbn [List.length]. unfold whole, rest in *. lia.
  - rewrite skipn_length, (proj1 (block_ok u (Z.of_nat (S (whole size))))). unfold whole, rest in *. lia.
Qed.
Lemma output_ok u size : bytes_ok (output u size).
Proof.
  unfold output. apply bytes_ok_app. split.
  - unfold bytes_ok. apply Forall_concat. apply Forall_forall. intros x Hx. apply in_map_iff in Hx as (t & <- & _). apply block_ok.
  - destruct (Nat.eqb _ 0); [apply bytes_ok_nil | apply bytes_ok_skipn, block_ok].
Qed.

Opaque output.

(** ** Several calls in a row *)

(** The register after [i] calls. *)
Lemma calls_is sz size n : 0 <= sz <= 63 -> forall u o, rnd_is sz size u o -> 0 < seed_part sz u -> u + Z.of_nat n * steps size < register_size ->
  fst (World.run rstep (repeat RRandom n) o) = map (fun i => Ok (RBytes (output (u + Z.of_nat i * steps size) size))) (seq 0 n) /\
  rnd_is sz size (u + Z.of_nat n * steps size) (snd (World.run rstep (repeat RRandom n) o)).
Proof.
  intros Hz. assert (HS : 0 <= steps size) by (unfold steps; lia). induction n as [|n IH]; intros u o Ho Hseed Hmax.
  - cbn [repeat World.run seq map fst snd]. split; [reflexivity|]. rewrite Z.mul_0_l, Z.add_0_r. exact Ho.
  - cbn [repeat]. rewrite run_cons. cbn [fst snd]. pose proof (random_is sz size u o Ho) as R. replace (seed_part sz u =? 0) with false in R by lia. destruct R as (o1 & E & H1).
    cbn [rstep]. rewrite E. cbn [rmap fst snd]. pose proof (rn_bound _ _ _ _ Ho) as HB. rewrite Z.mod_small in H1 by nia.
    assert (Hs1 : 0 < seed_part sz (u + steps size)).
    { unfold seed_part in *. assert (P : 0 < 256 ^ (63 - sz)) by (apply Z.pow_pos_nonneg; lia). apply Z.lt_le_trans with (1 := Hseed). apply Z.div_le_mono; lia. }
    destruct (IH (u + steps size) o1 H1 Hs1 ltac:(nia)) as [R2 H2]. split.
    + rewrite R2. change (seq 0 (S n)) with (0%nat :: seq 1 n). rewrite map_cons. change (Z.of_nat 0) with 0. rewrite Z.mul_0_l, Z.add_0_r. apply (f_equal (cons _)).
      rewrite <- seq_shift, map_map. apply map_ext. intros i. replace (u + steps size + Z.of_nat i * steps size) with (u + Z.of_nat (S i) * steps size) by lia. reflexivity.
    + replace (u + Z.of_nat (S n) * steps size) with (u + steps size + Z.of_nat n * steps size) by lia. exact H2.
Qed.

(** ** Every history: what each call returns, from the register alone *)

(** The state of the generator of the specification: the register, or nothing after [clear]. *)
Definition gen_step (sz size : Z) (c : rcall) (st : option Z) : res hres * option Z :=
  match c with
  | RRandom =>
      match st with
      | Some u => if seed_part sz u =? 0 then (Err seed_error, st) else (Ok (RBytes (output u size)), Some ((u + steps size) mod register_size))
      | None => (if sz =? 0 then Err seed_error else if steps size =? 0 then Ok (RBytes []) else Err limit_error, None)
      end
  | RReset u k =>
      match k with
      | VBytes [] => (Ok RNone, Some (start sz u))
      | VBytes s => if len s =? sz then (Ok RNone, Some (start sz s)) else (Err value_error, st)
      | _ => (Err value_error, st)
      end
  | RClear => (Ok RNone, None)
  end.

Definition gen_is (sz size : Z) (st : option Z) (o : random_obj) : Prop :=
  match st with Some u => rnd_is sz size u o | None => wiped sz size o end.
Lemma gen_in_use sz size st o : gen_is sz size st o -> in_use sz size o.
Proof. destruct st as [u|]; intros H; [left; now exists u | right; exact H]. Qed.


Lemma gen_step_is sz size st o c : gen_is sz size st o -> rcall_ok sz c ->
  fst (rstep c o) = fst (gen_step sz size c st) /\ gen_is sz size (snd (gen_step sz size c st)) (snd (rstep c o)).
Proof.
  intros Ho Hc. pose proof (gen_in_use sz size st o Ho) as Hu. destruct (in_use_attrs sz size o Hu) as (Hz & _). destruct c as [|u k|]; cbn [rstep gen_step].
  - destruct st as [u|].
    + pose proof (random_is sz size u o Ho) as R. destruct (seed_part sz u =? 0).
      * rewrite R. split; [reflexivity | exact Ho].
      * destruct R as (o' & E & H). rewrite E. split; [reflexivity | exact H].
    + destruct (wiped_random sz size o Ho) as (o' & E & W). rewrite E. destruct (sz =? 0); [split; [reflexivity | exact W]|]. destruct (steps size =? 0); split; try reflexivity; exact W.
  - destruct Hc as (HB & HL & Hk). assert (OK : forall s, bytes_ok s -> seed_of u k = VBytes s -> len s = sz ->
      fst (rmap (fun _ => RNone) (random_reset u k o)) = Ok RNone /\ gen_is sz size (Some (start sz s)) (snd (rmap (fun _ => RNone) (random_reset u k o)))).
    { intros s Hs E HS. rewrite (reset_fresh u k sz size s o Hu E HS). split; [reflexivity | now apply fresh_is]. }
    assert (BAD : match k with VBytes [] => False | VBytes s => len s <> sz | _ => True end ->
      fst (rmap (fun _ => RNone) (random_reset u k o)) = Err value_error /\ gen_is sz size st (snd (rmap (fun _ => RNone) (random_reset u k o)))).
    { intros H. rewrite (reset_bad u k sz size o Hu H). split; [reflexivity | exact Ho]. }
    destruct k as [[|x k]|str|z|]; cbn [fst snd]; try (apply BAD; exact I); [apply OK; [exact HB | reflexivity | exact HL]|].
    destruct (Z.eqb_spec (len (x :: k)) sz) as [E|E]; cbn [fst snd]; [apply OK; [exact Hk | reflexivity | exact E] | apply BAD; exact E].
  - destruct (clear_wiped sz size o Hu) as (o' & E & W). rewrite E. split; [reflexivity | exact W].
Qed.

Lemma gen_run_is sz size cs : Forall (rcall_ok sz) cs -> forall st o, gen_is sz size st o ->
  fst (World.run rstep cs o) = fst (World.run (gen_step sz size) cs st) /\ gen_is sz size (snd (World.run (gen_step sz size) cs st)) (snd (World.run rstep cs o)).
Proof.
  induction 1 as [|c cs Hc HF IH]; intros st o Ho; [split; [reflexivity | exact Ho]|]. rewrite !run_cons. cbn [fst snd].
  destruct (gen_step_is sz size st o c Ho Hc) as [E H]. destruct (IH _ _ H) as [E2 H2]. rewrite E, E2. split; [reflexivity | exact H2].
Qed.
