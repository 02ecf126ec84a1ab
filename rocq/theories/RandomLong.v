(** * The generator with a seed of 63 bytes or more *)
From Verif Require Import PyBase PyState PyFacts Utils UtilsFacts Streebog SpecStreebog SpecHashHist StreebogFacts StreebogFacts2 StreebogObj StreebogLemmas StreebogProps HmacLemmas World Random SpecRandom RandomLemmas.
Open Scope string_scope.
Open Scope list_scope.
Open Scope Z_scope.

Definition last_bytes (n : nat) (s : bytes) : bytes := skipn (List.length s - n) s.

Record long (sz : Z) (o : random_obj) : Prop := {
  lo_range : 63 <= sz <= 198;
  lo_size : r_size_s o = sz;
  lo_limit : 1 <= r_limit o <= 256;
  lo_hash : r_hash o = H0
}.
Definition holds (sz v : Z) (o : random_obj) : Prop :=
  bytes_ok (r_rand_u o) /\ len (r_rand_u o) <= sz /\ bytearray_to_int (r_rand_u o) = v.
Definition erased (o : random_obj) : Prop := exists b, r_rand_u o = zero_fill b /\ 63 <= len b.

Lemma from_all (l : bytes) sz : 0 <= sz -> len l <= sz -> py_from l sz = [].
Proof. intros H1 H2. rewrite py_from_skipn by lia. apply skipn_all2. unfold len in H2. lia. Qed.
Lemma upto_all (l : bytes) sz : 0 <= sz -> len l <= sz -> py_upto l sz = l.
Proof. intros H1 H2. rewrite py_upto_firstn by lia. apply firstn_all2. unfold len in H2. lia. Qed.

Lemma holds_iter sz v o : long sz o -> holds sz v o ->
  exists o', _rand_iter o = (Ok (block (v mod register_size) 1), o') /\ long sz o' /\ holds sz ((v + 1) mod register_size) o' /\ r_q o' = r_q o /\ r_r o' = r_r o.
Proof.
  intros [L1 L2 L3 L4] (B1 & B2 & B3). unfold _rand_iter. unfold bindM at 1. unfold getM at 1. rewrite L2, from_all by lia.
  change (bytearray_to_int []) with 0. replace (0 >=? r_limit o) with false by lia.
  unfold bindM at 1. unfold _inc_rand_u. unfold bindM at 1. unfold getM at 1. unfold putM at 1. rewrite B3.
  change (1 mod 2 ^ (_SIZE_M - 1)) with 1. change (_SIZE_M - 1) with (Z.of_nat 63). rewrite <- be_eq.
  unfold bindM at 1. unfold getM at 1. unfold bindM at 1. unfold on_hash at 1. cbn [set_rand_u r_rand_u r_hash]. rewrite L4.
  destruct (fed_update S512 [] H0 (be_bytes 63 (v + 1)) H0_fed (be_ok _ _)) as (h & E & F). rewrite E.
  unfold bindM at 1. unfold on_hash at 1. cbn [set_hash r_hash]. rewrite (fed_digest S512 _ _ F). cbn [app]. rewrite one_effective.
  unfold bindM at 1. unfold on_hash at 1. cbn [set_hash r_hash]. rewrite (fed_reset S512 _ _ F). eexists. split; [unfold retM; rewrite block_eq; rewrite Zplus_mod_idemp_l, be_mod; reflexivity|]. split; [|split; [|split; reflexivity]].
  - split; cbn [set_hash set_rand_u r_size_s r_limit r_hash]; try assumption. reflexivity.
  - unfold holds. cbn [set_hash set_rand_u r_rand_u]. split; [apply be_ok|]. split; [unfold len; rewrite be_length; lia|].
    rewrite <- be_mod. apply be_value. apply Z.mod_pos_bound, register_pos.
Qed.

Lemma erased_big sz o : long sz o -> erased o ->
  256 <= bytearray_to_int (py_from (r_rand_u o) sz) /\ bytearray_to_int (py_upto (r_rand_u o) sz) <> 0.
Proof.
  intros [L1 L2 L3 L4] (b & Eb & HB). assert (HL : len (zero_fill b) = 4 * len b) by apply zero_fill_len. rewrite Eb, py_from_skipn, py_upto_firstn by lia. split.
  - set (l := skipn (Z.to_nat sz) (zero_fill b)). assert (LL : len l = 4 * len b - sz) by (unfold l, len in *; rewrite skipn_length; lia).
    assert (HBig : 256 ^ (len l - 1) <= bytearray_to_int l).
    { apply no_zero_big; [apply bytes_ok_skipn, zero_fill_ok| |].
      - intros HI. apply (zero_fill_no_zero b). rewrite <- (firstn_skipn (Z.to_nat sz) (zero_fill b)). apply in_or_app. now right.
      - intros E. rewrite E, len_nil in LL. lia. }
    assert (HP : 256 ^ 1 <= 256 ^ (len l - 1)) by (apply Z.pow_le_mono_r; lia). lia.
  - set (l := firstn (Z.to_nat sz) (zero_fill b)). assert (LL : len l = sz) by (unfold l, len in *; rewrite firstn_length; lia).
    assert (HBig : 256 ^ (len l - 1) <= bytearray_to_int l).
    { apply no_zero_big; [apply bytes_ok_firstn, zero_fill_ok| |].
      - intros HI. apply (zero_fill_no_zero b). rewrite <- (firstn_skipn (Z.to_nat sz) (zero_fill b)). apply in_or_app. now left.
      - intros E. rewrite E, len_nil in LL. lia. }
    assert (0 < 256 ^ (len l - 1)) by (apply Z.pow_pos_nonneg; lia). lia.
Qed.

Lemma erased_iter sz o : long sz o -> erased o ->
  exists o', _rand_iter o = (Err limit_error, o') /\ long sz o' /\ erased o' /\ r_q o' = r_q o /\ r_r o' = r_r o.
Proof.
  intros L W. pose proof (proj1 (erased_big sz o L W)) as HB. destruct L as [L1 L2 L3 L4]. unfold _rand_iter. unfold bindM at 1. unfold getM at 1. rewrite L2.
  replace (bytearray_to_int (py_from (r_rand_u o) sz) >=? r_limit o) with true by (symmetry; apply Z.geb_le; lia).
  unfold bindM, putM, raiseM. eexists. split; [reflexivity|]. split; [split; cbn; assumption|]. split; [|split; reflexivity].
  exists (r_rand_u o). split; [reflexivity|]. destruct W as (b & -> & Hb). rewrite zero_fill_len. lia.
Qed.

(** ** Two generators side by side *)
Definition sim (sz1 sz2 : Z) (o1 o2 : random_obj) : Prop :=
  long sz1 o1 /\ long sz2 o2 /\ r_q o1 = r_q o2 /\ r_r o1 = r_r o2 /\
  ((exists v1 v2, holds sz1 v1 o1 /\ holds sz2 v2 o2 /\ v1 mod register_size = v2 mod register_size /\ (v1 = 0 <-> v2 = 0)) \/ (erased o1 /\ erased o2)).
Definition same {A} (sz1 sz2 : Z) (c1 c2 : res A * random_obj) : Prop := fst c1 = fst c2 /\ sim sz1 sz2 (snd c1) (snd c2).

Lemma sim_iter sz1 sz2 o1 o2 : sim sz1 sz2 o1 o2 -> same sz1 sz2 (_rand_iter o1) (_rand_iter o2).
Proof.
  intros (L1 & L2 & Q & R & [(v1 & v2 & H1 & H2 & E & Z0)|[W1 W2]]).
  - destruct (holds_iter sz1 v1 o1 L1 H1) as (o1' & -> & L1' & H1' & Q1 & R1). destruct (holds_iter sz2 v2 o2 L2 H2) as (o2' & -> & L2' & H2' & Q2 & R2).
    split; cbn [fst snd]; [now rewrite E|]. repeat (split; [assumption || congruence|]). left.
    assert (EV : (v1 + 1) mod register_size = (v2 + 1) mod register_size) by (rewrite <- (Zplus_mod_idemp_l v1), E, Zplus_mod_idemp_l; reflexivity).
    eexists _, _. split; [exact H1'|]. split; [exact H2'|]. rewrite EV. split; [reflexivity | tauto].
  - destruct (erased_iter sz1 o1 L1 W1) as (o1' & -> & L1' & H1' & Q1 & R1). destruct (erased_iter sz2 o2 L2 W2) as (o2' & -> & L2' & H2' & Q2 & R2).
    split; cbn [fst snd]; [reflexivity|]. repeat (split; [assumption || congruence|]). now right.
Qed.

Lemma sim_bind {A B} sz1 sz2 (c : M random_obj A) (k : A -> M random_obj B) o1 o2 : same sz1 sz2 (c o1) (c o2) ->
  (forall a s1 s2, sim sz1 sz2 s1 s2 -> same sz1 sz2 (k a s1) (k a s2)) -> same sz1 sz2 (bindM c k o1) (bindM c k o2).
Proof.
  intros [E H] HK. unfold bindM. destruct (c o1) as [r1 s1], (c o2) as [r2 s2]. cbn [fst snd] in *. subst r2. destruct r1 as [a|e]; [now apply HK | now split].
Qed.
Lemma sim_forM {X A} sz1 sz2 (l : list X) (f : X -> A -> M random_obj A) : (forall x a s1 s2, sim sz1 sz2 s1 s2 -> same sz1 sz2 (f x a s1) (f x a s2)) ->
  forall a o1 o2, sim sz1 sz2 o1 o2 -> same sz1 sz2 (forM l a f o1) (forM l a f o2).
Proof.
  intros HF. induction l as [|x l IH]; intros a o1 o2 H; cbn [forM]; [now split|]. apply sim_bind; [now apply HF|]. intros b s1 s2 Hs. now apply IH.
Qed.

Lemma holds_zero sz v o : long sz o -> holds sz v o -> (bytearray_to_int (py_upto (r_rand_u o) (r_size_s o)) =? 0) = (v =? 0).
Proof. intros [L1 L2 L3 L4] (B1 & B2 & B3). rewrite L2, upto_all, B3 by lia. reflexivity. Qed.

Lemma bind_get {S B} (k : S -> M S B) o : bindM getM k o = k o o.
Proof. reflexivity. Qed.
Lemma sim_random sz1 sz2 o1 o2 : sim sz1 sz2 o1 o2 -> same sz1 sz2 (random o1) (random o2).
Proof.
  intros H. pose proof H as (L1 & L2 & Q & R & HV). unfold random.
  assert (EZ : (bytearray_to_int (py_upto (r_rand_u o1) (r_size_s o1)) =? 0) = (bytearray_to_int (py_upto (r_rand_u o2) (r_size_s o2)) =? 0)).
  { destruct HV as [(v1 & v2 & H1 & H2 & _ & Z0)|[W1 W2]].
    - rewrite (holds_zero sz1 v1 o1 L1 H1), (holds_zero sz2 v2 o2 L2 H2). lia.
    - pose proof (proj2 (erased_big sz1 o1 L1 W1)). pose proof (proj2 (erased_big sz2 o2 L2 W2)). rewrite (lo_size _ _ L1), (lo_size _ _ L2). lia. }
  rewrite !bind_get. rewrite EZ, Q, R. destruct (bytearray_to_int (py_upto (r_rand_u o2) (r_size_s o2)) =? 0); [split; [reflexivity | exact H]|].
  apply sim_bind.
  - apply sim_forM; [|exact H]. intros x a s1 s2 Hs. apply sim_bind; [now apply sim_iter|]. intros b t1 t2 Ht. split; [reflexivity | exact Ht].
  - intros a s1 s2 Hs. destruct (negb _); [|split; [reflexivity | exact Hs]]. apply sim_bind; [now apply sim_iter|]. intros b t1 t2 Ht. split; [reflexivity | exact Ht].
Qed.

Lemma sim_clear sz1 sz2 o1 o2 : sim sz1 sz2 o1 o2 -> 63 <= len (r_rand_u o1) -> 63 <= len (r_rand_u o2) -> same sz1 sz2 (random_clear o1) (random_clear o2).
Proof.
  intros ([A1 A2 A3 A4] & [B1 B2 B3 B4] & Q & R & HV) N1 N2. split; [reflexivity|]. unfold random_clear, bindM, getM, putM. cbn [snd].
  split; [split; cbn; assumption|]. split; [split; cbn; assumption|]. split; [exact Q|]. split; [exact R|]. right. split; unfold erased; cbn [set_rand_u r_rand_u]; eexists; split; eauto.
Qed.

(** The register never becomes shorter than 63 bytes. *)
Definition sim' (sz1 sz2 : Z) (o1 o2 : random_obj) : Prop := sim sz1 sz2 o1 o2 /\ 63 <= len (r_rand_u o1) /\ 63 <= len (r_rand_u o2).
Lemma iter_len o : 63 <= len (r_rand_u o) -> 63 <= len (r_rand_u (snd (_rand_iter o))).
Proof.
  intros H. unfold _rand_iter. unfold bindM at 1. unfold getM at 1. destruct (_ >=? _).
  - unfold bindM, putM, raiseM. cbn [snd set_rand_u r_rand_u]. rewrite zero_fill_len. lia.
  - unfold bindM at 1. unfold _inc_rand_u. unfold bindM at 1. unfold getM at 1. unfold putM at 1. unfold bindM at 1. unfold getM at 1. change (_SIZE_M - 1) with 63.
    set (s := set_rand_u o _). assert (HS : len (r_rand_u s) = 63) by (unfold s; cbn [set_rand_u r_rand_u]; rewrite int_to_bytearray_len; lia). clearbody s.
    assert (OH : forall A (c : M hash_obj A) t, r_rand_u (snd (on_hash c t)) = r_rand_u t) by (intros A c t; unfold on_hash; now destruct (c (r_hash t))).
    unfold bindM at 1. pose proof (OH _ (hash_update (VBytes (r_rand_u s))) s) as E1. destruct (on_hash _ s) as [[x|e] s1]; cbn [snd] in *; [|rewrite E1; lia].
    unfold bindM at 1. pose proof (OH _ hash_digest s1) as E2. destruct (on_hash _ s1) as [[y|e] s2]; cbn [snd] in *; [|rewrite E2, E1; lia].
    unfold bindM at 1. pose proof (OH _ hash_reset s2) as E3. destruct (on_hash _ s2) as [[z|e] s3]; cbn [snd retM] in *; rewrite E3, E2, E1; lia.
Qed.
Lemma forM_len l : forall a o, 63 <= len (r_rand_u o) -> 63 <= len (r_rand_u (snd (forM l a rnd_body o))).
Proof.
  induction l as [|x l IH]; intros a o H; cbn [forM]; [exact H|]. unfold bindM at 1. unfold rnd_body at 1. unfold bindM at 1. pose proof (iter_len o H) as HI.
  destruct (_rand_iter o) as [[b|e] s]; cbn [snd] in HI; [|exact HI]. unfold retM at 1. now apply IH.
Qed.
Lemma random_len o : 63 <= len (r_rand_u o) -> 63 <= len (r_rand_u (snd (random o))).
Proof.
  intros H. unfold random. unfold bindM at 1. unfold getM at 1. destruct (_ =? 0); [exact H|]. unfold bindM at 1. change (fun (_ : unit) (result : list Z) => _) with rnd_body.
  pose proof (forM_len (repeat tt (Z.to_nat (r_q o))) [] o H) as HF. destruct (forM _ _ _ o) as [[b|e] s]; cbn [snd] in HF; [|exact HF]. destruct (negb _); [|exact HF].
  unfold bindM at 1. pose proof (iter_len s HF) as HI. destruct (_rand_iter s) as [[c|e] s']; exact HI.
Qed.

Definition no_rreset (c : rcall) : Prop := match c with RReset _ _ => False | _ => True end.
Lemma sim_step sz1 sz2 o1 o2 c : no_rreset c -> sim' sz1 sz2 o1 o2 -> fst (rstep c o1) = fst (rstep c o2) /\ sim' sz1 sz2 (snd (rstep c o1)) (snd (rstep c o2)).
Proof.
  intros Hc (H & N1 & N2). destruct c as [|u k|]; [| contradiction |]; cbn [rstep]; rewrite !snd_rmap.
  - destruct (sim_random _ _ _ _ H) as [E HS]. pose proof (random_len o1 N1). pose proof (random_len o2 N2). split; [|now split].
    destruct (random o1) as [[a|e] s1], (random o2) as [[a'|e'] s2]; cbn in *; congruence.
  - destruct (sim_clear _ _ _ _ H N1 N2) as [E HS]. split; [reflexivity|]. split; [exact HS|]. unfold random_clear, bindM, getM, putM. cbn [snd set_rand_u r_rand_u]. rewrite !zero_fill_len. lia.
Qed.
Lemma sim_run sz1 sz2 cs : Forall no_rreset cs -> forall o1 o2, sim' sz1 sz2 o1 o2 -> fst (World.run rstep cs o1) = fst (World.run rstep cs o2).
Proof.
  induction 1 as [|c cs Hc HF IH]; intros o1 o2 H; [reflexivity|]. rewrite !run_cons. cbn [fst]. destruct (sim_step _ _ _ _ c Hc H) as [E HS]. rewrite E. f_equal. now apply IH.
Qed.

(** ** Construction *)
Lemma limit_long sz : 63 <= sz <= 198 -> 1 <= limit_of sz <= 256.
Proof.
  intros H. unfold limit_of, _SIZE_M. destruct (sz <=? 64) eqn:E; [assert (sz = 63 \/ sz = 64) as [-> | ->] by lia; vm_compute; split; discriminate|].
  replace ((sz - 64) * 8 <=? 1074) with true by lia. lia.
Qed.
Lemma long_init u size s sz : 63 <= sz <= 198 -> len s = sz -> s <> [] ->
  random_new u size (Some (VBytes s)) (Some sz) = Ok {| r_size_s := sz; r_rand_u := s; r_q := size / 64; r_r := size mod 64; r_limit := limit_of sz; r_hash := H0 |}.
Proof.
  intros Hz HL Hne. unfold random_new, random_init. rewrite (filling_seed u sz (VBytes s) s) by first [lia | destruct s; [contradiction | reflexivity]].
  cbn [bind]. unfold py_repeat. replace (Z.to_nat (64 - sz - 1)) with 0%nat by lia. cbn [repeat]. rewrite app_nil_r. reflexivity.
Qed.
Lemma last_value s : bytes_ok s -> 63 <= len s -> bytearray_to_int s mod register_size = bytearray_to_int (last_bytes 63 s).
Proof.
  intros Hs HL. unfold last_bytes. destruct (split_value s (List.length s - 63) Hs ltac:(lia)) as [_ E]. rewrite E, register_eq. do 2 f_equal. unfold len in HL. lia.
Qed.
Lemma value_nonzero s : bytes_ok s -> ~ Forall (fun x => x = 0) s -> bytearray_to_int s <> 0.
Proof.
  intros Hs N E. apply N. clear N. revert E. induction s as [|x s IH]; intros E; [constructor|]. apply bytes_ok_cons in Hs as [Hx Hs].
  rewrite bytearray_to_int_cons in E. pose proof (bytearray_to_int_bound s Hs) as HB. assert (HP : 0 < 256 ^ len s) by (apply Z.pow_pos_nonneg; [lia | apply len_nonneg]). unfold byte_ok in Hx.
  assert (x = 0) by nia. subst x. constructor; [reflexivity|]. apply IH; [exact Hs | lia].
Qed.

Lemma long_seeds u1 u2 size sz1 sz2 s1 s2 o1 o2 cs : 63 <= sz1 <= 198 -> 63 <= sz2 <= 198 -> bytes_ok s1 -> bytes_ok s2 -> len s1 = sz1 -> len s2 = sz2 ->
  ~ Forall (fun x => x = 0) s1 -> ~ Forall (fun x => x = 0) s2 -> last_bytes 63 s1 = last_bytes 63 s2 ->
  random_new u1 size (Some (VBytes s1)) (Some sz1) = Ok o1 -> random_new u2 size (Some (VBytes s2)) (Some sz2) = Ok o2 -> Forall no_rreset cs ->
  fst (World.run rstep cs o1) = fst (World.run rstep cs o2).
Proof.
  intros Z1 Z2 B1 B2 L1 L2 N1 N2 E E1 E2 HF.
  assert (X1 : s1 <> []) by (intros ->; rewrite len_nil in L1; lia). assert (X2 : s2 <> []) by (intros ->; rewrite len_nil in L2; lia).
  rewrite (long_init u1 size s1 sz1 Z1 L1 X1) in E1. rewrite (long_init u2 size s2 sz2 Z2 L2 X2) in E2. 
  assert (HI : forall a b : random_obj, Ok a = Ok b -> a = b) by congruence. apply HI in E1, E2. subst o1 o2. apply (sim_run sz1 sz2 cs HF). split; [|cbn [r_rand_u]; lia].
  split; [split; cbn [r_size_s r_limit r_hash]; [exact Z1 | reflexivity | now apply limit_long | reflexivity]|].
  split; [split; cbn [r_size_s r_limit r_hash]; [exact Z2 | reflexivity | now apply limit_long | reflexivity]|]. split; [reflexivity|]. split; [reflexivity|]. left.
  exists (bytearray_to_int s1), (bytearray_to_int s2). split; [split; [exact B1|]; split; [cbn [r_rand_u]; lia | reflexivity]|]. split; [split; [exact B2|]; split; [cbn [r_rand_u]; lia | reflexivity]|].
  split; [rewrite !last_value by (assumption || lia); now rewrite E|]. pose proof (value_nonzero s1 B1 N1). pose proof (value_nonzero s2 B2 N2). tauto.
Qed.

(** From 199 bytes on the limit is 0.0. *)
Lemma too_long u size sz s : 199 <= sz -> 1 <= size -> bytes_ok s -> len s = sz -> ~ Forall (fun x => x = 0) s ->
  exists o, random_new u size (Some (VBytes s)) (Some sz) = Ok o /\ fst (random o) = Err limit_error.
Proof.
  intros Hz Hsz Hs HL N. assert (X : s <> []) by (intros ->; rewrite len_nil in HL; lia).
  unfold random_new, random_init. rewrite (filling_seed u sz (VBytes s) s) by first [lia | destruct s; [contradiction | reflexivity]]. cbn [bind]. eexists. split; [reflexivity|].
  unfold py_repeat. replace (Z.to_nat (64 - sz - 1)) with 0%nat by lia. cbn [repeat]. rewrite app_nil_r.
  unfold random. unfold bindM at 1. unfold getM at 1. cbn [r_rand_u r_size_s r_q r_r]. rewrite upto_all by lia. replace (bytearray_to_int s =? 0) with false by (symmetry; apply Z.eqb_neq; now apply value_nonzero).
  assert (IT : forall o, r_limit o = 0 -> bytes_ok (r_rand_u o) -> fst (_rand_iter o) = Err limit_error).
  { intros o Lo Bo. unfold _rand_iter, bindM, getM. rewrite Lo. replace (_ >=? 0) with true; [reflexivity|]. symmetry. apply Z.geb_le.
    unfold py_from. apply bytearray_to_int_bound. apply bytes_ok_skipn, Bo. }
  unfold limit_of, _SIZE_M. replace (sz <=? 64) with false by lia. replace ((sz - 64) * 8 <=? 1074) with false by lia. change _SIZE_H with 64.
  set (o := {| r_size_s := sz; r_rand_u := s; r_q := size / 64; r_r := size mod 64; r_limit := 0; r_hash := _ |}). specialize (IT o eq_refl Hs). unfold bindM at 1. change (fun (_ : unit) (result : list Z) => _) with rnd_body.
  destruct (Z.to_nat (size / 64)) as [|n] eqn:EQ; cbn [repeat forM].
  - unfold retM at 1. assert (size mod 64 <> 0) by (pose proof (Z.div_mod size 64 ltac:(lia)); pose proof (Z.mod_pos_bound size 64 ltac:(lia)); intros E0; assert (0 <= size / 64) by (apply Z.div_pos; lia); lia).
    replace (size mod 64 =? 0) with false by lia. cbn [negb]. unfold bindM. destruct (_rand_iter o) as [[b|e] s']; cbn [fst] in IT; [discriminate IT | exact IT].
  - unfold rnd_body at 1. unfold bindM at 1 2. destruct (_rand_iter o) as [[b|e] s']; cbn [fst] in IT; [discriminate IT | exact IT].
Qed.
