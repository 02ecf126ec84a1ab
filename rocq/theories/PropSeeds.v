(** * Property C145: generators with different seeds *)
From Verif Require Import PyBase PyState PyFacts Utils UtilsFacts Streebog SpecStreebog StreebogFacts StreebogLemmas StreebogProps World Random SpecRandom RandomLemmas PropRandom.
Open Scope string_scope.
Open Scope list_scope.
Open Scope Z_scope.

Lemma value_bound s : bytes_ok s -> 0 <= le_value (rev s) < 256 ^ len s.
Proof. intros Hs. rewrite le_value_rev, rev_involutive. now apply bytearray_to_int_bound. Qed.
Lemma value_inj s s' : bytes_ok s -> bytes_ok s' -> len s = len s' -> le_value (rev s) = le_value (rev s') -> s = s'.
Proof.
  intros Hs Hs' HL E. rewrite !le_value_rev, !rev_involutive in E. rewrite <- (of_int_to_int s Hs), <- (of_int_to_int s' Hs'). now rewrite E, HL.
Qed.
Lemma value_zeros s k : bytes_ok s -> le_value (rev (s ++ repeat 0 k)) = le_value (rev s) * 256 ^ Z.of_nat k.
Proof.
  intros Hs. rewrite !le_value_rev, !rev_involutive. rewrite bytearray_to_int_app. replace (bytearray_to_int (repeat 0 k)) with 0.
  - rewrite Z.add_0_r. f_equal. f_equal. unfold len. now rewrite repeat_length.
  - symmetry. induction k as [|k IH]; [reflexivity|]. cbn [repeat]. rewrite bytearray_to_int_cons, IH. lia.
Qed.

Lemma seq_from j n : seq j n = map (fun i => (j + i)%nat) (seq 0 n).
Proof. revert j; induction n as [|n IH]; intros j; [reflexivity|]. cbn [seq map]. f_equal; [lia|]. rewrite IH, <- (seq_shift n 0), map_map. apply map_ext. intros; lia. Qed.

Lemma same_part P W v v' t t' : 0 < P -> 0 <= v < W -> 0 <= v' < W -> Z.of_nat t < P -> Z.of_nat t' < P ->
  (v * P + Z.of_nat t) mod (W * P) = (v' * P + Z.of_nat t') mod (W * P) -> v = v'.
Proof.
  intros HP Hv Hv' Ht Ht' E. assert (G : forall x y, 0 <= x < W -> (Z.of_nat y) < P -> 0 <= x * P + Z.of_nat y < W * P).
  { intros x y Hx Hy. split; [apply Z.add_nonneg_nonneg; [apply Z.mul_nonneg_nonneg; lia | lia]|]. assert ((x + 1) * P <= W * P) by (apply Z.mul_le_mono_nonneg_r; lia). lia. }
  rewrite (Z.mod_small _ _ (G v t Hv Ht)), (Z.mod_small _ _ (G v' t' Hv' Ht')) in E. apply (f_equal (fun x => x / P)) in E. rewrite (Z.add_comm (v * P)), (Z.add_comm (v' * P)), !Z.div_add, !Z.div_small in E by lia. lia.
Qed.

(** What two generators with different seeds of one size hash is different, as long as the counter has not carried into the seed. *)
Theorem C145_disjoint : forall sz size size' s s' o o' t t', random_made sz size s o -> random_made sz size' s' o' -> s <> s' ->
  Z.of_nat t < 256 ^ (63 - sz) -> Z.of_nat t' < 256 ^ (63 - sz) ->
  r_rand_u (after_iters t o) <> r_rand_u (after_iters t' o').
Proof.
  intros sz size size' s s' o o' t t' Hm Hm' Hd Ht Ht' E. destruct (made_fresh sz size s o Hm) as (HL & _ & Ho). destruct (made_fresh sz size' s' o' Hm') as (HL' & _ & Ho'). pose proof Hm as (Hz & Hs & _). pose proof Hm' as (_ & Hs' & _).
  pose proof (after_iters_is _ _ _ _ t Ho) as A. pose proof (after_iters_is _ _ _ _ t' Ho') as A'. rewrite (rn_u _ _ _ _ A), (rn_u _ _ _ _ A') in E.
  apply (f_equal bytearray_to_int) in E. rewrite !be_value in E by (apply Z.mod_pos_bound, register_pos).
  assert (HP : 0 < 256 ^ (63 - sz)) by (apply Z.pow_pos_nonneg; unfold sizes_ok in Hz; lia).
  assert (HR : register_size = 256 ^ sz * 256 ^ (63 - sz)) by (unfold register_size; rewrite <- Z.pow_add_r by (unfold sizes_ok in Hz; lia); f_equal; lia).
  pose proof (value_bound s Hs) as B. pose proof (value_bound s' Hs') as B'. rewrite HL in B. rewrite HL' in B'. unfold start in E.
  apply Hd. apply value_inj; [exact Hs | exact Hs' | rewrite HL, HL'; reflexivity|]. rewrite HR in E. exact (same_part _ _ _ _ _ _ HP B B' Ht Ht' E).
Qed.
Print Assumptions C145_disjoint.

(** A seed followed by zeros is the same seed. *)
Theorem C145_longer : forall sz k size s o o' n, random_made sz size s o -> random_made (sz + Z.of_nat k) size (s ++ repeat 0 k) o' -> ~ Forall (fun x => x = 0) s ->
  start sz s + Z.of_nat n * steps size < register_size ->
  fst (World.run rstep (repeat RRandom n) o') = fst (World.run rstep (repeat RRandom n) o).
Proof.
  intros sz k size s o o' n Hm Hm' N HR. pose proof Hm as (Hz & Hs & _). pose proof Hm' as (Hz' & _).
  assert (ES : start (sz + Z.of_nat k) (s ++ repeat 0 k) = start sz s).
  { unfold start. rewrite value_zeros by exact Hs. rewrite <- Z.mul_assoc, <- Z.pow_add_r by (unfold sizes_ok in *; lia). f_equal. f_equal. lia. }
  rewrite (C72_stream _ _ _ _ n Hm N HR). rewrite (C72_stream _ _ _ _ n Hm'); [now rewrite ES | | now rewrite ES]. intros F. apply N. apply Forall_app in F. apply F.
Qed.
Print Assumptions C145_longer.

(** A generator whose register starts [j] calls later: it repeats the other one from there on. *)
Theorem C145_later : forall sz sz' size s s' o o' n j, random_made sz size s o -> random_made sz' size s' o' -> ~ Forall (fun x => x = 0) s ->
  start sz' s' = start sz s + Z.of_nat j * steps size -> ~ Forall (fun x => x = 0) s' ->
  start sz' s' + Z.of_nat n * steps size < register_size ->
  fst (World.run rstep (repeat RRandom n) o') = skipn j (fst (World.run rstep (repeat RRandom (j + n)) o)).
Proof.
  intros sz sz' size s s' o o' n j Hm Hm' N ES N' HR. rewrite (C72_stream _ _ _ _ n Hm' N' HR). rewrite (C72_stream _ _ _ _ (j + n) Hm N) by lia.
  rewrite ES. clear. rewrite seq_app, map_app, skipn_app, map_length, seq_length, Nat.sub_diag. rewrite skipn_all2 by (rewrite map_length, seq_length; lia). cbn [app skipn]. 
  change (0 + j)%nat with j. rewrite (seq_from j n). rewrite map_map. apply map_ext. intros i. assert (EE : start sz s + Z.of_nat j * steps size + Z.of_nat i * steps size = start sz s + Z.of_nat (j + i) * steps size) by (rewrite Nat2Z.inj_add, Z.mul_add_distr_r; apply eq_sym, Z.add_assoc). rewrite EE. reflexivity.
Qed.
Print Assumptions C145_later.

(** The claim: generators with different seeds, of any sizes, differ in some answer.  Refuted. *)
Definition seeds_count : Prop := forall sz sz' size s s' o o', 0 < size -> random_made sz size s o -> random_made sz' size s' o' -> s <> s' -> 
  exists n, start sz s + Z.of_nat n * steps size < register_size /\ fst (World.run rstep (repeat RRandom n) o) <> fst (World.run rstep (repeat RRandom n) o').
Lemma made_of sz size s : sizes_ok sz -> bytes_ok s -> len s = sz -> s <> [] -> random_made sz size s (fresh sz size s).
Proof.
  intros Hz Hs HL N. split; [exact Hz|]. split; [exact Hs|]. exists s, (VBytes s). split; [exact Hs|]. split; [exact HL|]. split; [destruct s; [contradiction | reflexivity]|].
  apply init_fresh; [exact Hz | destruct s; [contradiction | reflexivity] | exact HL].
Qed.
Theorem C145_refuted : ~ seeds_count.
Proof.
  intros H. assert (M1 : random_made 48 64 a_seed (fresh 48 64 a_seed)) by apply a_made. assert (B : bytes_ok (a_seed ++ repeat 0 1)) by (apply bytes_ok_app; split; [apply a_seed_ok | constructor; [unfold byte_ok; lia | constructor]]).
  assert (M2 : random_made (48 + Z.of_nat 1) 64 (a_seed ++ repeat 0 1) (fresh 49 64 (a_seed ++ repeat 0 1))) by (apply made_of; [unfold sizes_ok; lia | exact B | reflexivity | discriminate]).
  destruct (H 48 49 64 _ _ _ _ ltac:(lia) M1 M2 ltac:(discriminate)) as (n & HR & HN). apply HN. symmetry. apply (C145_longer 48 1 64 a_seed _ _ n M1 M2); [|exact HR]. intros F. inversion F. discriminate.
Qed.
Print Assumptions C145_refuted.
(** With 63 octets of seed the next seed gives the same blocks, one call later. *)
Example C145_example : forall n, (n < 1000)%nat -> let s := repeat 7 63 in let s' := repeat 7 62 ++ [8] in
  fst (World.run rstep (repeat RRandom n) (fresh 63 64 s')) = skipn 1 (fst (World.run rstep (repeat RRandom (1 + n)) (fresh 63 64 s))).
Proof.
  intros n Hn s s'. assert (HB : bytes_ok s) by (apply (bytes_ok_repeat 7 63); unfold byte_ok; lia).
  assert (HB' : bytes_ok s') by (apply bytes_ok_app; split; [apply (bytes_ok_repeat 7 62); unfold byte_ok; lia | apply bytes_ok_cons; split; [unfold byte_ok; lia | apply bytes_ok_nil]]).
  apply (C145_later 63 63 64 s s').
  - apply made_of; [unfold sizes_ok; lia | exact HB | reflexivity | discriminate].
  - apply made_of; [unfold sizes_ok; lia | exact HB' | reflexivity | discriminate].
  - intros F. inversion F. discriminate.
  - vm_compute. reflexivity.
  - intros F. inversion F. discriminate.
  - replace (steps 64) with 1 by reflexivity. assert (HS : start 63 s' + 1000 < register_size) by (vm_compute; reflexivity). lia.
Qed.
