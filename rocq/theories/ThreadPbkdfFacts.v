(** * Interleaved calls of a PBKDF object *)
From Verif Require Import PyBase PyState PyFacts Utils UtilsFacts Streebog SpecStreebog SpecHashHist StreebogFacts StreebogLemmas StreebogProps Hmac SpecHmac HmacLemmas HmacProps Pbkdf SpecPbkdf PbkdfLemmas Threads ThreadFacts ThreadsRandom ThreadRandomFacts ThreadsMac ThreadMacFacts ThreadsPbkdf.
Open Scope string_scope.
Open Scope list_scope.
Open Scope Z_scope.

(** ** Alone *)
Lemma bind_eq {S A B} (p : proc S A) (f : A -> proc S B) m g : (forall s, run p s = m s) -> (forall a s, run (f a) s = g a s) -> forall s, run (bindP p f) s = bindM m g s.
Proof. intros H1 H2 s. rewrite run_bind, H1. unfold bindM. destruct (m s) as [[a|e] s']; [apply H2 | reflexivity]. Qed.
Lemma u_first_alone : forall o, run p_u_first o = _u_first o.
Proof. apply bind_eq; [apply run_act|]. intros _ o. rewrite run_bind, run_act. unfold bindM, getM. destruct (on_hmac _ o) as [[a|e] o1]; [apply run_act | reflexivity]. Qed.
Lemma u_iter_alone u : forall o, run (p_u_iter u) o = _u_iter u o.
Proof. apply bind_eq; [apply run_act|]. intros _. apply bind_eq; [apply run_act|]. intros _. apply run_act. Qed.
Lemma f_alone : forall o, run p_f o = _f o.
Proof.
  apply bind_eq; [exact u_first_alone|]. intros t. apply bind_eq; [exact u_first_alone|]. intros internal o. rewrite run_bind, run_act. unfold rounds_of, bindM at 1, getM at 1. match goal with |- _ = bindM getM ?f o => change (bindM getM f o) with (f o o) end. cbv beta.
  unfold bindM at 1. unfold liftM at 1 2. destruct (range_1 (p_iterations o)) as [l|e]; [|reflexivity]. rewrite run_bind. unfold bindM at 1.
  rewrite (run_for _ _ (fun _ '(t, internal) => let! internal := _u_iter internal in retM (add_xor t internal, internal))).
  2:{ intros x [t0 i0] s. rewrite run_bind, u_iter_alone. unfold bindM. destruct (_u_iter i0 s) as [[u|e] s']; reflexivity. }
  destruct (forM _ _ _ _) as [[[t1 i1]|e] o1]; reflexivity.
Qed.
Lemma blocks_alone : forall o, run p_blocks o = forM (py_range 1 (p_num_block o + 1) 1) [] calc_body o.
Proof.
  intros o. unfold p_blocks. rewrite run_bind, run_act. unfold blocks_of, bindM at 1, getM at 1, retM at 1. apply run_for. intros x acc s. unfold calc_body. rewrite run_bind, run_act. unfold put_number, bindM at 1. unfold bindM at 1. unfold getM, putM. rewrite run_bind, f_alone. unfold bindM. destruct (_f _) as [[t|e] s']; reflexivity.
Qed.
Lemma calculate_alone dk o : run (p_calculate dk) o = _calculate_pbkdf dk o.
Proof.
  unfold p_calculate, _calculate_pbkdf. rewrite run_bind, run_act. unfold put_blocks, bindM at 1, getM at 1, putM at 1. match goal with |- _ = bindM getM ?f o => change (bindM getM f o) with (f o o) end. cbv beta. match goal with |- _ = bindM (putM ?s) ?f o => change (bindM (putM s) f o) with (f tt s) end. cbv beta.
  set (o1 := p_set_num_block o _). rewrite run_bind. change (fun (i : Z) (result : list Z) => _) with calc_body. destruct (negb _); [rewrite run_act; unfold one_more, bindM, getM, putM | unfold bindM, getM, retM; cbn [run]]; apply blocks_alone.
Qed.
Lemma derive_alone dk o : run (p_derive dk) o = derive dk o.
Proof. unfold p_derive, derive. destruct (_ >? _); [reflexivity|]. rewrite run_bind, calculate_alone. unfold bindM. destruct (_calculate_pbkdf dk o) as [[r|e] o1]; reflexivity. Qed.

(** ** What stays *)
Lemma keeps_bind {S A B} f (m : M S A) (g : A -> M S B) : keeps f m -> (forall a, keeps f (g a)) -> keeps f (bindM m g).
Proof. intros H1 H2 s. unfold bindM. specialize (H1 s). destruct (m s) as [[a|e] s']; cbn in *; [rewrite H2; exact H1 | exact H1]. Qed.
Definition attr (f : pbkdf_obj -> Z) : Prop := forall o h, f (p_set_hmac o h) = f o.
Lemma keeps_hmac {A} f (c : M hmac_obj A) : attr f -> keeps f (on_hmac c).
Proof. intros H o. unfold on_hmac. destruct (c (p_hmac o)) as [r h]. apply H. Qed.
Lemma keeps_get {A} f (g : pbkdf_obj -> M pbkdf_obj A) : (forall o, keeps f (g o)) -> keeps f (bindM getM g).
Proof. intros H o. unfold bindM, getM. apply H. Qed.
Lemma keeps_f f : attr f -> keeps f _f.
Proof.
  intros H. assert (H1 : keeps f _u_first) by (apply keeps_bind; [now apply keeps_hmac|]; intros; apply keeps_get; intros o; apply keeps_bind; [now apply keeps_hmac | intros; now apply keeps_hmac]).
  assert (H2 : forall u, keeps f (_u_iter u)) by (intros u; apply keeps_bind; [now apply keeps_hmac|]; intros; apply keeps_bind; [now apply keeps_hmac | intros; now apply keeps_hmac]).
  apply keeps_bind; [exact H1|]. intros t. apply keeps_bind; [exact H1|]. intros i. apply keeps_get. intros o. apply keeps_bind; [intros s; reflexivity|]. intros l. apply keeps_bind; [|intros [a b] s; reflexivity].
  apply for_keeps. intros x [t0 i0]. apply keeps_bind; [apply H2 | intros u s; reflexivity].
Qed.
Lemma loop_blocks xs : forall acc, keeps p_num_block (forM xs acc calc_body).
Proof. apply for_keeps. intros i acc. apply keeps_bind; [intros s; reflexivity|]. intros _. apply keeps_bind; [now apply keeps_f | intros t s; reflexivity]. Qed.
Lemma forM_app {S A B} (f : A -> B -> M S B) xs ys : forall acc s, forM (xs ++ ys) acc f s = bindM (forM xs acc f) (fun acc => forM ys acc f) s.
Proof. induction xs as [|x xs IH]; intros acc s; [reflexivity|]. cbn [app forM]. unfold bindM. destruct (f x acc s) as [[a|e] s']; [apply IH | reflexivity]. Qed.
Lemma loop_number P S z x : key_ok P -> bytes_ok S -> forall xs acc o, pb_is P S (VInt z) o -> p_counter (snd (forM (xs ++ [x]) acc calc_body o)) = x.
Proof.
  intros HP HS xs acc o Ho. rewrite forM_app. unfold bindM. destruct (calc_loop P S z HP HS xs acc o Ho) as (o1 & -> & H1). cbn [forM]. unfold bindM at 1, calc_body at 1, bindM at 1, bindM at 1, getM, putM.
  destruct (f_is P S z (p_set_counter o1 x) x HP HS) as (o2 & E & _ & Hi); [destruct H1; split; assumption | reflexivity|]. unfold bindM. rewrite E. exact Hi.
Qed.
Lemma calc_state dk o : exists o1, (forall P S it, pb_is P S it o -> pb_is P S it o1) /\ p_num_block o1 = (dk + 63) / 64 /\ _calculate_pbkdf dk o = forM (py_range 1 ((dk + 63) / 64 + 1) 1) [] calc_body o1.
Proof.
  rewrite <- num_block. unfold _calculate_pbkdf. change _PBKDF_BLOCK_SIZE with 64. change (fun (i : Z) (result : list Z) => _) with calc_body. destruct (negb (dk mod 64 =? 0)).
  - exists (p_set_num_block o (dk / 64 + 1)). split; [intros P S it []; now split|]. split; reflexivity.
  - exists (p_set_num_block o (dk / 64)). split; [intros P S it []; now split|]. split; reflexivity.
Qed.
(** After [derive] the object holds the number of blocks and, if there were any, the number of the last one. *)
Lemma derive_leaves P S z dk o : key_ok P -> bytes_ok S -> pb_is P S (VInt z) o -> dk <= max_len ->
  exists o', derive dk o = (Ok (pbkdf2 P S (Datatypes.S (more z)) (Z.to_nat dk)), o') /\ pb_is P S (VInt z) o' /\ p_num_block o' = (dk + 63) / 64 /\ (0 < dk -> p_counter o' = (dk + 63) / 64).
Proof.
  intros HP HS Ho Hdk. destruct (derive_is P S z dk o HP HS Ho Hdk) as (o' & E & H'). exists o'. split; [exact E|]. split; [exact H'|].
  assert (EC : snd (_calculate_pbkdf dk o) = o') by (unfold derive in E; replace (dk >? (2 ^ 32 - 1) * 64) with false in E by (unfold max_len in Hdk; lia); unfold bindM in E; destruct (_calculate_pbkdf dk o) as [[r|e] o2]; cbn in *; now inversion E).
  destruct (calc_state dk o) as (o1 & H1 & HN & E1). rewrite E1 in EC. rewrite <- EC. split; [rewrite loop_blocks; exact HN|]. intros H0.
  assert (Hn : 1 <= (dk + 63) / 64) by lia. replace ((dk + 63) / 64 + 1) with (((dk + 63) / 64 - 1) + 1 + 1) by lia.
  assert (HR : py_range 1 ((dk + 63) / 64 - 1 + 1 + 1) 1 = py_range 1 ((dk + 63) / 64 - 1 + 1) 1 ++ [(dk + 63) / 64]).
  { rewrite !range_seq by lia. replace (Z.to_nat ((dk + 63) / 64 - 1 + 1)) with (Datatypes.S (Z.to_nat ((dk + 63) / 64 - 1))) by lia. rewrite seq_S, map_app. cbn [map]. do 2 f_equal. lia. }
  rewrite HR. apply (loop_number P S z); [exact HP | exact HS | now apply H1].
Qed.

(** ** A call waits before it reads the number of blocks *)
Lemma jump2 {S A B C} (m : M S A) (f : A -> proc S B) (g : B -> proc S C) (q : proc S C) sched s s1 a : m s = (Ok a, s1) -> go (0%nat :: sched) [bindP (bindP (act m) f) g; q] s = go sched [bindP (f a) g; q] s1.
Proof. intros H. cbn. now rewrite H. Qed.
Definition keys (n : Z) : bytes -> proc pbkdf_obj bytes := fun r => Ret (py_upto r n).
Lemma waits n o q : n <= max_len -> exists k o1, (forall P S it, pb_is P S it o -> pb_is P S it o1) /\ p_num_block o1 = (n + 63) / 64 /\ forall sched, go (repeat 0%nat k ++ sched) [p_derive n; q] o = go sched [bindP p_blocks (keys n); q] o1.
Proof.
  intros Hn. unfold p_derive. replace (n >? (2 ^ 32 - 1) * 64) with false by (unfold max_len in Hn; lia). unfold p_calculate. change _PBKDF_BLOCK_SIZE with 64. rewrite <- num_block. destruct (negb (n mod 64 =? 0)).
  - exists 2%nat, (p_set_num_block o (n / 64 + 1)). split; [intros P S it []; now split|]. split; [reflexivity|]. intros sched. cbn [repeat app]. erewrite jump2 by reflexivity. erewrite jump2 by reflexivity. reflexivity.
  - exists 1%nat, (p_set_num_block o (n / 64)). split; [intros P S it []; now split|]. split; [reflexivity|]. intros sched. cbn [repeat app]. erewrite jump2 by reflexivity. reflexivity.
Qed.
Lemma pbkdf2_whole P S c n : 0 <= n -> pbkdf2 P S (Datatypes.S c) (Z.to_nat (64 * n)) = firstn (Z.to_nat (64 * n)) (concat (map (fun i => T P S i c) (py_range 1 (n + 1) 1))).
Proof. intros H. unfold pbkdf2. cbn [Nat.sub]. rewrite Nat.sub_0_r, range_seq, map_map by exact H. do 4 f_equal. replace (Z.to_nat (64 * n)) with (64 * Z.to_nat n)%nat by lia. generalize (Z.to_nat n). intros k. symmetry. apply (Nat.div_unique (64 * k + 63) 64 k 63); lia. Qed.
Lemma derive_short P S z n1 n2 o : key_ok P -> bytes_ok S -> pb_is P S (VInt z) o -> 0 <= n1 <= max_len -> 0 <= n2 <= max_len ->
  exists sched o', go sched [p_derive n1; p_derive n2] o = ([Ret (firstn (Z.to_nat n1) (pbkdf2 P S (Datatypes.S (more z)) (Z.to_nat (64 * ((n2 + 63) / 64))))); Ret (pbkdf2 P S (Datatypes.S (more z)) (Z.to_nat n2))], o').
Proof.
  intros HP HS Ho H1 H2. destruct (waits n1 o (p_derive n2) (proj2 H1)) as (k & o1 & HO & _ & G). specialize (HO _ _ _ Ho). destruct (derive_leaves P S z n2 o1 HP HS HO (proj2 H2)) as (o2 & E2 & HO2 & HB & _).
  destruct (go_second (bindP p_blocks (keys n1)) (p_derive n2) o1) as [l L]. rewrite derive_alone, E2 in L. cbn [fst snd fin] in L.
  destruct (calc_loop P S z HP HS (py_range 1 (p_num_block o2 + 1) 1) [] o2 HO2) as (o3 & E3 & _).
  destruct (go_first (Ret (pbkdf2 P S (Datatypes.S (more z)) (Z.to_nat n2))) (bindP p_blocks (keys n1)) o2) as [m M]. rewrite run_bind, blocks_alone, E3 in M. cbn [run keys fst snd fin app] in M.
  exists (repeat 0%nat k ++ repeat 1%nat l ++ repeat 0%nat m), o3. rewrite G, go_app, L, M. do 3 f_equal.
  rewrite HB. assert (H0 : 0 <= (n2 + 63) / 64) by lia. rewrite pbkdf2_whole by exact H0. rewrite py_upto_firstn by lia. f_equal. f_equal. symmetry. apply firstn_all2. rewrite stream_length by assumption. rewrite range_seq, map_length, seq_length by exact H0. lia.
Qed.

(** ** A call waits after it has assigned the number of the block *)
Lemma jump3 {S A B C D} (m : M S A) (f : A -> proc S B) (g : B -> proc S C) (h : C -> proc S D) (q : proc S D) sched s s1 a : m s = (Ok a, s1) -> go (0%nat :: sched) [bindP (bindP (bindP (act m) f) g) h; q] s = go sched [bindP (bindP (f a) g) h; q] s1.
Proof. intros H. cbn. now rewrite H. Qed.
Lemma derive_other P S z n1 n2 o : key_ok P -> bytes_ok S -> pb_is P S (VInt z) o -> 0 < n1 <= 64 -> 0 < n2 <= max_len ->
  exists sched o', go sched [p_derive n1; p_derive n2] o = ([Ret (firstn (Z.to_nat n1) (T P S ((n2 + 63) / 64) (more z))); Ret (pbkdf2 P S (Datatypes.S (more z)) (Z.to_nat n2))], o').
Proof.
  intros HP HS Ho H1 H2. assert (Hmax : n1 <= max_len) by (unfold max_len; lia). destruct (waits n1 o (p_derive n2) Hmax) as (k & o1 & HO & HB1 & G). specialize (HO _ _ _ Ho). replace ((n1 + 63) / 64) with 1 in HB1 by lia.
  set (R := bindP (bindP (bindP p_f (fun t => Ret ([] ++ t))) (fun acc => Ret acc)) (keys n1)).
  assert (G2 : forall sched, go (0%nat :: 0%nat :: sched) [bindP p_blocks (keys n1); p_derive n2] o1 = go sched [R; p_derive n2] (p_set_counter o1 1)).
  { intros sched. unfold p_blocks. erewrite jump2 by reflexivity. rewrite HB1. change (py_range 1 (1 + 1) 1) with [1]. cbn [forP]. erewrite jump3 by reflexivity. reflexivity. }
  assert (HO1 : pb_is P S (VInt z) (p_set_counter o1 1)) by (destruct HO; now split). destruct (derive_leaves P S z n2 (p_set_counter o1 1) HP HS HO1 (proj2 H2)) as (o2 & E2 & HO2 & _ & HC). specialize (HC (proj1 H2)).
  destruct (go_second R (p_derive n2) (p_set_counter o1 1)) as [l L]. rewrite derive_alone, E2 in L. cbn [fst snd fin] in L.
  destruct (f_is P S z o2 _ HP HS HO2 HC) as (o3 & E3 & _).
  destruct (go_first (Ret (pbkdf2 P S (Datatypes.S (more z)) (Z.to_nat n2))) R o2) as [m M]. assert (RR : run R o2 = (Ok (py_upto (T P S ((n2 + 63) / 64) (more z)) n1), o3)) by (unfold R; rewrite run_bind, run_bind, run_bind, f_alone, E3; reflexivity). rewrite RR in M. cbn [fst snd fin] in M.
  exists (repeat 0%nat k ++ 0%nat :: 0%nat :: repeat 1%nat l ++ repeat 0%nat m), o3. rewrite G, G2, go_app, L, M. do 3 f_equal. apply py_upto_firstn. lia.
Qed.
