(** * The positions at which the tables of Streebog are read. *)
From Verif Require Import PyBase PyState PyFacts PyLoop Utils UtilsFacts StreebogTables Streebog SpecStreebog SpecHashHist SpecHmac StreebogFacts StreebogFacts2 StreebogObj StreebogLemmas HmacLemmas Hmac SpecTrace SpecTraceHash Trace TraceLemmas TraceFacts TraceCipher TraceCipherFacts TraceHash TraceHashErase TraceHashFlow.
Open Scope string_scope.
Open Scope list_scope.
Open Scope Z_scope.

Definition gives {A} (c : T A) (l : list Z) (a : A) : Prop := hash_indices (fst c) = l /\ snd c = Returns a.
Lemma gives_bind {A B} (c : T A) (k : A -> T B) l l' a b : gives c l a -> gives (k a) l' b -> gives (bindT c k) (l ++ l') b.
Proof. intros [E Ea] [E' Eb]. unfold gives, bindT. rewrite Ea. cbn [fst snd]. unfold hash_indices in *. rewrite flat_map_app, E, E'. split; [reflexivity | exact Eb]. Qed.
Lemma gives_ret {A} (a : A) : gives (retT a) [] a.
Proof. split; reflexivity. Qed.
(** Steps that are not look-ups. *)
Definition idle {A} (c : T A) : Prop := hash_indices (fst c) = [].
Lemma idle_gives {A} (c : T A) a : idle c -> snd c = Returns a -> gives c [] a.
Proof. split; assumption. Qed.
Lemma gives_idle {A B} (c : T A) (k : A -> T B) l a b : gives c [] a -> gives (k a) l b -> gives (bindT c k) l b.
Proof. intros H H'. exact (gives_bind c k [] l a b H H'). Qed.
Lemma gives_last {A B} (c : T A) (k : A -> T B) l a b : gives c l a -> gives (k a) [] b -> gives (bindT c k) l b.
Proof. intros H H'. rewrite <- (app_nil_r l). exact (gives_bind c k l [] a b H H'). Qed.
Lemma gives_at_ {A} e (k : T A) l a : hash_index e = [] -> gives k l a -> gives (at_ e then k) l a.
Proof. intros E H. eapply gives_idle; [|exact H]. split; [|reflexivity]. cbn [step fst hash_indices flat_map]. rewrite E. reflexivity. Qed.
Lemma gives_if {A} f line (b : bool) (x y : T A) l a : gives (if b then x else y) l a -> gives (if_ f line b x y) l a.
Proof. intros H. unfold if_. apply gives_at_; [reflexivity | exact H]. Qed.
Lemma idle_bind {A B} (c : T A) (k : A -> T B) : idle c -> (forall a, idle (k a)) -> idle (bindT c k).
Proof. intros H H'. unfold idle, bindT, hash_indices in *. destruct (snd c) as [a|e|]; cbn [fst]; [rewrite flat_map_app, H; apply H' | exact H | exact H]. Qed.
Lemma idle_for {A S} f l (body : A -> S -> T S) : (forall x s, idle (body x s)) -> forall xs s, idle (t_for f l xs s body).
Proof. intros H. induction xs as [|x xs IH]; intros s; cbn [t_for]; (apply idle_bind; [reflexivity|]); intros _; [reflexivity|]. apply idle_bind; [apply H | intros a; apply IH]. Qed.
Lemma idle_xor a b : idle (t_add_xor a b).
Proof.
  unfold idle, t_add_xor. cbn [fst]. unfold hash_indices. cbn [flat_map hash_index app]. rewrite flat_map_app. cbn [flat_map hash_index app]. rewrite app_nil_r.
  induction (py_range 0 (Z.min (len a) (len b)) 1) as [|x l IH]; [reflexivity|]. cbn [map concat app flat_map hash_index]. exact IH.
Qed.
Lemma gives_xor a b : gives (t_add_xor a b) [] (add_xor a b).
Proof. apply idle_gives; [apply idle_xor | reflexivity]. Qed.
Lemma idle_add a b : idle (t_hash_add_512 a b).
Proof.
  unfold t_hash_add_512. apply idle_bind; [reflexivity|]. intros _. apply idle_bind; [|intros [c r]; reflexivity]. apply idle_for. intros i [c r]. apply idle_bind; [reflexivity|]. intros x. apply idle_bind; [reflexivity|]. intros y. cbv zeta. apply idle_bind; [reflexivity|]. reflexivity.
Qed.

Lemma gives_look line d j k j0 k0 : block64 d -> Z.of_nat j0 = j -> Z.of_nat k0 = k -> (j0 < 8)%nat -> (k0 < 64)%nat -> exists x, gives (t_look line d j k) [nth k0 d 0] x.
Proof.
  intros Hd <- <- Hj Hk. destruct (look_parts d j0 k0 Hd Hj Hk) as (row & v & x & E1 & E2 & E3). exists x. rewrite (get_some d k0 0) in E2 by (destruct Hd; lia). injection E2 as <-. unfold t_look, t_at.
  eapply gives_idle; [apply gives_at_; [reflexivity|]; rewrite E1; split; reflexivity|]. cbv beta. eapply gives_idle; [apply gives_at_; [reflexivity|]; rewrite (get_some d k0 0) by (destruct Hd; lia); split; reflexivity|].
  rewrite E3. split; reflexivity.
Qed.
Lemma gives_word line d k0 k1 k2 k3 k4 k5 k6 k7 : block64 d -> Forall (fun k => (k < 64)%nat) [k0; k1; k2; k3; k4; k5; k6; k7] ->
  exists w, gives (t_lps_word line d (Z.of_nat k0) (Z.of_nat k1) (Z.of_nat k2) (Z.of_nat k3) (Z.of_nat k4) (Z.of_nat k5) (Z.of_nat k6) (Z.of_nat k7)) (map (fun k => nth k d 0) [k0; k1; k2; k3; k4; k5; k6; k7]) w.
Proof.
  intros Hd HF. destruct (word_some d (Z.of_nat k0) (Z.of_nat k1) (Z.of_nat k2) (Z.of_nat k3) (Z.of_nat k4) (Z.of_nat k5) (Z.of_nat k6) (Z.of_nat k7) Hd) as (w & E).
  { repeat match goal with H : Forall _ (_ :: _) |- _ => apply Forall_cons_iff in H as [? H] end. repeat (apply Forall_cons; [lia|]). apply Forall_nil. }
  exists w. split; [|rewrite erase_word, E; reflexivity]. clear E. repeat match goal with H : Forall _ (_ :: _) |- _ => apply Forall_cons_iff in H as [? H] end. clear HF. unfold t_lps_word.
  assert (L : forall line j k, (j < 8)%nat -> (k < 64)%nat -> exists x, gives (t_look line d (Z.of_nat j) (Z.of_nat k)) [nth k d 0] x) by (intros; apply (gives_look _ _ _ _ j k Hd); auto).
  cbn [map].
  destruct (L line 0%nat k0 ltac:(lia) ltac:(assumption)) as (x0 & G0 & E0). destruct (L line 1%nat k1 ltac:(lia) ltac:(assumption)) as (x1 & G1 & E1). destruct (L line 2%nat k2 ltac:(lia) ltac:(assumption)) as (x2 & G2 & E2).
  destruct (L (line + 1) 3%nat k3 ltac:(lia) ltac:(assumption)) as (x3 & G3 & E3). destruct (L (line + 1) 4%nat k4 ltac:(lia) ltac:(assumption)) as (x4 & G4 & E4). destruct (L (line + 1) 5%nat k5 ltac:(lia) ltac:(assumption)) as (x5 & G5 & E5).
  destruct (L (line + 2) 6%nat k6 ltac:(lia) ltac:(assumption)) as (x6 & G6 & E6). destruct (L (line + 2) 7%nat k7 ltac:(lia) ltac:(assumption)) as (x7 & G7 & E7).
  change (Z.of_nat 0) with 0 in *. change (Z.of_nat 1) with 1 in *. change (Z.of_nat 2) with 2 in *. change (Z.of_nat 3) with 3 in *. change (Z.of_nat 4) with 4 in *. change (Z.of_nat 5) with 5 in *. change (Z.of_nat 6) with 6 in *. change (Z.of_nat 7) with 7 in *.
  rewrite (fst_bind_ok _ _ _ E0), (fst_bind_ok _ _ _ E1), (fst_bind_ok _ _ _ E2), (fst_bind_ok _ _ _ E3), (fst_bind_ok _ _ _ E4), (fst_bind_ok _ _ _ E5), (fst_bind_ok _ _ _ E6), (fst_bind_ok _ _ _ E7).
  unfold hash_indices in *. rewrite !flat_map_app, G0, G1, G2, G3, G4, G5, G6, G7. reflexivity.
Qed.
Lemma gives_lps d : block64 d -> gives (t_hash_lps d) (sP d) (LPS d).
Proof.
  intros Hd. destruct (lps_ok d Hd) as [E B]. split; [|rewrite erase_lps, E; reflexivity]. unfold t_hash_lps. cbv zeta. rewrite fst_step. unfold hash_indices. cbn [flat_map hash_index app].
  assert (W : forall line k0 k1 k2 k3 k4 k5 k6 k7, Forall (fun k => (k < 64)%nat) [k0; k1; k2; k3; k4; k5; k6; k7] ->
    exists w, gives (t_lps_word line d (Z.of_nat k0) (Z.of_nat k1) (Z.of_nat k2) (Z.of_nat k3) (Z.of_nat k4) (Z.of_nat k5) (Z.of_nat k6) (Z.of_nat k7)) (map (fun k => nth k d 0) [k0; k1; k2; k3; k4; k5; k6; k7]) w) by (intros; now apply gives_word).
  assert (F : forall w, (w < 8)%nat -> Forall (fun k => (k < 64)%nat) [w; w + 8; w + 16; w + 24; w + 32; w + 40; w + 48; w + 56]%nat) by (intros; repeat (apply Forall_cons; [lia|]); apply Forall_nil).
  destruct (W 783 _ _ _ _ _ _ _ _ (F 0%nat ltac:(lia))) as (w0 & G0 & E0). destruct (W 787 _ _ _ _ _ _ _ _ (F 1%nat ltac:(lia))) as (w1 & G1 & E1). destruct (W 791 _ _ _ _ _ _ _ _ (F 2%nat ltac:(lia))) as (w2 & G2 & E2). destruct (W 795 _ _ _ _ _ _ _ _ (F 3%nat ltac:(lia))) as (w3 & G3 & E3).
  destruct (W 799 _ _ _ _ _ _ _ _ (F 4%nat ltac:(lia))) as (w4 & G4 & E4). destruct (W 803 _ _ _ _ _ _ _ _ (F 5%nat ltac:(lia))) as (w5 & G5 & E5). destruct (W 807 _ _ _ _ _ _ _ _ (F 6%nat ltac:(lia))) as (w6 & G6 & E6). destruct (W 811 _ _ _ _ _ _ _ _ (F 7%nat ltac:(lia))) as (w7 & G7 & E7).
  cbn [Nat.add Z.of_nat Pos.of_succ_nat Pos.succ] in *.
  rewrite (fst_bind_ok _ _ _ E0), (fst_bind_ok _ _ _ E1), (fst_bind_ok _ _ _ E2), (fst_bind_ok _ _ _ E3), (fst_bind_ok _ _ _ E4), (fst_bind_ok _ _ _ E5), (fst_bind_ok _ _ _ E6), (fst_bind_ok _ _ _ E7).
  unfold hash_indices in *. rewrite !flat_map_app, G0, G1, G2, G3, G4, G5, G6, G7. reflexivity.
Qed.
Lemma sP_length d : List.length (sP d) = 64%nat.
Proof. unfold sP. now rewrite map_length, seq_length. Qed.
Lemma sP_twice d : block64 d -> sP (sP d) = d.
Proof.
  intros [L _]. rewrite (block_map d 64 L) at 2. unfold sP. apply map_ext_in. intros i Hi. apply in_seq in Hi. assert (HT : (tau i < 64)%nat) by (unfold tau; pose proof (Nat.mod_upper_bound i 8); pose proof (Nat.div_lt_upper_bound i 8 8); lia).
  rewrite (nth_indep _ 0 (nth (tau 0) d 0)) by (rewrite map_length, seq_length; exact HT). rewrite (map_nth (fun i => nth (tau i) d 0)), seq_nth by exact HT. cbn [Nat.add]. f_equal.
  assert (C : forallb (fun i => (tau (tau i) =? i)%nat) (seq 0 64) = true) by reflexivity. rewrite forallb_forall in C. apply Nat.eqb_eq, C, in_seq. lia.
Qed.
Lemma gives_get_key k i : block64 k -> (i < 12)%nat -> exists l, gives (t_hash_get_key k (Z.of_nat i)) l (LPS (sX k (le_bytes 64 (nth i iteration_C 0)))) /\ List.length l = 64%nat.
Proof.
  intros Hk Hi. eexists. split; [|apply (sP_length (add_xor k (le_bytes 64 (nth i iteration_C 0))))]. unfold t_hash_get_key. apply gives_at_; [reflexivity|].
  eapply gives_idle; [unfold t_at; apply gives_at_; [reflexivity|]; rewrite c_get by exact Hi; split; reflexivity|]. eapply gives_idle; [apply gives_xor|]. rewrite sX_add. apply gives_lps. apply add_xor_block; [exact Hk | apply le_bytes_block].
Qed.
Lemma gives_e_loop : forall n i k x, (i + n = 12)%nat -> block64 k -> block64 x -> exists l r, gives (t_for FHash 824 (py_range (Z.of_nat i) 12 1) (k, x) t_e_body) l r /\ List.length l = (128 * n)%nat /\ (n <> 0%nat -> exists l', l = sP x ++ l').
Proof.
  induction n as [|n IH]; intros i k x Hi Hk Hx.
  - replace i with 12%nat by lia. rewrite py_range_empty by lia. exists [], (k, x). split; [split; reflexivity|]. split; [reflexivity | intros H; now contradiction H].
  - rewrite py_range_cons by lia. cbn [t_for]. destruct (gives_get_key k i Hk ltac:(lia)) as (lk & GK & LK). destruct (get_key_ok k i Hk ltac:(lia)) as [_ BK]. set (k' := LPS (sX k (le_bytes 64 (nth i iteration_C 0)))) in *. destruct (lps_ok x Hx) as [_ BX].
    destruct (IH (S i) k' (add_xor (LPS x) k') ltac:(lia) BK (add_xor_block _ _ BX BK)) as (l & r & G & L & _). replace (Z.of_nat (S i)) with (Z.of_nat i + 1) in G by lia. exists (sP x ++ lk ++ l), r. split; [|split].
    + apply gives_at_; [reflexivity|]. rewrite app_assoc. eapply gives_bind; [|exact G]. cbn [t_e_body]. eapply gives_bind; [apply gives_lps; exact Hx|]. eapply gives_last; [exact GK|]. eapply gives_idle; [apply gives_xor|]. apply gives_ret.
    + rewrite !app_length, sP_length, LK, L. lia.
    + intros _. eexists. reflexivity.
Qed.
Lemma gives_g h n m : block64 h -> block64 m -> exists l, gives (t_hash_g h (le_bytes 64 n) m) (sP (add_xor (le_bytes 64 n) h) ++ sP (add_xor (LPS (add_xor (le_bytes 64 n) h)) m) ++ l) (sg n h m) /\ List.length l = 1472%nat.
Proof.
  intros Hh Hm. pose proof (add_xor_block _ _ (le_bytes_block n) Hh) as HX. destruct (lps_ok _ HX) as [_ BK]. set (K := LPS (add_xor (le_bytes 64 n) h)) in *. pose proof (add_xor_block _ _ BK Hm) as HM.
  destruct (gives_e_loop 12 0 K (add_xor K m) eq_refl BK HM) as (l & [ka xa] & GE & L & HL). destruct (HL ltac:(lia)) as (l' & ->). rewrite app_length, sP_length in L. exists l'. split; [|lia].
  destruct (g_ok h n m Hh Hm) as [E _]. split; [|rewrite erase_g, E; reflexivity].
  enough (GG : exists v, gives (t_hash_g h (le_bytes 64 n) m) (sP (add_xor (le_bytes 64 n) h) ++ sP (add_xor K m) ++ l') v) by (destruct GG as (v & GG & _); exact GG).
  eexists. unfold t_hash_g. apply gives_at_; [reflexivity|]. eapply gives_idle; [apply gives_xor|]. eapply gives_bind; [apply gives_lps; exact HX|]. fold K. eapply gives_last; [|eapply gives_idle; apply gives_xor].
  unfold t_hash_e. apply gives_at_; [reflexivity|]. eapply gives_idle; [apply gives_xor|]. change (py_range 0 12 1) with (py_range (Z.of_nat 0) 12 1). eapply gives_last; [exact GE|]. apply gives_ret.
Qed.

(** A list of indices shows whole blocks. *)
Definition shows (l m : list Z) : Prop := exists n, List.length l = (1600 * n)%nat /\ List.length m = (64 * n)%nat /\ forall k r, hash_blocks (n + k) (l ++ r) = m ++ hash_blocks k r.
Lemma shows_nil : shows [] [].
Proof. exists 0%nat. split; [reflexivity|]. split; [reflexivity|]. reflexivity. Qed.
Lemma shows_app l m l' m' : shows l m -> shows l' m' -> shows (l ++ l') (m ++ m').
Proof.
  intros (n & L & M & H) (n' & L' & M' & H'). exists (n + n')%nat. rewrite !app_length. split; [lia|]. split; [lia|]. intros k r. rewrite <- !app_assoc, <- Nat.add_assoc, H, H'. reflexivity.
Qed.
Lemma xor_twice a b : block64 a -> block64 b -> sX a (add_xor a b) = b.
Proof.
  intros [L _] [L' _]. rewrite sX_add. assert (E : List.length a = List.length b) by lia. clear L L'. revert b E. induction a as [|x a IH]; intros [|y b] E; try discriminate E; [reflexivity|]. cbn [add_xor]. rewrite <- Z.lxor_assoc, Z.lxor_nilpotent, Z.lxor_0_l. f_equal. apply IH. now injection E.
Qed.
Lemma first_64 a (l : list Z) : List.length a = 64%nat -> firstn 64 (a ++ l) = a /\ skipn 64 (a ++ l) = l.
Proof. intros <-. rewrite firstn_app, firstn_all, Nat.sub_diag, firstn_O, app_nil_r, skipn_app, skipn_all, Nat.sub_diag. split; reflexivity. Qed.
Lemma block_of x m l : block64 x -> block64 m -> hash_block (sP x ++ sP (add_xor (LPS x) m) ++ l) = m.
Proof.
  intros Hx Hm. unfold hash_block. destruct (first_64 (sP x) (sP (add_xor (LPS x) m) ++ l) (sP_length _)) as [-> ->]. destruct (first_64 (sP (add_xor (LPS x) m)) l (sP_length _)) as [-> _]. destruct (lps_ok x Hx) as [_ BX].
  rewrite !sP_twice by (try assumption; now apply add_xor_block). now apply xor_twice.
Qed.
Lemma skip_exact (a b : list Z) n : List.length a = n -> skipn n (a ++ b) = b.
Proof. intros <-. now rewrite skipn_app, skipn_all, Nat.sub_diag. Qed.
Lemma shows_g h n m : block64 h -> block64 m -> exists l, gives (t_hash_g h (le_bytes 64 n) m) l (sg n h m) /\ shows l m.
Proof.
  intros Hh Hm. destruct (gives_g h n m Hh Hm) as (l & G & L). eexists. split; [exact G|]. set (x := add_xor (le_bytes 64 n) h) in *. pose proof (add_xor_block _ _ (le_bytes_block n) Hh) as HX. fold x in HX.
  assert (SL : List.length (sP x ++ sP (add_xor (LPS x) m) ++ l) = 1600%nat) by (rewrite !app_length, !sP_length, L; reflexivity).
  exists 1%nat. split; [exact SL|]. split; [apply Hm|]. intros k r. cbn [Nat.add hash_blocks]. rewrite (skip_exact _ r 1600 SL). f_equal. rewrite <- !app_assoc. now apply block_of.
Qed.

(** ** Methods *)
Lemma gives_step_h v s b o m : holds v s b o -> block64 m -> exists l o', gives (t_step_h o (h_hash_n o) m) l o' /\ shows l m /\ ends (step_h (h_hash_n o) m) o = Ok o'.
Proof.
  intros [H1 H2 H3 H4 H5 H6 H7 H8 H9 H10] Hm. rewrite H4. destruct (shows_g (st_h s) (st_N s) m H6 Hm) as (l & G & S0). exists l. destruct (g_ok (st_h s) (st_N s) m H6 Hm) as [E _]. eexists. split; [|split; [exact S0|]].
  - unfold t_step_h. rewrite H3. eapply gives_last; [exact G | apply gives_ret].
  - unfold step_h. rewrite ends_get, ends_lift, H3, E. reflexivity.
Qed.
Lemma idle_step_n o m o' : ends (step_n m) o = Ok o' -> gives (t_step_n o m) [] o'.
Proof. intros E. apply idle_gives; [|rewrite erase_step_n, E; reflexivity]. unfold t_step_n. apply idle_bind; [apply idle_add | reflexivity]. Qed.
Lemma idle_step_sigma o m o' : ends (step_sigma m) o = Ok o' -> gives (t_step_sigma o m) [] o'.
Proof. intros E. apply idle_gives; [|rewrite erase_step_sigma, E; reflexivity]. unfold t_step_sigma. apply idle_bind; [apply idle_add | reflexivity]. Qed.
Lemma gives_body v s b o D j : holds v s b o -> bytes_ok D -> (64 * S j <= List.length D)%nat ->
  exists l o', gives (t_update_body D (64 * Z.of_nat j) o) l o' /\ shows l (firstn 64 (skipn (64 * j) D)) /\ holds v (absorb s (firstn 64 (skipn (64 * j) D))) b o'.
Proof.
  intros Ho HD Hj. pose proof (piece_block D j HD Hj) as HB. change _BLOCK_SIZE with 64 in HB. rewrite slice_block in HB by exact Hj. set (m := firstn 64 (skipn (64 * j) D)) in *.
  destruct (gives_step_h v s b o m Ho HB) as (l & o1 & G1 & S1 & E1). destruct (block_step v s b o m Ho HB) as (o' & E & H).
  assert (EE : ends (step_h (h_hash_n o) m ;! step_n _V_512 ;! step_sigma m) o = Ok o') by (unfold ends; rewrite E; reflexivity). rewrite ends_seq, E1 in EE. cbn [bind] in EE. rewrite ends_seq in EE.
  destruct (ends (step_n _V_512) o1) as [o2|] eqn:E2; [|discriminate EE]. cbn [bind] in EE. exists l, o'. split; [|split; assumption].
  unfold t_update_body. cbv zeta. change _BLOCK_SIZE with 64. rewrite slice_block by exact Hj. fold m. eapply gives_last; [exact G1|]. eapply gives_idle; [apply idle_step_n; exact E2|]. now apply idle_step_sigma.
Qed.
Lemma firstn_join {A} (a b : nat) (l : list A) : firstn a l ++ firstn b (skipn a l) = firstn (a + b) l.
Proof. revert l. induction a as [|a IH]; intros [|x l]; cbn [firstn skipn app Nat.add]; [reflexivity | reflexivity | now rewrite firstn_nil | now rewrite IH]. Qed.
Lemma skip_join (D : bytes) j n : firstn 64 (skipn (64 * j) D) ++ firstn (64 * n) (skipn (64 * S j) D) = firstn (64 * S n) (skipn (64 * j) D).
Proof. replace (skipn (64 * S j) D) with (skipn 64 (skipn (64 * j) D)) by (rewrite skip_skip; f_equal; lia). rewrite firstn_join. f_equal. lia. Qed.
Lemma gives_loop v D b : bytes_ok D -> forall n j s o, (64 * (j + n) <= List.length D)%nat -> holds v s b o ->
  exists l o', gives (t_for FHash 857 (map (fun j => 64 * Z.of_nat j) (seq j n)) o (t_update_body D)) l o' /\ shows l (firstn (64 * n) (skipn (64 * j) D)) /\ holds v (fst (stage2 n s (skipn (64 * j) D))) b o'.
Proof.
  intros HD. induction n as [|n IH]; intros j s o Hl Ho.
  - exists [], o. split; [split; reflexivity|]. split; [apply shows_nil | exact Ho].
  - cbn [seq map t_for stage2]. destruct (gives_body v s b o D j Ho HD ltac:(lia)) as (l & o1 & G & S0 & H1). destruct (IH (S j) _ o1 ltac:(lia) H1) as (l' & o' & G' & S' & H'). exists (l ++ l'), o'. split; [|split].
    + apply gives_at_; [reflexivity|]. eapply gives_bind; [exact G | exact G'].
    + rewrite <- skip_join. now apply shows_app.
    + replace (skipn 64 (skipn (64 * j) D)) with (skipn (64 * S j) D) by (rewrite skip_skip; f_equal; lia). exact H'.
Qed.
Lemma gives_update v s b o d : holds v s b o -> bytes_ok d ->
  exists l o', gives (t_hash_update d o) l o' /\ shows l (firstn (64 * (List.length (b ++ d) / 64)) (b ++ d)) /\ hash_update (VBytes d) o = (Ok tt, o').
Proof.
  intros Ho Hd. destruct (update_holds v s b o d Ho Hd) as (o' & E & _). pose proof (ho_buff _ _ _ _ Ho) as Hb. pose proof (ho_bytes _ _ _ _ Ho) as Hbb.
  set (D := b ++ d). assert (HD : bytes_ok D) by (apply bytes_ok_app; tauto). set (n := (List.length D / 64)%nat).
  assert (Ho1 : holds v s b (set_num_block o (Z.of_nat n))) by (destruct Ho; split; assumption). destruct (gives_loop v D b HD n 0 s _ ltac:(unfold n; pose proof (Nat.div_mod_eq (List.length D) 64); lia) Ho1) as (l & o2 & G & S0 & H2).
  exists l, o'. split; [|split; [exact S0 | exact E]]. assert (EV : snd (t_hash_update d o) = Returns o') by (rewrite erase_update; unfold ends; rewrite E; reflexivity). split; [|exact EV].
  enough (GG : exists x, gives (t_hash_update d o) l x) by (destruct GG as (x & GG & _); exact GG). destruct (_BLOCK_SIZE - len D mod _BLOCK_SIZE <? _BLOCK_SIZE) eqn:QQ; eexists; unfold t_hash_update; (do 2 (apply gives_at_; [reflexivity|])); cbv zeta; rewrite Hb; fold D;
    (replace (len D / _BLOCK_SIZE) with (Z.of_nat n) by (unfold n, len, _BLOCK_SIZE; lia)); change _BLOCK_SIZE with 64 at 1 2; rewrite range_64; (eapply gives_last; [exact G|]); apply gives_if; rewrite QQ; apply gives_ret.
Qed.
Lemma gives_sh o n m : block64 (h_hash_h o) -> block64 m -> exists l, gives (t_step_h o (le_bytes 64 n) m) l (set_h o (sg n (h_hash_h o) m)) /\ shows l m.
Proof. intros Hh Hm. destruct (shows_g (h_hash_h o) n m Hh Hm) as (l & G & S0). exists l. split; [|exact S0]. unfold t_step_h. eapply gives_last; [exact G | apply gives_ret]. Qed.
Lemma gives_sn o n m : h_hash_n o = le_bytes 64 n -> block64 m -> exists n', gives (t_step_n o m) [] (set_n o (le_bytes 64 n')).
Proof. intros E Hm. eexists. apply idle_step_n. unfold step_n. rewrite ends_get, ends_lift, E, add_512_le by exact Hm. reflexivity. Qed.
Lemma gives_ss o n m : h_hash_sigma o = le_bytes 64 n -> block64 m -> exists n', gives (t_step_sigma o m) [] (set_sigma o (le_bytes 64 n')).
Proof. intros E Hm. eexists. apply idle_step_sigma. unfold step_sigma. rewrite ends_get, ends_lift, E, add_512_le by exact Hm. reflexivity. Qed.
Lemma gives_steps o i n sg : block64 (h_hash_h o) -> h_hash_n o = le_bytes 64 n -> h_hash_sigma o = le_bytes 64 sg -> block64 (h_buff o) -> block64 i ->
  exists l1 l2 o', gives (t_final_steps i o) (l1 ++ l2) o' /\ shows l1 (h_buff o) /\ List.length l2 = 3200%nat.
Proof.
  intros Hh Hn Hs Hb Hi. unfold t_final_steps. cbv zeta. rewrite Hn. destruct (gives_sh o n (h_buff o) Hh Hb) as (l1 & G1 & S1). destruct (g_ok (h_hash_h o) n (h_buff o) Hh Hb) as [_ B1]. set (o1 := set_h o _) in *.
  destruct (gives_sn o1 n i Hn Hi) as (n' & G2). set (o2 := set_n o1 _) in *. destruct (gives_ss o2 sg (h_buff o) Hs Hb) as (s' & G3). set (o3 := set_sigma o2 _) in *.
  assert (B3 : block64 (h_hash_h o3)) by exact B1. destruct (gives_sh o3 0 (h_hash_n o3) B3 (le_bytes_block n')) as (l4 & G4 & (k4 & L4 & M4 & _)). destruct (g_ok (h_hash_h o3) 0 (h_hash_n o3) B3 (le_bytes_block n')) as [_ B4]. set (o4 := set_h o3 _) in *.
  assert (B4' : block64 (h_hash_h o4)) by exact B4. destruct (gives_sh o4 0 (h_hash_sigma o4) B4' (le_bytes_block s')) as (l5 & G5 & (k5 & L5 & M5 & _)). rewrite V_0_eq.
  exists l1, (l4 ++ l5). eexists. split; [|split; [exact S1|]].
  - eapply gives_bind; [exact G1|]. eapply gives_idle; [exact G2|]. eapply gives_idle; [exact G3|]. eapply gives_bind; [exact G4 | exact G5].
  - rewrite app_length, L4, L5. destruct (le_bytes_block n') as [X4 _]. destruct (le_bytes_block s') as [X5 _]. change (h_hash_n o3) with (le_bytes 64 n') in M4. change (h_hash_sigma o4) with (le_bytes 64 s') in M5. lia.
Qed.
Lemma gives_final v s b o : holds v s b o -> (List.length b < 64)%nat -> exists l1 l2 o', gives (t_hash_final o) (l1 ++ l2) o' /\ shows l1 (pad b) /\ List.length l2 = 3200%nat /\ hash_final o = (Ok tt, o').
Proof.
  intros Ho Lb. destruct (final_holds v s b o Ho) as (o' & E & _). pose proof (ho_buff _ _ _ _ Ho) as Hb. pose proof (ho_bytes _ _ _ _ Ho) as Hbb. destruct Ho as [H1 H2 H3 H4 H5 H6 H7 H8 _ _].
  assert (EV : snd (t_hash_final o) = Returns o') by (rewrite erase_final; unfold ends; rewrite E; reflexivity).
  enough (GG : exists l1 l2 x, gives (t_hash_final o) (l1 ++ l2) x /\ shows l1 (pad b) /\ List.length l2 = 3200%nat) by (destruct GG as (l1 & l2 & x & [G _] & S1 & L2); exists l1, l2, o'; split; [split; assumption | split; [exact S1 | split; [exact L2 | exact E]]]).
  assert (C : block64 (closing b)) by (split; [|now apply closing_ok]; rewrite closing_pad by exact Lb; unfold pad; rewrite !app_length, repeat_length; cbn [List.length]; lia).
  destruct (count_bytes (len b) (len_nonneg _)) as (i & E1 & E2).
  destruct (gives_steps (set_buff (set_pad_block_size o (_BLOCK_SIZE - len b)) (closing b)) _ (st_N s) (st_Sigma s) ltac:(cbn; rewrite H3; exact H6) H4 H5 C (le_bytes_block ((8 * len b) mod 65536))) as (l1 & l2 & x & G & S1 & L2).
  exists l1, l2, x. split; [|split; [rewrite <- closing_pad by exact Lb; exact S1 | exact L2]]. unfold t_hash_final. apply gives_at_; [reflexivity|]. cbv zeta. rewrite Hb. replace (_BLOCK_SIZE - (_BLOCK_SIZE - len b)) with (len b) by lia.
  eapply gives_idle; [unfold t_res; rewrite E1; split; reflexivity|]. eapply gives_idle; [unfold t_res; rewrite E2; split; reflexivity|]. eapply gives_idle; [|exact G].
  apply gives_if. replace (_BLOCK_SIZE - len b <=? _BLOCK_SIZE) with true by (pose proof (len_nonneg b); lia). cbn [set_pad_block_size h_buff]. rewrite Hb. apply gives_ret.
Qed.
Lemma gives_digest v s b o : holds v s b o -> (List.length b < 64)%nat -> exists l1 l2 d, gives (t_hash_digest o) (l1 ++ l2) d /\ shows l1 (pad b) /\ List.length l2 = 3200%nat.
Proof.
  intros Ho Lb. destruct (gives_final v s b o Ho Lb) as (l1 & l2 & o' & G & S1 & L2 & _). exists l1, l2. eexists. split; [|split; [exact S1 | exact L2]]. unfold t_hash_digest. do 2 (apply gives_at_; [reflexivity|]).
  eapply gives_last; [exact G|]. do 3 (apply gives_at_; [reflexivity|]). apply gives_ret.
Qed.

(** ** Sessions *)
Lemma gives_updates v : forall cs cs0 P b o, fed v cs0 o -> fold_left feed cs0 ([], []) = (P, b) -> Forall bytes_ok cs ->
  exists l o' Q b', gives (t_hash_updates cs o) l o' /\ fed v (cs0 ++ cs) o' /\ fold_left feed (cs0 ++ cs) ([], []) = (P ++ Q, b') /\ shows l Q.
Proof.
  induction cs as [|c cs IH]; intros cs0 P b o Ho EF HF; cbn [t_hash_updates].
  - rewrite app_nil_r. exists [], o, [], b. split; [apply gives_ret|]. split; [exact Ho|]. rewrite app_nil_r. split; [exact EF | apply shows_nil].
  - apply Forall_cons_iff in HF as [Hc HF]. destruct (fed_update v cs0 o c Ho Hc) as (o1 & E1 & H1). pose proof Ho as HH. unfold fed in HH. rewrite EF in HH. destruct HH as (HH & _ & _).
    destruct (gives_update v _ b o c HH Hc) as (l & o2 & G & S0 & E2). rewrite E1 in E2. injection E2 as <-.
    assert (EF' : fold_left feed (cs0 ++ [c]) ([], []) = (P ++ firstn (64 * (List.length (b ++ c) / 64)) (b ++ c), pending b c)) by (rewrite fold_snoc, EF; reflexivity).
    destruct (IH (cs0 ++ [c]) _ _ o1 H1 EF' HF) as (l' & o' & Q & b' & G' & H' & EQ & S'). rewrite <- app_assoc in H', EQ. cbn [app] in H', EQ. exists (l ++ l'), o'. eexists. exists b'. split; [|split; [exact H'|split]].
    + eapply gives_bind; [exact G | exact G'].
    + rewrite EQ, <- app_assoc. reflexivity.
    + now apply shows_app.
Qed.
Lemma unpad_pad P b : unpad (P ++ pad b) = P ++ b.
Proof.
  unfold unpad, pad. rewrite !rev_app_distr. rewrite <- !app_assoc. assert (R : forall n l, drop_zeros (rev (repeat 0 n) ++ l) = drop_zeros l).
  { induction n as [|n IH]; intros l; [reflexivity|]. cbn [repeat rev]. rewrite <- app_assoc, IH. reflexivity. }
  rewrite R. cbn [rev app drop_zeros tl]. rewrite <- rev_app_distr. apply rev_involutive.
Qed.
Lemma hash_name_ok v : negb (String.eqb (vname v) "streebog512" || String.eqb (vname v) "streebog256") = false.
Proof. destruct v; reflexivity. Qed.
Lemma gives_new v : exists o, gives (t_hash_new (vname v) []) [] o /\ fed v [] o.
Proof.
  exists (_hash_init (vname v) (void v)). split.
  - unfold t_hash_new. apply gives_at_; [reflexivity|]. apply gives_if. rewrite hash_name_ok. unfold t_hash_init. do 4 (apply gives_at_; [reflexivity|]). cbv zeta. rewrite init_oid. apply gives_if. apply gives_ret.
  - unfold fed. cbn [fold_left]. split; [apply init_holds | split; [reflexivity | cbn; lia]].
Qed.
Lemma shows_message v cs : Forall bytes_ok cs -> exists l1 l2 d Q b, gives (t_hash_session (vname v) cs) (l1 ++ l2) d /\ shows l1 (Q ++ pad b) /\ List.length l2 = 3200%nat /\ effective cs = Q ++ b.
Proof.
  intros HF. destruct (gives_new v) as (o & G & Ho). destruct (gives_updates v cs [] [] [] o Ho eq_refl HF) as (l & o' & Q & b & G' & H' & EQ & S'). cbn [app] in H', EQ. pose proof H' as HH. unfold fed in HH. rewrite EQ in HH. destruct HH as (HH & _ & Lb).
  destruct (gives_digest v _ b o' HH Lb) as (l1 & l2 & d & G'' & S'' & L2). exists (l ++ l1), l2, d, Q, b. split; [|split; [now apply shows_app|split; [exact L2|]]].
  - unfold t_hash_session. eapply gives_idle; [exact G|]. rewrite <- app_assoc. eapply gives_bind; [exact G' | exact G''].
  - unfold effective. rewrite EQ. reflexivity.
Qed.
Lemma recovers v cs : Forall bytes_ok cs -> hash_recover (fst (t_hash_session (vname v) cs)) = effective cs.
Proof.
  intros HF. destruct (shows_message v cs HF) as (l1 & l2 & d & Q & b & [G _] & (n & L1 & M1 & S1) & L2 & ->). unfold hash_recover. rewrite G, app_length, L1, L2. replace ((1600 * n + 3200) / 1600 - 2)%nat with (n + 0)%nat by (replace (1600 * n + 3200)%nat with ((n + 2) * 1600)%nat by lia; rewrite Nat.div_mul; lia).
  rewrite S1. cbn [hash_blocks]. rewrite app_nil_r. apply unpad_pad.
Qed.

(** ** HMAC *)
Lemma gives_self {A} (c : T A) a : snd c = Returns a -> gives c (hash_indices (fst c)) a.
Proof. split; [reflexivity | assumption]. Qed.
Lemma le_bytes_length n x : List.length (le_bytes n x) = n.
Proof. revert x. induction n as [|n IH]; intros x; cbn [le_bytes List.length]; [reflexivity | now rewrite IH]. Qed.
Lemma LPS_length x : List.length (LPS x) = 64%nat.
Proof. unfold LPS, sL. cbn [seq map concat]. rewrite !app_length, !le_bytes_length. reflexivity. Qed.
Lemma hash_block_length l : List.length (hash_block l) = 64%nat.
Proof. unfold hash_block, sX. rewrite map_length, combine_length, LPS_length, sP_length. reflexivity. Qed.
Lemma shows_first l m r : shows l m -> (64 <= List.length m)%nat -> hash_block (l ++ r) = firstn 64 m.
Proof.
  intros (n & L & M & H) G. specialize (H 0%nat r). destruct n as [|n]; [lia|]. cbn [Nat.add hash_blocks] in H. rewrite app_nil_r in H. rewrite <- H, firstn_app, hash_block_length, Nat.sub_diag, firstn_O, app_nil_r. symmetry. apply firstn_all2. rewrite hash_block_length. lia.
Qed.
Lemma shows_size l m : shows l m -> (64 * List.length l = 1600 * List.length m)%nat.
Proof. intros (n & L & M & _). lia. Qed.
Lemma outer_size v (x i : bytes) : List.length x = 64%nat -> List.length i = hash_bytes v -> (64 <= 64 * (List.length (x ++ i) / 64) <= List.length (x ++ i))%nat /\ (64 * (List.length (x ++ i) / 64) + 64 + 128 = 64 * outer_calls v)%nat.
Proof. intros Lx Li. rewrite app_length, Lx, Li. destruct v; cbn; lia. Qed.
Lemma pad_back p k : with_pad p (with_pad p k) = k.
Proof. unfold with_pad. rewrite map_map. rewrite <- (map_id k) at 2. apply map_ext. intros x. now rewrite Z.lxor_assoc, Z.lxor_nilpotent, Z.lxor_0_r. Qed.
Lemma tag_recovers v k l n o : state_is v k l n o -> hmac_recover v (fst (t_hmac_digest o)) = firstn 64 k.
Proof.
  intros [H1 H2 H3 H4 H5 H6 H7]. destruct (hash_init_fed v) as [EI FI]. destruct (fed_hash v l _ H4) as [Li Hi]. set (inn := streebog v (effective l)) in *. set (x := with_pad 0x5c (firstn 64 k)).
  assert (Lx : List.length x = 64%nat) by (unfold x; rewrite with_pad_length, firstn_length; lia). assert (Hx : bytes_ok x) by (apply with_pad_ok; [unfold byte_ok; lia | now apply bytes_ok_firstn]).
  assert (HB : bytes_ok (x ++ inn)) by (apply bytes_ok_app; tauto). destruct (fed_update v [] _ _ FI HB) as (o' & E & H).
  pose proof FI as Hinit. unfold fed in Hinit. cbn [fold_left] in Hinit. destruct Hinit as (Hinit & _ & _). destruct (gives_update v _ [] _ _ Hinit HB) as (lu & o2 & GU & SU & EU). cbn [app] in SU. rewrite E in EU. injection EU as <-.
  pose proof (fed_name v _ _ H) as EN. unfold fed in H. destruct (fold_left feed ([] ++ [x ++ inn]) ([], [])) as [P b]. destruct H as (Ho' & _ & Lb).
  destruct (gives_digest v _ b o' Ho' Lb) as (l1 & l2 & d & GD & SD & L2).
  assert (GI : gives (t_hash_digest (hm_hasher o)) (hash_indices (fst (t_hash_digest (hm_hasher o)))) inn) by (apply gives_self; rewrite erase_digest, (fed_digest v l _ H4); reflexivity). set (l0 := hash_indices _) in GI.
  assert (G : gives (t_hmac_digest o) (l0 ++ lu ++ (l1 ++ l2)) d).
  { unfold t_hmac_digest. do 2 (apply gives_at_; [reflexivity|]). rewrite (fed_name v l _ H4). eapply gives_idle; [|eapply gives_idle; [apply gives_xor|]].
    - unfold t_hash_init. do 4 (apply gives_at_; [reflexivity|]). cbv zeta. rewrite init_oid. apply gives_if. apply gives_ret.
    - rewrite H1, o_pad. eapply gives_bind; [exact GI|]. fold x. eapply gives_bind; [exact GU|]. eapply gives_last; [exact GD|]. do 3 (apply gives_at_; [reflexivity|]). apply gives_ret. }
  destruct G as [G _]. unfold hmac_recover. rewrite G. destruct (outer_size v x inn Lx Li) as [S1 S2]. pose proof (shows_size _ _ SU) as ZU. rewrite firstn_length_le in ZU by lia. pose proof (shows_size _ _ SD) as ZD.
  assert (LP : List.length (pad b) = 64%nat) by (unfold pad; rewrite !app_length, repeat_length; cbn [List.length]; lia). rewrite LP in ZD.
  rewrite (skip_exact l0) by (rewrite !app_length; lia). rewrite (shows_first lu _ (l1 ++ l2) SU) by (rewrite firstn_length_le; lia). rewrite firstn_firstn, Nat.min_l by lia. rewrite firstn_app, Lx, Nat.sub_diag, firstn_O, app_nil_r, firstn_all2 by lia. apply pad_back.
Qed.
