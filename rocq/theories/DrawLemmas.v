(** * Counting draws *)
From Coq Require Import List ZArith Lia Bool.
From Verif Require Import PyBase PyFacts SpecModes SpecDraw.
From Verif Require Import Utils UtilsFacts CipherObjFacts.
Import ListNotations.
Open Scope Z_scope.

Lemma in_tuples {A} (l : list A) n : forall t, In t (tuples l n) <-> List.length t = n /\ Forall (fun a => In a l) t.
Proof.
  induction n as [|n IH]; intros t; cbn [tuples].
  - split; [intros [<-|[]]; now split|]. intros [H _]. left. now destruct t.
  - rewrite in_flat_map. split.
    + intros (a & Ha & Ht). apply in_map_iff in Ht as (t' & <- & Ht'). apply IH in Ht' as [H1 H2]. split; [cbn; congruence | now constructor].
    + intros [H1 H2]. destruct t as [|a t]; [discriminate H1|]. inversion H2; subst. exists a. split; [assumption|]. apply in_map, IH. cbn in H1. split; [lia | assumption].
Qed.
Lemma tuples_length {A} (l : list A) n : Z.of_nat (List.length (tuples l n)) = Z.of_nat (List.length l) ^ Z.of_nat n.
Proof.
  induction n as [|n IH]; [reflexivity|]. cbn [tuples]. rewrite Nat2Z.inj_succ, Z.pow_succ_r by lia. rewrite <- IH. generalize (tuples l n). intros T. clear.
  enough (H : forall l', List.length (flat_map (fun a => map (cons a) T) l') = (List.length l' * List.length T)%nat) by (rewrite H; lia).
  induction l' as [|a l' IH]; [reflexivity|]. cbn [flat_map List.length]. rewrite app_length, map_length, IH. lia.
Qed.

Lemma cases_app {A} (f : A -> bool) l1 l2 : cases f (l1 ++ l2) = cases f l1 + cases f l2.
Proof. unfold cases. rewrite filter_app, app_length. lia. Qed.
Lemma cases_map {A B} (g : A -> B) (f : B -> bool) l : cases f (map g l) = cases (fun a => f (g a)) l.
Proof. unfold cases. f_equal. induction l as [|a l IH]; [reflexivity|]. cbn [map filter]. destruct (f (g a)); cbn [List.length]; now rewrite IH. Qed.
Lemma cases_cons {A} (f : A -> bool) a l : cases f (a :: l) = (if f a then 1 else 0) + cases f l.
Proof. unfold cases. cbn [filter]. destruct (f a); cbn [List.length]; lia. Qed.
Lemma cases_ext {A} (f g : A -> bool) l : (forall a, In a l -> f a = g a) -> cases f l = cases g l.
Proof.
  intros H. induction l as [|a l IH]; [reflexivity|]. rewrite !cases_cons, (H a (or_introl eq_refl)), IH; [reflexivity|]. intros x Hx. apply H. now right.
Qed.
Lemma cases_all {A} (l : list A) : cases (fun _ => true) l = Z.of_nat (List.length l).
Proof. induction l as [|a l IH]; [reflexivity|]. rewrite cases_cons, IH. cbn [List.length]. lia. Qed.
Lemma cases_none {A} (l : list A) : cases (fun _ => false) l = 0.
Proof. induction l as [|a l IH]; [reflexivity|]. rewrite cases_cons, IH. lia. Qed.

(** The first element decides. *)
Lemma cases_first {A} (l : list A) (T : list (list A)) (f : list A -> bool) (p q : A -> bool) x y :
  (forall a, In a l -> cases (fun t => f (a :: t)) T = if p a then x else if q a then y else 0) ->
  cases f (flat_map (fun a => map (cons a) T) l) = x * cases p l + y * cases (fun a => negb (p a) && q a) l.
Proof.
  intros H. induction l as [|a l IH]; [cbn; lia|]. cbn [flat_map]. rewrite cases_app, cases_map, !cases_cons, (H a (or_introl eq_refl)), IH by (intros b Hb; apply H; now right).
  destruct (p a), (q a); cbn [negb andb]; lia.
Qed.

(** ** Strings of octets are the numbers *)

Lemma seq_blocks M K : flat_map (fun b => map (fun i => (b * M + i)%nat) (seq 0 M)) (seq 0 K) = seq 0 (K * M).
Proof.
  induction K as [|K IH]; [reflexivity|]. rewrite seq_S, flat_map_app, IH. cbn [flat_map]. rewrite app_nil_r. cbn [Nat.add].
  replace (S K * M)%nat with (K * M + M)%nat by lia. rewrite seq_app. f_equal. cbn [Nat.add]. clear. generalize (K * M)%nat as c. intros c.
  enough (H : forall s, map (fun i => (c + i)%nat) (seq s M) = seq (c + s) M) by (rewrite H; f_equal; lia).
  induction M as [|M IH]; intros s; [reflexivity|]. cbn [seq map]. rewrite IH. do 2 f_equal. lia.
Qed.
Lemma flat_map_map {A B C} (f : A -> B) (g : B -> list C) l : flat_map g (map f l) = flat_map (fun a => g (f a)) l.
Proof. induction l as [|a l IH]; [reflexivity|]. cbn [map flat_map]. now rewrite IH. Qed.
Lemma map_flat_map {A B C} (f : B -> C) (g : A -> list B) l : map f (flat_map g l) = flat_map (fun a => map f (g a)) l.
Proof. induction l as [|a l IH]; [reflexivity|]. cbn [flat_map]. now rewrite map_app, IH. Qed.

Lemma strings_in n s : In s (strings n) <-> List.length s = n /\ bytes_ok s.
Proof.
  unfold strings. rewrite in_tuples. split; intros [H1 H2]; (split; [exact H1|]); (eapply Forall_impl; [|exact H2]); intros a Ha.
  - unfold octet_values in Ha. apply in_map_iff in Ha as (i & <- & Hi). apply in_seq in Hi. unfold byte_ok. lia.
  - unfold octet_values. apply in_map_iff. exists (Z.to_nat a). unfold byte_ok in Ha. rewrite in_seq. lia.
Qed.
Lemma strings_values n : map be_value (strings n) = map Z.of_nat (seq 0 (256 ^ n)).
Proof.
  induction n as [|n IH]; [reflexivity|]. replace (256 ^ S n)%nat with (256 * 256 ^ n)%nat by (rewrite Nat.pow_succ_r'; reflexivity). rewrite <- seq_blocks.
  unfold strings. cbn [tuples]. fold (strings n). unfold octet_values. rewrite map_flat_map, flat_map_map, map_flat_map. generalize (seq 0 256). intros L.
  assert (HL : forall s, In s (strings n) -> List.length s = n) by (intros s Hs; now apply strings_in in Hs). induction L as [|b L IHL]; [reflexivity|]. cbn [flat_map]. rewrite IHL. f_equal.
  rewrite !map_map. transitivity (map (fun v => Z.of_nat b * 256 ^ Z.of_nat n + v) (map be_value (strings n))).
  - rewrite map_map. apply map_ext_in. intros s Hs. rewrite !be_value_eq, bytearray_to_int_cons. unfold len. now rewrite (HL s Hs).
  - rewrite IH, map_map. apply map_ext. intros i. rewrite Nat2Z.inj_add, Nat2Z.inj_mul, Nat2Z.inj_pow. reflexivity.
Qed.

Lemma cases_values (p : Z -> bool) n : cases (fun s => p (be_value s)) (strings n) = cases (fun i => p (Z.of_nat i)) (seq 0 (256 ^ n)).
Proof. rewrite <- (cases_map be_value p), strings_values, cases_map. reflexivity. Qed.
Lemma cases_ge q : 0 <= q -> forall M, cases (fun i => negb (Z.of_nat i <? q)) (seq 0 M) = Z.max 0 (Z.of_nat M - q).
Proof.
  intros Hq. induction M as [|M IH]; [cbn; lia|]. rewrite seq_S, cases_app, IH, cases_cons. cbn [Nat.add]. change (cases _ []) with 0.
  destruct (Z.ltb_spec (Z.of_nat M) q); cbn [negb]; lia.
Qed.
Lemma cases_eq k : 0 <= k -> forall M, cases (fun i => Z.of_nat i =? k) (seq 0 M) = if k <? Z.of_nat M then 1 else 0.
Proof.
  intros Hk. induction M as [|M IH]; [cbn; destruct (Z.ltb_spec k 0); lia|]. rewrite seq_S, cases_app, IH, cases_cons. cbn [Nat.add]. change (cases _ []) with 0.
  destruct (Z.eqb_spec (Z.of_nat M) k), (Z.ltb_spec k (Z.of_nat M)), (Z.ltb_spec k (Z.of_nat (S M))); lia.
Qed.
Lemma big n : Z.of_nat (256 ^ n) = 256 ^ Z.of_nat n.
Proof. rewrite Nat2Z.inj_pow. reflexivity. Qed.

(** ** The numbers of cases *)

Section Count.
  Variables (n : nat) (q : Z).
  Let N : Z := 256 ^ Z.of_nat n.
  Hypothesis Hq : 0 < q <= N.

  Lemma N_strings : Z.of_nat (List.length (strings n)) = N.
  Proof. unfold strings. rewrite tuples_length. unfold octet_values. rewrite map_length, seq_length. reflexivity. Qed.
  Lemma N_draws m : Z.of_nat (List.length (draws n m)) = N ^ Z.of_nat m.
  Proof. unfold draws. rewrite tuples_length, N_strings. reflexivity. Qed.
  Lemma rejected : cases (fun s => negb (be_value s <? q)) (strings n) = N - q.
  Proof. rewrite (cases_values (fun v => negb (v <? q))), cases_ge by lia. rewrite big. fold N. lia. Qed.
  Lemma accepted k : 0 <= k < q -> cases (fun s => be_value s =? k) (strings n) = 1.
  Proof. intros Hk. rewrite (cases_values (fun v => v =? k)), cases_eq by lia. rewrite big. fold N. replace (k <? N) with true by lia. reflexivity. Qed.

  Lemma gives_cons k s d : gives q k (s :: d) = if be_value s <? q then be_value s =? k else gives q k d.
  Proof. unfold gives. cbn [first_below]. destruct (be_value s <? q); reflexivity. Qed.
  Lemma none_cons s d : gives_none q (s :: d) = if be_value s <? q then false else gives_none q d.
  Proof. unfold gives_none. cbn [first_below]. destruct (be_value s <? q); reflexivity. Qed.

  Lemma cases_gives k m : 0 <= k < q -> q * cases (gives q k) (draws n m) = N ^ Z.of_nat m - (N - q) ^ Z.of_nat m.
  Proof.
    intros Hk. induction m as [|m IH]; [cbn; lia|]. unfold draws. cbn [tuples]. fold (draws n m).
    rewrite (cases_first _ _ _ (fun s => negb (be_value s <? q)) (fun s => be_value s =? k) (cases (gives q k) (draws n m)) (N ^ Z.of_nat m)).
    - rewrite rejected. rewrite (cases_ext _ (fun s => be_value s =? k)).
      + rewrite accepted by exact Hk. rewrite Nat2Z.inj_succ, !Z.pow_succ_r by lia. rewrite Z.mul_1_r, Z.mul_add_distr_l, Z.mul_assoc, IH. ring.
      + intros s _. rewrite negb_involutive. destruct (Z.eqb_spec (be_value s) k); [|apply andb_false_r]. rewrite andb_true_r. lia.
    - intros s _. rewrite (cases_ext _ (fun d => if be_value s <? q then be_value s =? k else gives q k d)) by (intros; apply gives_cons).
      destruct (be_value s <? q); cbn [negb]; [|reflexivity]. destruct (be_value s =? k); [rewrite cases_all; apply N_draws | apply cases_none].
  Qed.
  Lemma cases_gives_none m : cases (gives_none q) (draws n m) = (N - q) ^ Z.of_nat m.
  Proof.
    induction m as [|m IH]; [reflexivity|]. unfold draws. cbn [tuples]. fold (draws n m).
    rewrite (cases_first _ _ _ (fun s => negb (be_value s <? q)) (fun s => false) (cases (gives_none q) (draws n m)) 0).
    - rewrite rejected, IH. rewrite Nat2Z.inj_succ, !Z.pow_succ_r by lia. ring.
    - intros s _. rewrite (cases_ext _ (fun d => if be_value s <? q then false else gives_none q d)) by (intros; apply none_cons).
      destruct (be_value s <? q); cbn [negb]; [apply cases_none | reflexivity].
  Qed.
End Count.
