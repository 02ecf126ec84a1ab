(** * Lemmas on the programs of the documentation *)
From Coq Require Import ZArith Lia.
From Verif Require Import PyBase PyFacts PyState PyLoop SpecModes Streebog Hmac Modes Mac Programs SigArith.
Open Scope list_scope.
Open Scope Z_scope.

(** The pieces a file is read in. *)
Lemma blocks_fuel_more n : (0 < n)%nat -> forall f g l, (length l <= f)%nat -> (length l <= g)%nat -> blocks_fuel f n l = blocks_fuel g n l.
Proof.
  intros Hn. induction f as [|f IH]; intros g l Hf Hg.
  - destruct l; [|cbn in Hf; lia]. destruct g; reflexivity.
  - destruct l as [|x l]; [destruct g; reflexivity|]. destruct g as [|g]; [cbn in Hg; lia|]. cbn [blocks_fuel]. f_equal. cbn [length] in Hf, Hg. apply IH; rewrite skipn_length; cbn [length]; lia.
Qed.
Lemma blocks_step n l : (0 < n)%nat -> l <> [] -> blocks n l = firstn n l :: blocks n (skipn n l).
Proof.
  intros Hn Hl. destruct l as [|x l]; [contradiction|]. unfold blocks. cbn [length blocks_fuel]. f_equal. apply blocks_fuel_more; [exact Hn | rewrite skipn_length; cbn [length]; lia | lia].
Qed.
Lemma blocks_ind n (P : bytes -> Prop) : (0 < n)%nat -> P [] -> (forall l, l <> [] -> P (skipn n l) -> P l) -> forall l, P l.
Proof.
  intros Hn H0 HS l. remember (length l) as m eqn:E. assert (L : (length l <= m)%nat) by lia. clear E. revert l L. induction m as [|m IH]; intros l L.
  - destruct l; [exact H0 | cbn in L; lia].
  - destruct l as [|x l]; [exact H0|]. apply HS; [discriminate|]. apply IH. rewrite skipn_length. cbn [length] in *. lia.
Qed.
Lemma concat_blocks n l : (0 < n)%nat -> concat (blocks n l) = l.
Proof.
  intros Hn. revert l. apply (blocks_ind n _ Hn); [reflexivity|]. intros l Hl IH. rewrite blocks_step by assumption. cbn [concat]. rewrite IH. apply firstn_skipn.
Qed.
Lemma blocks_bytes n l : (0 < n)%nat -> bytes_ok l -> Forall bytes_ok (blocks n l).
Proof.
  intros Hn. revert l. apply (blocks_ind n (fun l => bytes_ok l -> Forall bytes_ok (blocks n l)) Hn); [constructor|]. intros l Hl IH H. rewrite blocks_step by assumption. rewrite <- (firstn_skipn n l) in H. apply bytes_ok_app in H as [H1 H2]. constructor; auto.
Qed.
Lemma blocks_pieces n l : (0 < n)%nat -> Forall (fun b => b <> []) (blocks n l) /\ Forall (fun b => length b = n) (removelast (blocks n l)).
Proof.
  intros Hn. revert l. apply (blocks_ind n _ Hn); [split; constructor|]. intros l Hl [I1 I2]. rewrite blocks_step by assumption. split.
  - constructor; [destruct l; [contradiction|]; destruct n; [lia | discriminate] | exact I1].
  - destruct (Nat.le_gt_cases (length l) n).
    + rewrite skipn_all2 by assumption. constructor.
    + destruct (skipn n l) as [|x r] eqn:E; [apply (f_equal (@length Z)) in E; rewrite skipn_length in E; cbn in E; lia|]. rewrite <- E in *. assert (N : blocks n (skipn n l) <> []) by (rewrite blocks_step by (rewrite ?E; auto; discriminate); discriminate).
      destruct (blocks n (skipn n l)) as [|b bs] eqn:EB; [contradiction|]. change (removelast (firstn n l :: b :: bs)) with (firstn n l :: removelast (b :: bs)). constructor; [apply firstn_length_le; lia | exact I2].
Qed.
Lemma blocks_nil n l : (0 < n)%nat -> blocks n l = [] -> l = [].
Proof. intros Hn E. rewrite <- (concat_blocks n l Hn), E. reflexivity. Qed.

(** The body run on one piece after the other. *)
Fixpoint each {S} (body : bytes -> M S unit) (ps : list bytes) : M S unit :=
  match ps with [] => retM tt | p :: ps => let! _ := body p in each body ps end.
Definition done {S} (r : res unit * S) : outcome S := match r with (Ok _, s) => Returns s | (Err e, _) => Raises e end.

Lemma read_file_ends {S} n (body : bytes -> M S unit) file s : 0 < n -> eventually (fun fuel => read_file fuel n body file s) (done (each body (blocks (Z.to_nat n) file) s)).
Proof.
  intros Hn. exists (length file). intros f L. revert file s L. induction f as [|f IH]; intros file s L; unfold read_file, file_read; replace (n <? 0) with false by lia.
  - destruct file; [|cbn in L; lia]. rewrite firstn_nil. reflexivity.
  - destruct file as [|x file]; [rewrite firstn_nil; reflexivity|]. rewrite blocks_step by (lia || discriminate). cbn [read_loop each]. unfold bindM.
    set (l := x :: file) in *. replace (0 <? len (firstn (Z.to_nat n) l)) with true by (unfold len; rewrite firstn_length; cbn [l length]; lia).
    destruct (body (firstn (Z.to_nat n) l) s) as [[u|e] s']; [|reflexivity].
    assert (L' : (length (skipn (Z.to_nat n) l) <= f)%nat) by (rewrite skipn_length; cbn [l length] in *; lia). rewrite <- (IH _ s' L'). reflexivity.
Qed.
Lemma read_file_all {S} n (body : bytes -> M S unit) file s : n < 0 -> eventually (fun fuel => read_file fuel n body file s) (if 0 <? len file then done (body file s) else Returns s).
Proof.
  intros Hn. exists 1%nat. intros f L. unfold read_file, file_read. replace (n <? 0) with true by lia. destruct f as [|f]; [lia|]. cbn [read_loop]. destruct (0 <? len file); [|reflexivity]. destruct (body file s) as [[u|e] s']; [|reflexivity].
  unfold file_read. replace (n <? 0) with true by lia. destruct f; reflexivity.
Qed.
Lemma read_file_none {S} (body : bytes -> M S unit) file s : eventually (fun fuel => read_file fuel 0 body file s) (Returns s).
Proof. exists 0%nat. intros f _. destruct f; reflexivity. Qed.
Lemma ends_bind {A B} (p : nat -> outcome A) (k : nat -> A -> outcome B) r : eventually p r -> (forall a, r = Returns a -> exists r', eventually (fun f => k f a) r') -> exists r', eventually (fun f => bindO (p f) (k f)) r'.
Proof.
  intros [f0 H] HK. destruct r as [a|e|].
  - destruct (HK a eq_refl) as (r' & f1 & H'). exists r', (f0 + f1)%nat. intros f L. rewrite H by lia. apply H'. lia.
  - exists (Raises e), f0. intros f L. rewrite H by lia. reflexivity.
  - exists OutOfFuel, f0. intros f L. rewrite H by lia. reflexivity.
Qed.
Lemma ends_then {A B} (p : nat -> outcome A) (k : A -> outcome B) r : eventually p r -> eventually (fun f => bindO (p f) k) (bindO r k).
Proof. intros [f0 H]. exists f0. intros f L. rewrite H by exact L. reflexivity. Qed.
