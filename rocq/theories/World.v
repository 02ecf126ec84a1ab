(** * Several objects used in any order

    [step] is one call on an object; [copy.deepcopy] makes a new object with equal attributes,
    which is appended to the objects in use.  Objects are values: no two objects of the
    library share a mutable part. *)
From Verif Require Import PyBase.

Section World.
Context {O C R : Type}.
Variable step : C -> O -> res R * O.

Fixpoint run (cs : list C) (o : O) : list (res R) * O :=
  match cs with
  | [] => ([], o)
  | c :: cs' => let (r, o1) := step c o in let (rs, o2) := run cs' o1 in (r :: rs, o2)
  end.

Inductive wcall : Type :=
| WCall (i : nat) (c : C)
| WCopy (i : nat).

Definition wstep (x : wcall) (w : list O) : list (nat * res R) * list O :=
  match x with
  | WCall i c =>
      match nth_error w i with
      | Some o => let (r, o') := step c o in ([(i, r)], upd w i o')
      | None => ([], w)
      end
  | WCopy i => match nth_error w i with Some o => ([], w ++ [o]) | None => ([], w) end
  end.
Fixpoint wrun (xs : list wcall) (w : list O) : list (nat * res R) * list O :=
  match xs with
  | [] => ([], w)
  | x :: xs' => let (r, w1) := wstep x w in let (rs, w2) := wrun xs' w1 in (r ++ rs, w2)
  end.

(** The calls on object [j], and their results. *)
Fixpoint calls_on (j : nat) (xs : list wcall) : list C :=
  match xs with
  | [] => []
  | WCall i c :: xs' => if Nat.eqb i j then c :: calls_on j xs' else calls_on j xs'
  | WCopy _ :: xs' => calls_on j xs'
  end.
Definition results_on (j : nat) (rs : list (nat * res R)) : list (res R) :=
  map snd (filter (fun p => Nat.eqb (fst p) j) rs).

Lemma run_app cs1 cs2 o : run (cs1 ++ cs2) o =
  (fst (run cs1 o) ++ fst (run cs2 (snd (run cs1 o))), snd (run cs2 (snd (run cs1 o)))).
Proof.
  revert o. induction cs1 as [|c cs1 IH]; intros o; cbn [app run fst snd]; [now destruct (run cs2 o)|].
  destruct (step c o) as [r o1]. rewrite IH. now destruct (run cs1 o1).
Qed.

Lemma run_cons c cs o : run (c :: cs) o = (fst (step c o) :: fst (run cs (snd (step c o))), snd (run cs (snd (step c o)))).
Proof. cbn [run]. destruct (step c o) as [r o1]. cbn [fst snd]. now destruct (run cs o1). Qed.

Lemma results_app j a b : results_on j (a ++ b) = results_on j a ++ results_on j b.
Proof. unfold results_on. now rewrite filter_app, map_app. Qed.

Lemma nth_error_upd {A} (l : list A) i j v : nth_error (upd l i v) j = if Nat.eqb i j then match nth_error l j with Some _ => Some v | None => None end else nth_error l j.
Proof. revert i j. induction l as [|x l IH]; intros [|i] [|j]; cbn [upd nth_error Nat.eqb]; try reflexivity; [now destruct (Nat.eqb i j) | apply IH]. Qed.

Lemma independent xs : forall w j o, nth_error w j = Some o ->
  results_on j (fst (wrun xs w)) = fst (run (calls_on j xs) o) /\ nth_error (snd (wrun xs w)) j = Some (snd (run (calls_on j xs) o)).
Proof.
  induction xs as [|x xs IH]; intros w j o Hj; [split; [reflexivity | exact Hj]|]. cbn [wrun calls_on]. destruct x as [i c|i]; cbn [wstep].
  - destruct (nth_error w i) as [oi|] eqn:Ei.
    + destruct (step c oi) as [r o'] eqn:Es. specialize (IH (upd w i o') j). rewrite nth_error_upd in IH. destruct (Nat.eqb_spec i j) as [->|N].
      * rewrite Hj in Ei, IH. inversion Ei; subst oi. destruct (IH _ eq_refl) as [R1 S]. destruct (wrun xs (upd w j o')) as [rs w2]. cbn [fst snd] in *.
        rewrite results_app. cbn [run]. rewrite Es. unfold results_on at 1. cbn [filter fst]. rewrite Nat.eqb_refl. cbn [map snd app].
        rewrite R1. destruct (run (calls_on j xs) o') as [rs' o2]. split; [reflexivity | exact S].
      * destruct (IH o Hj) as [R1 S]. destruct (wrun xs (upd w i o')) as [rs w2]. cbn [fst snd] in *. rewrite results_app. unfold results_on at 1. cbn [filter fst].
        replace (Nat.eqb i j) with false by (symmetry; now apply Nat.eqb_neq). cbn [map app]. split; assumption.
    + replace (Nat.eqb i j) with false by (symmetry; apply Nat.eqb_neq; intros ->; congruence).
      destruct (IH w j o Hj) as [R1 S]. destruct (wrun xs w) as [rs w2]. split; assumption.
  - destruct (nth_error w i) as [oi|] eqn:Ei.
    + destruct (IH (w ++ [oi]) j o) as [R1 S]; [rewrite nth_error_app1; [exact Hj | apply nth_error_Some; congruence]|].
      destruct (wrun xs (w ++ [oi])) as [rs w2]. split; assumption.
    + destruct (IH w j o Hj) as [R1 S]. destruct (wrun xs w) as [rs w2]. split; assumption.
Qed.

Lemma copy_equal w i o : nth_error w i = Some o -> nth_error (snd (wstep (WCopy i) w)) (List.length w) = Some o.
Proof. intros H. cbn [wstep]. rewrite H. cbn [snd]. rewrite nth_error_app2 by lia. now rewrite Nat.sub_diag. Qed.
End World.
Arguments WCall {C}.
Arguments WCopy {C}.
