(** * Using the certificates *)
From Bignums Require Import BigZ.
From Coq Require Import ZArith Znumtheory Lia List Bool.
From Verif Require Import Fp SpecCurve SpecSign SigLemmas Primes BigCert.
Import ListNotations.
Local Open Scope Z_scope.

Definition factor_of (t : positive * positive * B * B) : Z := Z.pos (fst (fst (fst t))).
Fixpoint distinct (l : list Z) : bool := match l with [] => true | x :: l' => forallb (fun y => negb (Z.eqb x y)) l' && distinct l' end.
Lemma distinct_ok l : distinct l = true -> NoDup l.
Proof.
  induction l as [|x l IH]; intros E; [constructor|]. cbn [distinct] in E. apply andb_true_iff in E. destruct E as [E1 E2]. constructor; [|now apply IH].
  intros HI. rewrite forallb_forall in E1. specialize (E1 x HI). now rewrite Z.eqb_refl in E1.
Qed.
Definition pock_check (n : Z) (nb : B) (l : list (positive * positive * B * B)) : bool :=
  (1 <? n) && distinct (map factor_of l) && (n <=? prod (map factor_of l) * prod (map factor_of l)) &&
  forallb (fun t => check_witness nb (fst (fst (fst t))) (snd (fst (fst t))) (snd (fst t)) (snd t)) l.
Lemma pock n nb l : zv nb = n -> pock_check n nb l = true -> Forall (fun t => prime (factor_of t)) l -> prime n.
Proof.
  intros E OK HP. unfold pock_check in OK. rewrite !andb_true_iff in OK. destruct OK as [[[H1 H2] H3] H4]. apply Z.ltb_lt in H1. apply Z.leb_le in H3. apply distinct_ok in H2.
  apply (pocklington n (map factor_of l) H1 H2); [|exact H3]. rewrite forallb_forall in H4. rewrite Forall_forall in *. intros f Hf. apply in_map_iff in Hf. destruct Hf as (t & <- & Ht).
  rewrite <- E. apply (check_witness_ok _ _ _ _ _ (H4 t Ht)). now apply HP.
Qed.

Lemma curve_facts_of nb ab gxb gyb bb wd q ss w p a b x y : check_curve nb ab gxb gyb bb wd q ss w = true ->
  prime p -> 2 < p -> prime q -> 2 < q -> zv nb = p -> zv ab = a -> zv bb = b -> zv gxb = x -> zv gyb = y ->
  ec_disc p a b <> mk p 0 /\ ec_on p a b (aff p x y) /\ ec_mul p a q (aff p x y) = Inf.
Proof.
  intros OK PP P2 PQ Q2 <- <- <- <- <-.
  assert (D : (zv nb | zv nb)) by apply Z.divide_refl.
  assert (O : zv nb mod 2 = 1).
  { assert (HB := Z.mod_pos_bound (zv nb) 2 ltac:(lia)). destruct (Z.eq_dec (zv nb mod 2) 0) as [E|E]; [|lia]. apply Z.mod_divide in E; [|lia]. apply (prime_divisors _ PP) in E. lia. }
  split; [exact (curve_disc _ _ _ _ _ _ _ _ _ OK P2 O (zv nb) PP D)|]. split; [exact (curve_on _ _ _ _ _ _ _ _ _ OK P2 O (zv nb) PP D) | exact (curve_order _ _ _ _ _ _ _ _ _ OK P2 O PQ Q2 (zv nb) PP D)].
Qed.
