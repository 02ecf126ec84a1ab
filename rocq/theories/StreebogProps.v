(** * Streebog: copies, reset, sizes and argument checks *)
From Coq Require Import Ascii.
From Verif Require Import PyBase PyState PyFacts Utils UtilsFacts Streebog SpecStreebog SpecHashHist StreebogFacts StreebogFacts2 StreebogObj StreebogLemmas.
Open Scope string_scope.
Open Scope list_scope.
Open Scope Z_scope.

(** ** Several objects.  gost_34_11_2012.py 913-920 [copy]: [deepcopy] makes a new object with equal
    attributes, which is appended to the objects in use. *)
Inductive wcall : Type :=
| WCall (i : nat) (c : hcall)
| WCopy (i : nat).

Definition wstep (x : wcall) (w : list hash_obj) : list (nat * res hres) * list hash_obj :=
  match x with
  | WCall i c =>
      match nth_error w i with
      | Some o => let (r, o') := hstep c o in ([(i, r)], upd w i o')
      | None => ([], w)
      end
  | WCopy i => match nth_error w i with Some o => ([], w ++ [o]) | None => ([], w) end
  end.
Fixpoint wrun (xs : list wcall) (w : list hash_obj) : list (nat * res hres) * list hash_obj :=
  match xs with
  | [] => ([], w)
  | x :: xs' => let (r, w1) := wstep x w in let (rs, w2) := wrun xs' w1 in (r ++ rs, w2)
  end.

(** The calls on object [j], and their results. *)
Fixpoint calls_on (j : nat) (xs : list wcall) : list hcall :=
  match xs with
  | [] => []
  | WCall i c :: xs' => if Nat.eqb i j then c :: calls_on j xs' else calls_on j xs'
  | WCopy _ :: xs' => calls_on j xs'
  end.
Definition results_on (j : nat) (rs : list (nat * res hres)) : list (res hres) :=
  map snd (filter (fun p => Nat.eqb (fst p) j) rs).

Lemma results_app j a b : results_on j (a ++ b) = results_on j a ++ results_on j b.
Proof. unfold results_on. now rewrite filter_app, map_app. Qed.

Lemma nth_error_upd {A} (l : list A) i j v : nth_error (upd l i v) j = if Nat.eqb i j then match nth_error l j with Some _ => Some v | None => None end else nth_error l j.
Proof. revert i j. induction l as [|x l IH]; intros [|i] [|j]; cbn [upd nth_error Nat.eqb]; try reflexivity; [now destruct (Nat.eqb i j) | apply IH]. Qed.

Lemma independent xs : forall w j o, nth_error w j = Some o ->
  results_on j (fst (wrun xs w)) = fst (hrun (calls_on j xs) o) /\ nth_error (snd (wrun xs w)) j = Some (snd (hrun (calls_on j xs) o)).
Proof.
  induction xs as [|x xs IH]; intros w j o Hj; [split; [reflexivity | exact Hj]|]. cbn [wrun calls_on]. destruct x as [i c|i]; cbn [wstep].
  - destruct (nth_error w i) as [oi|] eqn:Ei.
    + destruct (hstep c oi) as [r o'] eqn:Es. specialize (IH (upd w i o') j). rewrite nth_error_upd in IH. destruct (Nat.eqb_spec i j) as [->|N].
      * rewrite Hj in Ei, IH. inversion Ei; subst oi. destruct (IH _ eq_refl) as [R S]. destruct (wrun xs (upd w j o')) as [rs w2]. cbn [fst snd] in *.
        rewrite results_app. cbn [hrun]. rewrite Es. unfold results_on at 1. cbn [filter fst]. rewrite Nat.eqb_refl. cbn [map snd app].
        rewrite R. destruct (hrun (calls_on j xs) o') as [rs' o2]. split; [reflexivity | exact S].
      * destruct (IH o Hj) as [R S]. destruct (wrun xs (upd w i o')) as [rs w2]. cbn [fst snd] in *. rewrite results_app. unfold results_on at 1. cbn [filter fst].
        replace (Nat.eqb i j) with false by (symmetry; now apply Nat.eqb_neq). cbn [map app]. split; assumption.
    + replace (Nat.eqb i j) with false by (symmetry; apply Nat.eqb_neq; intros ->; congruence).
      destruct (IH w j o Hj) as [R S]. destruct (wrun xs w) as [rs w2]. split; assumption.
  - destruct (nth_error w i) as [oi|] eqn:Ei.
    + destruct (IH (w ++ [oi]) j o) as [R S]; [rewrite nth_error_app1; [exact Hj | apply nth_error_Some; congruence]|].
      destruct (wrun xs (w ++ [oi])) as [rs w2]. split; assumption.
    + destruct (IH w j o Hj) as [R S]. destruct (wrun xs w) as [rs w2]. split; assumption.
Qed.

Lemma copy_equal w i o : nth_error w i = Some o -> nth_error (snd (wstep (WCopy i) w)) (List.length w) = Some o.
Proof. intros H. cbn [wstep]. rewrite H. cbn [snd]. rewrite nth_error_app2 by lia. now rewrite Nat.sub_diag. Qed.

(** ** Reading *)

Definition hex_of_byte (x : Z) : string :=
  match String.get (Z.to_nat (x / 16)) "0123456789abcdef", String.get (Z.to_nat (x mod 16)) "0123456789abcdef" with
  | Some a, Some b => String a (String b EmptyString)
  | _, _ => EmptyString
  end.
Definition hex_of (l : bytes) : string := String.concat "" (map hex_of_byte l).

Lemma hex_byte x : byte_ok x -> hex_of_byte x = String (hex_digit (x / 16)) (String (hex_digit (x mod 16)) EmptyString).
Proof.
  intros Hx. assert (H : forallb (fun x => String.eqb (hex_of_byte x) (String (hex_digit (x / 16)) (String (hex_digit (x mod 16)) EmptyString))) (map Z.of_nat (seq 0 256)) = true) by (vm_compute; reflexivity).
  apply String.eqb_eq. exact (KuzFacts.byte_check _ H x Hx).
Qed.

Lemma concat_cons a l : String.concat "" (a :: l) = (a ++ String.concat "" l)%string.
Proof. destruct l as [|b l]; cbn [String.concat]; [|reflexivity]. induction a as [|c a IH]; cbn; [reflexivity | now rewrite <- IH]. Qed.

Lemma hex_eq l : bytes_ok l -> py_hex l = hex_of l.
Proof.
  induction 1 as [|x l Hx HF IH]; [reflexivity|]. unfold hex_of. cbn [py_hex map]. rewrite concat_cons, hex_byte by exact Hx. cbn [String.append]. now rewrite IH.
Qed.

Lemma digest_reads v o : hash_used v o -> exists d, hash_digest o = (Ok d, o) /\ hash_hexdigest o = (Ok (hex_of d), o) /\
  List.length d = hash_bytes v /\ bytes_ok d /\ digest_size o = Z.of_nat (hash_bytes v).
Proof.
  intros Hu. destruct (used_holds v o Hu) as (s & b & Ho). pose proof (digest_holds v s b o Ho) as E. pose proof (finished_length v s b o Ho) as [HL HB].
  eexists. split; [exact E|]. split; [unfold hash_hexdigest, bindM; rewrite E; unfold retM; now rewrite hex_eq|]. split; [exact HL|]. split; [exact HB|].
  unfold digest_size. rewrite (ho_name _ _ _ _ Ho). destruct v; reflexivity.
Qed.

Definition not_reading (c : hcall) : bool := match c with HDigest | HHexdigest => false | _ => true end.

Lemma digest_same o : snd (hash_digest o) = o.
Proof. unfold hash_digest. now destruct (hash_final o). Qed.

Lemma reading_transparent cs : forall o, snd (hrun cs o) = snd (hrun (filter not_reading cs) o).
Proof.
  induction cs as [|c cs IH]; intros o; [reflexivity|].
  assert (SK : snd (hstep c o) = o -> snd (hrun (c :: cs) o) = snd (hrun cs o)).
  { intros E. cbn [hrun]. destruct (hstep c o) as [r o1]. cbn [snd] in E. subst o1. now destruct (hrun cs o). }
  assert (ST : not_reading c = true -> snd (hrun (c :: cs) o) = snd (hrun (c :: filter not_reading cs) o)).
  { intros _. cbn [hrun]. destruct (hstep c o) as [r o1]. specialize (IH o1). now destruct (hrun cs o1), (hrun (filter not_reading cs) o1). }
  destruct c as [x| | | |]; cbn [filter not_reading] in *; try (now apply ST).
  - rewrite SK; [apply IH|]. cbn [hstep]. pose proof (digest_same o) as E. destruct (hash_digest o) as [[d|e] o1]; exact E.
  - rewrite SK; [apply IH|]. cbn [hstep]. unfold hash_hexdigest, bindM. pose proof (digest_same o) as E. destruct (hash_digest o) as [[d|e] o1]; exact E.
Qed.

(** ** reset *)

Lemma reset_new v o o0 : hash_used v o -> hash_new (VStr (vname v)) None = Ok o0 -> hash_reset o = (Ok tt, o0).
Proof.
  intros Hu En. destruct (used_holds v o Hu) as (s & b & Ho). unfold hash_reset, bindM, getM, putM. rewrite (ho_name _ _ _ _ Ho), (ho_oid _ _ _ _ Ho).
  destruct v; inversion En; reflexivity.
Qed.

(** ** Arguments *)

Definition is_variant (name : pyval) : Prop := exists v, name = VStr (vname v).
Definition is_bytes (x : pyval) : bool := match x with VBytes _ => true | _ => false end.

Lemma new_checks name data : match data with Some d => varg_ok d | None => True end ->
  (~ is_variant name -> hash_new name data = Err (GOSTHashError "GOSTHashError: unsupported hash type")) /\
  (is_variant name ->
     match data with
     | Some x => if is_bytes x then exists o, hash_new name data = Ok o else hash_new name data = Err (GOSTHashError "GOSTHashError: invalid data value")
     | None => exists o, hash_new name data = Ok o
     end).
Proof.
  intros Hd. split.
  - intros N. destruct name as [b|str|z|]; try reflexivity. unfold hash_new.
    destruct (String.eqb_spec str "streebog512") as [->|N1]; [exfalso; apply N; now exists S512|].
    destruct (String.eqb_spec str "streebog256") as [->|N2]; [exfalso; apply N; now exists S256|]. reflexivity.
  - intros [v ->]. pose proof (new_holds v data Hd) as H. destruct data as [[d|str|z|]|]; cbn [is_bytes]; try exact H; destruct H as (o & E & _); now exists o.
Qed.

Lemma new_then_update v d o o' cs : bytes_ok d -> hash_new (VStr (vname v)) None = Ok o -> hash_new (VStr (vname v)) (Some (VBytes d)) = Ok o' -> Forall hcall_ok cs ->
  exists o1, hash_update (VBytes d) o = (Ok tt, o1) /\ fst (hrun cs o1) = fst (hrun cs o').
Proof.
  intros Hd E E' HF. destruct (new_holds v None I) as (o2 & E2 & H2). rewrite E in E2. inversion E2; subst o2.
  destruct (new_holds v (Some (VBytes d)) Hd) as (o3 & E3 & H3). rewrite E' in E3. inversion E3; subst o3.
  destruct (update_holds v _ [] o d H2 Hd) as (o1 & E1 & H1). exists o1. split; [exact E1|].
  exact (same_results v cs HF _ _ _ _ H1 H3).
Qed.
