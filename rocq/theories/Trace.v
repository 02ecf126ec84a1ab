(** * The sequence of source-level steps of a computation.

    A second model of [compare], [compare_to_zero] and of the secret-dependent methods of the signature
    class, in which a computation also yields the list of the steps it goes through: which function
    is entered, how every test of an [if], [while] or [for] came out, and which element of which byte
    string was read.  Nothing finer is modelled: what a built-in operation on integers
    ([+], [*], [%], [int.from_bytes]) costs is not a step.  The results are those of the first model
    ([erase] lemmas in TraceLemmas.v). *)
From Verif Require Import PyBase PyLoop Utils Sig SpecTrace.
Open Scope string_scope.
Open Scope list_scope.
Open Scope Z_scope.

(** A computation with the steps it has taken; they stop where the computation stops. *)
Definition T (A : Type) : Type := list event * outcome A.
Definition retT {A} (a : A) : T A := ([], Returns a).
Definition stopT {A} (c : outcome A) : T A := ([], c).
Definition bindT {A B} (c : T A) (k : A -> T B) : T B :=
  match snd c with
  | Returns a => let r := k a in (fst c ++ fst r, snd r)
  | Raises e => (fst c, Raises e)
  | OutOfFuel => (fst c, OutOfFuel)
  end.
Definition step (e : event) : T unit := ([e], Returns tt).
Notation "'do' x ':=' c 'in' k" := (bindT c (fun x => k))
  (at level 61, x pattern, c at next level, k at level 61, right associativity).
Notation "'at_' e 'then' k" := (bindT (step e) (fun _ => k)) (at level 61, e at next level, k at level 61, right associativity).

(** A test that decides between two continuations. *)
Definition if_ {A} (f : srcfile) (line : Z) (b : bool) (x y : T A) : T A :=
  at_ Test f line b then if b then x else y.
(** [for x in xs]. *)
Fixpoint t_for {A S} (f : srcfile) (line : Z) (xs : list A) (s : S) (body : A -> S -> T S) : T S :=
  match xs with
  | [] => at_ Test f line false then retT s
  | x :: xs' => at_ Test f line true then do s' := body x s in t_for f line xs' s' body
  end.
(** [l[i]]. *)
Definition t_get (f : srcfile) (line operand : Z) (l : bytes) (i : Z) : T Z :=
  at_ Read f line operand i then stopT (liftO (py_get l i)).

(** utils.py 114-136 [compare]; [enumerate] in line 133 goes through [op_a]. *)
Definition t_compare (op_a op_b : bytes) : T bool :=
  at_ Enter FUtils 114 then
  if_ FUtils 131 (negb (len op_a =? len op_b)) (retT false)
    (do res_check :=
       t_for FUtils 133 (py_range 0 (len op_a) 1) 0
         (fun i res_check =>
            do a := t_get FUtils 134 0 op_a i in
            do b := t_get FUtils 134 1 op_b i in
            retT (res_check + Z.lxor a b)) in
     retT (res_check =? 0)).
(** utils.py 139-156 [compare_to_zero]. *)
Definition t_compare_to_zero (value : bytes) : T bool :=
  at_ Enter FUtils 139 then
  do res_check :=
    t_for FUtils 153 (py_range 0 (len value) 1) 0
      (fun i res_check =>
         do v := t_get FUtils 154 0 value i in
         retT (res_check + Z.lxor v 0)) in
  retT (res_check =? 0).
(** utils.py 98-111 [int_to_bytearray]; the loop of the list comprehension is in line 110. *)
Definition t_int_to_bytearray (value num_byte : Z) : T bytes :=
  at_ Enter FUtils 98 then
  t_for FUtils 110 (py_range (num_byte - 1) (-1) (-1)) []
    (fun pos acc => retT (acc ++ [Z.shiftr (Z.land value (Z.shiftl 0xff (pos * 8))) (pos * 8)])).

(** gost_34_10_2012.py 584-591 [gcdex]. *)
Fixpoint t_gcdex (n : nat) (value n_mod : Z) : list event * option (Z * Z * Z) :=
  match n with
  | O => ([], None)
  | S n' =>
      if n_mod =? 0 then ([Enter FSig 585; Test FSig 586 true], Some (value, 1, 0))
      else let r := t_gcdex n' n_mod (value mod n_mod) in
           (Enter FSig 585 :: Test FSig 586 false :: fst r,
            match snd r with
            | Some (gcd, x_value, y_value) => Some (gcd, y_value, x_value - y_value * (value / n_mod))
            | None => None
            end)
  end.
(** gost_34_10_2012.py 582-595 [_invert]. *)
Definition t_invert (value n_mod : Z) : T Z :=
  at_ Enter FSig 584 then
  let g := t_gcdex (Z.to_nat (2 * Z.log2 (Z.abs n_mod) + 3)) value n_mod in
  do result := (fst g, Returns match snd g with Some (_, x, _) => x | None => 0 end) in
  if_ FSig 593 (result <? 0) (retT (result + n_mod)) (retT result).

(** gost_34_10_2012.py 597-608 [_add]. *)
Definition t_add (o : sig_obj) (x_1 x_2 y_1 y_2 : Z) : T (Z * Z) :=
  let p := s_p o in
  at_ Enter FSig 597 then
  do bx_1 := t_int_to_bytearray x_1 (s_size o) in
  do bx_2 := t_int_to_bytearray x_2 (s_size o) in
  do compare_x := t_compare bx_1 bx_2 in
  do by_1 := t_int_to_bytearray y_1 (s_size o) in
  do by_2 := t_int_to_bytearray y_2 (s_size o) in
  do compare_y := t_compare by_1 by_2 in
  do grad :=
    if_ FSig 600 (compare_x && compare_y)
      (do v := t_invert (2 * y_1) p in retT ((3 * x_1 * x_1 + s_a o) * v mod p))
      (let d_x := (x_2 - x_1) mod p in
       let d_y := (y_2 - y_1) mod p in
       do v := t_invert d_x p in retT ((d_y * v) mod p)) in
  let x_3 := (grad * grad - x_1 - x_2) mod p in
  let y_3 := (grad * (x_1 - x_3) - y_1) mod p in
  retT (x_3, y_3).

(** gost_34_10_2012.py 610-614 [_bits] and the loop of [_mul_point] (627-630) that consumes it. *)
Fixpoint t_mul_loop (o : sig_obj) (fuel : nat) (value x_next y_next x_prev y_prev : Z) : T (Z * Z) :=
  if_ FSig 612 (negb (value =? 0))
    (match fuel with
     | O => stopT OutOfFuel
     | S fuel' =>
         let bit := Z.land value 1 in
         do next := if_ FSig 628 (bit =? 1) (t_add o x_next x_prev y_next y_prev) (retT (x_next, y_next)) in
         do prev := t_add o x_prev x_prev y_prev y_prev in
         t_mul_loop o fuel' (Z.shiftr value 1) (fst next) (snd next) (fst prev) (snd prev)
     end)
    (retT (x_next, y_next)).
(** gost_34_10_2012.py 616-631 [_mul_point]. *)
Definition t_mul_point (o : sig_obj) (fuel : nat) (mul_value x_op y_op : Z) : T (Z * Z) :=
  at_ Enter FSig 616 then
  let mul_value := mul_value - 1 in
  if_ FSig 619 ((x_op >? 0) && (y_op >? 0))
    (t_mul_loop o fuel mul_value x_op y_op x_op y_op)
    (t_mul_loop o fuel mul_value (s_x o) (s_y o) (s_x o) (s_y o)).

(** gost_34_10_2012.py 644-648 [_get_rand_k]. *)
Fixpoint t_rand_loop (o : sig_obj) (fuel : nat) (urandom : nat -> bytes) (i : nat) : T bytes :=
  let rand_k := urandom i in
  if_ FSig 646 (bytearray_to_int rand_k >=? s_q o)
    (match fuel with O => stopT OutOfFuel | S fuel' => t_rand_loop o fuel' urandom (S i) end)
    (retT rand_k).
Definition t_get_rand_k (o : sig_obj) (fuel : nat) (urandom : nat -> bytes) : T bytes :=
  at_ Enter FSig 644 then t_rand_loop o fuel urandom 0.

(** gost_34_10_2012.py 650-654 [_set_e]. *)
Definition t_set_e (o : sig_obj) (digest : bytes) : T Z :=
  at_ Enter FSig 650 then
  let result := bytearray_to_int digest mod s_q o in
  do b := t_int_to_bytearray result (s_size o) in
  do z := t_compare_to_zero b in
  if_ FSig 652 z (retT 1) (retT result).

(** gost_34_10_2012.py 697-700, the inner loop of [sign]. *)
Fixpoint t_sign_inner (o : sig_obj) (fuel : nat) (rand_k : bytes) (sign_r sign_k : Z) : T (Z * Z) :=
  do b := t_int_to_bytearray sign_r (s_size o) in
  do z := t_compare_to_zero b in
  if_ FSig 697 z
    (match fuel with
     | O => stopT OutOfFuel
     | S fuel' =>
         let sign_k := bytearray_to_int rand_k in
         do sign_c := t_mul_point o fuel sign_k (-1) (-1) in
         let sign_r := fst sign_c mod s_q o in
         t_sign_inner o fuel' rand_k sign_r sign_k
     end)
    (retT (sign_r, sign_k)).
(** gost_34_10_2012.py 696-701, the outer loop. *)
Fixpoint t_sign_outer (o : sig_obj) (fuel : nat) (private_key rand_k : bytes) (sign_e sign_r sign_s sign_k : Z) : T (Z * Z) :=
  do b := t_int_to_bytearray sign_s (s_size o) in
  do z := t_compare_to_zero b in
  if_ FSig 696 z
    (match fuel with
     | O => stopT OutOfFuel
     | S fuel' =>
         do rk := t_sign_inner o fuel rand_k sign_r sign_k in
         let sign_r := fst rk in
         let sign_k := snd rk in
         let sign_s := (sign_r * bytearray_to_int private_key + sign_k * sign_e) mod s_q o in
         t_sign_outer o fuel' private_key rand_k sign_e sign_r sign_s sign_k
     end)
    (retT (sign_r, sign_s)).
(** gost_34_10_2012.py 656-704 [sign] for byte strings as arguments. *)
Definition t_sign (o : sig_obj) (fuel : nat) (urandom : nat -> bytes) (private_key digest rand_k : bytes) : T bytes :=
  at_ Enter FSig 656 then
  if_ FSig 680 (negb (check_value (VBytes private_key) (s_size o)))
    (stopT (Raises (GOSTSignatureError "GOSTSignatureError: invalid private key value")))
  (if_ FSig 682 (negb (check_value (VBytes digest) (s_size o)))
    (stopT (Raises (GOSTSignatureError "GOSTSignatureError: invalid digest value")))
    (do sign_e := t_set_e o digest in
     do rand_k := if_ FSig 688 (match rand_k with [] => true | _ => false end) (t_get_rand_k o fuel urandom) (retT rand_k) in
     at_ Test FSig 690 false then
     if_ FSig 693 (bytearray_to_int rand_k >=? s_q o)
       (stopT (Raises (GOSTSignatureError "GOSTSignatureError: invalid random value")))
       (do rs := t_sign_outer o fuel private_key rand_k sign_e 0 0 0 in
        do r := t_int_to_bytearray (fst rs) (s_size o) in
        do s := t_int_to_bytearray (snd rs) (s_size o) in
        retT (r ++ s)))).

(** gost_34_10_2012.py 762-783 [public_key_generate] for a byte string. *)
Definition t_public_key_generate (o : sig_obj) (fuel : nat) (private_key : bytes) : T bytes :=
  at_ Enter FSig 762 then
  if_ FSig 776 (negb (check_value (VBytes private_key) (s_size o)))
    (stopT (Raises (GOSTSignatureError "GOSTSignatureError: invalid private key")))
    (do public_key := t_mul_point o fuel (bytearray_to_int private_key) (-1) (-1) in
     do x := t_int_to_bytearray (fst public_key) (s_size o) in
     do y := t_int_to_bytearray (snd public_key) (s_size o) in
     retT (x ++ y)).
