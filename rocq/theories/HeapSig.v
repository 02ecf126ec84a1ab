(** * gost_34_10_2012.py with buffers as addresses

    The methods of Sig.v, statement by statement, with every [bytearray] a cell of the heap: the
    arguments, the copies made for comparisons, the results.  The attributes of a signature object are
    integers, so an object has no buffer of its own. *)
From Verif Require Import PyBase PyState PyLoop Utils Sig Heap HeapCipher CipherObj Modes Mac HeapModes.
Open Scope string_scope.
Open Scope list_scope.
Open Scope Z_scope.

(** Computations on the heap that may not end. *)
Definition HO (A : Type) : Type := heap -> outcome A * heap.
Definition retO {A} (x : A) : HO A := fun h => (Returns x, h).
Definition raiseO {A} (e : exn) : HO A := fun h => (Raises e, h).
Definition noFuel {A} : HO A := fun h => (OutOfFuel, h).
Definition bindH {A B} (m : HO A) (k : A -> HO B) : HO B := fun h =>
  match m h with (Returns x, h') => k x h' | (Raises e, h') => (Raises e, h') | (OutOfFuel, h') => (OutOfFuel, h') end.
Definition ofM {A} (m : M heap A) : HO A := fun h => let (r, h') := m h in (liftO r, h').
Notation "'let%' x := m 'in' k" := (bindH m (fun x => k)) (at level 200, x binder, m at level 100, k at level 200, right associativity).

(** utils.py 114-136 [compare]: two new bytearrays, then reading only. *)
Definition h_compare (op_a op_b : buf) : M heap bool :=
  let! op_a := h_bytearray op_a in
  let! op_b := h_bytearray op_b in
  let! a := rd op_a in
  let! b := rd op_b in
  liftM (compare a b).
(** utils.py 139-156 [compare_to_zero]. *)
Definition h_compare_to_zero (value : buf) : M heap bool :=
  let! value := h_bytearray value in
  let! v := rd value in
  liftM (compare_to_zero v).
(** utils.py 85-95 [bytearray_to_int]. *)
Definition h_bytearray_to_int (value : buf) : M heap Z := let! v := rd value in retM (bytearray_to_int v).
(** utils.py 17-34 [check_value]. *)
Definition h_check_value (value : arg) (size_value : Z) : M heap bool :=
  match as_buf value with Some v => let! n := h_len v in retM (n =? size_value) | None => retM false end.

(** gost_34_10_2012.py 597-608 [_add]. *)
Definition hs_add (o : sig_obj) (x_1 x_2 y_1 y_2 : Z) : M heap (Z * Z) :=
  let p := s_p o in
  let! a := h_int_to_bytearray x_1 (s_size o) in
  let! b := h_int_to_bytearray x_2 (s_size o) in
  let! compare_x := h_compare a b in
  let! a := h_int_to_bytearray y_1 (s_size o) in
  let! b := h_int_to_bytearray y_2 (s_size o) in
  let! compare_y := h_compare a b in
  let grad :=
    if compare_x && compare_y then (3 * x_1 * x_1 + s_a o) * _invert (2 * y_1) p mod p
    else
      let d_x := (x_2 - x_1) mod p in
      let d_y := (y_2 - y_1) mod p in
      (d_y * _invert d_x p) mod p in
  let x_3 := (grad * grad - x_1 - x_2) mod p in
  let y_3 := (grad * (x_1 - x_3) - y_1) mod p in
  retM (x_3, y_3).

(** gost_34_10_2012.py 610-631 [_bits], [_mul_point]. *)
Fixpoint hs_mul_loop (o : sig_obj) (fuel : nat) (value x_next y_next x_prev y_prev : Z) : HO (Z * Z) :=
  if value =? 0 then retO (x_next, y_next)
  else match fuel with
       | O => noFuel
       | S fuel' =>
           let bit := Z.land value 1 in
           let% next := (if bit =? 1 then ofM (hs_add o x_next x_prev y_next y_prev) else retO (x_next, y_next)) in
           let% prev := ofM (hs_add o x_prev x_prev y_prev y_prev) in
           hs_mul_loop o fuel' (Z.shiftr value 1) (fst next) (snd next) (fst prev) (snd prev)
       end.
Definition hs_mul_point (o : sig_obj) (fuel : nat) (mul_value x_op y_op : Z) : HO (Z * Z) :=
  let mul_value := mul_value - 1 in
  let x_prev := if (x_op >? 0) && (y_op >? 0) then x_op else s_x o in
  let y_prev := if (x_op >? 0) && (y_op >? 0) then y_op else s_y o in
  hs_mul_loop o fuel mul_value x_prev y_prev x_prev y_prev.

(** gost_34_10_2012.py 644-648 [_get_rand_k]: [os.urandom] returns [bytes]. *)
Fixpoint hs_rand_loop (o : sig_obj) (fuel : nat) (urandom : nat -> bytes) (i : nat) : HO buf :=
  let% rand_k := ofM (h_bytearray (Imm (urandom i))) in
  let% v := ofM (h_bytearray_to_int rand_k) in
  if v >=? s_q o then match fuel with O => noFuel | S fuel' => hs_rand_loop o fuel' urandom (S i) end
  else retO rand_k.
(** gost_34_10_2012.py 650-654 [_set_e]. *)
Definition hs_set_e (o : sig_obj) (digest : buf) : M heap Z :=
  let! v := h_bytearray_to_int digest in
  let result := v mod s_q o in
  let! b := h_int_to_bytearray result (s_size o) in
  let! z := h_compare_to_zero b in
  retM (if z then 1 else result).

(** gost_34_10_2012.py 696-699. *)
Fixpoint hs_sign_inner (o : sig_obj) (fuel : nat) (rand_k : buf) (sign_r sign_k : Z) : HO (Z * Z) :=
  let% b := ofM (h_int_to_bytearray sign_r (s_size o)) in
  let% z := ofM (h_compare_to_zero b) in
  if (z : bool) then
    match fuel with
    | O => noFuel
    | S fuel' =>
        let% sign_k := ofM (h_bytearray_to_int rand_k) in
        let% sign_c := hs_mul_point o fuel sign_k (-1) (-1) in
        let sign_r := fst sign_c mod s_q o in
        hs_sign_inner o fuel' rand_k sign_r sign_k
    end
  else retO (sign_r, sign_k).
(** gost_34_10_2012.py 695-700. *)
Fixpoint hs_sign_outer (o : sig_obj) (fuel : nat) (private_key rand_k : buf) (sign_e sign_r sign_s sign_k : Z) : HO (Z * Z) :=
  let% b := ofM (h_int_to_bytearray sign_s (s_size o)) in
  let% z := ofM (h_compare_to_zero b) in
  if (z : bool) then
    match fuel with
    | O => noFuel
    | S fuel' =>
        let% rk := hs_sign_inner o fuel rand_k sign_r sign_k in
        let sign_r := fst rk in
        let sign_k := snd rk in
        let% d := ofM (h_bytearray_to_int private_key) in
        let sign_s := (sign_r * d + sign_k * sign_e) mod s_q o in
        hs_sign_outer o fuel' private_key rand_k sign_e sign_r sign_s sign_k
    end
  else retO (sign_r, sign_s).
(** gost_34_10_2012.py 656-704 [sign]; an absent [rand_k] is the bytearray made when the class was
    defined (line 657), given here like any other argument.  Line 686 compares with a new bytearray. *)
Definition hs_sign (o : sig_obj) (fuel : nat) (urandom : nat -> bytes) (private_key digest rand_k : arg) : HO buf :=
  let% ok := ofM (h_check_value private_key (s_size o)) in
  match as_buf private_key with
  | Some pk =>
      if negb ok then raiseO (GOSTSignatureError "GOSTSignatureError: invalid private key value") else
      let% ok := ofM (h_check_value digest (s_size o)) in
      match as_buf digest with
      | Some dg =>
          if negb ok then raiseO (GOSTSignatureError "GOSTSignatureError: invalid digest value") else
          let% sign_e := ofM (hs_set_e o dg) in
          let% _ := ofM (alloc []) in
          let% rand_k := (match as_buf rand_k with
                          | Some v => let% l := ofM (rd v) in
                              match l with [] => let% k := hs_rand_loop o fuel urandom 0 in retO (arg_of k) | _ => retO rand_k end
                          | None => retO rand_k
                          end) in
          match as_buf rand_k with
          | Some rk =>
              let% v := ofM (h_bytearray_to_int rk) in
              if v >=? s_q o then
                let% _ := ofM (h_zero_fill pk) in
                raiseO (GOSTSignatureError "GOSTSignatureError: invalid random value")
              else
                let% rs := hs_sign_outer o fuel pk rk sign_e 0 0 0 in
                let% r := ofM (h_int_to_bytearray (fst rs) (s_size o)) in
                let% s := ofM (h_int_to_bytearray (snd rs) (s_size o)) in
                let% result := ofM (h_add r s) in
                let% _ := ofM (h_zero_fill pk) in
                retO result
          | None =>
              let% _ := ofM (h_zero_fill pk) in
              raiseO (GOSTSignatureError "GOSTSignatureError: invalid random value")
          end
      | None => raiseO (GOSTSignatureError "GOSTSignatureError: invalid digest value")
      end
  | None => raiseO (GOSTSignatureError "GOSTSignatureError: invalid private key value")
  end.

(** gost_34_10_2012.py 706-760 [_get_r_s], [verify]. *)
Definition hs_verify (o : sig_obj) (fuel : nat) (public_key digest signature : arg) : HO bool :=
  let% ok := ofM (h_check_value public_key (s_size o * 2)) in
  match as_buf public_key with
  | Some pk =>
      if negb ok then raiseO (GOSTSignatureError "GOSTSignatureError: invalid public key value") else
      let% ok := ofM (h_check_value signature (s_size o * 2)) in
      match as_buf signature with
      | Some sg =>
          if negb ok then raiseO (GOSTSignatureError "GOSTSignatureError: invalid signature value") else
          let% ok := ofM (h_check_value digest (s_size o)) in
          match as_buf digest with
          | Some dg =>
              if negb ok then raiseO (GOSTSignatureError "GOSTSignatureError: invalid digest value") else
              let% b := ofM (h_upto pk (s_size o)) in
              let% public_x := ofM (h_bytearray_to_int b) in
              let% b := ofM (h_from pk (s_size o)) in
              let% public_y := ofM (h_bytearray_to_int b) in
              let% b := ofM (h_upto sg (s_size o)) in
              let% sign_r := ofM (h_bytearray_to_int b) in
              let% b := ofM (h_from sg (s_size o)) in
              let% sign_s := ofM (h_bytearray_to_int b) in
              if negb (_verify_step_1 o sign_r sign_s) then retO false
              else
                let% sign_e := ofM (hs_set_e o dg) in
                let sign_v := _invert sign_e (s_q o) in
                let sign_z_1 := sign_s * sign_v mod s_q o in
                let sign_z_2 := s_q o - sign_r * sign_v mod s_q o in
                let% sign_p := hs_mul_point o fuel sign_z_1 (-1) (-1) in
                let% sign_q := hs_mul_point o fuel sign_z_2 public_x public_y in
                let% sign_c := ofM (hs_add o (fst sign_p) (fst sign_q) (snd sign_p) (snd sign_q)) in
                let sign_r_check := fst sign_c mod s_q o in
                let% a := ofM (h_int_to_bytearray sign_r_check (s_size o)) in
                let% b := ofM (h_int_to_bytearray sign_r (s_size o)) in
                ofM (h_compare a b)
          | None => raiseO (GOSTSignatureError "GOSTSignatureError: invalid digest value")
          end
      | None => raiseO (GOSTSignatureError "GOSTSignatureError: invalid signature value")
      end
  | None => raiseO (GOSTSignatureError "GOSTSignatureError: invalid public key value")
  end.

(** gost_34_10_2012.py 762-787 [public_key_generate]. *)
Definition hs_public_key_generate (o : sig_obj) (fuel : nat) (private_key : arg) : HO buf :=
  let% ok := ofM (h_check_value private_key (s_size o)) in
  match as_buf private_key with
  | Some pk =>
      if negb ok then raiseO (GOSTSignatureError "GOSTSignatureError: invalid private key") else
      let% d := ofM (h_bytearray_to_int pk) in
      let% public_key := hs_mul_point o fuel d (-1) (-1) in
      let% public_key_x := ofM (h_int_to_bytearray (fst public_key) (s_size o)) in
      let% public_key_y := ofM (h_int_to_bytearray (snd public_key) (s_size o)) in
      ofM (h_add public_key_x public_key_y)
  | None => raiseO (GOSTSignatureError "GOSTSignatureError: invalid private key")
  end.
