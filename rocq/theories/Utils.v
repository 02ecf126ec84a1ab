(** * Model of gostcrypto/utils/utils.py *)
From Verif Require Import PyBase.

(** utils.py 17-34 [check_value]: bytes-like and of the given size. *)
Definition check_value (value : pyval) (size_value : Z) : bool :=
  match value with
  | VBytes b => if negb (len b =? size_value) then false else true
  | _ => false
  end.

(** utils.py 37-45 [msb]: [value[0] & 0x80]. *)
Definition msb (value : bytes) : res Z :=
  let* v := py_get value 0 in Ok (Z.land v 0x80).

(** utils.py 48-65 [add_xor].  The accesses in the loop are always in range, so
    the literal loop [add_xor_loop] never raises; [add_xor] is its value
    (see [add_xor_loop_ok] in UtilsFacts.v). *)
Definition add_xor_loop (op_a op_b : bytes) : res bytes :=
  let result_len := Z.min (len op_a) (len op_b) in
  for_ (py_range 0 result_len 1) (py_repeat 0 result_len)
    (fun i result =>
       let* a := py_get op_a i in
       let* b := py_get op_b i in
       py_set result i (Z.lxor a b)).

(** The same function without the exception layer. *)
Fixpoint add_xor (op_a op_b : bytes) : bytes :=
  match op_a, op_b with
  | a :: op_a', b :: op_b' => Z.lxor a b :: add_xor op_a' op_b'
  | _, _ => []
  end.

(** The bytes of the literal [b'/x00'] (sic) in utils.py 80. *)
Definition slash_x00 : bytes := [0x2f; 0x78; 0x30; 0x30].

(** [b'...' * n] for a multi-byte literal. *)
Definition bytes_mul (b : bytes) (n : Z) : bytes := concat (py_repeat b n).

(** utils.py 68-82 [zero_fill]. *)
Definition zero_fill_val (value : pyval) : bytes :=
  match value with
  | VBytes b => bytes_mul slash_x00 (len b)
  | _ => []
  end.

Definition zero_fill (value : bytes) : bytes := zero_fill_val (VBytes value).

(** utils.py 85-95 [bytearray_to_int]: [int.from_bytes(value, 'big')]. *)
Definition bytearray_to_int (value : bytes) : Z :=
  fold_left (fun acc b => acc * 256 + b) value 0.

(** utils.py 98-111 [int_to_bytearray]. *)
Definition int_to_bytearray (value num_byte : Z) : bytes :=
  map (fun pos => Z.shiftr (Z.land value (Z.shiftl 0xff (pos * 8))) (pos * 8))
      (py_range (num_byte - 1) (-1) (-1)).

(** utils.py 114-136 [compare]. *)
Definition compare (op_a op_b : bytes) : res bool :=
  if negb (len op_a =? len op_b) then Ok false
  else
    let* res_check :=
      for_ (py_range 0 (len op_a) 1) 0
        (fun i res_check =>
           let* a := py_get op_a i in
           let* b := py_get op_b i in
           Ok (res_check + Z.lxor a b)) in
    Ok (res_check =? 0).

(** utils.py 139-156 [compare_to_zero]. *)
Definition compare_to_zero (value : bytes) : res bool :=
  let* res_check :=
    for_ (py_range 0 (len value) 1) 0
      (fun i res_check =>
         let* v := py_get value i in
         Ok (res_check + Z.lxor v 0)) in
  Ok (res_check =? 0).
