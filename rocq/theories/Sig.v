(** * Model of gostcrypto/gostsignature/gost_34_10_2012.py: the class GOST34102012 *)
From Coq Require Import String.
From Verif Require Import PyBase PyLoop Utils SigCurves.
Open Scope string_scope.
Open Scope list_scope.
Open Scope Z_scope.

(** gost_34_10_2012.py 36-37. *)
Definition MODE_256 : Z := 1.
Definition MODE_512 : Z := 2.

(** The attributes assigned in [__init__]; no method assigns any of them later. *)
Record sig_obj : Type := {
  s_size : Z; s_oid : string;
  s_p : Z; s_a : Z; s_b : Z; s_e : Z; s_d : Z; s_m : Z; s_q : Z; s_x : Z; s_y : Z; s_u : Z; s_v : Z
}.

(** [a % b] with a divisor that may be zero. *)
Definition py_mod (a b : Z) : res Z := if b =? 0 then Err ZeroDivisionError else Ok (a mod b).

(** gost_34_10_2012.py 584-591 [gcdex]: the recursion with at most [n] nested calls. *)
Fixpoint gcdex (n : nat) (value n_mod : Z) : option (Z * Z * Z) :=
  match n with
  | O => None
  | S n' =>
      if n_mod =? 0 then Some (value, 1, 0)
      else match gcdex n' n_mod (value mod n_mod) with
           | Some (gcd, x_value, y_value) => Some (gcd, y_value, x_value - y_value * (value / n_mod))
           | None => None
           end
  end.
(** gost_34_10_2012.py 582-595 [_invert].  The number of nested calls is enough for any arguments (C80). *)
Definition _invert (value n_mod : Z) : Z :=
  let result := match gcdex (Z.to_nat (2 * Z.log2 (Z.abs n_mod) + 3)) value n_mod with Some (_, x, _) => x | None => 0 end in
  if result <? 0 then result + n_mod else result.

(** gost_34_10_2012.py 633-642 [_edvards_to_canonical]. *)
Definition _edvards_to_canonical (o : sig_obj) : res sig_obj :=
  let p := s_p o in
  if (s_a o =? 0) && (s_b o =? 0) && (s_x o =? 0) && (s_y o =? 0) then
    let* ed_s := py_mod ((s_e o - s_d o) * _invert 4 p) p in
    let* ed_t := py_mod ((s_e o + s_d o) * _invert 6 p) p in
    let* a := py_mod (ed_s ^ 2 - 3 * ed_t ^ 2) p in
    let* b := py_mod (2 * ed_t ^ 3 - ed_t * ed_s ^ 2) p in
    let* x := py_mod ((ed_s * (1 + s_v o)) * _invert (1 - s_v o) p + ed_t) p in
    let* y := py_mod ((ed_s * (1 + s_v o)) * _invert ((1 - s_v o) * s_u o) p) p in
    Ok {| s_size := s_size o; s_oid := s_oid o; s_p := p; s_a := a; s_b := b; s_e := s_e o; s_d := s_d o;
          s_m := s_m o; s_q := s_q o; s_x := x; s_y := y; s_u := s_u o; s_v := s_v o |}
  else Ok o.

(** gost_34_10_2012.py 543-547 [_check_p_m]. *)
Definition _check_p_m (o : sig_obj) : bool := if s_m o =? s_p o then false else true.
(** gost_34_10_2012.py 549-555 [_check_x_y]. *)
Definition _check_x_y (o : sig_obj) : res bool :=
  let* right_side_equation := py_mod (s_y o * s_y o) (s_p o) in
  let* left_side_equation := py_mod (s_x o ^ 3 + s_x o * s_a o + s_b o) (s_p o) in
  Ok (if negb (right_side_equation =? left_side_equation) then false else true).
(** gost_34_10_2012.py 557-565 [_check_p]. *)
Definition _check_p (o : sig_obj) : res bool :=
  let check_b := if s_size o =? 64 then 132 else 32 in
  for_ (py_range 1 check_b 1) true
    (fun i result =>
       let* l := py_mod (s_p o ^ i) (s_q o) in
       let* r := py_mod 1 (s_q o) in
       Ok (if l =? r then result || result else result)).
(** gost_34_10_2012.py 567-571 [_check_q]. *)
Definition _check_q (o : sig_obj) : bool :=
  if (s_q o <? 2 ^ (s_size o * 8 - s_size o / 16)) || (s_q o >? 2 ^ (s_size o * 8)) then false else true.
(** gost_34_10_2012.py 573-581 [_check_curve]; [or] does not evaluate what follows a true operand. *)
Definition _check_curve (o : sig_obj) : res bool :=
  if negb (_check_p_m o) then Ok false
  else
    let* xy := _check_x_y o in
    if negb xy then Ok false
    else
      let* cp := _check_p o in
      if negb cp then Ok false
      else if negb (_check_q o) then Ok false else Ok true.

(** gost_34_10_2012.py 508-541 [__init__] and [_set_size]. *)
Definition get (v : option Z) (d : Z) : Z := match v with Some z => z | None => d end.
Definition sig_attrs (mode : Z) (c : curve) : sig_obj :=
  {| s_size := if mode =? MODE_256 then 32 else 64;
     s_oid := if mode =? MODE_256 then "1.2.643.7.1.1.1.1" else "1.2.643.7.1.1.1.2";
     s_p := get (c_p c) 1; s_a := get (c_a c) 0; s_b := get (c_b c) 0; s_e := get (c_e c) 0; s_d := get (c_d c) 0;
     s_m := get (c_m c) 1; s_q := get (c_q c) 1; s_x := get (c_x c) 0; s_y := get (c_y c) 0; s_u := get (c_u c) 0; s_v := get (c_v c) 0 |}.
Definition sig_init (mode : Z) (c : curve) : res sig_obj :=
  let* o := _edvards_to_canonical (sig_attrs mode c) in
  let* ok := _check_curve o in
  if negb ok then Err (GOSTSignatureError "GOSTSignatureError: invalid parameters of the elliptic curve") else Ok o.
(** gost_34_10_2012.py 465-484 [new]. *)
Definition sig_new (mode : Z) (c : curve) : res sig_obj :=
  if negb ((mode =? MODE_256) || (mode =? MODE_512)) then Err (GOSTSignatureError "GOSTSignatureError: unsupported signature mode")
  else sig_init mode c.

(** In the methods below [self._p] and [self._q] are not zero: [__init__] has divided by both. *)

(** gost_34_10_2012.py 597-608 [_add]. *)
Definition _add (o : sig_obj) (x_1 x_2 y_1 y_2 : Z) : res (Z * Z) :=
  let p := s_p o in
  let* compare_x := compare (int_to_bytearray x_1 (s_size o)) (int_to_bytearray x_2 (s_size o)) in
  let* compare_y := compare (int_to_bytearray y_1 (s_size o)) (int_to_bytearray y_2 (s_size o)) in
  let grad :=
    if compare_x && compare_y then (3 * x_1 * x_1 + s_a o) * _invert (2 * y_1) p mod p
    else
      let d_x := (x_2 - x_1) mod p in
      let d_y := (y_2 - y_1) mod p in
      (d_y * _invert d_x p) mod p in
  let x_3 := (grad * grad - x_1 - x_2) mod p in
  let y_3 := (grad * (x_1 - x_3) - y_1) mod p in
  Ok (x_3, y_3).

(** gost_34_10_2012.py 610-614 [_bits] and the loop of [_mul_point] (627-630) that consumes it. *)
Fixpoint mul_loop (o : sig_obj) (fuel : nat) (value x_next y_next x_prev y_prev : Z) : outcome (Z * Z) :=
  if value =? 0 then Returns (x_next, y_next)
  else match fuel with
       | O => OutOfFuel
       | S fuel' =>
           let bit := Z.land value 1 in
           let? next := (if bit =? 1 then liftO (_add o x_next x_prev y_next y_prev) else Returns (x_next, y_next)) in
           let? prev := liftO (_add o x_prev x_prev y_prev y_prev) in
           mul_loop o fuel' (Z.shiftr value 1) (fst next) (snd next) (fst prev) (snd prev)
       end.
(** gost_34_10_2012.py 616-631 [_mul_point]. *)
Definition _mul_point (o : sig_obj) (fuel : nat) (mul_value x_op y_op : Z) : outcome (Z * Z) :=
  let mul_value := mul_value - 1 in
  let x_prev := if (x_op >? 0) && (y_op >? 0) then x_op else s_x o in
  let y_prev := if (x_op >? 0) && (y_op >? 0) then y_op else s_y o in
  mul_loop o fuel mul_value x_prev y_prev x_prev y_prev.

(** gost_34_10_2012.py 644-648 [_get_rand_k]; [urandom i] is what the [i]-th call of [os.urandom] returns. *)
Fixpoint rand_loop (o : sig_obj) (fuel : nat) (urandom : nat -> bytes) (i : nat) : outcome bytes :=
  let rand_k := urandom i in
  if bytearray_to_int rand_k >=? s_q o then match fuel with O => OutOfFuel | S fuel' => rand_loop o fuel' urandom (S i) end
  else Returns rand_k.
Definition _get_rand_k (o : sig_obj) (fuel : nat) (urandom : nat -> bytes) : outcome bytes := rand_loop o fuel urandom 0.

(** gost_34_10_2012.py 650-654 [_set_e]. *)
Definition _set_e (o : sig_obj) (digest : bytes) : res Z :=
  let result := bytearray_to_int digest mod s_q o in
  let* z := compare_to_zero (int_to_bytearray result (s_size o)) in
  Ok (if z then 1 else result).

(** gost_34_10_2012.py 696-699, the inner loop of [sign]. *)
Fixpoint sign_inner (o : sig_obj) (fuel : nat) (rand_k : bytes) (sign_r sign_k : Z) : outcome (Z * Z) :=
  let? z := liftO (compare_to_zero (int_to_bytearray sign_r (s_size o))) in
  if z then
    match fuel with
    | O => OutOfFuel
    | S fuel' =>
        let sign_k := bytearray_to_int rand_k in
        let? sign_c := _mul_point o fuel sign_k (-1) (-1) in
        let sign_r := fst sign_c mod s_q o in
        sign_inner o fuel' rand_k sign_r sign_k
    end
  else Returns (sign_r, sign_k).
(** gost_34_10_2012.py 695-700, the outer loop. *)
Fixpoint sign_outer (o : sig_obj) (fuel : nat) (private_key rand_k : bytes) (sign_e sign_r sign_s sign_k : Z) : outcome (Z * Z) :=
  let? z := liftO (compare_to_zero (int_to_bytearray sign_s (s_size o))) in
  if z then
    match fuel with
    | O => OutOfFuel
    | S fuel' =>
        let? rk := sign_inner o fuel rand_k sign_r sign_k in
        let sign_r := fst rk in
        let sign_k := snd rk in
        let sign_s := (sign_r * bytearray_to_int private_key + sign_k * sign_e) mod s_q o in
        sign_outer o fuel' private_key rand_k sign_e sign_r sign_s sign_k
    end
  else Returns (sign_r, sign_s).
(** gost_34_10_2012.py 656-704 [sign]; an absent [rand_k] is the empty string.  The assignments of
    [zero_fill(private_key)] to the local variable have no effect. *)
Definition sign (o : sig_obj) (fuel : nat) (urandom : nat -> bytes) (private_key digest rand_k : pyval) : outcome bytes :=
  match check_value private_key (s_size o), private_key, check_value digest (s_size o), digest with
  | true, VBytes private_key, true, VBytes digest =>
      let? sign_e := liftO (_set_e o digest) in
      let? rand_k := (match rand_k with VBytes [] => let? k := _get_rand_k o fuel urandom in Returns (VBytes k) | _ => Returns rand_k end) in
      match rand_k with
      | VBytes rand_k =>
          if bytearray_to_int rand_k >=? s_q o then Raises (GOSTSignatureError "GOSTSignatureError: invalid random value")
          else
            let? rs := sign_outer o fuel private_key rand_k sign_e 0 0 0 in
            Returns (int_to_bytearray (fst rs) (s_size o) ++ int_to_bytearray (snd rs) (s_size o))
      | _ => Raises (GOSTSignatureError "GOSTSignatureError: invalid random value")
      end
  | true, _, _, _ => Raises (GOSTSignatureError "GOSTSignatureError: invalid digest value")
  | false, _, _, _ => Raises (GOSTSignatureError "GOSTSignatureError: invalid private key value")
  end.

(** gost_34_10_2012.py 711-715 [_verify_step_1]. *)
Definition _verify_step_1 (o : sig_obj) (sign_r sign_s : Z) : bool :=
  if (sign_r <=? 0) || (sign_r >=? s_q o) || (sign_s <=? 0) || (sign_s >=? s_q o) then false else true.
(** gost_34_10_2012.py 717-760 [verify]; 706-709 [_get_r_s]. *)
Definition verify (o : sig_obj) (fuel : nat) (public_key digest signature : pyval) : outcome bool :=
  match check_value public_key (s_size o * 2), public_key, check_value signature (s_size o * 2), signature, check_value digest (s_size o), digest with
  | true, VBytes public_key, true, VBytes signature, true, VBytes digest =>
      let public_x := bytearray_to_int (py_upto public_key (s_size o)) in
      let public_y := bytearray_to_int (py_from public_key (s_size o)) in
      let sign_r := bytearray_to_int (py_upto signature (s_size o)) in
      let sign_s := bytearray_to_int (py_from signature (s_size o)) in
      if negb (_verify_step_1 o sign_r sign_s) then Returns false
      else
        let? sign_e := liftO (_set_e o digest) in
        let sign_v := _invert sign_e (s_q o) in
        let sign_z_1 := sign_s * sign_v mod s_q o in
        let sign_z_2 := s_q o - sign_r * sign_v mod s_q o in
        let? sign_p := _mul_point o fuel sign_z_1 (-1) (-1) in
        let? sign_q := _mul_point o fuel sign_z_2 public_x public_y in
        let? sign_c := liftO (_add o (fst sign_p) (fst sign_q) (snd sign_p) (snd sign_q)) in
        let sign_r_check := fst sign_c mod s_q o in
        liftO (compare (int_to_bytearray sign_r_check (s_size o)) (int_to_bytearray sign_r (s_size o)))
  | false, _, _, _, _, _ => Raises (GOSTSignatureError "GOSTSignatureError: invalid public key value")
  | true, _, false, _, _, _ => Raises (GOSTSignatureError "GOSTSignatureError: invalid signature value")
  | true, _, true, _, _, _ => Raises (GOSTSignatureError "GOSTSignatureError: invalid digest value")
  end.

(** gost_34_10_2012.py 762-783 [public_key_generate]. *)
Definition public_key_generate (o : sig_obj) (fuel : nat) (private_key : pyval) : outcome bytes :=
  match check_value private_key (s_size o), private_key with
  | true, VBytes private_key =>
      let? public_key := _mul_point o fuel (bytearray_to_int private_key) (-1) (-1) in
      Returns (int_to_bytearray (fst public_key) (s_size o) ++ int_to_bytearray (snd public_key) (s_size o))
  | _, _ => Raises (GOSTSignatureError "GOSTSignatureError: invalid private key")
  end.
