(** * Model of gostcrypto/gostoid/oid.py *)
From Coq Require Import Ascii.
From Verif Require Import PyBase OidTable.

(** [int.bit_length()]. *)
Definition bit_length (v : Z) : Z := if v =? 0 then 0 else Z.log2 (Z.abs v) + 1.

(** [value.to_bytes(1, 'big')]: OverflowError outside 0..255. *)
Definition to_bytes_1 (value : Z) : res bytes :=
  if (0 <=? value) && (value <? 256) then Ok [value] else Err OverflowError.

(** oid.py 79-85 [_len_int]. *)
Definition _len_int (value num_bit : Z) : Z :=
  let result := bit_length value / num_bit in
  if result =? 0 then 1
  else if negb (bit_length value mod num_bit =? 0) then result + 1
  else result.

(** oid.py 88-96 [_len_oid_octet].  The loop variable [value] is part of the state;
    the loop bound is computed before the loop, as in Python. *)
Definition _len_oid_octet (value : Z) : res bytes :=
  if value <? 0x80 then to_bytes_1 value
  else
    let* result := py_set (py_repeat 0 (_len_int value 8 + 1)) 0 (Z.lor 0x80 (_len_int value 8)) in
    let* s := for_ (py_range (_len_int value 8) 0 (-1)) (result, value)
      (fun i '(result, value) =>
         let* result' := py_set result i (Z.land value 0xff) in
         Ok (result', Z.shiftr value 8)) in
    Ok (fst s).

(** oid.py 99-107 [_int_to_octet]. *)
Definition _int_to_octet (value : Z) : res bytes :=
  if value <? 0x80 then to_bytes_1 value
  else
    let* s := for_ (py_range (_len_int value 7 - 1) (-1) (-1)) (py_repeat 0 (_len_int value 7), value)
      (fun i '(result, value) =>
         let* result' := py_set result i (Z.land value 0x7f) in
         Ok (result', Z.shiftr value 7)) in
    let result := fst s in
    let* r0 := py_get result 0 in
    py_set result 0 (Z.lor r0 0x80).

(** oid.py 110-129 [_encode_octet]. *)
Definition _encode_octet (value : list Z) : res bytes :=
  let* v0 := py_get value 0 in
  let* first_value :=
    if v0 =? 0 then
      let* v1 := py_get value 1 in
      if v1 <? 40 then Ok v1 else Err (GOSTOIDError "invalid second SID value")
    else if v0 =? 1 then
      let* v1 := py_get value 1 in
      if v1 <? 40 then Ok (v1 + 40) else Err (GOSTOIDError "invalid second SID value")
    else if v0 =? 2 then
      let* v1 := py_get value 1 in Ok (v1 + 80)
    else Err (GOSTOIDError "invalid first SID value") in
  let* result := _int_to_octet first_value in
  for_ (py_from value 2) result
    (fun iter_value result =>
       let* o := _int_to_octet iter_value in Ok (result ++ o)).

(** ** [str.split('.')] and [int(str)] on ASCII strings *)

Fixpoint split_dot_aux (s : string) (cur : string) : list string :=
  match s with
  | EmptyString => [cur]
  | String c s' =>
      if Ascii.eqb c "."%char then cur :: split_dot_aux s' EmptyString
      else split_dot_aux s' (cur ++ String c EmptyString)%string
  end.
Definition split_dot (s : string) : list string := split_dot_aux s EmptyString.

Definition is_space (c : ascii) : bool :=
  let n := nat_of_ascii c in ((9 <=? n) && (n <=? 13) || (n =? 32))%nat.

Definition digit_of (c : ascii) : option Z :=
  let n := Z.of_nat (nat_of_ascii c) in
  if (48 <=? n) && (n <=? 57) then Some (n - 48) else None.

Fixpoint skip_spaces (s : string) : string :=
  match s with
  | String c s' => if is_space c then skip_spaces s' else s
  | EmptyString => EmptyString
  end.

(** The digits of a decimal literal, with single underscores between digits; [prev]
    tells whether the previous character was a digit.  Trailing spaces are allowed. *)
Fixpoint parse_digits (s : string) (acc : Z) (prev : bool) : option Z :=
  match s with
  | EmptyString => if prev then Some acc else None
  | String c s' =>
      match digit_of c with
      | Some d => parse_digits s' (10 * acc + d) true
      | None =>
          if Ascii.eqb c "_"%char then if prev then parse_digits s' acc false else None
          else if prev then
                 match skip_spaces s with EmptyString => Some acc | _ => None end
               else None
      end
  end.

(** [int(item)] for an ASCII [str] in base 10; [None] is ValueError.  CPython's limit on
    the number of digits (3.11 and later) is not modelled. *)
Definition py_int (s : string) : option Z :=
  match skip_spaces s with
  | String c s' =>
      if Ascii.eqb c "-"%char then option_map Z.opp (parse_digits s' 0 false)
      else if Ascii.eqb c "+"%char then parse_digits s' 0 false
      else parse_digits (String c s') 0 false
  | EmptyString => None
  end.

Fixpoint py_ints (l : list string) : option (list Z) :=
  match l with
  | [] => Some []
  | s :: l' =>
      match py_int s with
      | Some v => match py_ints l' with Some vs => Some (v :: vs) | None => None end
      | None => None
      end
  end.

(** oid.py 132-146: the object is its dotted string. *)
Definition ObjectIdentifier := string.

(** oid.py 148-150 [__str__]. *)
Definition oid_str (self : ObjectIdentifier) : string := self.

(** oid.py 153-162 [name]. *)
Definition oid_name (self : ObjectIdentifier) : string :=
  assoc_get OBJECT_IDENTIFIER_TC26 self EmptyString.

(** oid.py 165-176 [digit]. *)
Definition oid_digit (self : ObjectIdentifier) : res (list Z) :=
  match py_ints (split_dot self) with
  | Some v => Ok v
  | None => Err (GOSTOIDError "invalid OID value")
  end.

(** oid.py 178-188 [octet], as a function of the tuple [self.digit]. *)
Definition octet_of_digit (digit : list Z) : res bytes :=
  let* oid_octet := _encode_octet digit in
  let* tag := to_bytes_1 0x06 in
  let* ln := _len_oid_octet (len oid_octet) in
  Ok (tag ++ ln ++ oid_octet).

Definition oid_octet (self : ObjectIdentifier) : res bytes :=
  let* d := oid_digit self in octet_of_digit d.
