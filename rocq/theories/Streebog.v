(** * Model of gostcrypto/gosthash/gost_34_11_2012.py *)
From Coq Require Import Ascii.
From Verif Require Import PyBase PyState Utils Oid StreebogTables.
Open Scope string_scope.
Open Scope list_scope.
Open Scope Z_scope.

(** gost_34_11_2012.py 23-37. *)
Definition _BLOCK_SIZE : Z := 64.
Definition _V_0 : bytes := py_repeat 0 _BLOCK_SIZE.
Definition _V_512 : bytes := [
  0x00; 0x02; 0x00; 0x00; 0x00; 0x00; 0x00; 0x00;
  0x00; 0x00; 0x00; 0x00; 0x00; 0x00; 0x00; 0x00;
  0x00; 0x00; 0x00; 0x00; 0x00; 0x00; 0x00; 0x00;
  0x00; 0x00; 0x00; 0x00; 0x00; 0x00; 0x00; 0x00;
  0x00; 0x00; 0x00; 0x00; 0x00; 0x00; 0x00; 0x00;
  0x00; 0x00; 0x00; 0x00; 0x00; 0x00; 0x00; 0x00;
  0x00; 0x00; 0x00; 0x00; 0x00; 0x00; 0x00; 0x00;
  0x00; 0x00; 0x00; 0x00; 0x00; 0x00; 0x00; 0x00].

(** A hash object: the attributes assigned in [__init__] (732-754).  [oid] is the dotted string
    (see Oid.v). *)
Record hash_obj : Type := {
  h_name : string;
  h_buff : bytes;
  h_num_block : Z;
  h_pad_block_size : Z;
  h_hash_h : bytes;
  h_hash_n : bytes;
  h_hash_sigma : bytes;
  h_oid : ObjectIdentifier
}.

(** gost_34_11_2012.py 757-766 [_hash_init]. *)
Definition _hash_init (name : string) (oid : ObjectIdentifier) : hash_obj :=
  {| h_name := name;
     h_buff := [];
     h_num_block := 0;
     h_pad_block_size := 0;
     h_hash_h := if String.eqb name "streebog256" then py_repeat 0x01 _BLOCK_SIZE else py_repeat 0 _BLOCK_SIZE;
     h_hash_n := py_repeat 0 _BLOCK_SIZE;
     h_hash_sigma := py_repeat 0 _BLOCK_SIZE;
     h_oid := oid |}.

(** gost_34_11_2012.py 768-777 [_hash_add_512]. *)
Definition _hash_add_512 (op_a op_b : bytes) : res bytes :=
  let* (_, result) :=
    for_ (py_range 0 _BLOCK_SIZE 1) (0, py_repeat 0 _BLOCK_SIZE)
      (fun i '(op_c, result) =>
         let* a := py_get op_a i in
         let* b := py_get op_b i in
         let op_c := a + b + Z.shiftr op_c 8 in
         let* result := py_set result i (Z.land op_c 0xff) in
         Ok (op_c, result)) in
  Ok result.

(** [_T[j][data[k]]]. *)
Definition t_get (data : bytes) (j k : Z) : res Z :=
  let* row := py_get _T j in
  let* d := py_get data k in
  py_get row d.

(** [value.to_bytes(8, byteorder='little')]. *)
Definition to_bytes_8_little (value : Z) : res bytes :=
  if (0 <=? value) && (value <? 2 ^ 64) then Ok (rev (int_to_bytearray value 8)) else Err OverflowError.

(** The eight-byte value of one assignment of [_hash_lps]; the arguments are the indices of
    [data] in the order of the tables 0..7. *)
Definition lps_word (data : bytes) (k0 k1 k2 k3 k4 k5 k6 k7 : Z) : res bytes :=
  let* t0 := t_get data 0 k0 in
  let* t1 := t_get data 1 k1 in
  let* t2 := t_get data 2 k2 in
  let* t3 := t_get data 3 k3 in
  let* t4 := t_get data 4 k4 in
  let* t5 := t_get data 5 k5 in
  let* t6 := t_get data 6 k6 in
  let* t7 := t_get data 7 k7 in
  to_bytes_8_little
    (Z.lxor (Z.lxor (Z.lxor (Z.lxor (Z.lxor (Z.lxor (Z.lxor t0 t1) t2) t3) t4) t5) t6) t7).

(** [internal[a::] = v]. *)
Definition set_from (internal : bytes) (a : Z) (v : bytes) : bytes := py_slice_set internal a (len internal) v.

(** gost_34_11_2012.py 779-814 [_hash_lps]. *)
Definition _hash_lps (data : bytes) : res bytes :=
  let internal := py_repeat 0 _BLOCK_SIZE in
  let* w := lps_word data 0 8 16 24 32 40 48 56 in
  let internal := set_from internal 0 w in
  let* w := lps_word data 1 9 17 25 33 41 49 57 in
  let internal := set_from internal 8 w in
  let* w := lps_word data 2 10 18 26 34 42 50 58 in
  let internal := set_from internal 16 w in
  let* w := lps_word data 3 11 19 27 35 43 51 59 in
  let internal := set_from internal 24 w in
  let* w := lps_word data 4 12 20 28 36 44 52 60 in
  let internal := set_from internal 32 w in
  let* w := lps_word data 5 13 21 29 37 45 53 61 in
  let internal := set_from internal 40 w in
  let* w := lps_word data 6 14 22 30 38 46 54 62 in
  let internal := set_from internal 48 w in
  let* w := lps_word data 7 15 23 31 39 47 55 63 in
  let internal := set_from internal 56 w in
  Ok internal.

(** gost_34_11_2012.py 816-820 [_hash_get_key]. *)
Definition _hash_get_key (k : bytes) (i : Z) : res bytes :=
  let* c := py_get _C i in
  _hash_lps (add_xor k c).

(** gost_34_11_2012.py 822-828 [_hash_e]. *)
Definition _hash_e (k data : bytes) : res bytes :=
  let* (_, internal) :=
    for_ (py_range 0 12 1) (k, add_xor k data)
      (fun i '(k, internal) =>
         let* internal := _hash_lps internal in
         let* k := _hash_get_key k i in
         Ok (k, add_xor internal k)) in
  Ok internal.

(** gost_34_11_2012.py 830-837 [_hash_g]. *)
Definition _hash_g (hash_h hash_n data : bytes) : res bytes :=
  let* k := _hash_lps (add_xor hash_n hash_h) in
  let* internal := _hash_e k data in
  Ok (add_xor (add_xor internal hash_h) data).

(** The object after an assignment to one of its attributes. *)
Definition set_h (self : hash_obj) (v : bytes) : hash_obj :=
  {| h_name := h_name self; h_buff := h_buff self; h_num_block := h_num_block self; h_pad_block_size := h_pad_block_size self;
     h_hash_h := v; h_hash_n := h_hash_n self; h_hash_sigma := h_hash_sigma self; h_oid := h_oid self |}.
Definition set_n (self : hash_obj) (v : bytes) : hash_obj :=
  {| h_name := h_name self; h_buff := h_buff self; h_num_block := h_num_block self; h_pad_block_size := h_pad_block_size self;
     h_hash_h := h_hash_h self; h_hash_n := v; h_hash_sigma := h_hash_sigma self; h_oid := h_oid self |}.
Definition set_sigma (self : hash_obj) (v : bytes) : hash_obj :=
  {| h_name := h_name self; h_buff := h_buff self; h_num_block := h_num_block self; h_pad_block_size := h_pad_block_size self;
     h_hash_h := h_hash_h self; h_hash_n := h_hash_n self; h_hash_sigma := v; h_oid := h_oid self |}.
Definition set_buff (self : hash_obj) (v : bytes) : hash_obj :=
  {| h_name := h_name self; h_buff := v; h_num_block := h_num_block self; h_pad_block_size := h_pad_block_size self;
     h_hash_h := h_hash_h self; h_hash_n := h_hash_n self; h_hash_sigma := h_hash_sigma self; h_oid := h_oid self |}.
Definition set_num_block (self : hash_obj) (v : Z) : hash_obj :=
  {| h_name := h_name self; h_buff := h_buff self; h_num_block := v; h_pad_block_size := h_pad_block_size self;
     h_hash_h := h_hash_h self; h_hash_n := h_hash_n self; h_hash_sigma := h_hash_sigma self; h_oid := h_oid self |}.
Definition set_pad_block_size (self : hash_obj) (v : Z) : hash_obj :=
  {| h_name := h_name self; h_buff := h_buff self; h_num_block := h_num_block self; h_pad_block_size := v;
     h_hash_h := h_hash_h self; h_hash_n := h_hash_n self; h_hash_sigma := h_hash_sigma self; h_oid := h_oid self |}.

(** [self._hash_h = self._hash_g(self._hash_h, n, block)] and the two additions. *)
Definition step_h (n block : bytes) : M hash_obj unit :=
  let! self := getM in
  let! v := liftM (_hash_g (h_hash_h self) n block) in
  putM (set_h self v).
Definition step_n (v : bytes) : M hash_obj unit :=
  let! self := getM in
  let! v := liftM (_hash_add_512 (h_hash_n self) v) in
  putM (set_n self v).
Definition step_sigma (v : bytes) : M hash_obj unit :=
  let! self := getM in
  let! v := liftM (_hash_add_512 (h_hash_sigma self) v) in
  putM (set_sigma self v).

(** gost_34_11_2012.py 839-864 [update]. *)
Definition hash_update (data : pyval) : M hash_obj unit :=
  match data with
  | VBytes data =>
      let! self := getM in
      let data := h_buff self ++ data in
      let num_block := len data / _BLOCK_SIZE in
      putM (set_num_block self num_block) ;!
      forM (py_range 0 (num_block * _BLOCK_SIZE) _BLOCK_SIZE) tt
        (fun i _ =>
           let block := py_slice data i (i + _BLOCK_SIZE) in
           let! self := getM in
           step_h (h_hash_n self) block ;!
           step_n _V_512 ;!
           step_sigma block) ;!
      let! self := getM in
      let pad_block_size := _BLOCK_SIZE - len data mod _BLOCK_SIZE in
      let self := set_pad_block_size self pad_block_size in
      if pad_block_size <? _BLOCK_SIZE
      then putM (set_buff self (py_from data (- (_BLOCK_SIZE - pad_block_size))))
      else putM self
  | _ => raiseM (GOSTHashError "GOSTHashError: invalid data value")
  end.

(** gost_34_11_2012.py 866-880 [hash_final]. *)
Definition hash_final : M hash_obj unit :=
  let! self := getM in
  let pad_block_size := _BLOCK_SIZE - len (h_buff self) in
  putM (set_pad_block_size self pad_block_size) ;!
  let internal := py_repeat 0 _BLOCK_SIZE in
  let! internal := liftM (py_set internal 1 (Z.land (Z.shiftr ((_BLOCK_SIZE - pad_block_size) * 8) 8) 0xff)) in
  let! internal := liftM (py_set internal 0 (Z.land ((_BLOCK_SIZE - pad_block_size) * 8) 0xff)) in
  (let! self := getM in
   if pad_block_size <=? _BLOCK_SIZE
   then putM (set_buff self ((h_buff self ++ [0x01]) ++ py_repeat 0x00 (pad_block_size - 1)))
   else retM tt) ;!
  let! self := getM in
  step_h (h_hash_n self) (h_buff self) ;!
  step_n internal ;!
  step_sigma (h_buff self) ;!
  let! self := getM in
  step_h _V_0 (h_hash_n self) ;!
  let! self := getM in
  step_h _V_0 (h_hash_sigma self).

(** gost_34_11_2012.py 922-934 [digest_size]. *)
Definition digest_size (self : hash_obj) : Z := if String.eqb (h_name self) "streebog512" then 64 else 32.

(** gost_34_11_2012.py 936-944 [block_size]. *)
Definition hash_block_size (self : hash_obj) : Z := _BLOCK_SIZE.

(** gost_34_11_2012.py 882-884 [get_hash]. *)
Definition get_hash (self : hash_obj) : bytes := py_from (h_hash_h self) (- digest_size self).

(** gost_34_11_2012.py 886-896 [digest]: on a deep copy, which is dropped. *)
Definition hash_digest : M hash_obj bytes := fun self =>
  let temp := self in
  let (r, temp) := hash_final temp in
  (let* _ := r in Ok (get_hash temp), self).

(** [bytearray.hex]: two lower-case digits for each byte. *)
Definition hex_digit (d : Z) : ascii := ascii_of_nat (Z.to_nat (if d <? 10 then 48 + d else 87 + d)).
Fixpoint py_hex (b : bytes) : string :=
  match b with
  | [] => EmptyString
  | x :: b' => String (hex_digit (x / 16)) (String (hex_digit (x mod 16)) (py_hex b'))
  end.

(** gost_34_11_2012.py 898-907 [hexdigest]. *)
Definition hash_hexdigest : M hash_obj string :=
  let! d := hash_digest in retM (py_hex d).

(** gost_34_11_2012.py 909-911 [reset]. *)
Definition hash_reset : M hash_obj unit :=
  let! self := getM in putM (_hash_init (h_name self) (h_oid self)).

(** gost_34_11_2012.py 732-754 [__init__]; [data != bytearray(b'')] holds for every object that
    is not an empty byte string. *)
Definition hash_init (name : string) (data : pyval) : res hash_obj :=
  let oid := if String.eqb name "streebog256" then "1.2.643.7.1.1.2.2" else "1.2.643.7.1.1.2.3" in
  let self := _hash_init name oid in
  match data with
  | VBytes [] => Ok self
  | _ => match hash_update data self with
         | (Ok _, self) => Ok self
         | (Err e, _) => Err e
         end
  end.

(** gost_34_11_2012.py 673-700 [new]; [data] is [None] when the keyword is absent. *)
Definition hash_new (name : pyval) (data : option pyval) : res hash_obj :=
  match name with
  | VStr name =>
      if negb (String.eqb name "streebog512" || String.eqb name "streebog256")
      then Err (GOSTHashError "GOSTHashError: unsupported hash type")
      else
        let data := match data with Some data => data | None => VBytes [] end in
        hash_init name data
  | _ => Err (GOSTHashError "GOSTHashError: unsupported hash type")
  end.
