(** * Model of gostcrypto/gostrandom/r_1323565_1_006_2017.py *)
From Verif Require Import PyBase PyState Utils Streebog.
Open Scope string_scope.
Open Scope list_scope.
Open Scope Z_scope.

(** r_1323565_1_006_2017.py 30-35. *)
Definition SIZE_S_384 : Z := 48.
Definition SIZE_S_320 : Z := 40.
Definition SIZE_S_256 : Z := 32.
Definition _SIZE_M : Z := 64.
Definition _SIZE_H : Z := 64.

(** A generator object: the attributes assigned in [__init__] (71-94). *)
Record random_obj : Type := {
  r_size_s : Z;
  r_rand_u : bytes;
  r_q : Z;
  r_r : Z;
  r_limit : Z;
  r_hash : hash_obj
}.

Definition set_rand_u (self : random_obj) (v : bytes) : random_obj :=
  {| r_size_s := r_size_s self; r_rand_u := v; r_q := r_q self; r_r := r_r self; r_limit := r_limit self; r_hash := r_hash self |}.
Definition set_hash (self : random_obj) (v : hash_obj) : random_obj :=
  {| r_size_s := r_size_s self; r_rand_u := r_rand_u self; r_q := r_q self; r_r := r_r self; r_limit := r_limit self; r_hash := v |}.

(** A call of a method of [self._hash_obj]. *)
Definition on_hash {A} (c : M hash_obj A) : M random_obj A := fun self =>
  let (r, h) := c (r_hash self) in (r, set_hash self h).

(** r_1323565_1_006_2017.py 115-117 [_inc_rand_u]; [1 % (2 ** 63)] is 1. *)
Definition _inc_rand_u : M random_obj unit :=
  let! self := getM in
  let int_rand_u := bytearray_to_int (r_rand_u self) + 1 mod 2 ^ (_SIZE_M - 1) in
  putM (set_rand_u self (int_to_bytearray int_rand_u (_SIZE_M - 1))).

(** r_1323565_1_006_2017.py 105-113 [_rand_iter]. *)
Definition _rand_iter : M random_obj bytes :=
  let! self := getM in
  if bytearray_to_int (py_from (r_rand_u self) (r_size_s self)) >=? r_limit self
  then
    putM (set_rand_u self (zero_fill (r_rand_u self))) ;!
    raiseM (GOSTRandomError "GOSTRandomError: exceeded the limit value of the counter")
  else
    _inc_rand_u ;!
    let! self := getM in
    on_hash (hash_update (VBytes (r_rand_u self))) ;!
    let! result := on_hash hash_digest in
    on_hash hash_reset ;!
    retM result.

(** r_1323565_1_006_2017.py 119-141 [random]; the loop [while i > 0] runs [_q] times. *)
Definition random : M random_obj bytes :=
  let! self := getM in
  if bytearray_to_int (py_upto (r_rand_u self) (r_size_s self)) =? 0
  then raiseM (GOSTRandomError "GOSTRandomError: the seed value is zero")
  else
    let! result :=
      forM (repeat tt (Z.to_nat (r_q self))) []
        (fun _ result => let! b := _rand_iter in retM (result ++ b)) in
    if negb (r_r self =? 0)
    then let! b := _rand_iter in retM (result ++ py_slice b (_SIZE_H - r_r self) _SIZE_H)
    else retM result.

(** r_1323565_1_006_2017.py 79-87 and 157-164: the initial filling; [urandom] is the value of
    [os.urandom(size_s)], which raises for a negative size. *)
Definition filling (urandom : bytes) (size_s : Z) (rand_k : pyval) : res bytes :=
  match rand_k with
  | VBytes [] =>
      if size_s <? 0 then Err ValueError
      else Ok (urandom ++ py_repeat 0 (_SIZE_M - size_s - 1))
  | _ =>
      if negb (check_value rand_k size_s) then Err (GOSTRandomError "GOSTRandomError: invalid seed value")
      else match rand_k with
           | VBytes rand_k => Ok (rand_k ++ py_repeat 0 (_SIZE_M - size_s - 1))
           | _ => Err TypeError
           end
  end.

(** r_1323565_1_006_2017.py 143-165 [reset]. *)
Definition random_reset (urandom : bytes) (rand_k : pyval) : M random_obj unit :=
  let! self := getM in
  let! u := liftM (filling urandom (r_size_s self) rand_k) in
  putM (set_rand_u self u) ;!
  on_hash hash_reset.

(** r_1323565_1_006_2017.py 167-170 [clear]. *)
Definition random_clear : M random_obj unit :=
  let! self := getM in putM (set_rand_u self (zero_fill (r_rand_u self))).

(** r_1323565_1_006_2017.py 93 [2 ** ((_SIZE_M - self._size_s) * 8)].  A negative exponent gives a floating
    point number: between 0 and 1 down to 2 ** -1072, so that an integer is at least it exactly when it is at
    least 1, and 0.0 from 2 ** -1080 on (the least positive double is 2 ** -1074). *)
Definition limit_of (size_s : Z) : Z :=
  if size_s <=? _SIZE_M then 2 ^ ((_SIZE_M - size_s) * 8)
  else if (size_s - _SIZE_M) * 8 <=? 1074 then 1
  else 0.

(** r_1323565_1_006_2017.py 71-94 [__init__]. *)
Definition random_init (urandom : bytes) (rand_size : Z) (rand_k : pyval) (size_s : Z) : res random_obj :=
  let* u := filling urandom size_s rand_k in
  let* h := hash_init "streebog512" (VBytes []) in
  Ok {| r_size_s := size_s; r_rand_u := u; r_q := rand_size / _SIZE_H; r_r := rand_size mod _SIZE_H;
        r_limit := limit_of size_s; r_hash := h |}.

(** r_1323565_1_006_2017.py 38-58 [new]; the last two arguments are [None] when the keyword is absent. *)
Definition random_new (urandom : bytes) (rand_size : Z) (rand_k : option pyval) (size_s : option Z) : res random_obj :=
  random_init urandom rand_size
    (match rand_k with Some k => k | None => VBytes [] end)
    (match size_s with Some s => s | None => SIZE_S_384 end).
