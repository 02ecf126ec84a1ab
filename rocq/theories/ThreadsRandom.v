(** * Several threads with one generator *)
From Verif Require Import PyBase PyState Utils Streebog Random Threads.
Open Scope string_scope.
Open Scope list_scope.
Open Scope Z_scope.

(** r_1323565_1_006_2017.py 115-117 [_inc_rand_u]: the first statement reads the register, the second assigns it. *)
Definition read_next : M random_obj Z := let! self := getM in retM (bytearray_to_int (r_rand_u self) + 1 mod 2 ^ (_SIZE_M - 1)).
Definition write_next (int_rand_u : Z) : M random_obj unit := let! self := getM in putM (set_rand_u self (int_to_bytearray int_rand_u (_SIZE_M - 1))).
(** r_1323565_1_006_2017.py 105-113 [_rand_iter]. *)
Definition used_up : M random_obj bool := let! self := getM in retM (bytearray_to_int (py_from (r_rand_u self) (r_size_s self)) >=? r_limit self).
Definition p_rand_iter : proc random_obj bytes :=
  let& full := act used_up in
  if full then
    let& _ := act (let! self := getM in putM (set_rand_u self (zero_fill (r_rand_u self)))) in
    Exc (GOSTRandomError "GOSTRandomError: exceeded the limit value of the counter")
  else
    let& int_rand_u := act read_next in
    let& _ := act (write_next int_rand_u) in
    let& _ := act (let! self := getM in on_hash (hash_update (VBytes (r_rand_u self)))) in
    let& result := act (on_hash hash_digest) in
    let& _ := act (on_hash hash_reset) in
    Ret result.
(** r_1323565_1_006_2017.py 119-141 [random]; the attributes [_q] and [_r], which never change, are read once. *)
Definition seed_zero : M random_obj bool := let! self := getM in retM (bytearray_to_int (py_upto (r_rand_u self) (r_size_s self)) =? 0).
Definition p_random : proc random_obj bytes :=
  let& zero := act seed_zero in
  if zero then Exc (GOSTRandomError "GOSTRandomError: the seed value is zero")
  else
    let& q := act (let! self := getM in retM (r_q self)) in
    let& result := forP (repeat tt (Z.to_nat q)) [] (fun _ result => let& b := p_rand_iter in Ret (result ++ b)) in
    let& r := act (let! self := getM in retM (r_r self)) in
    if negb (r =? 0)
    then let& b := p_rand_iter in Ret (result ++ py_slice b (_SIZE_H - r) _SIZE_H)
    else Ret result.
