(** * The steps of the generation of random numbers.

    The methods of gostrandom/r_1323565_1_006_2017.py with the steps they go through, as in TracePbkdf.v; the
    functions return the value and the object as it is left. *)
From Verif Require Import PyBase PyState PyLoop Utils Streebog Random SpecTrace Trace TraceCipher TraceCipher2 TraceHash TracePbkdf.
Open Scope string_scope.
Open Scope list_scope.
Open Scope Z_scope.

(** r_1323565_1_006_2017.py 115-117 [_inc_rand_u]. *)
Definition t_inc_rand_u (self : random_obj) : T random_obj :=
  at_ Enter FRandom 115 then
  let int_rand_u := bytearray_to_int (r_rand_u self) + 1 mod 2 ^ (_SIZE_M - 1) in
  do u := t_int_to_bytearray int_rand_u (_SIZE_M - 1) in
  retT (set_rand_u self u).
(** r_1323565_1_006_2017.py 105-113 [_rand_iter]. *)
Definition t_rand_iter (self : random_obj) : T (bytes * random_obj) :=
  at_ Enter FRandom 105 then
  if_ FRandom 106 (bytearray_to_int (py_from (r_rand_u self) (r_size_s self)) >=? r_limit self)
    (do _ := t_zero_fill (r_rand_u self) in
     stopT (Raises (GOSTRandomError "GOSTRandomError: exceeded the limit value of the counter")))
    (do self := t_inc_rand_u self in
     do h := t_hash_update (r_rand_u self) (r_hash self) in
     do result := t_hash_digest h in
     do h := t_hash_reset h in
     retT (result, set_hash self h)).
(** r_1323565_1_006_2017.py 119-141 [random]; the test of [while i > 0] comes out true [_q] times. *)
Definition t_random_body (_ : unit) (s : bytes * random_obj) : T (bytes * random_obj) :=
  let '(result, self) := s in
  do (b, self) := t_rand_iter self in
  retT (result ++ b, self).
Definition t_random (self : random_obj) : T (bytes * random_obj) :=
  at_ Enter FRandom 119 then
  if_ FRandom 132 (bytearray_to_int (py_upto (r_rand_u self) (r_size_s self)) =? 0)
    (stopT (Raises (GOSTRandomError "GOSTRandomError: the seed value is zero")))
    (let r := r_r self in
     do (result, self) := t_for FRandom 136 (repeat tt (Z.to_nat (r_q self))) ([], self) t_random_body in
     if_ FRandom 139 (negb (r =? 0))
       (do (b, self) := t_rand_iter self in
        retT (result ++ py_slice b (_SIZE_H - r) _SIZE_H, self))
       (retT (result, self))).
