(** * Several threads with one object

    A call is here a sequence of actions on the object; between two actions other threads may act.  An
    action is a statement of the method that reads or assigns attributes of the object (with the calls in it):
    the interpreter may switch threads also within such a statement, so that not all real schedules are
    covered, but every schedule considered here is a real one. *)
From Verif Require Import PyBase PyState Utils CipherObj Modes.
Open Scope string_scope.
Open Scope list_scope.
Open Scope Z_scope.

Inductive proc (S A : Type) : Type :=
| Ret (a : A)
| Exc (e : exn)
| Act (k : S -> S * proc S A).
Arguments Ret {S A}.
Arguments Exc {S A}.
Arguments Act {S A}.

(** One statement. *)
Definition act {S A} (m : M S A) : proc S A := Act (fun s => match m s with (Ok a, s') => (s', Ret a) | (Err e, s') => (s', Exc e) end).
Fixpoint bindP {S A B} (p : proc S A) (f : A -> proc S B) : proc S B :=
  match p with
  | Ret a => f a
  | Exc e => Exc e
  | Act k => Act (fun s => let (s', p') := k s in (s', bindP p' f))
  end.
Notation "'let&' x ':=' c 'in' k" := (bindP c (fun x => k)) (at level 61, x pattern, c at next level, k at level 61, right associativity).
Fixpoint forP {S A B} (xs : list A) (acc : B) (body : A -> B -> proc S B) : proc S B :=
  match xs with
  | [] => Ret acc
  | x :: xs' => let& acc' := body x acc in forP xs' acc' body
  end.

(** A call that is not interrupted. *)
Fixpoint run {S A} (p : proc S A) (s : S) : res A * S :=
  match p with
  | Ret a => (Ok a, s)
  | Exc e => (Err e, s)
  | Act k => let (s', p') := k s in run p' s'
  end.
(** Threads and the order in which they act; a thread that has ended does nothing. *)
Fixpoint go {S A} (sched : list nat) (pool : list (proc S A)) (s : S) : list (proc S A) * S :=
  match sched with
  | [] => (pool, s)
  | i :: sched =>
      match nth_error pool i with
      | Some (Act k) => let (s', p') := k s in go sched (upd pool i p') s'
      | _ => go sched pool s
      end
  end.

(** gost_34_13_2015.py 545-563 [GOST34132015ecb.encrypt], 565-583 [decrypt]. *)
Definition p_ecb_encrypt (data : pyval) : proc mode_obj bytes :=
  let& data := act (padding_encrypt data) in
  let& num := act (let! self := getM in retM (_get_num_block (block_size self) data)) in
  forP (py_range 0 num 1) []
    (fun i result =>
       let& b := act (let! self := getM in liftM (co_encrypt (o_cipher self) (_get_block (block_size self) data i))) in
       Ret (result ++ b)).
Definition p_ecb_decrypt (data : pyval) : proc mode_obj bytes :=
  let& data := act (check_ciphertext data) in
  let& num := act (let! self := getM in retM (_get_num_block (block_size self) data)) in
  forP (py_range 0 num 1) []
    (fun i result =>
       let& b := act (let! self := getM in liftM (co_decrypt (o_cipher self) (_get_block (block_size self) data i))) in
       Ret (result ++ b)).

(** gost_34_13_2015.py 758-782 [GOST34132015ofb.encrypt]: the block size, which never changes, is read once. *)
Definition p_ofb_encrypt (data : pyval) : proc mode_obj bytes :=
  let& data := act (check_plaintext data) in
  let& bs := act (let! self := getM in retM (block_size self)) in
  let& result :=
    forP (py_range 0 (_get_num_block bs data) 1) []
      (fun i result =>
         let& gamma := act _get_gamma in
         let cipher_block := _get_block bs data i in
         let result := result ++ add_xor gamma cipher_block in
         let& _ := act (_set_init_vect (py_slice gamma 0 bs)) in
         Ret result) in
  if negb (len data mod bs =? 0) then
    let& gamma := act _get_gamma in
    Ret (result ++ add_xor gamma (_get_final_block bs data))
  else Ret result.

(** gost_34_13_2015.py 855-882 [GOST34132015ctr.encrypt]. *)
Definition ctr_gamma : M mode_obj bytes := let! self := getM in liftM (co_encrypt (o_cipher self) (o_counter self)).
Definition ctr_increment : M mode_obj unit :=
  let! self := getM in
  let! ctr := liftM (_inc_ctr (block_size self) (o_counter self)) in
  putM (set_counter self ctr).
Definition p_ctr_encrypt (data : pyval) : proc mode_obj bytes :=
  let& data := act (check_plaintext data) in
  let& bs := act (let! self := getM in retM (block_size self)) in
  let& result :=
    forP (py_range 0 (_get_num_block bs data) 1) []
      (fun i result =>
         let& gamma := act ctr_gamma in
         let& _ := act ctr_increment in
         Ret (result ++ add_xor (_get_block bs data i) gamma)) in
  if negb (len data mod bs =? 0) then
    let& gamma := act ctr_gamma in
    let& _ := act ctr_increment in
    Ret (result ++ add_xor (py_from data (bs * _get_num_block bs data)) gamma)
  else Ret result.
