(** * Specification: what [gostcipher.new] accepts, and the error it names otherwise. *)
From Verif Require Import PyBase Mac.
Open Scope string_scope.
Open Scope list_scope.
Open Scope Z_scope.

(** The conditions in the order in which they are reported, each with its message.  Numbers are
    those of the module's public constants. *)
Definition supported_mode (mode : pyval) : bool :=
  match mode with VInt z => existsb (Z.eqb z) [1; 2; 3; 5; 6; 255] | _ => false end.
Definition supported_algorithm (algorithm : pyval) : bool :=
  match algorithm with VStr s => String.eqb s "kuznechik" || String.eqb s "magma" | _ => false end.
Definition bytes_of_length (v : pyval) (ok : Z -> bool) : bool :=
  match v with VBytes b => ok (len b) | _ => false end.
Definition mode_is (mode : pyval) (l : list Z) : bool :=
  match mode with VInt z => existsb (Z.eqb z) l | _ => false end.
(** An argument that is absent is not at fault. *)
Definition absent_or (v : option pyval) (ok : pyval -> bool) : bool :=
  match v with None => true | Some v => ok v end.
Definition block_bytes (algorithm : pyval) : Z :=
  match algorithm with VStr "magma" => 8 | _ => 16 end.

Definition conditions (algorithm key mode : pyval) (kw : kwargs) : list (bool * string) :=
  let n := block_bytes algorithm in
  [ (supported_mode mode, "GOSTCipherError: unsupported cipher mode");
    (supported_algorithm algorithm, "GOSTCipherError: unsupported cipher algorithm");
    (bytes_of_length key (fun l => l =? 32), "GOSTCipherError: invalid key value");
    (negb (mode_is mode [1; 2]) ||
       absent_or (kw_pad_mode kw) (fun p => match p with VInt z => (z =? 0x800000f0) || (z =? 0x800000f1) | _ => false end),
       "GOSTCipherError: invalid padding mode");
    (negb (mode_is mode [2; 3; 5]) ||
       absent_or (kw_init_vect kw) (fun v => bytes_of_length v (fun l => l mod n =? 0)),
       "GOSTCipherError: invalid initialization vector value");
    (negb (mode_is mode [6]) ||
       absent_or (kw_init_vect kw) (fun v => bytes_of_length v (fun l => l =? n / 2)),
       "GOSTCipherError: invalid initialization vector value");
    (negb (mode_is mode [255]) ||
       absent_or (kw_data kw) (fun v => bytes_of_length v (fun _ => true)),
       "GOSTCipherError: invalid text data") ].

(** The message of the first condition that fails. *)
Fixpoint first_failure (l : list (bool * string)) : option string :=
  match l with
  | [] => None
  | (true, _) :: l' => first_failure l'
  | (false, m) :: _ => Some m
  end.
