(** * Steps of a computation, and what can be learned from them. *)
From Coq Require Export ZArith List Bool.
Import ListNotations.
Open Scope Z_scope.

(** [FUtils] is utils/utils.py, [FSig] is gostsignature/gost_34_10_2012.py, [FCipher] is
    gostcipher/gost_34_12_2015.py, [FHash] is gosthash/gost_34_11_2012.py, [FHmac] is gosthmac/r_50_1_113_2016.py,
    [FPbkdf] is gostpbkdf/r_50_1_111_2016.py, [FRandom] is gostrandom/r_1323565_1_006_2017.py, [FModes] is
    gostcipher/gost_34_13_2015.py. *)
Inductive srcfile := FUtils | FSig | FCipher | FHash | FHmac | FPbkdf | FRandom | FModes.
Inductive event :=
| Enter (f : srcfile) (line : Z)             (* the function defined at this line is called *)
| Test (f : srcfile) (line : Z) (b : bool)   (* the test at this line came out as [b]; for a [for] loop: there is another element *)
| Read (f : srcfile) (line operand i : Z).   (* element [i] of the [operand]-th byte string of this line *)

(** The steps of a comparison of two strings of [n] bytes that always looks at all of them. *)
Definition compare_steps (n : nat) : list event :=
  [Enter FUtils 114; Test FUtils 131 false]
  ++ concat (map (fun i => [Test FUtils 133 true; Read FUtils 134 0 (Z.of_nat i); Read FUtils 134 1 (Z.of_nat i)]) (seq 0 n))
  ++ [Test FUtils 133 false].
Definition compare_to_zero_steps (n : nat) : list event :=
  [Enter FUtils 139] ++ concat (map (fun i => [Test FUtils 153 true; Read FUtils 154 0 (Z.of_nat i)]) (seq 0 n)) ++ [Test FUtils 153 false].

(** Someone who sees the steps reads off the multiplier of the last multiplication of a point: one bit of the
    multiplier less one, lowest first, is the outcome of the test in line 628. *)
Definition observe (st : Z * Z) (e : event) : Z * Z :=
  match e with
  | Enter FSig line => if line =? 616 then (0, 1) else st
  | Test FSig line b => if line =? 628 then (fst st + (if b then snd st else 0), 2 * snd st) else st
  | _ => st
  end.
Definition recover (steps : list event) : Z := fst (fold_left observe steps (0, 1)) + 1.

(** The steps with the indices of the look-ups in tables (operand 1) left out: the flow of control. *)
Definition shape (e : event) : event := match e with Read ((FCipher | FHash) as f) line operand i => if operand =? 1 then Read f line operand 0 else e | _ => e end.
(** The indices of the look-ups in the table of Kuznechik (line 460), and in the tables of Magma (lines 649 and 650). *)
Definition kuz_indices (steps : list event) : list Z :=
  flat_map (fun e => match e with Read FCipher line operand i => if (line =? 460) && (operand =? 1) then [i] else [] | _ => [] end) steps.
Definition magma_indices (steps : list event) : list Z :=
  flat_map (fun e => match e with Read FCipher line operand i => if ((line =? 649) || (line =? 650)) && (operand =? 1) then [i] else [] | _ => [] end) steps.
