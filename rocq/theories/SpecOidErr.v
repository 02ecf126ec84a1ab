(** * Specification: which exception an OID tuple raises (None: encoded).

    Uses only the exception names of the Python fragment. *)
From Verif Require Import PyBase.

Definition oid_error (arcs : list Z) : option exn :=
  match arcs with
  | [] => Some IndexError
  | a :: rest =>
      if (a <? 0) || (2 <? a) then Some (GOSTOIDError "invalid first SID value")
      else match rest with
           | [] => Some IndexError
           | b :: rest' =>
               if (a <? 2) && (40 <=? b) then Some (GOSTOIDError "invalid second SID value")
               else if 40 * a + b <? 0 then Some OverflowError
               else if existsb (fun v => v <? 0) rest' then Some OverflowError
               else None
           end
  end.
