(** * A thread that clears an object *)
From Verif Require Import PyBase PyState Utils CipherObj Modes Threads ThreadsModes.
Open Scope string_scope.
Open Scope list_scope.
Open Scope Z_scope.

(** gost_34_13_2015.py 266-269 [clear]: one action (the round keys are overwritten one after the other, so that other
    schedules are possible too). *)
Definition p_clear : proc mode_obj bytes := let& _ := act clear in Ret [].
(** A thread that clears the object: it calls [clear], or [encrypt] or [decrypt] of CBC or CFB with an argument that is not a byte string. *)
Inductive clearing : proc mode_obj bytes -> Prop :=
| ByClear : clearing p_clear
| ByCbcE d : match d with VBytes _ => False | _ => True end -> clearing (p_cbc_encrypt d)
| ByCbcD d : match d with VBytes _ => False | _ => True end -> clearing (p_cbc_decrypt d)
| ByCfbE d : match d with VBytes _ => False | _ => True end -> clearing (p_cfb_encrypt d)
| ByCfbD d : match d with VBytes _ => False | _ => True end -> clearing (p_cfb_decrypt d).
