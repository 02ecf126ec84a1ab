(** * A generator that is cleared during a call *)
From Verif Require Import PyBase PyState Utils Streebog Random Threads ThreadsRandom.
Open Scope string_scope.
Open Scope list_scope.
Open Scope Z_scope.

(** r_1323565_1_006_2017.py 167-170 [clear]: the attribute exists. *)
Definition p_random_clear : proc random_obj bytes := let& _ := act random_clear in Ret [].
