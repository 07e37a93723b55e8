(** Loggers below those obtained by get_logger. *)
From Verif Require Import Base LoggersModel LoggersSpec.
Local Open Scope Z_scope.

(** names of which no part between dots is empty, at the beginning or inside *)
Definition proper (n : list Z) : Prop := (forall r, n <> 46 :: r) /\ (forall a r, n <> a ++ 46 :: 46 :: r).
(** [a] is above [n] *)
Definition over (a n : list Z) : Prop := (a = [] /\ n <> []) \/ exists rest, n = a ++ 46 :: rest.
(** get_logger was called for the name *)
Definition asked (n : list Z) (cs : list call) : Prop := exists lv h, In (n, lv, h) cs.
