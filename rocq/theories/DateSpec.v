(** What epoch2date is to be. *)
From Verif Require Import Base TimestampsModel EpochsModel DateModel.
Local Open Scope Z_scope.

(** [d], in microseconds, is less than a microsecond from the start of epoch [e], 536870.912 e microseconds *)
Definition starts_epoch (e d : Z) : Prop := - 1000 < 1000 * d - 536870912 * e < 1000.
(** C178: an epoch converted to a date and back *)
Definition C178_statement : Prop := forall name e, epoch2int name = Ok e -> 0 <= e < 2 ^ 32 ->
  exists d, epoch2date name = Ok d /\ epoch2int (date2epoch (whole_seconds d)) = Ok e.
