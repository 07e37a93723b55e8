(** epoch2date (lib/parse_epochs.py 121-130) as an instant.

    Dates are microseconds since the Unix epoch; the conversion to and from local calendar time by
    datetime.fromtimestamp and datetime.timestamp is taken to be exact (no repeated hour). *)
From Coq Require Import QArith.
From Verif Require Import Float Base TimestampsModel EpochsModel.
Local Open Scope Z_scope.

(** datetime.fromtimestamp(t) of CPython for t >= 0: modf, the fraction times 1e6 in float64, rounded half to even *)
Definition from_timestamp (t : Q) : Z :=
  let n := qtrunc t in n * 1000000 + rneQ (fl 53 ((t - inject_Z n) * 1000000)%Q).
(** 121-130 *)
Definition epoch2date (epoch : list Z) : pyres Z :=
  let* t := epoch2seconds epoch in Ok (from_timestamp t).
(** int(datetime.timestamp()) of date2epoch (116) for a date [us] >= 0 *)
Definition whole_seconds (us : Z) : Z := us / 1000000.
