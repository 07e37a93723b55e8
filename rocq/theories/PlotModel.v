(** Model of fpplot.py main (46-177), up to the histogram (S15lib's).  Options are given as values; logging is not modelled. *)
From Coq Require Import QArith.
From Verif Require Import Float Base TimestampsModel EpochsModel UtilsModel FpfindModel.
Local Open Scope Z_scope.

(** 171-177 and 31: the arrays given to histogram.  [duration] in s, [freq] in ppm, [time] in ns.
    numpy's division by zero (freq = -1e6) is not modelled. *)
Definition plot_times (M : fpu) (a b : list Q) (skip : Q) (duration : option Q) (freq time : Q) : pyres (list Q * list Q) :=
  let* T := normalize_timestamps (rt M) (rs M) [a; b] skip true in
  let* T := match duration with
            | None => Ok T
            | Some d => mapM (fun ts => slice_timestamps (rt M) ts (Some 0%Q) (Some (rs M (d * 1000000000)%Q))) T
            end in
  let g := rs M (1 + rs M (freq * rs M (1 # 1000000)))%Q in
  Ok (nth 0 T [], map (fun t => rt M (rt M (t - time) / g)%Q) (nth 1 T [])).
(** -t and -T, 159-163; [p] bits of a longdouble *)
Definition plot_files (M : fpu) (p : Z) (reference target : list Z) (legacy : bool) (skip : Q) (duration : option Q) (freq time : Q)
  : pyres (list Q * list Q) :=
  let* (a, _) := read_a1 p reference legacy NS1 true in
  let* (b, _) := read_a1 p target legacy NS1 true in
  plot_times M (tvalues a) (tvalues b) skip duration freq time.
(** -d and -D, 139-157; epoch2int(None) is a TypeError *)
Definition plot_epochs (fuel : nat) (M : fpu) (sendfiles t1files : directory) (first_epoch : option (list Z)) (num skip_epochs : Z)
  (duration : option Q) (freq time : Q) : pyres (list Q * list Q) :=
  let* (first, available) := get_first_overlapping_epoch sendfiles t1files first_epoch in
  match first with
  | None => if num <=? 0 then plot_times M [] [] 0 duration freq time else Err TypeError
  | Some e =>
      let* a := get_timestamp fuel sendfiles false e skip_epochs num in
      let* b := get_timestamp fuel t1files true e skip_epochs num in
      plot_times M a b 0 duration freq time
  end.
