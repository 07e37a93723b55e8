(** Model of fpfind.py main (424-677): from the files and options to the line printed.  Options are given as values
    (argument parsing and the configuration file are not modelled); logging is, where it can raise. *)
From Coq Require Import QArith Qround.
From Verif Require Import Float Base TimestampsModel EpochsModel UtilsModel FpfindModel.
Local Open Scope Z_scope.

Record options : Type := mkO {
  buffer_order : Z; initial_res : Z; final_res : Z; o_wraps : Z; separation : Q; o_threshold : Q;
  precomp : option (Q * Q * Q * bool);          (* -P: start, stop, step, ordered *)
  fullscan : bool; flag : Z }.

(** 563-567; 1 << q of a negative q is a ValueError *)
Definition bins (o : options) : pyres Z := if buffer_order o <? 0 then Err ValueError else Ok (Z.shiftl 1 (buffer_order o)).
Definition Ta (o : options) (n : Z) : Z := initial_res o * n * o_wraps o.
Definition minimum_duration (rs : Q -> Q) (o : options) (n : Z) : Q :=
  rs (rs (separation o + 1) * rs (inject_Z (Ta o n)))%Q.
(** 583, less the epochs skipped; a value that int32 cannot hold is not modelled *)
Definition epochs_needed (rs : Q -> Q) (o : options) (n : Z) : pyres Z :=
  let e := Qceiling (rs (minimum_duration rs o n / inject_Z EPOCH_LENGTH)%Q) in
  if Z.abs e <? 2 ^ 31 then Ok (e + 1) else Err Unspecified.
(** 618-677 *)
Definition search_and_print (fuel : nat) (M : fpu) (repr : Q -> list Z) (o : options) (n : Z) (a b : list Q) (skip : Q) : pyres (list Z) :=
  let* T := normalize_timestamps (rt M) (rs M) [a; b] skip true in
  let alice := nth 0 T [] in
  let bob := nth 1 T [] in
  let* _ := getitem alice 0 in                  (* the timing ranges shown, 620-629 *)
  let* _ := getitem bob 0 in
  let df0s := match precomp o with
              | None => [0%Q]
              | Some (start, stop, step, ordered) => generate_precompensations (rs M) start stop step ordered
              end in
  let P := mkP (o_wraps o) n (inject_Z (final_res o)) (o_threshold o) (rs M (separation o * rs M (inject_Z (Ta o n))))%Q in
  let* (dt, df) := fpfind fuel M P alice bob (inject_Z (initial_res o)) df0s (fullscan o) in
  Ok (output (rs M) repr (flag o) dt df).
(** -t and -T, 606-610; [p] bits of a longdouble *)
Definition main_files (fuel : nat) (M : fpu) (p : Z) (repr : Q -> list Z) (o : options) (reference target : list Z) (legacy : bool) (skip_duration : Q)
  : pyres (list Z) :=
  let* n := bins o in
  let* (a, _) := read_a1 p reference legacy NS1 true in
  let* (b, _) := read_a1 p target legacy NS1 true in
  search_and_print fuel M repr o n (tvalues a) (tvalues b) skip_duration.
(** -d and -D, 578-604; epoch2int(None) is a TypeError *)
Definition main_epochs (fuel fuel2 : nat) (M : fpu) (repr : Q -> list Z) (o : options) (sendfiles t1files : directory)
  (first_epoch : option (list Z)) (skip_epochs : Z) : pyres (list Z) :=
  let* n := bins o in
  let* num := epochs_needed (rs M) o n in
  let* (first, available) := get_first_overlapping_epoch sendfiles t1files first_epoch in
  match first with
  | None => if num <=? 0 then search_and_print fuel M repr o n [] [] 0 else Err TypeError
  | Some e =>
      let* a := get_timestamp fuel2 sendfiles false e skip_epochs num in
      let* b := get_timestamp fuel2 t1files true e skip_epochs num in
      search_and_print fuel M repr o n a b 0
  end.
