(** PeakStatistics.significance2 (lib/utils.py 98-112) as a number. *)
From Coq Require Import QArith.
From Verif Require Import Float Base TimestampsModel UtilsModel.
Local Open Scope Z_scope.

(** 112: round(total / stdev, 3) in exact arithmetic, from the total and the variance *)
Definition exact_ratio (t var : Q) : Q :=
  let v := rsqrt (t * t * 1000000 / var)%Q in
  (inject_Z (if Qle_bool 0 t then v else - v) / 1000)%Q.
(** 98-112; the background is a numpy array, as get_statistics makes it when a resolution is given *)
Definition significance2 (s : peak) : pyres (option Q) :=
  let* r := significance2_parts s in
  Ok (match r with None => None | Some (t, v) => Some (exact_ratio t v) end).
