(** Time differences that survive read_T1, in units of 4 ps (tests/parse_epochs/test_limits.py). *)
From Coq Require Import QArith.
From Verif Require Import Base TimestampsModel EpochsModel TimestampsSpec EpochsSpec.
Local Open Scope Z_scope.

(** in units of 4 ps: one unit with floats and no full epoch, 128 ps with floats and full epochs, a unit of the result with integers *)
Definition limit (full : bool) (r : TSRES) (fr : bool) : Z := if fr then (if full then 32 else 1) else 256 / rvalue r.
(** events [lim] apart have different times in the result, the later one the greater time *)
Definition told_apart (evs : list event) (xs : list Q) (lim : Z) : Prop :=
  forall i j, (i < length evs)%nat -> (j < length evs)%nat ->
    fst (nth i evs (0, 0)) + lim <= fst (nth j evs (0, 0)) -> (nth i xs 0 < nth j xs 0)%Q.
Definition C185_statement : Prop := forall e evs full r fr,
  Forall (t1_ok e) evs -> Forall (fun ev => t1_word e ev <> 0) evs -> len evs < 2 ^ 32 ->
  exists T, read_T1 (t1_file e evs) full r fr = Ok (T, map snd evs) /\ told_apart evs (evalues T) (limit full r fr).
