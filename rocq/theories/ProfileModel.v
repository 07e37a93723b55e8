(** Model of the decorator [profile] of fpfind.py (53-97) for arbitrary functions that call decorated functions. *)
From Coq Require Import QArith String.
From Verif Require Import Base Float ReportModel.
Import ListNotations.
Local Open Scope Z_scope.

Section Prof.
Context {V E : Type}.   (* results and exceptions *)
Inductive outcome : Type := Returned (v : V) | Raised (e : E).
(** A Python function body: it ends, logs a line, or calls a decorated function and goes on in a way depending on the outcome.
    Exceptions not caught are passed on by the continuation. *)
Inductive prog : Type :=
  | End (o : outcome)
  | Say (m : list Z) (p : prog)
  | Call (f : list Z) (body : prog) (k : outcome -> prog).
(** log records: function, text; the number of seconds of END lines (88) kept as a number, its format "%.0f" not modelled *)
Inductive record : Type :=
  | Line (m : list Z)
  | Start (f : list Z) (t : list Z)
  | Stop (f : list Z) (t : list Z) (elapsed : Q).
(** [clock n]: the n-th result of time.time() in this module *)
Variable clock : Z -> Q.
Record state : Type := mkState { level : Z; ticks : Z; records : list record }.
Definition log (r : record) (s : state) : state := mkState (level s) (ticks s) (records s ++ [r]).
(** "  " * level; empty for negative levels *)
Definition padding (l : Z) : list Z := concat (repeat (text "  ") (Z.to_nat l)).
(** 73-96, [wrapper]; the [finally] part runs whatever the outcome *)
Fixpoint run (p : prog) (s : state) : state * outcome :=
  match p with
  | End o => (s, o)
  | Say m q => run q (log (Line m) s)
  | Call f body k =>
      let pad := padding (level s) in
      let s1 := log (Start f (pad ++ text "START PROFILING")) s in
      let start := clock (ticks s1) in
      let s2 := mkState (level s1 + 1) (ticks s1 + 1) (records s1) in
      let (s3, o) := run body s2 in
      let elapsed := fl 53 (clock (ticks s3) - start) in
      let s4 := log (Stop f (pad ++ text "END PROFILING: ") elapsed) (mkState (level s3) (ticks s3 + 1) (records s3)) in
      run (k o) (mkState (level s4 - 1) (ticks s4) (records s4))
  end.
End Prof.
Arguments prog : clear implicits.
Arguments outcome : clear implicits.
