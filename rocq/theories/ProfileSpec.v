(** Programs without the decorator, and well-nested logs. *)
From Coq Require Import QArith String.
From Verif Require Import Base Float ReportModel ProfileModel.
Import ListNotations.
Local Open Scope Z_scope.

(** the program with its functions not decorated: lines logged, outcome *)
Fixpoint plain {V E} (p : prog V E) : list (list Z) * outcome V E :=
  match p with
  | End o => ([], o)
  | Say m q => let (l, o) := plain q in (m :: l, o)
  | Call _ body k => let (l, o) := plain body in let (l', o') := plain (k o) in (l ++ l', o')
  end.
Fixpoint own (rs : list record) : list (list Z) :=
  match rs with [] => [] | Line m :: r => m :: own r | _ :: r => own r end.
(** calls in brackets of START and END, with two blanks per level; the time is that between entering and leaving.
    [i], [j]: number of times taken before and after *)
Inductive nested (clock : Z -> Q) : Z -> Z -> Z -> list record -> Prop :=
  | nested_nil l i : nested clock l i i []
  | nested_line l i j m rs : nested clock l i j rs -> nested clock l i j (Line m :: rs)
  | nested_call l i j k f inner rs : nested clock (l + 1) (i + 1) j inner -> nested clock l (j + 1) k rs ->
      nested clock l i k (Start f (repeat 32 (Z.to_nat (2 * l)) ++ text "START PROFILING") :: inner ++
        Stop f (repeat 32 (Z.to_nat (2 * l)) ++ text "END PROFILING: ") (fl 53 (clock j - clock i)) :: rs).
