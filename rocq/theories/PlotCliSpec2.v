(** What is seen of a run of fpplot. *)
From Coq Require Import QArith.
From Verif Require Import Float Base PlotCliModel PlotCliSpec.
Local Open Scope Z_scope.

(** the histogram of the two lists of times with the width asked for, saved if asked to; an exception is exit code 1 *)
Definition shown (ss : list ask) (width : Q) (r : pyres (list Q * list Q)) (out : outcome) : Prop :=
  match r with
  | Ok (a, b) => exists s, saved ss s /\ out = Drawn a b width s
  | Err _ => out = Exit 1
  end.
