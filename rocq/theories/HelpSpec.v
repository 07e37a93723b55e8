(** What the help of an option should look like. *)
From Verif Require Import Float Base.
Import ListNotations. Local Open Scope Z_scope.

(** texts in a list, such as "-t, --reference" *)
Inductive listed (sep : list Z) : list (list Z) -> list Z -> Prop :=
| L_one x : listed sep [x] x
| L_more x y l s : listed sep (y :: l) s -> listed sep (x :: y :: l) (x ++ sep ++ s).
Definition comma : list Z := [44; 32].
(** the same letters as capitals *)
Definition capital (c d : Z) : Prop := (97 <= c <= 122 /\ d = c - 32) \/ (~ (97 <= c <= 122) /\ d = c).
(** what stands for the value of an option: the text given for that, the choices in braces, or the destination in capitals *)
Inductive stands (dest : list Z) : option (list Z) -> option (list (list Z)) -> list Z -> Prop :=
| S_text m cs : stands dest (Some m) cs m
| S_choices cs s : listed [44] cs s -> stands dest None (Some cs) ([123] ++ s ++ [125])
| S_dest s : Forall2 capital dest s -> stands dest None None s.
(** a character within a line: no line boundary of Unicode *)
Definition in_line (c : Z) : Prop := ~ (10 <= c <= 13) /\ ~ (28 <= c <= 30) /\ c <> 133 /\ c <> 8232 /\ c <> 8233.
(** the end of a line before [rest]: a line boundary, or carriage return and line feed *)
Definition boundary (e rest : list Z) : Prop :=
  e = [13; 10] \/ exists c, e = [c] /\ ~ in_line c /\ (c = 13 -> forall r, rest <> 10 :: r).
(** [text] consists of [lines], with a boundary after each but maybe the last *)
Inductive has_lines : list Z -> list (list Z) -> Prop :=
| H_none : has_lines [] []
| H_last l : l <> [] -> Forall in_line l -> has_lines l [l]
| H_line l e text lines : Forall in_line l -> boundary e text -> has_lines text lines -> has_lines (l ++ e ++ text) (l :: lines).
