(** Words on freqcd's command line which are no options or no numbers; full statements of C197 and C198. *)
From Verif Require Import Base FreqcdModel FreqcdSpec FreqcdCliSpec FreqcdCliStatements CdRunModel.
Import ListNotations.
Local Open Scope Z_scope.

(** Words after -f which are no whole numbers are refused. *)
Definition C197_statement : Prop := forall prog t, (forall n, ~ denotes t n) -> answers [prog; dash_f; t] (Stops (-4)).
(** [t] begins with a number [v] with as many digits as there are *)
Definition begins (t : list Z) (v : Z) : Prop := exists num rest, t = num ++ rest /\ denotes num v /\ match rest with c :: _ => ~ digit c | [] => True end.
(** a number as stored in an int: clamped to 64 bits, cut to 32 *)
Definition stored (v : Z) : Z := s32 (Z.max (- 2 ^ 63) (Z.min (2 ^ 63 - 1) v)).

(** letters which are no options *)
Definition unknown (c : Z) : Prop := c <> 45 /\ forall s, c <> letter s.
(** Unknown options are refused. *)
Definition C198_statement : Prop := forall prog c args, unknown c -> exists k, answers (prog :: [45; c] :: args) (Stops k).
(** letters without values, known or not, and the settings among them *)
Inductive cluster : list Z -> list setting -> Prop :=
| K_nil : cluster [] []
| K_unknown c cs fs : unknown c -> cluster cs fs -> cluster (c :: cs) fs
| K_flag s cs fs : flag s -> cluster cs fs -> cluster (letter s :: cs) (s :: fs).
(** Every command line and the settings it comes to: unknown letters are passed over, an option without its value is
    forgotten, and a dash among the letters ends the options. *)
Inductive loosely : list (list Z) -> list setting -> Prop :=
| L_end args : no_options args -> loosely args []
| L_dash args : loosely ([45] :: args) []
| L_stop cs fs rest args : cluster cs fs -> loosely ((45 :: cs ++ 45 :: rest) :: args) fs
| L_missing cs fs s t : cluster cs fs -> argument s = Some t -> loosely [45 :: cs ++ [letter s]] fs
| L_flags cs fs args ss : cluster cs fs -> cs <> [] -> loosely args ss -> loosely ((45 :: cs) :: args) (fs ++ ss)
| L_attached cs fs s t args ss : cluster cs fs -> argument s = Some t -> t <> [] -> loosely args ss ->
    loosely ((45 :: cs ++ letter s :: t) :: args) (fs ++ s :: ss)
| L_detached cs fs s t args ss : cluster cs fs -> argument s = Some t -> loosely args ss ->
    loosely ((45 :: cs ++ [letter s]) :: t :: args) (fs ++ s :: ss).
