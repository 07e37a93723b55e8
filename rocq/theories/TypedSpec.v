(** What is typed into generate_freqcd_testcase. *)
From Verif Require Import Base TsCliSpec GenRefuseSpec.
Import ListNotations.
Local Open Scope Z_scope.

(** the times taken from the lines [ls]: lines which are no whole numbers are passed over, a negative number ends the program *)
Inductive entered : list (list Z) -> list Z -> Prop :=
| E_end : entered [] []
| E_number l z ls zs : int_word l z -> 0 <= z -> entered ls zs -> entered (l :: ls) (z :: zs)
| E_negative l z ls : int_word l z -> z < 0 -> entered (l :: ls) []
| E_other l ls zs : no_number l -> entered ls zs -> entered (l :: ls) zs.
(** [s] has the lines [ls]; the last one may lack its newline *)
Inductive has_lines : list Z -> list (list Z) -> Prop :=
| H_end : has_lines [] []
| H_open l : l <> [] -> Forall (fun c => c <> 10) l -> has_lines l [l]
| H_line l s ls : Forall (fun c => c <> 10) l -> has_lines s ls -> has_lines (l ++ 10 :: s) (l :: ls).
(** ASCII without carriage returns *)
Definition plain_text (s : list Z) : Prop := Forall (fun c => 0 <= c < 128 /\ c <> 13) s.
