(** Times of generate_freqcd_testcase written in any way. *)
From Verif Require Import Base CliSpec FpCliSpec TsCliSpec GenCliSpec GenRefuseSpec.
Import ListNotations.
Local Open Scope Z_scope.

(** as [ggood], with every whole number Python reads, and any name *)
Definition fine (a : gask) : Prop := match a with GTimes ts => Forall (fun t => exists z, int_word t z) ts | _ => True end.
(** the output file; an empty name is none *)
Definition out_chosen (ss : list gask) : option (list Z) := match last_given gout_of ss with Some [] => None | o => o end.
(** as [asks_no_number], after anything fine *)
Definition bad_after_fine (ss : list gask) : Prop :=
  exists s1 ws w s2, ss = s1 ++ GTimes ws :: s2 /\ Forall fine s1 /\ ~ In GHelp s1 /\ In w ws /\ no_number w.
