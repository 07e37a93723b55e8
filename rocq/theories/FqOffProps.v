(** Switching the correction off: C187. *)
From Coq Require Import String List.
From Verif Require Import Base FreqcdModel FreqcdSpec FreqcdExamples FqOffSpec FqOffProofs.
Import ListNotations.
Local Open Scope Z_scope.

(** C187.  Full statement: [C187_statement].  What the clock has gained is kept, as it should to have no jump. *)
Theorem C187_refuted : ~ C187_statement.
Proof. exact c187_refuted. Qed.
Print Assumptions C187_refuted.
(** later events are moved as the last one before *)
Theorem C187_actual : forall lg junk ib ob fb f ts s' A B, alloc_ok ib ob fb ->
  freqcd true lg junk ib ob fb true f ts = Ok (s', A ++ B, Running) -> off_after lg ts s' A B ->
  exists times, written_with lg A B times (fun t => t + (List.last times 0 - List.last (map (ev_time lg) (groups (received A))) 0)).
Proof. exact c187. Qed.
Print Assumptions C187_actual.
Example C187_case : exists s' a b c, runF 1000000 ticks187 = Ok (s', [a; b] ++ [c], Running) /\
  written [a; b; c] = ev 0 1 ++ ev 1000058207 1 ++ ev 2000116415 1 ++ ev 3000116415 1 ++ ev 4000116415 1 /\ off_after false ticks187 s' [a; b] [c] /\
  received [a; b] = first187 /\ received [a; b; c] = first187 ++ later187.
Proof. exact run187. Qed.
