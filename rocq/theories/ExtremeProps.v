(** Every number after -f: C196. *)
From Coq Require Import String List.
From Verif Require Import Base FreqcdModel FreqcdSpec FreqcdExamples FreqcdCliSpec FreqcdCliStatements FreqcdCliRefute CdRunModel CdRunSpec FreqcdRefute CdRunRefute CdExactSpec ExtremeSpec ExtremeProofs.
Import ListNotations.
Local Open Scope string_scope.
Local Open Scope Z_scope.

(** C196.  Full statement: [C196_statement].  It fails for -2147483648, which is not refused: the product with the time passed overflows. *)
Theorem C196_refuted : ~ C196_statement.
Proof. exact C196_refuted_lemma. Qed.
Print Assumptions C196_refuted.
(** What is missing is that number only. *)
Theorem C196_partial : forall junk ib ob fb prog t n fs X, alloc_ok ib ob fb -> good_number t n -> event_file false X -> n <> - 2 ^ 31 ->
  exists e, freqcd_main true junk ib ob fb [prog; dash_f; t] fs X = Some (Ok e) /\
    (forall m, files e m = fs m) /\
    (Z.abs n < 2 ^ 21 -> let ts := map (ev_time false) (groups X) in code e = 0 /\ stdout e = concat (retime false (groups X) (map (exact_time n ts) (seq 0 (length ts))))) /\
    (2 ^ 21 <= Z.abs n -> code e = -5 /\ stdout e = []).
Proof. exact c196. Qed.
Print Assumptions C196_partial.
(** With -d numbers are in units of 1e-10; from 1250000000 on the product with 2^34 / 10^10 is no int. *)
Theorem C196_decimal_partial : forall junk ib ob fb prog t n fs X, alloc_ok ib ob fb -> good_number t n -> event_file false X -> Z.abs n < 1250000000 ->
  exists e, freqcd_main true junk ib ob fb [prog; dash_d; dash_f; t] fs X = Some (Ok e) /\
    (forall m, files e m = fs m) /\
    (Z.abs n <= 1220703 -> let ts := map (ev_time false) (groups X) in code e = 0 /\ stdout e = concat (retime false (groups X) (map (exact_time (Z.quot (n * 2 ^ 34) (10 ^ 10)) ts) (seq 0 (length ts))))) /\
    (1220703 < Z.abs n -> code e = -5 /\ stdout e = []).
Proof. exact c196_decimal. Qed.
Print Assumptions C196_decimal_partial.
Example C196_case : alloc_ok IB IB FB /\ event_file false two /\ good_number (str "-2147483648") (- 2 ^ 31) /\ good_number (str "-2097151") (-2097151) /\ good_number (str "2097152") 2097152 /\
  map (exact_time (-2097151) [0; far]) [0%nat; 1%nat] = [0; 2 ^ 45 - 2 ^ 32 + 2 ^ 11].
Proof.
  split; [exact alloc_example|]. split; [exact (two_events _ eq_refl)|]. split; [exact lowest|].
  split; [apply number; [vm_compute; reflexivity|split; vm_compute; congruence]|]. split; [apply number; [vm_compute; reflexivity|split; vm_compute; congruence]|]. vm_compute. reflexivity.
Qed.
