(** The statistics report of parse_timestamps: C82-C85. *)
From Coq Require Import QArith Qabs String Lia.
From Verif Require Import Float Base TimestampsModel TimestampsSpec TimestampsProofs2 FpfindModel FpfindSpec ReportModel ReportSpec ReportProofs2 ReportProofs3.
Local Open Scope Z_scope.

(** Twelve events over 2.5 s. *)
Definition evs12 : list event :=
  [(256, 1); (1024, 2); (70000, 0); (4000000, 15); (8000001, 4); (90000000, 8); (90000256, 3);
   (1000000000, 1); (64000000000, 2); (320000000000, 1); (640000000000, 6); (640000000256, 5)].
Definition words12 : list Z := map word_of evs12.
Definition report12 : list (list Z) :=
  [text "Name: a1X.dat"; text "Filesize (MB): 0.000"; text "Total events    : 12";
   text "  Channel 1     :  6"; text "  Channel 2     :  5"; text "  Channel 3     :  4"; text "  Channel 4     :  2";
   text "  Multi-channel :  4"; text "  No channel    :  1";
   text "Duration (s) :     2.500000000"; text "  ~ start    :     0.000000001"; text "  ~ end      :     2.500000001";
   text "Event rate (/s) : 4"; text "Detection patterns: [0, 1, 2, 3, 4, 5, 6, 8, 15]"].
Definition LOG10 (n : Z) : Z := len (dec n) - 1.
Example words12_ok : Forall word_ok words12.
Proof. repeat constructor; vm_compute; congruence. Qed.

(** C82.  Full statement: [C82_statement].  Refuted by a file of one event. *)
Theorem C82_refuted : ~ C82_statement.
Proof. exact c82_refuted. Qed.
Print Assumptions C82_refuted.
(** Once the statistics are computed, printing fails exactly when there are events and the first and last times
    reported are equal.  C82_file: for a file, when those times are equal in float64. *)
Theorem C82_partial : forall lg p inmemory fin f name file s, 1 <= p -> report p inmemory fin f file = Ok s ->
  (num_events s = 0 \/ ~ same_time (start_t s) (end_t s) -> snd (print_main lg p inmemory fin f name file) = None) /\
  (num_events s <> 0 -> same_time (start_t s) (end_t s) -> snd (print_main lg p inmemory fin f name file) = Some OverflowError).
Proof. exact print_outcome. Qed.
Print Assumptions C82_partial.
Theorem C82_file : forall lg p fin name vs v0 v1, 1 <= p -> Forall word_ok vs -> (fin = A2 -> one_side vs) -> first vs = Some v0 -> final vs = Some v1 ->
  snd (print_main lg p false fin any name (encode fin vs)) =
  if Qeq_bool (fl 53 (inject_Z (time_of v0))) (fl 53 (inject_Z (time_of v1))) then Some OverflowError else None.
Proof. exact c82_file. Qed.
Print Assumptions C82_file.
Example C82_case : print_main LOG10 64 false (A1 false) any (text "a1X.dat") (encode (A1 false) words12) = (report12, None) /\
  print_main LOG10 64 true A2 any (text "a1X.dat") (encode A2 words12) = (report12, None) /\
  print_main LOG10 64 false (A1 true) any (text "one") (encode (A1 true) [word_of (2560000000, 3)]) =
    ([text "Name: one"; text "Filesize (MB): 0.000"; text "Total events    : 1"; text "  Channel 1     : 1"; text "  Channel 2     : 1";
      text "  Channel 3     : 0"; text "  Channel 4     : 0"; text "  Multi-channel : 1"; text "  No channel    : 0";
      text "Duration (s) :     0.000000000"; text "  ~ start    :     0.010000000"; text "  ~ end      :     0.010000000"], Some OverflowError) /\
  print_main LOG10 64 false (A1 true) any (text "none") [] = ([text "Name: none"; text "Filesize (MB): 0.000"; text "Total events    : 0"], None) /\
  print_main LOG10 64 true (A1 true) any (text "none") [] = ([], Some IndexError).
Proof. vm_compute. repeat split; reflexivity. Qed.

(** C83.  C83_all: with any filters, for the patterns counted. *)
Theorem C83 : forall lg p inmemory fin name vs, log10_ok lg -> 54 <= p -> Forall word_ok vs -> printable inmemory fin vs ->
  exists n m cs rest, fst (print_main lg p inmemory fin any name (encode fin vs)) = n :: m :: cs ++ rest /\
    Forall2 (fun '(label, k) line => column (lg (len vs) + 1) label k line) (tally (map pattern_of vs)) cs.
Proof. exact c83. Qed.
Print Assumptions C83.
Theorem C83_all : forall lg p inmemory fin f name file s pats, log10_ok lg -> report p inmemory fin f file = Ok s -> counts_right s pats -> pats <> [] ->
  exists n m cs rest, fst (print_main lg p inmemory fin f name file) = n :: m :: cs ++ rest /\
    Forall2 (fun '(label, k) line => column (lg (len pats) + 1) label k line) (tally pats) cs.
Proof. exact c83_all. Qed.
Print Assumptions C83_all.
Example C83_case : log10_ok LOG10 /\ Forall word_ok words12 /\ printable false A2 words12 /\ printable true (A1 false) words12 /\
  LOG10 (len words12) + 1 = 2 /\ map snd (tally (map pattern_of words12)) = [12; 6; 5; 4; 2; 4; 1].
Proof.
  split; [exact log10_exists|]. split; [exact words12_ok|].
  split; [split; [discriminate|split; [|discriminate]]; intros _; left; repeat constructor|].
  split; [split; [discriminate|split; [discriminate|]]; intros _; split; [exact I|discriminate]|]. split; vm_compute; reflexivity.
Qed.

(** C84. *)
Theorem C84 : forall lg p inmemory fin name vs v0 v1, 54 <= p -> Forall word_ok vs -> printable inmemory fin vs -> first vs = Some v0 -> final vs = Some v1 ->
  exists d t0 t1, let lines := fst (print_main lg p inmemory fin any name (encode fin vs)) in
    seconds_line "Duration (s) : " d (nth 9 lines []) /\ seconds_line "  ~ start    : " t0 (nth 10 lines []) /\ seconds_line "  ~ end      : " t1 (nth 11 lines []) /\
    (Qabs (inject_Z d - inject_Z (time_of v1 - time_of v0) / (256 # 1)) <= 9 # 16)%Q /\
    (Qabs (inject_Z t0 - inject_Z (time_of v0) / (256 # 1)) <= 9 # 16)%Q /\ (Qabs (inject_Z t1 - inject_Z (time_of v1) / (256 # 1)) <= 9 # 16)%Q.
Proof. exact c84. Qed.
Print Assumptions C84.
(** 0.5 ns is shown as 0.000000001 and 2500000000.5 ns as 2.500000001. *)
Example C84_case : let f := fst (print_main LOG10 64 true (A1 false) any [] (encode (A1 false) [word_of (128, 1); word_of (640000000128, 1)])) in
  nth 9 f [] = text "Duration (s) :     2.500000000" /\ nth 10 f [] = text "  ~ start    :     0.000000001" /\ nth 11 f [] = text "  ~ end      :     2.500000001" /\
  Forall word_ok [word_of (128, 1); word_of (640000000128, 1)].
Proof. split; [vm_compute; reflexivity|]. split; [vm_compute; reflexivity|]. split; [vm_compute; reflexivity|]. repeat constructor; vm_compute; congruence. Qed.

(** C85. *)
Theorem C85 : forall lg p inmemory fin name vs v0 v1, 54 <= p -> Forall word_ok vs -> printable inmemory fin vs -> first vs = Some v0 -> final vs = Some v1 ->
  time_of v0 + 32 <= time_of v1 ->
  exists r ds d l s, let lines := fst (print_main lg p inmemory fin any name (encode fin vs)) in
    nth 12 lines [] = text "Event rate (/s) : " ++ ds /\ decimal ds r /\
    (Qabs (d * (1000000000 # 1) - inject_Z (time_of v1 - time_of v0) / (256 # 1)) <= 1 # 16)%Q /\
    (inject_Z r * d <= inject_Z (len vs) < (inject_Z r + 1) * d)%Q /\
    nth 13 lines [] = text "Detection patterns: [" ++ s ++ text "]" /\ items l s /\ lists_patterns l (map pattern_of vs) /\ length lines = 14%nat.
Proof. exact c85. Qed.
Print Assumptions C85.
Example C85_case : nth 12 report12 [] = text "Event rate (/s) : 4" /\ first words12 = Some (word_of (256, 1)) /\ final words12 = Some (word_of (640000000256, 5)) /\
  time_of (word_of (256, 1)) + 32 <= time_of (word_of (640000000256, 5)).
Proof. vm_compute. repeat split; congruence. Qed.
