(** Specification: the statistics printed, and the README's command lines. *)
From Coq Require Import QArith Qabs String.
From Verif Require Import Float Base FreqcdSpec FreqcdCliSpec CdRunSpec TimestampsModel TimestampsSpec FpfindSpec ReportModel ReportSpec FpCliSpec CliSpec TsCliModel TsCliSpec.
Import ListNotations. Local Open Scope string_scope. Local Open Scope list_scope. Local Open Scope Z_scope.

(** the size of a file in MB with three decimals *)
Definition size_line (z : Z) (line : list Z) : Prop :=
  exists ds n, line = text "Filesize (MB): " ++ ds /\ shows 3 n ds /\ (Qabs (inject_Z n - inject_Z (1000 * z) / inject_Z (2 ^ 20)) <= 1 # 2)%Q.
(** [lines] tell the statistics of the events [vs], the first of them [v0] and the last [v1]; [bytes] is the size of the file and [w] is the number of digits of their number. *)
Definition statistics (path : list Z) (bytes w : Z) (vs : list Z) (v0 v1 : Z) (lines : list (list Z)) : Prop :=
  exists size cs d t0 t1 r ds secs l s, length cs = 7%nat /\
    lines = [text "Name: " ++ path; size] ++ cs ++ [nth 9 lines []; nth 10 lines []; nth 11 lines []; text "Event rate (/s) : " ++ ds; text "Detection patterns: [" ++ s ++ text "]"] /\
    size_line bytes size /\ Forall2 (fun '(label, k) line => column w label k line) (tally (map pattern_of vs)) cs /\
    seconds_line "Duration (s) : " d (nth 9 lines []) /\ seconds_line "  ~ start    : " t0 (nth 10 lines []) /\ seconds_line "  ~ end      : " t1 (nth 11 lines []) /\
    (Qabs (inject_Z d - inject_Z (time_of v1 - time_of v0) / (256 # 1)) <= 9 # 16)%Q /\
    (Qabs (inject_Z t0 - inject_Z (time_of v0) / (256 # 1)) <= 9 # 16)%Q /\ (Qabs (inject_Z t1 - inject_Z (time_of v1) / (256 # 1)) <= 9 # 16)%Q /\
    FpfindSpec.decimal ds r /\ (Qabs (secs * (1000000000 # 1) - inject_Z (time_of v1 - time_of v0) / (256 # 1)) <= 1 # 16)%Q /\
    (inject_Z r * secs <= inject_Z (len vs) < (inject_Z r + 1) * secs)%Q /\ items l s /\ lists_patterns l (map pattern_of vs).
(** freqcd -x -df 568 *)
Definition readme_freqcd : list (list Z) := map codes ["-x"; "-df"; "568"].
(** parse_timestamps -A1 -X -p [name] *)
Definition readme_parse (name : list Z) : list (list Z) := map codes ["-A1"; "-X"; "-p"] ++ [name].
(** [t'] is [t] moved as a clock faster by [n] units of 1e-10 moves it since [t0], up to the rounding of [k] batches and of the ratio to units of 2^-34 *)
Definition decimal_accurate (n t0 k t t' : Z) : Prop :=
  (Qabs (inject_Z (t' - t) - inject_Z (n * (t - t0)) / inject_Z (10 ^ 10)) <= (3 # 2) * inject_Z k + inject_Z (Z.abs (t - t0)) / inject_Z (2 ^ 34))%Q.
