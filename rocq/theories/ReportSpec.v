(** What the statistics report should say, independently of how it is printed. *)
From Coq Require Import QArith String.
From Verif Require Import Float Base TimestampsModel TimestampsSpec TimestampsProofs2 FpfindSpec ReportModel.
Local Open Scope Z_scope.

(** [s] is a number with [d] decimals, [n] units of its last digit *)
Definition shows (d : nat) (n : Z) (s : list Z) : Prop :=
  exists sg a b, s = sg ++ a ++ [46] ++ b /\ (sg = [] /\ 0 <= n \/ sg = [45] /\ n <= 0) /\
    a <> [] /\ Forall digit (a ++ b) /\ length b = d /\ value (a ++ b) = Z.abs n.
(** the whole part of the decimal logarithm *)
Definition log10_ok (lg : Z -> Z) : Prop := forall n, 0 < n -> 0 <= lg n /\ 10 ^ lg n <= n < 10 ^ (lg n + 1).
(** [line] is [label], blanks, then the decimal number [n], in a column of width [w] *)
Definition column (w : Z) (label : string) (n : Z) (line : list Z) : Prop :=
  exists k ds, line = text label ++ repeat 32 k ++ ds /\ decimal ds n /\ len line = len (text label) + w.
(** [line] is [label], blanks, then [n] ns written in seconds *)
Definition seconds_line (label : string) (n : Z) (line : list Z) : Prop :=
  exists k ds, line = text label ++ repeat 32 k ++ ds /\ shows 9 n ds.
Definition any : filters := mkF None false false None None.
(** the counts of a list of patterns *)
Definition tally (pats : list Z) : list (string * Z) :=
  [("Total events    : "%string, len pats);
   ("  Channel 1     : "%string, how_many (fun v => Z.testbit v 0) pats);
   ("  Channel 2     : "%string, how_many (fun v => Z.testbit v 1) pats);
   ("  Channel 3     : "%string, how_many (fun v => Z.testbit v 2) pats);
   ("  Channel 4     : "%string, how_many (fun v => Z.testbit v 3) pats);
   ("  Multi-channel : "%string, how_many (fun v => 2 <=? popcount v) pats);
   ("  No channel    : "%string, how_many (fun v => popcount v =? 0) pats)].
(** a file of events that can be read: [readable] is needed in memory only, and float64 must hold the times of an
    a0 file *)
Definition printable (inmemory : bool) (f : fmt) (vs : list Z) : Prop :=
  vs <> [] /\ (f = A2 -> one_side vs) /\ (inmemory = true -> readable f vs /\ (f = A0 -> Forall exact53 vs)).
(** numbers separated by a comma and a blank *)
Inductive items : list Z -> list Z -> Prop :=
| items_one n ds : decimal ds n -> items [n] ds
| items_more n ds l s : decimal ds n -> items l s -> items (n :: l) (ds ++ text ", " ++ s).
(** equal times, as reported *)
Definition same_time (a b : option Q) : Prop := match a, b with Some x, Some y => (x == y)%Q | _, _ => False end.

(** Printing never fails on events. *)
Definition C82_statement : Prop := forall lg p fin name vs, log10_ok lg -> 54 <= p -> Forall word_ok vs -> vs <> [] ->
  (fin = A2 -> one_side vs) -> snd (print_main lg p false fin any name (encode fin vs)) = None.
