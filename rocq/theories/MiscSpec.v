(** Specification of the scripts of MiscModel. *)
From Coq Require Import QArith Sorted.
From Verif Require Import Float Base TimestampsModel TimestampsSpec UtilsSpec MiscModel.
Local Open Scope Z_scope.

(** the event words of times given on the command line: cut to 54 bits, detector 1 *)
Definition event_words (ts : list Z) : list Z := map (fun t => word_of (t mod 2 ^ 54, 1)) ts.

(** lines separated by newlines *)
Definition lines (first : list Z) (rest : list (list Z)) : list Z := first ++ concat (map (cons 10) rest).
(** [message] is [pre], the delimiter and [text], with no earlier delimiter *)
Definition parts (delim message pre text : list Z) : Prop :=
  message = pre ++ delim ++ text /\ forall pre' text', message = pre' ++ delim ++ text' -> (length pre <= length pre')%nat.
(** whitespace as wide as [pre], tabs kept *)
Definition blanked (isspace : Z -> bool) (pre blank : list Z) : Prop :=
  Forall2 (fun c b => b = c /\ isspace c = true \/ b = 32 /\ isspace c = false) pre blank.
(** the texts shown: the elements, or "key: value" *)
Definition detail_lines (d : details) : list (list Z) :=
  match d with DetailList l => l | DetailDict l => map (fun kv => fst kv ++ [58; 32] ++ snd kv) l | _ => [] end.

(** start < t <= start + T *)
Definition interval (start T : Q) (ts : list Q) : list Q :=
  filter (fun t => negb (Qle_bool t start) && Qle_bool t (start + T)) ts.

(** [d] is made of the pieces [ls] separated by the runs of newlines in it *)
Inductive newline_run : list Z -> Prop :=
| run1 : newline_run [10]
| run_more r : newline_run r -> newline_run (10 :: r).
Inductive split_runs : list Z -> list (list Z) -> Prop :=
| split_one l : ~ In 10 l -> split_runs l [l]
| split_more l r d ls : ~ In 10 l -> newline_run r -> hd 0 d <> 10 -> split_runs d ls -> split_runs (l ++ r ++ d) (l :: ls).
(** what precedes the first [mark], everything if there is none *)
Definition before (mark s a : list Z) : Prop :=
  (exists b, parts mark s a b) \/ (a = s /\ forall x y, s <> x ++ mark ++ y).
(** the first piece, an empty line, and the others separated by spaces *)
Definition headline (ls : list (list Z)) : list Z :=
  match ls with
  | [] => []
  | [x] => x
  | x :: y :: r => x ++ [10; 10] ++ y ++ concat (map (cons 32) r)
  end.
