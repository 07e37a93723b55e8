(** What the options about logging promise. *)
From Coq Require Import String.
From Verif Require Import Base TimestampsModel MiscModel ReportModel LoggersModel.
Local Open Scope Z_scope.

(** the texts written to a stream, in order *)
Definition is_to (t : stream) (x : stream * list Z) : bool :=
  match t, fst x with Stderr, Stderr => true | LogFile p, LogFile q => same p q | _, _ => false end.
Definition written_to (t : stream) (out : list (stream * list Z)) : list (list Z) := map snd (filter (is_to t) out).
(** the level asked for with so many -v *)
Definition wanted (v : Z) : Z := if v =? 0 then 30 else if v =? 1 then 20 else 10.
Definition record_of (s : said) : list record := match s with Main r | Epochs r => [r] | Root => [] end.
Definition passes (lv : Z) (r : record) : bool := lv <=? r_level r.
(** the records of the two loggers that are shown *)
Definition main_records (lv : Z) (s : said) : list record := match s with Main r => if passes lv r then [r] else [] | _ => [] end.
Definition stderr_texts (isspace : Z -> bool) (lv : Z) (s : said) : list (list Z) :=
  match s with
  | Main r => if passes lv r then [formatted isspace true r] else []
  | Epochs r => if passes 30 r then [formatted isspace false r] else []
  | Root => []
  end.

(** Everything logged at the level asked for is in the file. *)
Definition C156_statement : Prop := forall isspace v p q l out, 0 <= v -> run isspace (mkOptions v (Some p) q) l = Ok out ->
  forall s r, In s l -> In r (record_of s) -> wanted v <= r_level r -> exists human, In (formatted isspace human r) (written_to (LogFile p) out).
(** With --quiet no error appears. *)
Definition C157_statement : Prop := forall isspace v p l out, 0 <= v -> run isspace (mkOptions v p true) l = Ok out ->
  forall s r human, In s l -> In r (record_of s) -> 40 <= r_level r -> ~ In (formatted isspace human r) (written_to Stderr out).

(** calls of get_logger *)
Definition call : Type := list Z * label * bool.
Definition calls (W : registry) (cs : list call) : registry := fold_left (fun W c => let '(n, lv, h) := c in get_logger W n lv h) cs W.
(** the calls for a name *)
Definition for_name (n : list Z) (cs : list call) : list call := filter (fun c => same (fst (fst c)) n) cs.
(** the form asked for in the first call for a name *)
Definition first_form (n : list Z) (cs : list call) (h : bool) : bool := match for_name n cs with (_, h0) :: _ => h0 | [] => h end.
(** the level a name stands for *)
Inductive stands_for : label -> Z -> Prop :=
| is_debug : stands_for (Label (text "debug")) 10
| is_info : stands_for (Label (text "info")) 20
| is_warning : stands_for (Label (text "warning")) 30
| is_error : stands_for (Label (text "error")) 40
| is_none : stands_for NoLabel 30.
(** A record given to a logger obtained by get_logger is written once, if the level of the last call allows it, in the
    form asked for in the last call. *)
Definition C158_statement : Prop := forall isspace cs n lv h lvl r, stands_for lv lvl ->
  emit isspace (calls fresh (cs ++ [(n, lv, h)])) n r = if lvl <=? r_level r then [(Stderr, formatted isspace h r)] else [].
