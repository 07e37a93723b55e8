(** Model of lib/logging.py 113-155 (get_logger, set_logfile, label2level), of the logging module of Python as far as
    it uses it, and of how fpfind.py sets it up (43, 553-557; parse_epochs.py 24).

    Loggers are a function of their name: one never asked for is as logging.getLogger makes it.  logging.disable,
    filters and handler levels are not used.  Two handlers writing to one file would overwrite each other's text: here
    they append; fpfind opens one.  Messages are the records a run gives to the loggers, any list. *)
From Coq Require Import String.
From Verif Require Import Base TimestampsModel MiscModel ReportModel.
Local Open Scope Z_scope.

Inductive stream : Type := Stderr | LogFile (path : list Z).
Record handler : Type := mkH { goes : stream; readable_by_humans : bool }.
Record logger : Type := mkLogger { level : Z; handlers : list handler; propagate : bool }.
(** logging.getLogger of a name not seen before; NOTSET is 0.  The root logger, of the empty name, has level WARNING. *)
Definition fresh (name : list Z) : logger := mkLogger (match name with [] => WARNING | _ => 0 end) [] true.
Fixpoint same (a b : list Z) : bool :=
  match a, b with [], [] => true | x :: a', y :: b' => (x =? y) && same a' b' | _, _ => false end.
Definition registry : Type := list Z -> logger.
Definition set (W : registry) (name : list Z) (l : logger) : registry := fun n => if same n name then l else W n.

(** label2level (148-155) and get_logger (113-129) *)
Inductive label : Type := Label (s : list Z) | NoLabel | OtherLabel.   (* a str, None, anything else *)
Definition label2level (l : label) : Z :=
  match l with
  | Label s => if same s (text "debug") then DEBUG else if same s (text "info") then INFO else if same s (text "warning") then WARNING
               else if same s (text "error") then ERROR else WARNING
  | _ => WARNING
  end.
Definition get_logger (W : registry) (name : list Z) (lv : label) (human : bool) : registry :=
  let l := W name in
  let l := match handlers l with
           | [] => mkLogger (level l) [mkH Stderr human] false
           | _ => l
           end in
  set W name (mkLogger (label2level lv) (handlers l) (propagate l)).
(** set_logfile (131-141): the file is opened for writing *)
Definition set_logfile (W : registry) (name path : list Z) (human : bool) : registry :=
  let l := W name in set W name (mkLogger (level l) (handlers l ++ [mkH (LogFile path) human]) (propagate l)).
Definition set_level (W : registry) (name : list Z) (lv : Z) : registry :=
  let l := W name in set W name (mkLogger lv (handlers l) (propagate l)).

(** ** Records.  [head] is the text before the delimiter: time, level, function and line. *)
Record record : Type := mkR { r_level : Z; head : list Z; body : list Z; r_details : details; shown : list Z }.
Definition BAR : list Z := [124; 32].
Definition formatted (isspace : Z -> bool) (human : bool) (r : record) : list Z :=
  format_record isspace human BAR (head r ++ BAR ++ body r) (r_details r) (shown r).

(** the names above [name], nearest first: the parts before each of its dots, and the root.  Python differs for names
    that begin with a dot or have two dots in a row. *)
Fixpoint dotted (pre s : list Z) : list (list Z) :=
  match s with [] => [] | c :: r => (if c =? 46 then [pre] else []) ++ dotted (pre ++ [c]) r end.
Definition above (name : list Z) : list (list Z) := match name with [] => [] | _ => rev (dotted [] name) ++ [[]] end.
(** Logger.getEffectiveLevel *)
Fixpoint first_level (W : registry) (ns : list (list Z)) : Z :=
  match ns with [] => 0 | n :: r => if level (W n) =? 0 then first_level W r else level (W n) end.
(** Logger.callHandlers *)
Fixpoint all_handlers (W : registry) (ns : list (list Z)) : list handler :=
  match ns with [] => [] | n :: r => handlers (W n) ++ (if propagate (W n) then all_handlers W r else []) end.
Definition emit (isspace : Z -> bool) (W : registry) (name : list Z) (r : record) : list (stream * list Z) :=
  let ns := name :: above name in
  if r_level r <? first_level W ns then []
  else match all_handlers W ns with
       | [] => if WARNING <=? r_level r then [(Stderr, body r)] else []   (* logging.lastResort *)
       | hs => map (fun h => (goes h, formatted isspace (readable_by_humans h) r)) hs
       end.
(** logging.debug(...), as in parse_epochs.py 275: the root logger gets a handler if it has none (basicConfig) *)
Definition root_debug (W : registry) : registry :=
  match handlers (W []) with [] => set W [] (mkLogger (level (W [])) [mkH Stderr false] (propagate (W []))) | _ => W end.

(** ** fpfind *)
Definition FPFIND : list Z := text "fpfind.fpfind".
Definition EPOCHS : list Z := text "fpfind.lib.parse_epochs".
(** importing: parse_epochs.py 24, then fpfind.py 43 *)
Definition imported : registry := get_logger (get_logger fresh EPOCHS (Label (text "warning")) false) FPFIND NoLabel true.
Record options : Type := mkOptions { verbosity : Z; logging : option (list Z); quiet : bool }.
(** 553-556.  Nothing reads args.quiet. *)
Definition set_up (o : options) : pyres registry :=
  let W := match logging o with Some p => set_logfile imported FPFIND p true | None => imported end in
  let* lv := verbosity2level (verbosity o) in Ok (set_level W FPFIND lv).
Inductive said : Type := Main (r : record) | Epochs (r : record) | Root.
Definition speak (isspace : Z -> bool) (W : registry) (s : said) : registry * list (stream * list Z) :=
  match s with
  | Main r => (W, emit isspace W FPFIND r)
  | Epochs r => (W, emit isspace W EPOCHS r)
  | Root => (root_debug W, [])          (* the root logger does not pass on DEBUG *)
  end.
Fixpoint speaks (isspace : Z -> bool) (W : registry) (l : list said) : list (stream * list Z) :=
  match l with [] => [] | s :: r => let (W', out) := speak isspace W s in out ++ speaks isspace W' r end.
Definition run (isspace : Z -> bool) (o : options) (l : list said) : pyres (list (stream * list Z)) :=
  let* W := set_up o in Ok (speaks isspace W l).
