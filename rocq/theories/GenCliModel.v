(** Model of generate_freqcd_testcase.py main (73-145) from the argument vector to exit code, standard output and files.  Not modelled: standard error with warnings and tracebacks, the
    help text, files which cannot be opened, several names for one file, Ctrl-C.  [tmp] is the name of the temporary file (113), which does not exist before.  An exception nobody
    catches is exit code 1. *)
From Coq Require Import QArith String.
From Verif Require Import Float Base TimestampsModel FpfindModel MiscModel CdRunModel ArgModel TsCliModel.
Import ListNotations. Local Open Scope string_scope. Local Open Scope list_scope. Local Open Scope Z_scope.

Inductive gdst := DHelp | DOut | DTimes | DLegacy.
(** 74-77; argparse adds -h, --help first *)
Definition gtable : list (opt gdst) := [mkOpt DHelp [chars "-h"; chars "--help"] No; mkOpt DOut [chars "-o"] One; mkOpt DTimes [chars "-t"] Some_of; mkOpt DLegacy [chars "-x"] No].
(** 78 *)
Definition gpos : list pos := [May].
(** the namespace *)
Record gnamed : Type := mkG { g_out : option (list Z); g_times : option (list Z); g_legacy : bool; g_in : option (list Z) }.
Definition gnothing : gnamed := mkG None None false None.
(** type=int of each word *)
Fixpoint ints (ws : list (list Z)) : option (list Z) :=
  match ws with
  | [] => Some []
  | w :: r => match int_of w, ints r with Some z, Some l => Some (z :: l) | _, _ => None end
  end.
Inductive gparsed := GRefused | GHelped | GParsed (n : gnamed).
(** one action after another; -h ends the program when it is met *)
Fixpoint gact (l : list (action (D := gdst))) (n : gnamed) : gparsed :=
  match l with
  | [] => GParsed n
  | Placed _ args :: r => gact r (mkG (g_out n) (g_times n) (g_legacy n) (first args))
  | Given DHelp _ :: _ => GHelped
  | Given DOut args :: r => gact r (mkG (Some (one args)) (g_times n) (g_legacy n) (g_in n))
  | Given DTimes args :: r => match ints args with None => GRefused | Some l => gact r (mkG (g_out n) (Some l) (g_legacy n) (g_in n)) end
  | Given DLegacy _ :: r => gact r (mkG (g_out n) (g_times n) true (g_in n))
  end.
(** a file is removed *)
Definition unlink (fs : filesys) (name : list Z) : filesys := fun n => if same n name then None else fs n.
(** lines of text; what follows the last newline is a line if it is not empty *)
Fixpoint text_lines (acc s : list Z) : list (list Z) :=
  match s with
  | [] => match acc with [] => [] | _ => [rev acc] end
  | c :: r => if c =? 10 then rev acc :: text_lines [] r else text_lines (c :: acc) r
  end.
(** 138-143: int() of each line, lines which are no number are skipped (ValueError); the loop ends with an AssertionError or with EOFError, neither of which is caught *)
Fixpoint answered (ls : list (list Z)) : list Z :=
  match ls with
  | [] => []
  | l :: r => match int_of l with
              | None => answered r
              | Some z => match get_event false z 1 with Ok b => b ++ answered r | Err _ => [] end
              end
  end.
Definition prompt : list Z := print_lines [chars "Enter timestamps in decimal separated by newlines."; chars "Press Ctrl-C to stop input."].
(** characters of standard input read as text: ASCII without carriage returns *)
Definition plain (c : Z) : bool := (0 <=? c) && (c <? 128) && negb (c =? 13).
(** 86-145; a name which is empty counts as none *)
Definition gproceed (p : Z) (tmp : list Z) (n : gnamed) (fs : filesys) (stdin : list Z) : tends :=
  let out := match g_out n with Some [] => None | o => o end in
  let opened := match out with Some name => put fs name [] | None => fs end in                            (* 91-93 *)
  let written bytes := match out with Some name => put opened name bytes | None => opened end in
  match g_times n, match g_in n with Some [] => None | i => i end with
  | Some ts, _ =>
      let (bytes, x) := generate (g_legacy n) ts in
      Ends (mkEnd (exit_code x) (written bytes) (match out with Some _ => [] | None => bytes end))        (* 98-100 *)
  | None, Some input =>
      let temporary := same input [45] in
      let name := if temporary then tmp else input in
      let (file, r) := decode_file p (g_legacy n) (opened name) stdin in                                  (* 116-123 *)
      let stored := match file with Some c => put opened name c | None => opened end in
      let left := if temporary then unlink stored name else stored in                                     (* 126-128 *)
      match r with
      | Ok l => Ends (mkEnd 0 left (print_lines (map dec l)))
      | Err Unspecified | Err OutOfFuel => Beyond
      | Err _ => Ends (mkEnd 1 left [])
      end
  | None, None =>
      if negb (forallb plain stdin) then Beyond else
      let bytes := answered (text_lines [] stdin) in
      Ends (mkEnd 1 (written bytes) (prompt ++ match out with Some _ => [] | None => bytes end))           (* 135-145 *)
  end.
Definition grun (p : Z) (tmp : list Z) (args : list (list Z)) (fs : filesys) (stdin : list Z) : tends :=
  match args with
  | [] => Ends (mkEnd 1 fs [])                                                                          (* 81-83 *)
  | _ =>
      if existsb unclear args then Beyond else
      let (acts, bad) := parse gtable gpos args in
      match gact acts gnothing with
      | GHelped => Shows_help
      | GRefused => Ends (mkEnd 2 fs [])
      | GParsed n => if bad then Ends (mkEnd 2 fs []) else gproceed p tmp n fs stdin
      end
  end.
