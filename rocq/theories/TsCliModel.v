(** Model of parse_timestamps.py main (686-773) from the argument vector to exit code, standard output and files.  Not modelled: standard error with the progress bar, the help text,
    files which cannot be opened, several names for one file.  [path] is str(pathlib.Path(...)), [lg] as in ReportModel.  An exception nobody catches is exit code 1. *)
From Coq Require Import QArith String.
From Verif Require Import Float Base TimestampsModel ReportModel CdRunModel ArgModel.
Import ListNotations. Local Open Scope string_scope. Local Open Scope list_scope. Local Open Scope Z_scope.

Inductive tdst := THelp | TFrom | TLegacyIn | TTo | TLegacyOut | TPrint | TQuiet | TPattern | TMask | TInvert | TStart | TEnd | TInmemory.
Scheme Equality for tdst.
(** 688-703; argparse adds -h, --help first *)
Definition ttable : list (opt tdst) :=
  [mkOpt THelp [chars "-h"; chars "--help"] No; mkOpt TFrom [chars "-A"] One; mkOpt TLegacyIn [chars "-X"] No; mkOpt TTo [chars "-a"] One; mkOpt TLegacyOut [chars "-x"] No;
   mkOpt TPrint [chars "-p"; chars "--print"] No; mkOpt TQuiet [chars "-q"; chars "--quiet"] No; mkOpt TPattern [chars "--pfilter-pattern"] One; mkOpt TMask [chars "--pfilter-mask"] No;
   mkOpt TInvert [chars "--pfilter-invert"] No; mkOpt TStart [chars "--tfilter-start"] One; mkOpt TEnd [chars "--tfilter-end"] One; mkOpt TInmemory [chars "--inmemory"] No].
(** 705-706 *)
Definition tpos : list pos := [Must; May].
(** the namespace *)
Record named : Type := mkN { n_from : option Z; n_legacy_in : bool; n_to : Z; n_legacy_out : bool; n_print : bool; n_inmemory : bool; n_pattern : option Z; n_mask : bool; n_invert : bool;
  n_start : option number; n_end : option number; n_in : option (list Z); n_out : option (list Z) }.
Definition nothing : named := mkN None false 1 false false false None false false None None None None.
(** choices=["0","1","2"], then int() of 719-722 *)
Definition choice (s : list Z) : option Z := if same s [48] then Some 0 else if same s [49] then Some 1 else if same s [50] then Some 2 else None.
Inductive parsed := Refused | Helped | Parsed (n : named).
Definition one (args : list (list Z)) : list Z := match args with s :: _ => s | [] => [] end.
(** one action after another; -h ends the program when it is met *)
Fixpoint act (l : list (action (D := tdst))) (n : named) : parsed :=
  match l with
  | [] => Parsed n
  | Placed O args :: r => act r (mkN (n_from n) (n_legacy_in n) (n_to n) (n_legacy_out n) (n_print n) (n_inmemory n) (n_pattern n) (n_mask n) (n_invert n) (n_start n) (n_end n) (first args) (n_out n))
  | Placed _ args :: r => act r (mkN (n_from n) (n_legacy_in n) (n_to n) (n_legacy_out n) (n_print n) (n_inmemory n) (n_pattern n) (n_mask n) (n_invert n) (n_start n) (n_end n) (n_in n) (first args))
  | Given d args :: r =>
      match d with
      | THelp => Helped
      | TFrom => match choice (one args) with None => Refused | Some z =>
          act r (mkN (Some z) (n_legacy_in n) (n_to n) (n_legacy_out n) (n_print n) (n_inmemory n) (n_pattern n) (n_mask n) (n_invert n) (n_start n) (n_end n) (n_in n) (n_out n)) end
      | TTo => match choice (one args) with None => Refused | Some z =>
          act r (mkN (n_from n) (n_legacy_in n) z (n_legacy_out n) (n_print n) (n_inmemory n) (n_pattern n) (n_mask n) (n_invert n) (n_start n) (n_end n) (n_in n) (n_out n)) end
      | TLegacyIn => act r (mkN (n_from n) true (n_to n) (n_legacy_out n) (n_print n) (n_inmemory n) (n_pattern n) (n_mask n) (n_invert n) (n_start n) (n_end n) (n_in n) (n_out n))
      | TLegacyOut => act r (mkN (n_from n) (n_legacy_in n) (n_to n) true (n_print n) (n_inmemory n) (n_pattern n) (n_mask n) (n_invert n) (n_start n) (n_end n) (n_in n) (n_out n))
      | TPrint => act r (mkN (n_from n) (n_legacy_in n) (n_to n) (n_legacy_out n) true (n_inmemory n) (n_pattern n) (n_mask n) (n_invert n) (n_start n) (n_end n) (n_in n) (n_out n))
      | TQuiet => act r n
      | TInmemory => act r (mkN (n_from n) (n_legacy_in n) (n_to n) (n_legacy_out n) (n_print n) true (n_pattern n) (n_mask n) (n_invert n) (n_start n) (n_end n) (n_in n) (n_out n))
      | TPattern => match int_of (one args) with None => Refused | Some z =>
          act r (mkN (n_from n) (n_legacy_in n) (n_to n) (n_legacy_out n) (n_print n) (n_inmemory n) (Some z) (n_mask n) (n_invert n) (n_start n) (n_end n) (n_in n) (n_out n)) end
      | TMask => act r (mkN (n_from n) (n_legacy_in n) (n_to n) (n_legacy_out n) (n_print n) (n_inmemory n) (n_pattern n) true (n_invert n) (n_start n) (n_end n) (n_in n) (n_out n))
      | TInvert => act r (mkN (n_from n) (n_legacy_in n) (n_to n) (n_legacy_out n) (n_print n) (n_inmemory n) (n_pattern n) (n_mask n) true (n_start n) (n_end n) (n_in n) (n_out n))
      | TStart => match float_of (one args) with None => Refused | Some x =>
          act r (mkN (n_from n) (n_legacy_in n) (n_to n) (n_legacy_out n) (n_print n) (n_inmemory n) (n_pattern n) (n_mask n) (n_invert n) (Some x) (n_end n) (n_in n) (n_out n)) end
      | TEnd => match float_of (one args) with None => Refused | Some x =>
          act r (mkN (n_from n) (n_legacy_in n) (n_to n) (n_legacy_out n) (n_print n) (n_inmemory n) (n_pattern n) (n_mask n) (n_invert n) (n_start n) (Some x) (n_in n) (n_out n)) end
      end
  end.
(** [Shows_help]: exit code 0 and the help text on standard output *)
Inductive tends := Ends (e : ending) | Shows_help | Beyond.
Definition format_of (z : Z) (legacy : bool) : fmt := if z =? 0 then A0 else if z =? 1 then A1 legacy else A2.
Definition optional (x : option number) : option (option Q) := match x with None => Some None | Some (Num q) => Some (Some q) | Some Special => None end.
Definition exit_code (e : option exn) : Z := match e with None => 0 | Some _ => 1 end.
Definition unspecified (e : option exn) : bool := match e with Some Unspecified | Some OutOfFuel => true | _ => false end.
Definition print_lines (l : list (list Z)) : list Z := concat (map (fun s => s ++ [10]) l).
(** 715-773.  Streaming, the output is opened, and emptied, before the input is read (336-364); with --inmemory the input is read and all computed before it is opened. *)
Definition tproceed (lg : Z -> Z) (p : Z) (path : list Z -> list Z) (n : named) (fs : filesys) : tends :=
  match optional (n_start n), optional (n_end n), n_from n, n_in n with
  | Some s, Some e, Some from, Some input =>
      let f := mkF (n_pattern n) (n_mask n) (n_invert n) s e in
      let fin := format_of from (n_legacy_in n) in
      let fout := format_of (n_to n) (n_legacy_out n) in
      match n_print n, n_out n with
      | false, None | false, Some [] => Ends (mkEnd 1 fs [])                           (* 716-717 *)
      | pr, output =>
          match input, fs input with
          | [], _ | _, None => Ends (mkEnd 1 fs [])                                      (* 726-728 *)
          | _, Some file =>
              if pr then
                let (lines, x) := print_main lg p (n_inmemory n) fin f (path input) file in
                if unspecified x then Beyond else Ends (mkEnd (exit_code x) fs (print_lines lines))
              else
                match output with
                | None => Beyond
                | Some name =>
                    if n_inmemory n then
                      match convert p true fin fout f file with
                      | (out, None) => Ends (mkEnd 0 (put fs name out) [])
                      | (_, x) => if unspecified x then Beyond else Ends (mkEnd 1 fs [])
                      end
                    else
                      let opened := put fs name [] in
                      let (out, x) := convert p false fin fout f (match opened input with Some file => file | None => [] end) in
                      if unspecified x then Beyond else Ends (mkEnd (exit_code x) (put fs name out) [])
                end
          end
      end
  | _, _, _, _ => Beyond
  end.
Definition trun (lg : Z -> Z) (p : Z) (path : list Z -> list Z) (args : list (list Z)) (fs : filesys) : tends :=
  match args with
  | [] => Ends (mkEnd 1 fs [])                                                           (* 709-711 *)
  | _ =>
      if existsb unclear args then Beyond else
      let (acts, bad) := parse ttable tpos args in
      match act acts nothing with
      | Helped => Shows_help
      | Refused => Ends (mkEnd 2 fs [])
      | Parsed n => if bad || match n_from n with None => true | _ => false end then Ends (mkEnd 2 fs []) else tproceed lg p path n fs
      end
  end.
