(** Specification of the command line of parse_timestamps, independent of argparse and of the model.  Characters are their codes. *)
From Coq Require Import QArith String.
From Verif Require Import Base TimestampsModel TimestampsSpec CdRunModel TsCliModel FpCliSpec CliSpec.
Import ListNotations. Local Open Scope string_scope. Local Open Scope list_scope. Local Open Scope Z_scope.

(** What a user can ask for; [t] is what they write after the option. *)
Inductive want : Type :=
| WHelp | WLegacyIn | WLegacyOut | WPrint | WQuiet | WMask | WInvert | WMemory
| WFrom (t : list Z) | WTo (t : list Z) | WPattern (t : list Z) | WStart (t : list Z) | WEnd (t : list Z).
Definition tletter (a : want) : option Z :=
  match a with WHelp => Some 104 | WLegacyIn => Some 88 | WLegacyOut => Some 120 | WPrint => Some 112 | WQuiet => Some 113 | WFrom _ => Some 65 | WTo _ => Some 97 | _ => None end.   (* h X x p q A a *)
Definition tword (a : want) : option (list Z) :=
  match a with
  | WHelp => Some (codes "--help") | WPrint => Some (codes "--print") | WQuiet => Some (codes "--quiet") | WMask => Some (codes "--pfilter-mask") | WInvert => Some (codes "--pfilter-invert")
  | WMemory => Some (codes "--inmemory") | WPattern _ => Some (codes "--pfilter-pattern") | WStart _ => Some (codes "--tfilter-start") | WEnd _ => Some (codes "--tfilter-end") | _ => None
  end.
Definition targument (a : want) : option (list Z) := match a with WFrom t | WTo t | WPattern t | WStart t | WEnd t => Some t | _ => None end.
Definition twords : list (list Z) := map codes
  ["--help"; "--print"; "--quiet"; "--pfilter-pattern"; "--pfilter-mask"; "--pfilter-invert"; "--tfilter-start"; "--tfilter-end"; "--inmemory"].
Definition tspells : list (list Z) -> list want -> Prop := spells tletter tword targument twords.
(** options, the input file, possibly the output file, options *)
Definition command (args : list (list Z)) (ss : list want) (input : list Z) (output : option (list Z)) : Prop :=
  exists a1 s1 a2 s2, tspells a1 s1 /\ tspells a2 s2 /\ ss = s1 ++ s2 /\ file_name input /\ (forall o, output = Some o -> file_name o) /\
  args = a1 ++ input :: match output with Some o => [o] | None => [] end ++ a2.
(** every value written is one, also those which are overridden *)
Definition format_text (t : list Z) : Prop := t = [48] \/ t = [49] \/ t = [50].
Definition tgood (a : want) : Prop :=
  match a with
  | WFrom t | WTo t => format_text t
  | WPattern t => exists z, whole t z
  | WStart t | WEnd t => exists x, decimal t x
  | _ => True
  end.
(** ** What is asked for *)
Definition from_of s := match s with WFrom t => Some t | _ => None end.
Definition to_of s := match s with WTo t => Some t | _ => None end.
Definition asked_pattern s := match s with WPattern t => Some t | _ => None end.
Definition tstart_of s := match s with WStart t => Some t | _ => None end.
Definition tend_of s := match s with WEnd t => Some t | _ => None end.
Definition wanted (a : want) (ss : list want) (b : bool) : Prop := b = true <-> In a ss.
(** 0, 1 and 2 with or without the legacy order of words *)
Definition named_format (t : list Z) (legacy : bool) (f : fmt) : Prop := (t = [48] /\ f = A0) \/ (t = [49] /\ f = A1 legacy) \/ (t = [50] /\ f = A2).
Definition input_format (ss : list want) (f : fmt) : Prop := exists t lg, last_given from_of ss = Some t /\ wanted WLegacyIn ss lg /\ named_format t lg f.
(** the default is 1 *)
Definition output_format (ss : list want) (f : fmt) : Prop :=
  exists t lg, t = match last_given to_of ss with Some t => t | None => [49] end /\ wanted WLegacyOut ss lg /\ named_format t lg f.
Definition maybe {A} (value : list Z -> A -> Prop) (o : option (list Z)) (v : option A) : Prop :=
  match o, v with Some t, Some x => value t x | None, None => True | _, _ => False end.
Definition filter_asked (ss : list want) (f : filters) : Prop :=
  maybe whole (last_given asked_pattern ss) (f_pattern f) /\ wanted WMask ss (f_mask f) /\ wanted WInvert ss (f_invert f) /\
  maybe decimal (last_given tstart_of ss) (f_start f) /\ maybe decimal (last_given tend_of ss) (f_end f).
(** options between the two file names *)
Definition between (args : list (list Z)) (ss : list want) (input output : list Z) : Prop :=
  exists a1 s1 a2 s2 a3 s3, tspells a1 s1 /\ tspells a2 s2 /\ tspells a3 s3 /\ s2 <> [] /\ ss = s1 ++ s2 ++ s3 /\ file_name input /\ file_name output /\
  args = a1 ++ input :: a2 ++ output :: a3.
(** ** Results: exit code, files, standard output *)
(** no file is touched *)
Definition said (r : tends) (c : Z) (fs : filesys) (out : list Z) : Prop := exists e, r = Ends e /\ code e = c /\ stdout e = out /\ forall m, files e m = fs m.
(** the file [o] has the contents [out], the others are untouched *)
Definition wrote (r : tends) (c : Z) (fs : filesys) (o out : list Z) : Prop :=
  exists e, r = Ends e /\ code e = c /\ stdout e = [] /\ files e o = Some out /\ forall m, m <> o -> files e m = fs m.
Definition lines_text (l : list (list Z)) : list Z := flat_map (fun s => s ++ [10]) l.
(** exit code for an exception; computations outside the model have none *)
Definition code_for (x : option exn) (c : Z) : Prop :=
  match x with None => c = 0 | Some Unspecified | Some OutOfFuel => False | Some _ => c = 1 end.
(** Files the conversion handles (C29): float64 must hold the times of an a0 file and, streaming, those compared with a time filter; the words of an a2 file are all below 2^63 or none is; --inmemory
    needs an event in an a0 file and two in an a2 file. *)
Definition convertible (memory : bool) (f : filters) (fin : fmt) (vs : list Z) : Prop :=
  Forall TimestampsSpec.word_ok vs /\ filter_ok f /\ (timed f = true -> in_order vs) /\ (fin = A0 \/ (memory = false /\ timed f = true) -> Forall exact53 vs) /\
  match fin with
  | A0 => memory = true -> vs <> []
  | A1 _ => True
  | A2 => one_side vs /\ (memory = true -> (2 <= length vs)%nat)
  end.
(** a run converting the events [vs] of the file [i] into the file [o] *)
Definition converting (args : list (list Z)) (ss : list want) (i o : list Z) (fs : filesys) (fin fout : fmt) (f : filters) (memory : bool) (vs : list Z) : Prop :=
  command args ss i (Some o) /\ Forall tgood ss /\ ~ In WHelp ss /\ ~ In WPrint ss /\ wanted WMemory ss memory /\ input_format ss fin /\ output_format ss fout /\ filter_asked ss f /\
  i <> [] /\ o <> [] /\ fs i = Some (encode fin vs) /\ convertible memory f fin vs.
Definition C120_statement : Prop := forall lg p path args ss i fs fin fout f memory vs, 54 <= p -> converting args ss i i fs fin fout f memory vs ->
  wrote (trun lg p path args fs) 0 fs i (encode fout (map (converted f) (filter (kept f) vs))).
Definition C121_statement : Prop := forall lg p path args args' ss i o fs, between args ss i o -> command args' ss i (Some o) -> trun lg p path args fs = trun lg p path args' fs.
Definition filterless (ss : list want) : Prop := last_given asked_pattern ss = None /\ last_given tstart_of ss = None /\ last_given tend_of ss = None.
