(** Specification of the command line of generate_freqcd_testcase, independent of argparse and of the model. *)
From Coq Require Import QArith String.
From Verif Require Import Base TimestampsModel TimestampsSpec FpfindSpec CdRunModel TsCliModel FpCliSpec CliSpec TsCliSpec GenCliModel.
Import ListNotations. Local Open Scope string_scope. Local Open Scope list_scope. Local Open Scope Z_scope.

(** What a user can ask for: help, the legacy order of words, an output file, the times to be written. *)
Inductive gask : Type := GHelp | GLegacy | GOut (t : list Z) | GTimes (ts : list (list Z)).
Definition gletter (a : gask) : option Z := match a with GHelp => Some 104 | GLegacy => Some 120 | GOut _ => Some 111 | GTimes _ => None end.    (* h x o *)
Definition gword (a : gask) : option (list Z) := match a with GHelp => Some (codes "--help") | _ => None end.
Definition gargument (a : gask) : option (list Z) := match a with GOut t => Some t | _ => None end.
Definition gwords : list (list Z) := [codes "--help"].
(** all but the times *)
Definition gspells : list (list Z) -> list gask -> Prop := spells gletter gword gargument gwords.
(** -t, possibly after other letters, and then one word or more, or one time in the same word, or one time after "=" *)
Inductive gcommand : list (list Z) -> list gask -> Prop :=
| G_end : gcommand [] []
| G_more a s args ss : gspells a s -> gcommand args ss -> gcommand (a ++ args) (s ++ ss)
| G_times fs cs ts args ss : Forall2 (switch gletter gargument) fs cs -> ts <> [] -> Forall (fun t => own_word t /\ ascii_text t) ts -> gcommand args ss ->
    gcommand ((45 :: cs ++ [116]) :: ts ++ args) (fs ++ GTimes ts :: ss)
| G_time fs cs t args ss : Forall2 (switch gletter gargument) fs cs -> same_word t -> ascii_text t -> gcommand args ss ->
    gcommand ((45 :: cs ++ 116 :: t) :: args) (fs ++ GTimes [t] :: ss)
| G_time_equals t args ss : ascii_text t -> gcommand args ss -> gcommand ((45 :: 116 :: 61 :: t) :: args) (GTimes [t] :: ss).
(** with the name of an input file; after -t it would be one of the times *)
Definition with_input (args : list (list Z)) (ss : list gask) (input : list Z) : Prop :=
  exists a1 s1 a2 s2, gspells a1 s1 /\ gcommand a2 s2 /\ ss = s1 ++ s2 /\ own_word input /\ ascii_text input /\ args = a1 ++ input :: a2.
Definition ggood (a : gask) : Prop := match a with GTimes ts => Forall (fun t => exists z, whole t z) ts | GOut t => t <> [] | _ => True end.
Definition gout_of s := match s with GOut t => Some t | _ => None end.
Definition gtimes_of s := match s with GTimes ts => Some ts | _ => None end.
Definition gasked (a : gask) (ss : list gask) (b : bool) : Prop := b = true <-> In a ss.
(** [bytes] go to the output file, or to standard output after [before] *)
Definition delivers (r : tends) (c : Z) (fs : filesys) (o : option (list Z)) (before bytes : list Z) : Prop :=
  match o with
  | Some name => exists e, r = Ends e /\ code e = c /\ stdout e = before /\ files e name = Some bytes /\ forall m, m <> name -> files e m = fs m
  | None => said r c fs (before ++ bytes)
  end.
(** events of detector 1 at the times [zs] *)
Definition events_at (lg : bool) (zs : list Z) : list Z := encode (A1 lg) (map (fun t => word_of (t mod 2 ^ 54, 1)) zs).
(** decimal numbers, one to a line *)
Definition numbers (zs out : list Z) : Prop := exists lines, Forall2 FpfindSpec.decimal lines zs /\ out = lines_text lines.
(** lines typed in: [zs] are the numbers among them, the others have no digit *)
Inductive typed : list (list Z) -> list Z -> Prop :=
| typed_end : typed [] []
| typed_number l z ls zs : whole l z -> 0 <= z -> typed ls zs -> typed (l :: ls) (z :: zs)
| typed_other l ls zs : Forall (fun c => ~ is_digit c /\ c <> 10 /\ c <> 13 /\ 0 <= c < 128) l -> typed ls zs -> typed (l :: ls) zs.
Definition greeting : list Z := lines_text [codes "Enter timestamps in decimal separated by newlines."; codes "Press Ctrl-C to stop input."].
(** C130: with -t the events asked for are delivered, in the legacy order with -x. *)
Definition C130_statement : Prop := forall p tmp args ss fs stdin ws zs lg, gcommand args ss -> Forall ggood ss -> ~ In GHelp ss -> last_given gtimes_of ss = Some ws -> Forall2 whole ws zs ->
  Forall (fun t => 0 <= t) zs -> gasked GLegacy ss lg -> delivers (grun p tmp args fs stdin) 0 fs (last_given gout_of ss) [] (events_at lg zs).
(** C132: the fourth example in the header of the script, both lines *)
Definition C132_statement : Prop := forall p tmp fs evs, 54 <= p -> Forall event_ok evs -> fs tmp = None -> let X := encode (A1 false) (map word_of evs) in fs (codes ".input") = Some X ->
  exists out, numbers (map fst evs) out /\ said (grun p tmp [] fs X) 0 fs out /\ said (grun p tmp [codes ".input"] fs []) 0 fs out.
