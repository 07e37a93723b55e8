(** Events written by generate_freqcd_testcase -x, converted by parse_timestamps -X. *)
From Verif Require Import Base TimestampsModel TimestampsSpec CdRunModel FpCliSpec CliSpec TsCliModel TsCliSpec GenCliModel GenCliSpec GenRefuseSpec AnyTimeSpec GenBackSpec.
Import ListNotations.
Local Open Scope Z_scope.

(** [generate_freqcd_testcase [-x] -o a -t WORDS] *)
Definition generating_to (args : list (list Z)) (ss : list gask) (zs a : list Z) : Prop :=
  gcommand args ss /\ Forall fine ss /\ ~ In GHelp ss /\ out_chosen ss = Some a /\ Forall (fun t => 0 <= t) zs /\ exists ws, last_given gtimes_of ss = Some ws /\ Forall2 int_word ws zs.
(** [parse_timestamps a b] with formats [fin] and [fout], and no filter *)
Definition plainly (args : list (list Z)) (ss : list want) (a b : list Z) (fin fout : fmt) (memory : bool) : Prop :=
  command args ss a (Some b) /\ Forall tgood ss /\ ~ In WHelp ss /\ ~ In WPrint ss /\ wanted WMemory ss memory /\ input_format ss fin /\ output_format ss fout /\ filterless ss /\ (exists f, filter_asked ss f) /\ b <> [] /\ (memory = true \/ b <> a).
(** the first program writes a file, and the second makes [b] of what is there then *)
Definition chained (lg : Z -> Z) (p : Z) (path : list Z -> list Z) (tmp : list Z) (args1 : list (list Z)) (fs : filesys) (in1 : list Z) (args2 : list (list Z)) (b out : list Z) : Prop :=
  exists e, grun p tmp args1 fs in1 = Ends e /\ code e = 0 /\ wrote (trun lg p path args2 (files e)) 0 (files e) b out.
(** C206: with -x and -X, or with neither, every time is converted with pattern 1. *)
Definition C206_statement : Prop := forall lg p path tmp args1 ss1 fs in1 zs a args2 ss2 b fout memory old, 54 <= p ->
  generating_to args1 ss1 zs a -> gasked GLegacy ss1 old -> plainly args2 ss2 a b (A1 old) fout memory ->
  chained lg p path tmp args1 fs in1 args2 b (encode fout (map (fun t => word_of (t mod 2 ^ 54, 1)) zs)).
(** The lower four bits of the word of 64 bits [1024 t + 1] after its halves have been exchanged. *)
Definition mispattern (t : Z) : Z := (t mod 2 ^ 54) / 2 ^ 22 mod 16.
