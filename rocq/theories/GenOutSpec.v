(** -o of generate_freqcd_testcase when events are read. *)
From Verif Require Import Base TimestampsModel TimestampsSpec CdRunModel FpCliSpec CliSpec TsCliModel TsCliSpec GenCliModel GenCliSpec MiscSpec.
Import ListNotations.
Local Open Scope Z_scope.

(** C203: the times of the events on standard input are in the output file. *)
Definition C203_statement : Prop := forall p tmp args ss fs lg evs o, 54 <= p -> with_input args ss [45] -> Forall ggood ss -> ~ In GHelp ss -> last_given gtimes_of ss = None -> last_given gout_of ss = Some o ->
  gasked GLegacy ss lg -> fs tmp = None -> o <> tmp -> Forall event_ok evs -> exists out, numbers (map fst evs) out /\ wrote (grun p tmp args fs (encode (A1 lg) (map word_of evs))) 0 fs o out.
