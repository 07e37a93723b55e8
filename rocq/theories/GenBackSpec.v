(** generate_freqcd_testcase reading the events it has written. *)
From Verif Require Import Base TimestampsModel TimestampsSpec CdRunModel FpCliSpec CliSpec TsCliModel TsCliSpec GenCliModel GenCliSpec GenRefuseSpec AnyTimeSpec.
Import ListNotations.
Local Open Scope Z_scope.

(** [generate_freqcd_testcase [-x] -t WORDS], for whole numbers [zs] from 0 on *)
Definition generating (args : list (list Z)) (ss : list gask) (zs : list Z) : Prop :=
  gcommand args ss /\ Forall fine ss /\ ~ In GHelp ss /\ out_chosen ss = None /\ Forall (fun t => 0 <= t) zs /\ exists ws, last_given gtimes_of ss = Some ws /\ Forall2 int_word ws zs.
(** [generate_freqcd_testcase [-x] -] *)
Definition reading (args : list (list Z)) (ss : list gask) : Prop :=
  with_input args ss [45] /\ Forall ggood ss /\ ~ In GHelp ss /\ last_given gtimes_of ss = None /\ last_given gout_of ss = None.
(** the standard output of the first program is the standard input of the second, which prints [out] *)
Definition piped (p : Z) (tmp1 : list Z) (args1 : list (list Z)) (fs1 : filesys) (in1 tmp2 : list Z) (args2 : list (list Z)) (fs2 : filesys) (out : list Z) : Prop :=
  exists bytes, said (grun p tmp1 args1 fs1 in1) 0 fs1 bytes /\ said (grun p tmp2 args2 fs2 bytes) 0 fs2 out.
(** C205: with -x in both commands or in none, the times come back. *)
Definition C205_statement : Prop := forall p tmp1 args1 ss1 fs1 in1 zs tmp2 args2 ss2 fs2 lg, 54 <= p -> generating args1 ss1 zs -> gasked GLegacy ss1 lg -> reading args2 ss2 -> gasked GLegacy ss2 lg -> fs2 tmp2 = None ->
  exists out, numbers (map (fun t => t mod 2 ^ 54) zs) out /\ piped p tmp1 args1 fs1 in1 tmp2 args2 fs2 out.
(** The upper 54 bits of the word of 64 bits [1024 t + 1] after its halves have been exchanged. *)
Definition misread (t : Z) : Z := ((1024 * (t mod 2 ^ 54) + 1) mod 2 ^ 32) * 2 ^ 22 + (t mod 2 ^ 54) / 2 ^ 32.
