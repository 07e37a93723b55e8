(** Times typed into generate_freqcd_testcase, and read by it again. *)
From Verif Require Import Base TimestampsModel TimestampsSpec CdRunModel FpCliSpec CliSpec TsCliModel TsCliSpec GenCliModel GenCliSpec GenRefuseSpec AnyTimeSpec TypedSpec GenBackSpec.
Import ListNotations.
Local Open Scope Z_scope.

(** [generate_freqcd_testcase] with neither times nor an input, and the text [s] with the times [zs] typed in *)
Definition typing (args : list (list Z)) (ss : list gask) (s zs : list Z) : Prop :=
  gcommand args ss /\ args <> [] /\ Forall ggood ss /\ ~ In GHelp ss /\ last_given gtimes_of ss = None /\ plain_text s /\ exists ls, has_lines s ls /\ entered ls zs.
(** C208: what is typed comes back through a pipe.  (The first program ends with exit code 1, by the end of its input: C200.) *)
Definition C208_statement : Prop := forall p tmp1 args1 ss1 fs1 s zs tmp2 args2 ss2 fs2, 54 <= p -> typing args1 ss1 s zs -> last_given gout_of ss1 = None -> reading args2 ss2 -> ~ In GLegacy ss2 -> fs2 tmp2 = None ->
  exists e out, grun p tmp1 args1 fs1 s = Ends e /\ numbers (map (fun t => t mod 2 ^ 54) zs) out /\ said (grun p tmp2 args2 fs2 (CdRunModel.stdout e)) 0 fs2 out.
