(** Times typed into generate_freqcd_testcase and piped on: C208. *)
From Coq Require Import QArith String List Lia.
From Verif Require Import Float Base TimestampsModel FpCliSpec CliSpec CdRunModel TsCliModel TsCliSpec GenCliModel GenCliSpec GenCliCase GenRefuseSpec AnyTimeSpec TypedSpec GenBackSpec GenPipeSpec GenPipeProofs.
Import ListNotations. Local Open Scope string_scope. Local Open Scope list_scope. Local Open Scope Z_scope.

(** C208.  Full statement: [C208_statement].  The two lines shown at the start, 79 bytes, are part of standard output. *)
Theorem C208_refuted : ~ C208_statement.
Proof. exact c208_refuted. Qed.
Print Assumptions C208_refuted.
(** Whatever is typed and however the reader is called: exit code 1, nothing printed. *)
Theorem C208_actual : forall p tmp1 args1 ss1 fs1 s zs tmp2 args2 ss2 fs2, typing args1 ss1 s zs -> last_given gout_of ss1 = None -> reading args2 ss2 -> fs2 tmp2 = None ->
  exists e, grun p tmp1 args1 fs1 s = Ends e /\ said (grun p tmp2 args2 fs2 (CdRunModel.stdout e)) 1 fs2 [].
Proof. exact c208_actual. Qed.
Print Assumptions C208_actual.
(** Through a file after -o the times come back. *)
Theorem C208_file : forall p tmp1 args1 ss1 fs1 s zs a tmp2 args2 ss2 fs2, 54 <= p -> typing args1 ss1 s zs -> last_given gout_of ss1 = Some a -> reading args2 ss2 -> ~ In GLegacy ss2 -> fs2 tmp2 = None ->
  exists e X out, grun p tmp1 args1 fs1 s = Ends e /\ files e a = Some X /\ numbers (map (fun t => t mod 2 ^ 54) zs) out /\ said (grun p tmp2 args2 fs2 X) 0 fs2 out.
Proof. exact c208_file. Qed.
Print Assumptions C208_file.
(** 5 typed into generate_freqcd_testcase -x *)
Example C208_case : typing [codes "-x"] [GLegacy] (codes "5" ++ [10]) [5] /\ reading [[45]] [] /\
  match grun 64 tmpname [codes "-x"] none_fs (codes "5" ++ [10]) with
  | Ends e => shown (grun 64 tmpname [[45]] none_fs (CdRunModel.stdout e))
  | _ => None
  end = Some (1, []).
Proof. split; [exact typing208|]. split; [exact reading208|]. vm_compute. reflexivity. Qed.
(** 5 typed into generate_freqcd_testcase -o a *)
Example C208_file_case : typing ([codes "-o"; codes "a"] ++ []) ([GOut (codes "a")] ++ []) (codes "5" ++ [10]) [5] /\
  match grun 64 tmpname ([codes "-o"; codes "a"] ++ []) none_fs (codes "5" ++ [10]) with
  | Ends e => match files e (codes "a") with Some X => shown (grun 64 tmpname [[45]] none_fs X) | None => None end
  | _ => None
  end = Some (0, lines_text [codes "5"]).
Proof. split; [exact typing208_file|]. vm_compute. reflexivity. Qed.
