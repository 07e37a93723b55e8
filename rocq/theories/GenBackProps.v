(** generate_freqcd_testcase reading what it has written: C205. *)
From Coq Require Import QArith String List Lia.
From Verif Require Import Float Base TimestampsModel FpCliSpec CliSpec CdRunModel TsCliModel TsCliSpec GenCliModel GenCliSpec GenCliCase GenRefuseSpec GenRefuseProofs AnyTimeSpec AnyTimeProofs GenBackSpec GenBackProofs.
Import ListNotations. Local Open Scope string_scope. Local Open Scope list_scope. Local Open Scope Z_scope.

(** C205.  Full statement: [C205_statement].  False with -x, which has no effect on writing. *)
Theorem C205_refuted : ~ C205_statement.
Proof. exact c205_refuted. Qed.
Print Assumptions C205_refuted.
(** True when the reader is called without -x, whether or not the writer is.  Missing: readers with -x. *)
Theorem C205_partial : forall p tmp1 args1 ss1 fs1 in1 zs tmp2 args2 ss2 fs2, 54 <= p -> generating args1 ss1 zs -> reading args2 ss2 -> ~ In GLegacy ss2 -> fs2 tmp2 = None ->
  exists out, numbers (map (fun t => t mod 2 ^ 54) zs) out /\ piped p tmp1 args1 fs1 in1 tmp2 args2 fs2 out.
Proof. exact c205_partial. Qed.
Print Assumptions C205_partial.
(** With -x the reader prints times with the halves of the words exchanged. *)
Theorem C205_actual : forall p tmp1 args1 ss1 fs1 in1 zs tmp2 args2 ss2 fs2, 54 <= p -> generating args1 ss1 zs -> reading args2 ss2 -> In GLegacy ss2 -> fs2 tmp2 = None ->
  exists out, numbers (map misread zs) out /\ piped p tmp1 args1 fs1 in1 tmp2 args2 fs2 out.
Proof. exact c205_actual. Qed.
Print Assumptions C205_actual.
(** The times which are right all the same. *)
Theorem C205_only : forall t, 0 <= t < 2 ^ 54 -> (misread t = t <-> exists k, 0 <= k < 2 ^ 22 /\ t = k * (2 ^ 32 + 1) + 2 ^ 22).
Proof. exact c205_only. Qed.
Print Assumptions C205_only.
(** -x -t 1 1_000 *)
Example C205_actual_case : generating [codes "-x"; codes "-t"; codes "1"; codes "1_000"] [GLegacy; GTimes [codes "1"; codes "1_000"]] [1; 1000] /\ reading [codes "-x"; codes "-"] [GLegacy] /\
  map misread [1; 1000] = [4299161600; 4294971490304] /\
  match grun 64 tmpname [codes "-x"; codes "-t"; codes "1"; codes "1_000"] none_fs [] with
  | Ends e => shown (grun 64 tmpname [codes "-x"; codes "-"] none_fs (CdRunModel.stdout e)) = Some (0, lines_text (map codes ["4299161600"; "4294971490304"]))
  | _ => False
  end.
Proof. split; [exact generating205|]. split; [exact reading205|]. split; vm_compute; reflexivity. Qed.
(** -x -t 1 1_000 read without -x *)
Example C205_partial_case : reading [codes "-"] [] /\
  match grun 64 tmpname [codes "-x"; codes "-t"; codes "1"; codes "1_000"] none_fs [] with
  | Ends e => shown (grun 64 tmpname [codes "-"] none_fs (CdRunModel.stdout e)) = Some (0, lines_text (map codes ["1"; "1000"]))
  | _ => False
  end.
Proof.
  split; [|vm_compute; reflexivity]. split; [apply (input_alone [45]); [right; now left|repeat constructor; cbn; lia]|]. split; [constructor|]. split; [intros []|]. split; reflexivity.
Qed.
Example C205_only_case : misread (2 ^ 22) = 2 ^ 22 /\ misread (2 ^ 32 + 1 + 2 ^ 22) = 2 ^ 32 + 1 + 2 ^ 22 /\ misread 0 = 2 ^ 22.
Proof. vm_compute. repeat split. Qed.
