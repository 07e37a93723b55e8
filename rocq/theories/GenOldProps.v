(** Events written by generate_freqcd_testcase -x and converted by parse_timestamps -X: C206. *)
From Coq Require Import QArith String List Lia.
From Verif Require Import Float Base FreqcdExamples TimestampsModel TimestampsSpec FpCliSpec CliSpec CdRunModel TsCliModel TsCliSpec TsCliCase GenCliModel GenCliSpec GenCliCase GenRefuseSpec AnyTimeSpec GenBackSpec GenOldSpec GenOldProofs.
Import ListNotations. Local Open Scope string_scope. Local Open Scope list_scope. Local Open Scope Z_scope.

(** C206.  Full statement: [C206_statement].  False with -x and -X. *)
Theorem C206_refuted : ~ C206_statement.
Proof. exact c206_refuted. Qed.
Print Assumptions C206_refuted.
(** True without -X, whether or not the generator has -x.  Missing: -X. *)
Theorem C206_partial : forall lg p path tmp args1 ss1 fs in1 zs a args2 ss2 b fout memory, 54 <= p -> generating_to args1 ss1 zs a -> plainly args2 ss2 a b (A1 false) fout memory ->
  chained lg p path tmp args1 fs in1 args2 b (encode fout (map (fun t => word_of (t mod 2 ^ 54, 1)) zs)).
Proof. exact c206_partial. Qed.
Print Assumptions C206_partial.
(** With -X: other times and patterns. *)
Theorem C206_actual : forall lg p path tmp args1 ss1 fs in1 zs a args2 ss2 b fout memory, 54 <= p -> generating_to args1 ss1 zs a -> plainly args2 ss2 a b (A1 true) fout memory ->
  chained lg p path tmp args1 fs in1 args2 b (encode fout (map (fun t => word_of (misread t, mispattern t)) zs)).
Proof. exact c206_actual. Qed.
Print Assumptions C206_actual.
(** generate_freqcd_testcase -x -o a -t 1 1_000, then parse_timestamps -XA1 a b *)
Example C206_actual_case : generating_to args206 ss206 [1; 1000] (str "a") /\ plainly (map str ["-XA1"; "a"; "b"]) [WLegacyIn; WFrom (str "1")] (str "a") (str "b") (A1 true) (A1 false) false /\
  map (fun t => (misread t, mispattern t)) [1; 1000] = [(4299161600, 0); (4294971490304, 0)] /\
  match grun 64 tmpname args206 none_fs [] with
  | Ends e => match trun (fun _ => 0) 64 (fun n => n) (map str ["-XA1"; "a"; "b"]) (files e) with
              | Ends e2 => files e2 (str "b") = Some (encode (A1 false) (map word_of [(4299161600, 0); (4294971490304, 0)]))
              | _ => False
              end
  | _ => False
  end.
Proof. split; [exact generating206|]. split; [exact plainly206|]. split; vm_compute; reflexivity. Qed.
(** the same without -X *)
Example C206_partial_case : plainly (map str ["-A1"; "-a2"; "a"; "b"]) [WFrom (str "1"); WTo (str "2")] (str "a") (str "b") (A1 false) A2 false /\
  match grun 64 tmpname args206 none_fs [] with
  | Ends e => match trun (fun _ => 0) 64 (fun n => n) (map str ["-A1"; "-a2"; "a"; "b"]) (files e) with
              | Ends e2 => files e2 (str "b") = Some (encode A2 (map word_of [(1, 1); (1000, 1)]))
              | _ => False
              end
  | _ => False
  end.
Proof.
  split; [|vm_compute; reflexivity]. destruct converting_there as (A & B & C & D & E & F & G & H & _ & K & _). split; [exact A|]. split; [exact B|]. split; [exact C|]. split; [exact D|]. split; [exact E|]. split; [exact F|]. split; [exact G|].
  split; [repeat split|]. split; [eexists; exact H|]. split; [exact K|right; discriminate].
Qed.
