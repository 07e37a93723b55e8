(** Property theorems about the header readers. *)
From Coq Require Import String.
From Verif Require Import Base FreqcdExamples TimestampsModel EpochsModel ReportModel HeadModel HeadSpec HeadProofs.
Import ListNotations.
Local Open Scope Z_scope.

(** C180 *)
Theorem C180 : forall k name file, bytes_ok file ->
  (len file < 4 * size k -> read_header k name file = Err StructError) /\
  (4 * size k <= len file -> exists h (t n : bool), fields_of k h = expected_fields k file /\
     read_header k name file = Ok (h, (if t then [WrongTag] else []) ++ (if n then [WrongName] else [])) /\
     (t = true <-> ~ accepted k (h_tag h)) /\ (n = true <-> ~ called name (h_epoch h))).
Proof. exact c180. Qed.
Print Assumptions C180.
Definition file180 : list Z := [2; 0; 0; 0; 192; 54; 31; 186; 7; 0; 0; 0; 255; 255; 255; 255; 4; 0; 0; 0; 1; 0; 0; 0; 99].
Example C180_case : bytes_ok file180 /\ expected_fields T2 file180 = [2; 3122607808; 7; -1; 4; 1] /\ expected_fields T4 file180 = [2; 3122607808; 7; 4294967295; 4] /\
  accepted T2 2 /\ ~ accepted T4 2 /\ called (str "/a/b/ba1f36c0") 3122607808 /\ ~ called (str "/a/b/BA1F36C0") 3122607808 /\
  read_header T2 (str "/a/b/ba1f36c0") file180 = Ok (mkHead 2 3122607808 7 (-1) 4 1, []) /\
  read_header T4 (str "BA1F36C0") file180 = Ok (mkHead 2 3122607808 7 4294967295 4 0, [WrongTag; WrongName]) /\
  read_header T3 (str "ba1f36c0") (take 15 file180) = Err StructError.
Proof.
  split; [repeat constructor; vm_compute; (reflexivity || discriminate)|]. split; [vm_compute; reflexivity|]. split; [vm_compute; reflexivity|].
  split; [now right|]. split; [intros [H|H]; vm_compute in H; discriminate H|]. split; [right; exists (str "/a/b"); vm_compute; reflexivity|].
  split; [intros H; apply called_base in H; [vm_compute in H; discriminate H|vm_compute; discriminate]|]. split; [|split]; vm_compute; reflexivity.
Qed.

(** C181.  Full statement: [C181_statement].  It fails for type 1. *)
Theorem C181_refuted : ~ C181_statement.
Proof. exact c181_refuted. Qed.
Print Assumptions C181_refuted.
Theorem C181_partial : forall k name file h ws, k <> T1 -> read_header k name file = Ok (h, ws) ->
  exists ts, header_messages k name file = Ok ts /\ length ts = length ws /\ (In WrongTag ws -> exists t, In t ts /\ names_type k name t).
Proof. exact c181. Qed.
Print Assumptions C181_partial.
Example C181_case : header_messages T4 (str "BA1F36C0") file180 =
    Ok [str "BA1F36C0 is not a Type4 header file"; str "Epoch in header 3122607808 does not match epoc filename BA1F36C0"] /\
  header_messages T1 (str "0") wrong181 = Ok [str "0 is not a Type2 header file"].
Proof. split; vm_compute; reflexivity. Qed.
