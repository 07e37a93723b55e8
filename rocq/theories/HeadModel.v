(** The four header readers of lib/parse_epochs.py together, with the texts of their warnings. *)
From Coq Require Import String.
From Verif Require Import Base TimestampsModel EpochsModel FpfindModel MiscModel ReportModel.
Local Open Scope Z_scope.

Inductive kind : Type := T1 | T2 | T3 | T4.
(** 58-100 *)
Definition read_header (k : kind) (name file : list Z) : pyres (head * list warning) :=
  match k with
  | T1 => read_T1_header name file
  | T2 => read_T2_header name file
  | T3 => read_T3_header name file
  | T4 => read_T4_header name file
  end.
(** the text given to logger.warning (64, 66, 75, 77, 86, 88, 97, 99); 64, of read_T1_header, says Type2 *)
Definition said_type (k : kind) : list Z := match k with T1 => text "2" | T2 => text "2" | T3 => text "3" | T4 => text "4" end.
Definition warning_text (k : kind) (name : list Z) (h : head) (w : warning) : list Z :=
  match w with
  | WrongTag => name ++ text " is not a Type" ++ said_type k ++ text " header file"
  | WrongName => text "Epoch in header " ++ dec (h_epoch h) ++ text " does not match epoc filename " ++ name
  end.
Definition header_messages (k : kind) (name file : list Z) : pyres (list (list Z)) :=
  let* (h, ws) := read_header k name file in Ok (map (warning_text k name h) ws).
