(** What the header readers are to return and to warn about. *)
From Coq Require Import String.
From Verif Require Import Base TimestampsModel EpochsModel MiscModel ReportModel HeadModel.
Local Open Scope Z_scope.

Definition number (k : kind) : Z := match k with T1 => 1 | T2 => 2 | T3 => 3 | T4 => 4 end.
(** 32-bit words in a header *)
Definition size (k : kind) : Z := match k with T1 => 5 | T2 => 6 | T3 => 4 | T4 => 5 end.
(** the [i]-th word of the file, least significant byte first *)
Definition word32 (file : list Z) (i : Z) : Z :=
  let b j := nth (Z.to_nat (4 * i + j)) file 0 in b 0 + 256 * b 1 + 65536 * b 2 + 16777216 * b 3.
Definition signed32 (v : Z) : Z := if v <? 2 ^ 31 then v else v - 2 ^ 32.
(** epoch and length are unsigned; the others signed, but not in type 4 *)
Definition field (k : kind) (file : list Z) (i : Z) : Z :=
  match k with
  | T4 => word32 file i
  | _ => if (i =? 1) || (i =? 2) then word32 file i else signed32 (word32 file i)
  end.
Definition fields_of (k : kind) (h : head) : list Z :=
  match k with
  | T1 | T4 => [h_tag h; h_epoch h; h_length h; h_timeorder h; h_basebits h]
  | T2 => [h_tag h; h_epoch h; h_length h; h_timeorder h; h_basebits h; h_protocol h]
  | T3 => [h_tag h; h_epoch h; h_length h; h_timeorder h]
  end.
Definition expected_fields (k : kind) (file : list Z) : list Z := map (fun i => field k file (Z.of_nat i)) (seq 0 (Z.to_nat (size k))).
Definition accepted (k : kind) (tag : Z) : Prop := tag = 256 + number k \/ tag = number k.
(** the file is called after the epoch, in any directory *)
Definition called (name : list Z) (e : Z) : Prop := name = int2epoch e \/ exists dir, name = dir ++ 47 :: int2epoch e.
(** C181: the warning about a tag names the type read *)
Definition names_type (k : kind) (name t : list Z) : Prop :=
  t = name ++ text " is not a Type" ++ [48 + number k] ++ text " header file".
Definition C181_statement : Prop := forall k name file h ws, read_header k name file = Ok (h, ws) -> In WrongTag ws ->
  exists ts t, header_messages k name file = Ok ts /\ In t ts /\ names_type k name t.
