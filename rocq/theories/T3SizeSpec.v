(** The entries of a T3 file and its padding (docs/filespec: bytes reversed within words of four, zeros at the end). *)
From Verif Require Import Base TimestampsModel EpochsModel TimestampsSpec EpochsSpec.
Local Open Scope Z_scope.

(** [body] holds the entries [vs], padded with zeros to the next whole word *)
Definition holds_entries (body vs : list Z) : Prop :=
  len body mod 4 = 0 /\ len vs <= len body < len vs + 4 /\
  (forall i, 0 <= i < len vs -> t3_entry body i = byte_at vs i) /\
  (forall i, len vs <= i < len body -> t3_entry body i = 0).
(** the last word has an entry without a detector on either side *)
Definition zero_in_last (vs : list Z) : Prop := exists i, 4 * ((len vs - 1) / 4) <= i < len vs /\ 0 <= i /\ byte_at vs i = 0.

(** C182: a well-formed file gives no size error *)
Definition C182_statement : Prop := forall tag e b body vs, bytes_ok body -> holds_entries body vs -> len vs < 2 ^ 32 ->
  exists h s, read_T3 (t3_header tag e (len vs) b ++ body) = Ok (h, s) /\ size_warning s = false.
