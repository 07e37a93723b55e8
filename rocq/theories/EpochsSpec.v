(** Specification of the epoch file formats (filespec reference [1] of parse_epochs.py) and of epoch
    directories. *)
From Coq Require Import QArith Qabs.
From Verif Require Import Float Base TimestampsModel TimestampsSpec EpochsModel.
Local Open Scope Z_scope.

(** ** T1: events of 64 bits, high word first, ended by a zero event.  Times are in units of 4 ps from the
    start of the epoch, an epoch being 2^37 of them. *)
Definition lsb_time (e t : Z) : Z := (e mod 2 ^ 17) * 2 ^ 37 + t.
Definition full_time (e t : Z) : Z := (e mod 2 ^ 32) * 2 ^ 37 + t.
Definition t1_word (e : Z) (ev : event) : Z := lsb_time e (fst ev) * 2 ^ 10 + snd ev.
Definition t1_ok (e : Z) (ev : event) : Prop := 0 <= fst ev < 2 ^ 37 /\ 0 <= snd ev < 16.
Definition encode_t1 (v : Z) : list Z := le_enc 4 (v / 2 ^ 32) ++ le_enc 4 (v mod 2 ^ 32).
Definition t1_header (e n : Z) : list Z :=
  le_enc 4 257 ++ le_enc 4 (e mod 2 ^ 32) ++ le_enc 4 n ++ le_enc 4 49 ++ le_enc 4 4.
Definition t1_body (e : Z) (evs : list event) : list Z := concat (map (fun ev => encode_t1 (t1_word e ev)) evs).
Definition t1_file (e : Z) (evs : list event) : list Z :=
  t1_header e (len evs) ++ t1_body e evs ++ repeat 0 8.
(** a number of 4 ps units in whole units of [r] *)
Definition floor_units (r : TSRES) (t : Z) : Z := t * rvalue r / 256.
(** the [i]-th event word of any file body, absent bytes counting as zero *)
Definition byte_at (l : list Z) (i : Z) : Z := nth (Z.to_nat i) l 0.
Definition u32_at (l : list Z) (i : Z) : Z :=
  byte_at l i + 2 ^ 8 * byte_at l (i + 1) + 2 ^ 16 * byte_at l (i + 2) + 2 ^ 24 * byte_at l (i + 3).
Definition word_at (body : list Z) (i : Z) : Z := u32_at body (8 * i) * 2 ^ 32 + u32_at body (8 * i + 4).

(** [cut] bytes of the last event are left, the others are whole *)
Definition last_event (e : Z) (evs : list event) (cut : Z) : list Z :=
  take cut (encode_t1 (t1_word e (last evs (0, 0)))).

(** ** The bit stream of a T2 or T4 file: its little-endian 32-bit words, most significant bit first,
    continued by zeros after the end of the file *)
Definition bit_at (body : list Z) (i : Z) : bool := Z.testbit (u32_at body (4 * (i / 32))) (31 - i mod 32).
(** the [w] bits at position [p] as a number *)
Fixpoint field (body : list Z) (p : Z) (w : nat) : Z :=
  match w with
  | O => 0
  | S k => 2 * field body p k + Z.b2z (bit_at body (p + Z.of_nat k))
  end.
(** consecutive fields of the given widths *)
Fixpoint fields_at (body : list Z) (p : Z) (ws : list Z) : list Z :=
  match ws with
  | [] => []
  | w :: r => field body p (Z.to_nat w) :: fields_at body (p + w) r
  end.

(** Encoded entries: the difference in a field of timeorder bits, or a zero field followed by 32 bits. *)
Inductive entry : Type := Short (d b : Z) | Extended (d b : Z).
Definition e_diff (x : entry) : Z := match x with Short d _ | Extended d _ => d end.
Definition e_base (x : entry) : Z := match x with Short _ b | Extended _ b => b end.
Definition entry_ok (timeorder basebits : Z) (x : entry) : Prop :=
  0 <= e_base x < 2 ^ basebits /\
  match x with Short d _ => 2 <= d < 2 ^ timeorder | Extended d _ => 0 <= d < 2 ^ 32 end.
(** the [w] bits of [v], most significant first *)
Definition bits (w : Z) (v : Z) : list bool :=
  map (fun i => Z.testbit v (w - 1 - Z.of_nat i)) (seq 0 (Z.to_nat w)).
Definition entry_bits (timeorder basebits : Z) (x : entry) : list bool :=
  match x with
  | Short d b => bits timeorder d ++ bits basebits b
  | Extended d b => bits timeorder 0 ++ bits 32 d ++ bits basebits b
  end.
Definition entries_bits (timeorder basebits : Z) (xs : list entry) : list bool :=
  concat (map (entry_bits timeorder basebits) xs).
Definition terminator (timeorder basebits : Z) : list bool := bits timeorder 1 ++ bits basebits 0.
Definition starts_with (body : list Z) (l : list bool) : Prop :=
  forall i, 0 <= i < len l -> bit_at body i = nth (Z.to_nat i) l false.
(** sums start + d1, start + d1 + d2, ... *)
Fixpoint sums (start : Z) (ds : list Z) : list Z :=
  match ds with [] => [] | d :: r => start + d :: sums (start + d) r end.
Definition t2_header (tag e n timeorder basebits protocol : Z) : list Z :=
  le_enc 4 tag ++ le_enc 4 e ++ le_enc 4 n ++ le_enc 4 timeorder ++ le_enc 4 basebits ++ le_enc 4 protocol.
Definition t4_header (tag e n timeorder basebits : Z) : list Z :=
  le_enc 4 tag ++ le_enc 4 e ++ le_enc 4 n ++ le_enc 4 timeorder ++ le_enc 4 basebits.
(** a T2 file: header and entries; [n] is 0 or the number of entries *)
Definition t2_encodes (file : list Z) (e timeorder basebits : Z) (xs : list entry) : Prop :=
  exists tag n protocol body,
    file = t2_header tag e n timeorder basebits protocol ++ body /\ bytes_ok body /\
    (n = 0 \/ n = len xs /\ n < 2 ^ 32) /\ Forall (entry_ok timeorder basebits) xs /\
    starts_with body (entries_bits timeorder basebits xs ++ terminator timeorder basebits).
Definition t4_encodes (file : list Z) (timeorder basebits : Z) (xs : list entry) : Prop :=
  exists tag e n body,
    file = t4_header tag e n timeorder basebits ++ body /\ bytes_ok body /\
    (n = 0 \/ n = len xs /\ n < 2 ^ 32) /\ Forall (entry_ok timeorder basebits) xs /\
    starts_with body (entries_bits timeorder basebits xs ++ terminator timeorder basebits).
(** times of a T2 file in units of 125 ps *)
Definition t2_times (e : Z) (xs : list entry) : list Z := sums ((e mod 2 ^ 17) * 2 ^ 32) (map e_diff xs).
Definition t2_full_times (e : Z) (xs : list entry) : list Z := sums (e * 2 ^ 32) (map e_diff xs).

(** ** T3: one byte per entry, Alice's pattern in the high nibble; bytes are reversed within a word *)
Definition t3_entry (body : list Z) (i : Z) : Z := byte_at body (4 * (i / 4) + 3 - i mod 4).
Definition t3_entries (body : list Z) (n : Z) : list Z := map (fun i => t3_entry body (Z.of_nat i)) (seq 0 (Z.to_nat n)).
Definition alice (v : Z) : Z := v / 16.
Definition bob (v : Z) : Z := v mod 16.
Definition single (v : Z) : bool := existsb (Z.eqb v) [1; 2; 4; 8].
Definition cell (a b : Z) (vs : list Z) : Z :=
  count (fun v => (alice v =? 2 ^ a) && (bob v =? 2 ^ b)) vs.
Definition t3_header (tag e n bits : Z) : list Z := le_enc 4 tag ++ le_enc 4 e ++ le_enc 4 n ++ le_enc 4 bits.
(** entries with equal detectors (errors), with opposite ones (good) *)
Definition errors (vs : list Z) : Z := cell 0 0 vs + cell 1 1 vs + cell 2 2 vs + cell 3 3 vs.
Definition goods (vs : list Z) : Z := cell 0 2 vs + cell 1 3 vs + cell 2 0 vs + cell 3 1 vs.

(** what read_T3 reports for the [n] entries [vs]; qber is rounded to three decimals *)
Definition t3_report (n : Z) (body vs : list Z) (s : service) : Prop :=
  length (coinc s) = 16%nat /\
  (forall a b, 0 <= a < 4 -> 0 <= b < 4 -> nth (Z.to_nat (4 * a + b)) (coinc s) 0 = cell a b vs) /\
  okcount s = count (fun v => single (alice v) && single (bob v)) vs /\
  okcount s = fold_right Z.add 0 (coinc s) /\
  garbageA s = count (fun v => negb (single (alice v))) vs /\
  garbageB s = count (fun v => negb (single (bob v))) vs /\
  (errors vs + goods vs = 0 -> (qber s == 1 # 2)%Q) /\
  (errors vs + goods vs <> 0 -> (0 <= qber s <= 1)%Q /\
     (Qabs (qber s - inject_Z (errors vs) / inject_Z (errors vs + goods vs)) <= (1 # 2000) + pow2 (- 52))%Q) /\
  (size_warning s = true <-> n <> len body - (if len body =? 0 then 4 else count (Z.eqb 0) (drop (len body - 4) body))).

(** ** Directories *)
Definition names (d : directory) : list (list Z) := map fst d.
(** [d] has a file for epoch [v] *)
Definition has_epoch (d : directory) (v : Z) : Prop := exists s, In s (names d) /\ epoch2int s = Ok v.
Definition epoch_names (d : directory) : Prop := Forall (fun s => exists v, epoch2int s = Ok v) (names d).
(** the lower bound on epochs, if one is given *)
Definition from_first (f : option Z) (v : Z) : Prop := match f with None => True | Some f => f <= v end.
(** times, from the 17-bit epoch, of the events of the epochs from [f] on *)
Fixpoint run_times (f : Z) (epochs : list (list event)) : list Z :=
  match epochs with [] => [] | evs :: r => map (fun ev => lsb_time f (fst ev)) evs ++ run_times (f + 1) r end.
(** the number of the epoch containing second [s], an epoch being 2^32 times 125 ps *)
Definition epoch_of_second (s : Z) : Z := s * 8000000000 / 2 ^ 32.

(** successive calls of extract_bits on a file *)
Fixpoint extract_all (ws : list Z) (buffer size : Z) (f : option (list Z)) : pyres (list Z) :=
  match ws with
  | [] => Ok []
  | w :: r => let* (v, buffer, size, f) := extract_bits w buffer size f in
              let* vs := extract_all r buffer size f in Ok (v :: vs)
  end.
(** the stream holds, after some entries, the value 1 in a field of timeorder bits *)
Definition has_terminator (body : list Z) (timeorder basebits : Z) : Prop :=
  exists xs, Forall (entry_ok timeorder basebits) xs /\
    starts_with body (entries_bits timeorder basebits xs ++ bits timeorder 1).
