(** Specification of the timestamp file formats, the filters and the statistics. *)
From Coq Require Import QArith Sorted.
From Verif Require Import Float Base TimestampsModel.
Local Open Scope Z_scope.

(** ** Events.  A file is a list of 64-bit words: 54 bits of time in 4 ps units, 10 flag bits of which
    the low 4 are the detector pattern. *)
Definition word_ok (v : Z) : Prop := 0 <= v < 2 ^ 64.
Definition time_of (v : Z) : Z := v / 2 ^ 10.
Definition pattern_of (v : Z) : Z := v mod 2 ^ 4.
Notation event := (Z * Z)%type.                      (* time, pattern *)
Definition event_ok (e : event) : Prop := 0 <= fst e < 2 ^ 54 /\ 0 <= snd e < 16.
Definition word_of (e : event) : Z := fst e * 2 ^ 10 + snd e.
(** a time in units of 4 ps expressed in units of [r] *)
Definition in_units (r : TSRES) (t : Z) : Q := (inject_Z (t * rvalue r) / inject_Z 256)%Q.
(** equal arrays of numbers *)
Definition same_values (a b : list Q) : Prop := Forall2 Qeq a b.
Definition times_in (r : TSRES) (evs : list event) : list Q := map (fun e => in_units r (fst e)) evs.

(** ** File formats *)
Definition hexchar (d : Z) : Z := if d <? 10 then 48 + d else 97 + (d - 10).
(** the [w] hexadecimal digits of [v], most significant first *)
Definition hex (w : nat) (v : Z) : list Z :=
  map (fun i => hexchar (v / 16 ^ (Z.of_nat w - 1 - Z.of_nat i) mod 16)) (seq 0 w).
Definition high (v : Z) : Z := v / 2 ^ 32.
Definition low (v : Z) : Z := v mod 2 ^ 32.
Definition encode1 (f : fmt) (v : Z) : list Z :=
  match f with
  | A0 => hex 8 (low v) ++ [10] ++ hex 8 (high v) ++ [10]
  | A1 false => le_enc 4 (low v) ++ le_enc 4 (high v)
  | A1 true => le_enc 4 (high v) ++ le_enc 4 (low v)
  | A2 => hex 16 v ++ [10]
  end.
Definition encode (f : fmt) (vs : list Z) : list Z := concat (map (encode1 f) vs).

(** Which word lists the text readers can hold in one integer array: below 2^63 or all from 2^63
    (numpy turns a mixture into floats). *)
Definition one_side (vs : list Z) : Prop := Forall (fun v => v < 2 ^ 63) vs \/ Forall (fun v => 2 ^ 63 <= v) vs.

(** ** Pattern filter on 4-bit patterns *)
Definition bits4 : list Z := [0; 1; 2; 3].
Definition shares_bit (a b : Z) : bool := existsb (fun i => Z.testbit a i && Z.testbit b i) bits4.
Definition bit_outside (a b : Z) : bool := existsb (fun i => Z.testbit a i && negb (Z.testbit b i)) bits4.
(** [sum of the bits i of a such that P i] *)
Definition bits_where (P : Z -> bool) : Z := fold_right (fun i n => (if P i then 2 ^ i else 0) + n) 0 bits4.
Definition keeps (pattern : Z) (mask invert : bool) (v : Z) : bool :=
  match mask, invert with
  | false, false => v =? pattern
  | false, true => negb (v =? pattern)
  | true, false => shares_bit v pattern
  | true, true => bit_outside v pattern || (v =? 0)
  end.
Definition becomes (pattern : Z) (mask invert : bool) (v : Z) : Z :=
  match mask, invert with
  | false, _ => v
  | true, false => bits_where (fun i => Z.testbit v i && Z.testbit pattern i)
  | true, true => bits_where (fun i => Z.testbit v i && negb (Z.testbit pattern i))
  end.

(** ** Time filter *)
Definition within (lo hi : option Q) (x : Q) : bool :=
  (match lo with None => true | Some a => Qle_bool a x end) &&
  (match hi with None => true | Some b => Qle_bool x b end).
Definition sortedQ (l : list Q) : Prop := StronglySorted Qle l.

(** ** Filters of the command line, on events *)
(** seconds to units of [r], in float64 arithmetic *)
Definition bounds (r : TSRES) (o : option Q) : option Q :=
  option_map (fun x => fl 53 (x * inject_Z (10 ^ 9 * rvalue r))%Q) o.
Definition passes (f : filters) (r : TSRES) (x : Q) (v : Z) : bool :=
  (match f_pattern f with None => true | Some pt => keeps pt (f_mask f) (f_invert f) v end)
  && within (bounds r (f_start f)) (bounds r (f_end f)) x.
Definition new_pattern (f : filters) (v : Z) : Z :=
  match f_pattern f with None => v | Some pt => becomes pt (f_mask f) (f_invert f) v end.

(** [joined ts t]: the batches [ts], all of one dtype, concatenate to [t]. *)
Inductive joined : list tarr -> tarr -> Prop :=
| join_u64 ls : joined (map TU64 ls) (TU64 (concat ls))
| join_f64 ls : joined (map TF64 ls) (TF64 (concat ls))
| join_ld ls : joined (map TLD ls) (TLD (concat ls)).
(** a batch has one pattern per timestamp *)
Definition batch_ok (b : tarr * list Z) : Prop := tlen (fst b) = len (snd b).
(** what the filter options must satisfy: a 4-bit mask *)
Definition filter_ok (f : filters) : Prop :=
  match f_pattern f with Some pt => f_mask f = true -> 0 <= pt < 16 | None => True end.
Definition timed (f : filters) : bool := match f_start f, f_end f with None, None => false | _, _ => true end.
Definition pattern_ok (v : Z) : Prop := 0 <= v < 16.

(** ** Statistics *)
Definition how_many {A} (P : A -> bool) (l : list A) : Z := len (filter P l).
Definition popcount (v : Z) : Z := how_many (Z.testbit v) bits4.
(** the patterns that occur, in increasing order *)
Definition lists_patterns (l pats : list Z) : Prop :=
  StronglySorted Z.lt l /\ forall v, In v l <-> In v pats.
Definition counts_right (s : stats) (pats : list Z) : Prop :=
  num_events s = len pats /\
  ch1 s = how_many (fun v => Z.testbit v 0) pats /\ ch2 s = how_many (fun v => Z.testbit v 1) pats /\
  ch3 s = how_many (fun v => Z.testbit v 2) pats /\ ch4 s = how_many (fun v => Z.testbit v 3) pats /\
  multi s = how_many (fun v => 2 <=? popcount v) pats /\ none s = how_many (fun v => popcount v =? 0) pats /\
  lists_patterns (patterns s) pats.

(** ** Conversion *)
(** the event a word holds, after the pattern filter *)
Definition converted (f : filters) (v : Z) : Z := word_of (time_of v, new_pattern f (pattern_of v)).
Definition kept (f : filters) (v : Z) : bool := passes f PS4 (inject_Z (time_of v)) (pattern_of v).
(** float64 holds the time *)
Definition exact53 (v : Z) : Prop := (fl 53 (inject_Z (time_of v)) == inject_Z (time_of v))%Q.
Definition in_order (vs : list Z) : Prop := StronglySorted (fun a b => time_of a <= time_of b) vs.
