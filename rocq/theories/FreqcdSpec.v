(** Specification vocabulary for freqcd.  Nothing here refers to the model of the code. *)
From Verif Require Import Base.

(** ** Events *)
(** The complete 8-byte groups of a byte string, and the 0-7 bytes after them. *)
Fixpoint groups (l : list Z) : list (list Z) :=
  match l with
  | a :: b :: c :: d :: e :: f :: g :: h :: r => [a; b; c; d; e; f; g; h] :: groups r
  | _ => []
  end.
Fixpoint leftover (l : list Z) : list Z :=
  match l with
  | _ :: _ :: _ :: _ :: _ :: _ :: _ :: _ :: r => leftover r
  | _ => l
  end.
(** The events completed by each chunk, when chunks arrive one after the other. *)
Fixpoint batches (pending : list Z) (chunks : list (list Z)) : list (list (list Z)) :=
  match chunks with
  | [] => []
  | c :: r => groups (pending ++ c) :: batches (leftover (pending ++ c)) r
  end.

(** An event is a 64-bit number (with its two 32-bit words exchanged in legacy mode):
    54 bits of time followed by 10 bits of flags. *)
Definition swap_words (ev : list Z) : list Z := drop 4 ev ++ take 4 ev.
Definition ev_value (legacy : bool) (ev : list Z) : Z :=
  le_dec (if legacy then swap_words ev else ev).
Definition ev_time (legacy : bool) (ev : list Z) : Z := ev_value legacy ev / 2 ^ 10.
Definition ev_flags (legacy : bool) (ev : list Z) : Z := ev_value legacy ev mod 2 ^ 10.
Definition mk_event (legacy : bool) (t flags : Z) : list Z :=
  let b := le_enc 8 (t * 2 ^ 10 + flags) in if legacy then swap_words b else b.

(** ** The clock correction *)
(** The correction for [d] units of elapsed time: [f * d / 2^34], truncated twice. *)
Definition shift (f d : Z) : Z := (d / 2 ^ 12 * f) / 2 ^ 22.

(** reference time, accumulated correction, correction of the last event *)
Record clock : Type := mkClock { c_ref : option Z; c_acc : Z; c_last : Z }.

Definition elapsed (ref t : Z) : Z := (t - ref) mod 2 ^ 64.
Definition ref_of (k : clock) (t0 : Z) : Z := match c_ref k with Some r => r | None => t0 end.
(** Correction of one batch of event times and the clock after it. *)
Definition batch_times (f : Z) (k : clock) (ts : list Z) : list Z :=
  match ts with
  | [] => []
  | t0 :: _ => map (fun t => t + shift f (elapsed (ref_of k t0) t) + c_acc k) ts
  end.
Definition batch_clock (f : Z) (k : clock) (ts : list Z) : clock :=
  match ts with
  | [] => mkClock (c_ref k) (c_acc k + c_last k) (c_last k)
  | t0 :: _ =>
      let tl := List.last ts t0 in
      let c := shift f (elapsed (ref_of k t0) tl) in
      mkClock (Some tl) (c_acc k + c) c
  end.
(** Corrected times of a sequence of batches, with the correction in force for each. *)
Fixpoint corrected (k : clock) (fs : list Z) (bs : list (list Z)) : list (list Z) :=
  match fs, bs with
  | f :: fs', ts :: bs' => batch_times f k ts :: corrected (batch_clock f k ts) fs' bs'
  | _, _ => []
  end.
Definition start : clock := mkClock None 0 0.
(** The clock before any event, when the memory that will hold the last event's time and
    correction contains [junk]. *)
Definition clock0 (junk : option (Z * Z)) : clock :=
  mkClock None 0 (match junk with Some (_, c) => c | None => 0 end).
(** The clock after a sequence of batches. *)
Fixpoint clock_after (K : clock) (fs : list Z) (bs : list (list Z)) : clock :=
  match fs, bs with
  | f :: fs', b :: bs' => clock_after (batch_clock f K b) fs' bs'
  | _, _ => K
  end.

(** Put new times on the events of a batch. *)
Fixpoint retime (legacy : bool) (evs : list (list Z)) (ts : list Z) : list (list Z) :=
  match evs, ts with
  | ev :: evs', t :: ts' => mk_event legacy t (ev_flags legacy ev) :: retime legacy evs' ts'
  | _, _ => []
  end.
Fixpoint retime_batches (legacy : bool) (bs : list (list (list Z))) (tss : list (list Z))
  : list (list (list Z)) :=
  match bs, tss with
  | b :: bs', ts :: tss' => retime legacy b ts :: retime_batches legacy bs' tss'
  | _, _ => []
  end.
(** The corrected stream: batches of events, correction in force for each batch. *)
Definition corrected_stream (legacy : bool) (k : clock) (fs : list Z) (bs : list (list (list Z)))
  : list (list (list Z)) :=
  retime_batches legacy bs (corrected k fs (map (map (ev_time legacy)) bs)).

(** ** Text *)
Definition newline : Z := 10.
Definition has_newline (l : list Z) : bool := existsb (Z.eqb newline) l.
(** Newline-terminated lines and the unterminated rest. [cur] is the line so far. *)
Fixpoint split_lines (cur : list Z) (l : list Z) : list (list Z) * list Z :=
  match l with
  | [] => ([], cur)
  | c :: r => if newline =? c then let '(ls, rest) := split_lines [] r in (cur :: ls, rest)
              else split_lines (cur ++ [c]) r
  end.
Definition lines (l : list Z) : list (list Z) := fst (split_lines [] l).
Definition last_line (l : list Z) : list Z := snd (split_lines [] l).

Definition prefix {A} (p l : list A) : Prop := exists r, l = p ++ r.

(** A line that is a decimal integer: blanks, an optional sign, at least one digit, nothing else. *)
Definition blank (c : Z) : Prop := c = 32 \/ 9 <= c <= 13.
Definition digit (c : Z) : Prop := 48 <= c <= 57.
Definition decimal (ds : list Z) : Z := fold_left (fun n c => 10 * n + (c - 48)) ds 0.
Inductive denotes (line : list Z) (v : Z) : Prop :=
| Denotes blanks sign ds :
    line = blanks ++ sign ++ ds -> Forall blank blanks -> Forall digit ds -> ds <> [] ->
    (sign = [] \/ sign = [43]) /\ v = decimal ds \/ sign = [45] /\ v = - decimal ds ->
    denotes line v.
(** A frequency line is valid if it denotes an integer of magnitude below 2^21. *)
Definition valid_line (line : list Z) (v : Z) : Prop := denotes line v /\ Z.abs v < 2 ^ 21.
(** The correction after a line: its value if valid, otherwise unchanged. *)
Definition after_line (f : Z) (line : list Z) (f' : Z) : Prop :=
  valid_line line f' \/ ((forall v, ~ valid_line line v) /\ f' = f).
Inductive after_lines : Z -> list (list Z) -> Z -> Prop :=
| AL_nil f : after_lines f [] f
| AL_cons f l f1 ls f2 : after_line f l f1 -> after_lines f1 ls f2 -> after_lines f (l :: ls) f2.
(** Lines on which freqcd's parser is as documented: no NUL byte, and numbers fit an int. *)
Definition plain_line (line : list Z) : Prop :=
  Forall (fun c => c <> 0) line /\ (forall v, denotes line v -> Z.abs v < 2 ^ 31).

(** ** Hypotheses and conclusions of the properties *)
(** A correction in the documented range. *)
Definition small (f : Z) : Prop := Z.abs f < 2 ^ 21.
(** [t'] is within 3n/2 units of [t + f * (t - t0) / 2^34]. *)
Definition accurate (f t0 n t t' : Z) : Prop :=
  2 * Z.abs (2 ^ 34 * (t' - t) - f * (t - t0)) < 3 * n * 2 ^ 34.
(** The first read brings a complete event; every read completes an event. *)
Definition first_complete (cs : list (list Z)) : Prop :=
  match cs with c :: _ => 8 <= len c | [] => True end.
Fixpoint every_read_completes (p : list Z) (cs : list (list Z)) : Prop :=
  match cs with
  | [] => True
  | c :: r => groups (p ++ c) <> [] /\ every_read_completes (leftover (p ++ c)) r
  end.
(** A line up to its first NUL byte. *)
Fixpoint upto0 (l : list Z) : list Z :=
  match l with [] => [] | c :: r => if c =? 0 then [] else c :: upto0 r end.
(** What freqcd really takes from a line: the number denoted by the part before a NUL byte,
    clamped to a 64-bit long, truncated to a 32-bit int; accepted if below 2^21 in magnitude,
    or if it is -2^31. *)
Definition taken (line : list Z) (w : Z) : Prop :=
  exists v, denotes (upto0 line) v /\ w = s32 (Z.max (- 2 ^ 63) (Z.min (2 ^ 63 - 1) v)) /\
    (Z.abs w < 2 ^ 21 \/ w = - 2 ^ 31).
Definition after_line_actual (f : Z) (line : list Z) (f' : Z) : Prop :=
  taken line f' \/ ((forall v, ~ taken line v) /\ f' = f).
Inductive after_lines_actual : Z -> list (list Z) -> Z -> Prop :=
| ALA_nil f : after_lines_actual f [] f
| ALA_cons f l f1 ls f2 : after_line_actual f l f1 -> after_lines_actual f1 ls f2 ->
    after_lines_actual f (l :: ls) f2.
