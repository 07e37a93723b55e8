(** Text files as people write them. *)
From Coq Require Import QArith.
From Verif Require Import Float Base TimestampsModel TimestampsSpec TextModel.
Local Open Scope Z_scope.

Definition text_format (f : fmt) : Prop := f = A0 \/ f = A2.
(** digits of a line *)
Definition line_digits (f : fmt) : nat := match f with A0 => 8 | _ => 16 end.
(** characters of an event *)
Definition unit_size (f : fmt) : Z := match f with A0 => 18 | A1 _ => 8 | A2 => 17 end.
(** the lines of a file of words, without line endings *)
Definition plain_lines (f : fmt) (vs : list Z) : list (list Z) :=
  concat (map (fun v => match f with A0 => [hex 8 (low v); hex 8 (high v)] | _ => [hex 16 v] end) vs).
Definition file_of (ls : list (list Z)) : list Z := concat (map (fun l => l ++ [10]) ls).

(** [endings a b]: [b] is [a] with every line ending (LF, CR LF or CR) made LF *)
Inductive endings : list Z -> list Z -> Prop :=
| end_nil : endings [] []
| end_char c a b : c <> 10 -> c <> 13 -> endings a b -> endings (c :: a) (c :: b)
| end_lf a b : endings a b -> endings (10 :: a) (10 :: b)
| end_crlf a b : endings a b -> endings (13 :: 10 :: a) (10 :: b)
| end_cr a b : endings a b -> hd 0 a <> 10 -> endings (13 :: a) (10 :: b).

(** blanks, then nothing or a comment *)
Definition remark (s : list Z) : Prop :=
  exists n t, s = repeat 32 n ++ t /\ (t = [] \/ exists u, t = 35 :: u /\ Forall (fun c => 1 <= c <= 127 /\ c <> 10 /\ c <> 13) u).
(** [annotated ls file]: the lines [ls] with remarks between and after them and blanks before them *)
Inductive annotated : list (list Z) -> list Z -> Prop :=
| ann_nil : annotated [] []
| ann_remark s ls f : remark s -> annotated ls f -> annotated ls (s ++ [10] ++ f)
| ann_line n l s ls f : remark s -> annotated ls f -> annotated (l :: ls) (repeat 32 n ++ l ++ s ++ [10] ++ f).

(** characters that no number has *)
Definition digit (c d : Z) : Prop := (48 <= c <= 57 /\ d = c - 48) \/ (97 <= c <= 102 /\ d = c - 87) \/ (65 <= c <= 70 /\ d = c - 55).
Definition hex_digit (c : Z) : Prop := exists d, digit c d.
Definition blank (c : Z) : Prop := 9 <= c <= 13 \/ c = 32.
Definition foreign (c : Z) : Prop := ~ hex_digit c /\ ~ blank c /\ ~ 28 <= c <= 31 /\ ~ In c [43; 45; 95; 120; 88].

(** ** What int(s, 16) accepts: blanks, a sign, a prefix, groups of digits joined by underscores, blanks *)
Definition grouped (gs : list (list Z)) : list Z := match gs with [] => [] | g :: r => g ++ concat (map (cons 95) r) end.
Definition numeral (s : list Z) (v : Z) : Prop :=
  exists w1 sg m pre gs ds w2,
    s = w1 ++ sg ++ pre ++ grouped gs ++ w2 /\ Forall blank w1 /\ Forall blank w2 /\
    In (sg, m) [([], 1); ([43], 1); ([45], -1)] /\
    In pre [[]; [48; 120]; [48; 88]; [48; 120; 95]; [48; 88; 95]] /\
    gs <> [] /\ Forall (fun g => g <> []) gs /\ Forall2 digit (concat gs) ds /\
    v = m * fold_left (fun n d => 16 * n + d) ds 0.

(** ** Full statements of the properties that the code does not satisfy *)
Definition C161_statement : Prop := forall p f file r fr b s n, 0 < b -> text_sread p f file r fr b = Ok (s, n) -> fails s = None -> len (batches s) = n.
(** with remarks both readers give what they give without *)
Definition C162_statement : Prop := forall p f r fr b vs file, text_format f -> Forall word_ok vs -> 0 < b -> annotated (plain_lines f vs) file ->
  text_read p f file r fr = read p f (encode f vs) r fr /\
  forall s n, sread p f (encode f vs) r fr b = Ok (s, n) -> exists n', text_sread p f file r fr b = Ok (s, n').
(** a line other than 8 (a0) or 16 (a2) hexadecimal digits is an error *)
Definition single_line (l : list Z) : Prop := l <> [] /\ Forall (fun c => 1 <= c <= 127 /\ c <> 10 /\ c <> 13 /\ c <> 35) l /\ hd 0 l <> 32 /\ last l 0 <> 32.
Definition C163_statement : Prop := forall p f r fr ls, text_format f -> Forall single_line ls ->
  Exists (fun l => ~ (length l = line_digits f /\ Forall hex_digit l)) ls -> exists e, text_read p f (file_of ls) r fr = Err e.
