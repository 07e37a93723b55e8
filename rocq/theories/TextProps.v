(** Text files as people write them: C160 to C163. *)
From Coq Require Import QArith Lia.
From Verif Require Import Float Base TimestampsModel TimestampsSpec TextModel TextSpec TextProofs TextProofs2.
Local Open Scope Z_scope.

(** C160 *)
Theorem C160 : forall p f r fr b vs file, text_format f -> endings file (encode f vs) ->
  text_read p f file r fr = read p f (encode f vs) r fr /\
  match sread p f (encode f vs) r fr b with
  | Ok (s, n) => exists m, text_sread p f file r fr b = Ok (s, m) /\ (0 < b -> n <= m)
  | Err e => text_sread p f file r fr b = Err e
  end.
Proof. exact c160. Qed.
Print Assumptions C160.
(** without other characters the readers are those of the other properties *)
Theorem C160_plain : forall p f file r fr b, clean file = true -> text_read p f file r fr = read p f file r fr /\ text_sread p f file r fr b = sread p f file r fr b.
Proof. exact c160_plain. Qed.
Print Assumptions C160_plain.
Example C160_case : endings (hex 16 1024 ++ [13; 10] ++ hex 16 2049 ++ [13]) (encode A2 two_words) /\
  text_read 64 A2 (hex 16 1024 ++ [13; 10] ++ hex 16 2049 ++ [13]) PS4 false = Ok (TU64 [1; 2], [0; 1]).
Proof. split; [vm_compute; repeat (constructor; try discriminate)|vm_compute; reflexivity]. Qed.

(** C161.  Full statement: [C161_statement]. *)
Theorem C161_refuted : ~ C161_statement.
Proof. exact c161_refuted. Qed.
Print Assumptions C161_refuted.
(** without carriage returns in text formats *)
Theorem C161_partial : forall p f file r fr b s n, (text_format f -> ~ In 13 file) -> 0 < b -> text_sread p f file r fr b = Ok (s, n) -> fails s = None -> len (batches s) = n.
Proof. exact c161_partial. Qed.
Print Assumptions C161_partial.
(** the number announced is that of the bytes, the number produced that of the characters *)
Theorem C161_actual : forall p f file plain r fr b s n, text_format f -> endings file plain -> 0 < b -> text_sread p f file r fr b = Ok (s, n) -> fails s = None ->
  n = (len file - 1) / (b * unit_size f) + 1 /\ len (batches s) = (len plain - 1) / (b * unit_size f) + 1.
Proof. exact c161_endings. Qed.
Print Assumptions C161_actual.
Example C161_case : text_sread 64 A2 (hex 16 1024 ++ [10]) PS4 false 1 = Ok (mkS [(TU64 [1], [0])] None, 1) /\
  text_sread 64 A2 (hex 16 1024 ++ [13; 10]) PS4 false 1 = Ok (mkS [(TU64 [1], [0])] None, 2).
Proof. split; vm_compute; reflexivity. Qed.

(** C162.  Full statement: [C162_statement]. *)
Theorem C162_refuted : ~ C162_statement.
Proof. exact c162_refuted. Qed.
Print Assumptions C162_refuted.
(** in memory remarks are ignored *)
Theorem C162_partial : forall p f r fr vs file, text_format f -> annotated (plain_lines f vs) file -> text_read p f file r fr = read p f (encode f vs) r fr.
Proof. exact c162_partial. Qed.
Print Assumptions C162_partial.
(** a stream ends in an exception if there is a comment, or any other foreign character, anywhere *)
Theorem C162_actual : forall p f file r fr b s n c, text_format f -> foreign c -> In c file -> text_sread p f file r fr b = Ok (s, n) -> fails s <> None.
Proof. exact c162_actual. Qed.
Print Assumptions C162_actual.
Example C162_case : annotated (plain_lines A2 two_words) remarked /\ text_read 64 A2 remarked PS4 false = Ok (TU64 [1; 2], [0; 1]) /\
  foreign 35 /\ text_sread 64 A2 remarked PS4 false 10 = Ok (mkS [] (Some ValueError), 1).
Proof.
  split; [exact remarked_ok|]. split; [vm_compute; reflexivity|]. split; [|vm_compute; reflexivity].
  split; [intros [d H]; unfold digit in H; lia|]. split; [unfold blank; lia|]. split; [lia|]. cbn [In]. lia.
Qed.

(** C163.  Full statement: [C163_statement]. *)
Theorem C163_refuted : ~ C163_statement.
Proof. exact c163_refuted. Qed.
Print Assumptions C163_refuted.
(** refused if a character among the first 8 or 16 of a line belongs to no number *)
Theorem C163_partial : forall p f r fr ls c, text_format f -> Forall single_line ls -> foreign c -> In c (concat (map (take (Z.of_nat (line_digits f))) ls)) ->
  exists e, text_read p f (file_of ls) r fr = Err e.
Proof. exact c163_partial. Qed.
Print Assumptions C163_partial.
(** every line is cut to 8 or 16 characters and read as a number of any form *)
Theorem C163_actual : forall p f r fr ls, text_format f -> Forall single_line ls ->
  (forall ns, Forall2 numeral (map (take (Z.of_nat (line_digits f))) ls) ns -> Forall (fun n => 0 <= n) ns ->
     text_read p f (file_of ls) r fr = text_read p f (file_of (map (hex (line_digits f)) ns)) r fr) /\
  (length ls <> 1%nat -> Exists (fun l => forall n, ~ numeral (take (Z.of_nat (line_digits f)) l) n) ls -> text_read p f (file_of ls) r fr = Err ValueError).
Proof. exact c163_actual. Qed.
Print Assumptions C163_actual.
(** what int(s, 16) accepts *)
Theorem C163_int : forall s v, int16_text s = Ok v <-> numeral s v.
Proof. exact int16_text_iff. Qed.
Print Assumptions C163_int.
(** +0x_1_f and 17 digits; two words, the second cut *)
Example C163_case : numeral [43; 48; 120; 95; 49; 95; 102; 32] 31 /\ Forall single_line long_lines /\
  text_read 64 A2 (file_of [[48; 120; 52; 48; 48]; hex 17 16384]) PS4 false = Ok (TU64 [1; 1], [0; 0]).
Proof. split; [apply C163_int; vm_compute; reflexivity|]. split; [apply long_lines_ok|vm_compute; reflexivity]. Qed.
