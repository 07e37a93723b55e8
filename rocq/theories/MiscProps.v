(** Properties of the scripts and helpers: C63-C66, C74-C78. *)
From Coq Require Import QArith Lqa Sorted.
From Verif Require Import Float Base TimestampsModel TimestampsSpec EpochsModel UtilsModel UtilsSpec FpfindModel FpfindSpec MiscModel MiscSpec MiscProofs MiscProofs2 MiscRefute.
Local Open Scope Z_scope.

(** C63 *)
Theorem C63 : forall lg t d, 0 <= t -> 0 <= d < 16 -> get_event lg t d = Ok (encode1 (A1 lg) (word_of (t mod 2 ^ 54, d))).
Proof. exact get_event_word. Qed.
Print Assumptions C63.
Theorem C63_refused : forall lg t d, t < 0 \/ d < 0 \/ 16 <= d -> get_event lg t d = Err AssertionError.
Proof. exact c63_bad. Qed.
Print Assumptions C63_refused.
(** what the script writes, read back *)
Theorem C63_read : forall p x ts, Forall (fun t => 0 <= t) ts -> exists file, generate x ts = (file, None) /\
  read_a1 p file false PS4 false = Ok (TU64 (map (fun t => t mod 2 ^ 54) ts), map (fun _ => 1) ts).
Proof. exact c63_file. Qed.
Print Assumptions C63_read.
Example C63_case : get_event false (2 ^ 54 + 3) 5 = Ok [5; 12; 0; 0; 0; 0; 0; 0] /\ get_event true 3 5 = Ok [0; 0; 0; 0; 5; 12; 0; 0] /\
  get_event false (-1) 0 = Err AssertionError /\
  generate false [1; 2 ^ 40] = ([1; 4; 0; 0; 0; 0; 0; 0;  1; 0; 0; 0; 0; 0; 4; 0], None).
Proof. repeat split; vm_compute; reflexivity. Qed.

(** C64.  Full statement: [C64_statement].  It fails: the flag sets a local variable. *)
Theorem C64_refuted : ~ C64_statement.
Proof. exact c64_refuted. Qed.
Print Assumptions C64_refuted.
(** with and without the flag the events are in the new word order *)
Theorem C64_actual : forall x ts, Forall (fun t => 0 <= t) ts -> generate x ts = (encode (A1 false) (event_words ts), None).
Proof. intros x. exact (write_all_ok false). Qed.
Print Assumptions C64_actual.
Example C64_case : generate true [7] = (encode (A1 false) (event_words [7]), None) /\ encode (A1 false) (event_words [7]) <> encode (A1 true) (event_words [7]).
Proof. split; [vm_compute; reflexivity|]. vm_compute. discriminate. Qed.

(** C65.  Full statement: [C65_statement].  It fails: the file is overwritten with standard input. *)
Theorem C65_refuted : ~ C65_statement.
Proof. exact c65_refuted. Qed.
Print Assumptions C65_refuted.
Theorem C65_overwritten : forall p x file stdin, fst (decode_file p x file stdin) = Some stdin.
Proof. reflexivity. Qed.
Print Assumptions C65_overwritten.
(** The times printed are those of the events on standard input, in units of 4 ps: right for "-". *)
Theorem C65_partial : forall p x file evs, 54 <= p -> Forall event_ok evs -> let stdin := encode (A1 x) (map word_of evs) in
  decode_file p x file stdin = (Some stdin, Ok (map fst evs)).
Proof. exact c65. Qed.
Print Assumptions C65_partial.
Example C65_case : Forall event_ok [(300, 1); (2 ^ 54 - 1, 9)] /\
  decode_file 64 true (Some [1; 2; 3]) (encode (A1 true) (map word_of [(300, 1); (2 ^ 54 - 1, 9)])) =
    (Some [0; 0; 0; 0; 1; 176; 4; 0; 255; 255; 255; 255; 9; 252; 255; 255], Ok [300; 2 ^ 54 - 1]).
Proof. split; [repeat constructor; cbn; lia|]. vm_compute. reflexivity. Qed.

(** C66 *)
Theorem C66 : forall v, 0 <= v -> verbosity2level v = Ok (if v =? 0 then WARNING else if v =? 1 then INFO else DEBUG).
Proof. exact c66. Qed.
Print Assumptions C66.
Theorem C66_decreasing : forall v w a b, 0 <= v <= w -> verbosity2level v = Ok a -> verbosity2level w = Ok b -> b <= a.
Proof.
  intros v w a b H A B. rewrite c66 in A, B by lia. injection A as <-. injection B as <-. unfold WARNING, INFO, DEBUG.
  destruct (v =? 0) eqn:?, (v =? 1) eqn:?, (w =? 0) eqn:?, (w =? 1) eqn:?; lia.
Qed.
Print Assumptions C66_decreasing.
Example C66_case : map verbosity2level [0; 1; 2; 7] = [Ok 30; Ok 20; Ok 10; Ok 10].
Proof. reflexivity. Qed.

(** C74.  The message is [pre], the delimiter, [n] spaces and [body]. *)
Theorem C74 : forall isspace delim message d shown pre n body, parts delim message pre (repeat 32 n ++ body) -> hd 0 body <> 32 ->
  exists blank, blanked isspace pre blank /\
  let line := fun head t => head ++ delim ++ repeat 32 (n + 2) ++ t in
  match detail_lines d with
  | [] => format_record isspace true delim message d shown = message
  | t1 :: ts => format_record isspace true delim message d shown =
                match body with
                | [] => lines (line pre t1) (map (line blank) ts)
                | _ => lines message (map (line blank) (t1 :: ts))
                end
  end.
Proof. exact c74. Qed.
Print Assumptions C74.
Theorem C74_plain : forall isspace delim message d shown, format_record isspace false delim message d shown =
  match d with NoDetails => message | _ => message ++ [9] ++ shown end.
Proof. exact c74_plain. Qed.
Print Assumptions C74_plain.
(** "ab\tc| hi" with details "x" and "k: v" *)
Example C74_case : let isspace c := (c =? 32) || (c =? 9) in let delim := [124; 32] in
  parts delim [97; 98; 9; 99; 124; 32; 104; 105] [97; 98; 9; 99] (repeat 32 0 ++ [104; 105]) /\
  format_record isspace true delim [97; 98; 9; 99; 124; 32; 104; 105] (DetailDict [([107], [118])]) [] =
    [97; 98; 9; 99; 124; 32; 104; 105; 10; 32; 32; 9; 32; 124; 32; 32; 32; 107; 58; 32; 118] /\
  format_record isspace true delim [97; 124; 32; 32] (DetailList [[120]; [121]]) [] =
    [97; 124; 32; 32; 32; 32; 120; 10; 32; 124; 32; 32; 32; 32; 121].
Proof.
  cbv zeta. split; [|split; vm_compute; reflexivity]. split; [reflexivity|]. intros pre' text' E.
  destruct pre' as [|a [|b [|c [|d pre']]]]; cbn in E; try discriminate E. cbn. lia.
Qed.

(** C75.  Full statement: [C75_statement].  It fails: the last time stamp is never discarded, so that pairs with it are
    counted however far apart. *)
Theorem C75_refuted : ~ C75_statement.
Proof. exact c75_refuted. Qed.
Print Assumptions C75_refuted.
(** what is counted: the close pairs of all stamps but the last, [z], and all pairs with [z] *)
Theorem C75_actual : forall N Ta m arr1 arr2 start delta A z B c1 c2 k, 0 < N -> (0 < delta)%Q -> 0 <= k < N ->
  sortedQ arr1 -> sortedQ arr2 -> interval start Ta arr1 = A ++ [z] -> interval start Ta arr2 = B ->
  counts (fun p => in_bin N delta k (fst p - snd p)%Q /\ (fst p - snd p < m)%Q) (list_prod B A) c1 ->
  counts (fun e => in_bin N delta k (e - z)%Q) B c2 ->
  len (g2 N Ta m arr1 arr2 start delta) = N /\ nth (Z.to_nat k) (g2 N Ta m arr1 arr2 start delta) 0 = c1 + c2.
Proof. exact c75. Qed.
Print Assumptions C75_actual.
(** the statement, when the latest stamp is close to all events *)
Theorem C75_partial : forall N Ta m arr1 arr2 start delta c k, 0 < N -> (0 < delta)%Q -> 0 <= k < N -> sortedQ arr1 -> sortedQ arr2 ->
  (forall e s, In e (interval start Ta arr2) -> In s (interval start Ta arr1) ->
     (forall s', In s' (interval start Ta arr1) -> (s' <= s)%Q) -> (e - s < m)%Q) ->
  counts (fun p => in_bin N delta k (fst p - snd p)%Q /\ (fst p - snd p < m)%Q) (list_prod (interval start Ta arr2) (interval start Ta arr1)) c ->
  nth (Z.to_nat k) (g2 N Ta m arr1 arr2 start delta) 0 = c.
Proof. exact c75_near. Qed.
Print Assumptions C75_partial.
Example C75_case : interval 0 100 [0; 1; 2; 50; 200]%Q = [1; 2]%Q ++ [50]%Q /\ interval 0 100 [3; 15; 51; 100; 101]%Q = [3; 15; 51; 100]%Q /\
  g2 4 100 10 [0; 1; 2; 50; 200]%Q [3; 15; 51; 100; 101]%Q 0 1 = [0; 4; 2; 0].
Proof. repeat split; vm_compute; reflexivity. Qed.

(** C76.  Full statement: [C76_statement].  It fails for every input: generate_fft is called with too many arguments,
    after the arrays were shifted in place. *)
Theorem C76_refuted : ~ C76_statement.
Proof. exact c76_refuted. Qed.
Print Assumptions C76_refuted.
Theorem C76_never : forall rt alice bob acq, exists e, snd (histogram_fft rt alice bob acq) = Err e /\ (alice <> [] -> bob <> [] -> e = TypeError).
Proof. exact c76_actual. Qed.
Print Assumptions C76_never.
Theorem C76_arrays : forall a alice b bob acq, fst (histogram_fft (fun x => x) (a :: alice) (b :: bob) acq) =
  let s := ((if Qlt_le_dec a b then b else a) + match acq with Some x => x | None => 0 end)%Q in
  (map (fun t => t - s)%Q (a :: alice), map (fun t => t - s)%Q (b :: bob)).
Proof. exact c76_arrays. Qed.
Print Assumptions C76_arrays.
Example C76_case : histogram_fft (fun x => x) [1; 5]%Q [2; 3]%Q None = ([-1; 3], [0; 1], Err TypeError)%Q.
Proof. vm_compute. reflexivity. Qed.

(** C77 *)
Theorem C77 : forall e0 evs channel ratio offset, ~ (1 + ratio == 0)%Q -> exists out, detune (e0 :: evs) channel ratio offset = Ok out /\
  map snd out = map (fun _ => channel) out /\
  same_values (plotted (ratio * 1000000) (offset - fst e0 * ratio) (map fst out)) (map fst (filter (fun e => snd e =? channel) (e0 :: evs))).
Proof. exact c77. Qed.
Print Assumptions C77.
(** fpplot applies the correction that fpfind reports, the frequency being given in ppm *)
Theorem C77_fpfind : forall dt df bob, same_values (plotted (df * 1000000) dt bob) (map (corrected (dt, df)) bob).
Proof.
  intros dt df bob. unfold plotted, corrected. induction bob as [|t bob IH]; cbn [map]; constructor; [|exact IH]. cbn [fst snd].
  assert (E : (1 + df * 1000000 * (1 # 1000000) == 1 + df)%Q) by ring. now rewrite E.
Qed.
Print Assumptions C77_fpfind.
Example C77_case : ~ (1 + (1 # 4) == 0)%Q /\ detune [(10%Q, 1); (14%Q, 8); (18%Q, 8)] 8 (1 # 4) 3 = Ok [(((14 - 10) * (1 + (1 # 4)) + 10 + 3)%Q, 8); (((18 - 10) * (1 + (1 # 4)) + 10 + 3)%Q, 8)] /\
  same_values (plotted 250000 (1 # 2) [18; 23]%Q) [14; 18]%Q.
Proof. split; [discriminate|]. split; [reflexivity|]. repeat constructor; vm_compute; reflexivity. Qed.

(** C78 *)
Theorem C78 : forall doc d ls, before CHANGELOG doc d -> split_runs d ls -> ~ In 126 d -> parse_docstring_description doc = headline ls.
Proof. exact c78. Qed.
Print Assumptions C78.
Theorem C78_total : forall d, exists ls, split_runs d ls.
Proof. exact split_runs_exists. Qed.
Print Assumptions C78_total.
Example C78_case : split_runs [97; 10; 10; 98; 10; 99; 10] [[97]; [98]; [99]; []] /\
  parse_docstring_description ([97; 10; 10; 98; 10; 99; 10] ++ CHANGELOG ++ [120]) = [97; 10; 10; 98; 32; 99; 32].
Proof.
  split; [|vm_compute; reflexivity].
  assert (NI : forall x y : Z, x <> y -> ~ In x [y]) by (intros x y H [E|[]]; congruence).
  apply (split_more [97] [10; 10] [98; 10; 99; 10]); [apply NI; lia|apply run_more, run1|cbn; lia|].
  apply (split_more [98] [10] [99; 10]); [apply NI; lia|constructor|cbn; lia|].
  apply (split_more [99] [10] []); [apply NI; lia|constructor|cbn; lia|]. constructor. now intros [].
Qed.
