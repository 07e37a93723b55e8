(** Properties of the offset search: C53-C62, C73. *)
From Coq Require Import QArith Qabs Qround Lqa.
From Verif Require Import Float Base FreqcdCliSpec FreqcdCliStatements TimestampsModel TimestampsSpec UtilsModel UtilsSpec FpfindModel FpfindSpec FpfindProofs FpfindProofs2 FpfindProofs3 FpfindProofs4 FpfindRefute FpfindPipe.
Local Open Scope Z_scope.

(** C53: [cs] are the corrections applied to the target times, [tl] the last one found if the last iteration was not
    given up (lines 251-265). *)
Theorem C53 : forall fuel M P ats bts res dt df, good_xc M -> exact_fpu M -> time_freq fuel M P ats bts res = Ok (dt, df) ->
  exists cs s tl, steps M P ats (mkS bts res 0 1 true) cs s /\ (tl = [] \/ exists c, tl = [c] /\ found M P ats s c) /\
    (forall t, corrected (dt, df) t == corrected_all (cs ++ tl) t)%Q.
Proof. exact c53. Qed.
Print Assumptions C53.
Theorem C53_fpfind : forall fuel M P alice bob res df0s dt df, good_xc M -> exact_fpu M -> (forall df0, In df0 df0s -> ~ (1 + df0 == 0)%Q) ->
  fpfind fuel M P alice bob res df0s false = Ok (dt, df) ->
  exists df0 c b, In df0 df0s /\ same_values b (map (corrected (0, df0)%Q) bob) /\ time_freq fuel M P alice b res = Ok c /\
    (forall t, corrected (dt, df) t == corrected c (corrected (0, df0) t))%Q.
Proof. exact c53_fpfind. Qed.
Print Assumptions C53_fpfind.
Example C53_case : good_xc MQ /\ exact_fpu MQ /\ time_freq 2 MQ P1 alice1 bob1 2 = Ok (196609 # 65536, 1 # 65536)%Q /\
  (corrected (196609 # 65536, 1 # 65536) 7 == corrected (1, 0) (corrected (2, 1 # 65536) 7))%Q.
Proof. split; [apply exact_good|]. split; [exact MQ_exact|]. split; [exact run1|]. vm_compute. reflexivity. Qed.
Example C53_fpfind_case : ~ (1 + (1 # 65536) == 0)%Q /\
  fpfind 2 MQ P1 alice1 bob1 2 [1 # 65536]%Q false = Ok (3 * (65537 # 65536), 1 # 65536)%Q.
Proof. split; [discriminate|]. vm_compute. reflexivity. Qed.

(** C54 *)
Theorem C54 : forall fuel M P ats bts res dt df, good_xc M -> time_freq fuel M P ats bts res = Ok (dt, df) -> (Qabs df < 1 # 8192)%Q.
Proof. exact c54. Qed.
Print Assumptions C54.
(** the limit is not tight by much: this run, in the formats of the program, returns 2^-13 - 2^-38 and a little *)
Example C54_case : good_xc MF /\ exists dt df, time_freq 1 MF P4 alice4 bob4 1 = Ok (dt, df) /\ ((1 # 8192) - (1 # 2 ^ 37) < df)%Q /\ (df < 1 # 8192)%Q.
Proof. split; [apply exact_good|]. eexists. eexists. split; [vm_compute; reflexivity|]. split; vm_compute; reflexivity. Qed.

(** C55 in float64, in exact arithmetic, and with a number of iterations. *)
Theorem C55 : forall M P ats bts res, (forall x, rs M x = fl 53 x) -> good_xc M -> good_zs M -> num_bins P = 1 \/ Z.odd (num_bins P) = false ->
  let d := fl 53 (fl 53 (inject_Z (num_wraps P) * res) * inject_Z (num_bins P)) in
  (0 < d)%Q -> (d * RES_REFINE_FACTOR * (1 + (1 # 2 ^ 49)) <= separation_duration P)%Q ->
  (0 < target_resolution P)%Q -> (0 < res)%Q -> ats <> [] -> bts <> [] ->
  exists n r, r <> Err OutOfFuel /\ forall m, (n <= m)%nat -> time_freq m M P ats bts res = r.
Proof. exact c55_float. Qed.
Print Assumptions C55.
Theorem C55_exact : forall M P ats bts res, exact_fpu M -> good_xc M -> good_zs M -> num_bins P = 1 \/ Z.odd (num_bins P) = false ->
  let d := (inject_Z (num_wraps P) * res * inject_Z (num_bins P))%Q in
  (0 < d)%Q -> (d * RES_REFINE_FACTOR < separation_duration P)%Q ->
  (0 < target_resolution P)%Q -> (0 < res)%Q -> ats <> [] -> bts <> [] ->
  exists n r, r <> Err OutOfFuel /\ forall m, (n <= m)%nat -> time_freq m M P ats bts res = r.
Proof. exact c55_exact. Qed.
Print Assumptions C55_exact.
(** k + 2 iterations are enough when the k + 1 reductions by [c] lead from the largest possible resolution to the target *)
Theorem C55_count : forall M P ats bts res c k, (forall x, 0 < x -> 0 < rs M x)%Q -> good_xc M -> good_zs M -> num_bins P = 1 \/ Z.odd (num_bins P) = false ->
  shrinks M (separation_duration P) (rs M (rs M (inject_Z (num_wraps P) * res) * inject_Z (num_bins P))%Q) c ->
  (0 < target_resolution P)%Q -> (0 < res)%Q -> ats <> [] -> bts <> [] ->
  (res * qpow c (S k) <= target_resolution P)%Q -> (10000 * qpow c (S k) <= target_resolution P)%Q ->
  errs [ValueError; IndexError] (time_freq (S (S k)) M P ats bts res).
Proof. exact c55. Qed.
Print Assumptions C55_count.
(** the reduction in float64 and in exact arithmetic *)
Theorem C55_reduction : forall M sep d,
  ((forall x, rs M x = fl 53 x) -> (1 + (1 # 2 ^ 50) <= fl 53 (fl 53 (sep / d) / RES_REFINE_FACTOR))%Q ->
   shrinks M sep d ((1 + (1 # 2 ^ 52)) / fl 53 (fl 53 (sep / d) / RES_REFINE_FACTOR))%Q) /\
  (exact_fpu M -> (0 < d)%Q -> (d * RES_REFINE_FACTOR < sep)%Q -> shrinks M sep d (d * RES_REFINE_FACTOR / sep)).
Proof. exact (fun M sep d => conj (shrinks_fl M sep d) (shrinks_exact M sep d)). Qed.
Print Assumptions C55_reduction.
(** the ratio must be above the limit: at it the loop may not end *)
Theorem C55_sharp : ~ C55_at_least.
Proof. exact c55_at_least_refuted. Qed.
Print Assumptions C55_sharp.
Example C55_case : (8 * 2 * RES_REFINE_FACTOR * (1 + (1 # 2 ^ 49)) <= separation_duration P1)%Q /\
  (fl 53 (fl 53 (inject_Z (num_wraps P1) * 2) * inject_Z (num_bins P1)) == 8 * 2)%Q /\
  (forall n, (2 <= n)%nat -> time_freq n MQ P1 alice1 bob1 2 = Ok (196609 # 65536, 1 # 65536)%Q).
Proof.
  split; [vm_compute; discriminate|]. split; [vm_compute; reflexivity|]. intros n N. rewrite (time_freq_more MQ P1 alice1 bob1 2 2 n N); [exact run1|]. rewrite run1. discriminate.
Qed.
(** main's defaults: separation 6 times the duration, final resolution 1: at most 9 iterations *)
Example C55_default : (fl 53 (fl 53 (6 / 1) / RES_REFINE_FACTOR) < 425 # 100)%Q /\ (1 + (1 # 2 ^ 50) <= fl 53 (fl 53 (6 / 1) / RES_REFINE_FACTOR))%Q /\
  (10000 * qpow ((1 + (1 # 2 ^ 52)) / fl 53 (fl 53 (6 / 1) / RES_REFINE_FACTOR)) 7 <= 1)%Q.
Proof. split; [vm_compute; reflexivity|]. split; vm_compute; discriminate. Qed.

(** C56: [search] is any search; time_freq in fpfind. *)
Theorem C56 : forall rt rs search bob df0s,
  (exists i df0 dt1 df1, nth_error df0s i = Some df0 /\ search (attempt rt rs df0 bob) = Ok (dt1, df1) /\
     (forall j x, (j < i)%nat -> nth_error df0s j = Some x -> search (attempt rt rs x bob) = Err ValueError) /\
     scan rt rs search bob df0s false =
       Ok (rs (0 + rs (rs (1 + df0) * dt1))%Q, rs (rs (rs (1 + df0) * rs (1 + df1)) - 1)%Q)) \/
  (exists i df0 e, nth_error df0s i = Some df0 /\ search (attempt rt rs df0 bob) = Err e /\ e <> ValueError /\
     (forall j x, (j < i)%nat -> nth_error df0s j = Some x -> search (attempt rt rs x bob) = Err ValueError) /\
     scan rt rs search bob df0s false = Err e) \/
  (Forall (fun x => search (attempt rt rs x bob) = Err ValueError) df0s /\ scan rt rs search bob df0s false = Err ValueError).
Proof. exact c56. Qed.
Print Assumptions C56.
Theorem C56_fpfind : forall fuel M P alice bob res df0s fs,
  fpfind fuel M P alice bob res df0s fs = scan (rt M) (rs M) (fun b => time_freq fuel M P alice b res) bob df0s fs.
Proof. exact (fun fuel M P alice bob res df0s fs => eq_refl). Qed.
Print Assumptions C56_fpfind.
Example C56_case : let search := fun b => if Qeq_bool (hd 0%Q b) 2 then Ok (5, 1 # 16)%Q else Err ValueError in
  scan Qred Qred search [3; 4]%Q [0; 1 # 2; -(1 # 2)]%Q false = Ok (15 # 2, 19 # 32)%Q.
Proof. vm_compute. reflexivity. Qed.

(** C57 *)
Theorem C57_refuted : ~ C57_statement.
Proof. exact c57_refuted. Qed.
Print Assumptions C57_refuted.
(** never, whatever is found *)
Theorem C57_never : forall rt rs search bob df0s r, scan rt rs search bob df0s true <> Ok r.
Proof. exact c57_never. Qed.
Print Assumptions C57_never.
Example C57_case : fpfind 2 MQ P1 alice1 bob1 2 [0]%Q false = Ok (196609 # 65536, 1 # 65536)%Q /\ fpfind 2 MQ P1 alice1 bob1 2 [0]%Q true = Err ValueError.
Proof. split; vm_compute; reflexivity. Qed.

(** C58 *)
Theorem C58_refuted : ~ C58_statement.
Proof. exact c58_refuted. Qed.
Print Assumptions C58_refuted.
(** one exception besides ValueError may escape *)
Theorem C58_partial : forall fuel M P ats bts res, good_xc M -> good_zs M -> num_bins P = 1 \/ Z.odd (num_bins P) = false -> ats <> [] -> bts <> [] ->
  errs [ValueError; IndexError; OutOfFuel] (time_freq fuel M P ats bts res).
Proof. exact c58. Qed.
Print Assumptions C58_partial.
(** and none with data reaching beyond the separation, and every correction that may be made in [n] iterations *)
Theorem C58_enough_partial : forall n M P ats bts res, good_xc M -> good_zs M -> exact_fpu M -> num_bins P = 1 \/ Z.odd (num_bins P) = false ->
  (0 <= separation_duration P)%Q -> (exists a, In a ats /\ (separation_duration P <= a)%Q) ->
  (exists t, In t bts /\ ((separation_duration P + inject_Z (Z.of_nat n) * 100000000) * (8193 # 8192) <= t)%Q) ->
  errs [ValueError; OutOfFuel] (time_freq n M P ats bts res).
Proof. exact c58_enough. Qed.
Print Assumptions C58_enough_partial.
Theorem C58_scan_partial : forall rt rs search bob es, (forall b, errs es (search b)) -> forall df0s fs, errs (ValueError :: es) (scan rt rs search bob df0s fs).
Proof. exact scan_errs. Qed.
Print Assumptions C58_scan_partial.
Example C58_case : In 1000000000%Q bob1 /\ In 1000000000%Q alice1 /\ ((131072 + inject_Z (Z.of_nat 2) * 100000000) * (8193 # 8192) <= 1000000000)%Q /\
  time_freq 2 MQ P1 alice1 bob1 2 = Ok (196609 # 65536, 1 # 65536)%Q /\ time_freq 2 MQ P1 alice3 bob3 2 = Err IndexError /\
  time_freq 2 MQ P1 alice1 [500; 1000000000]%Q 2 = Err ValueError.
Proof. split; [cbn; tauto|]. split; [cbn; tauto|]. split; [vm_compute; discriminate|]. split; [exact run1|]. split; vm_compute; reflexivity. Qed.

(** C59: the values are rounded, the numbers k are exact. *)
Theorem C59 : forall rs start stop step, (0 < step)%Q -> (0 <= stop)%Q ->
  exists m, quotient stop step (Z.of_nat m) /\
    generate_precompensations rs start stop step false = map (fun k => rs (rs (inject_Z k * step) + start)%Q) (zigzag m).
Proof. exact c59. Qed.
Print Assumptions C59.
Theorem C59_ordered : forall rs start stop step, (0 < step)%Q -> (0 <= rs (stop - start))%Q ->
  exists m, quotient (rs (stop - start)%Q) step (Z.of_nat m) /\
    generate_precompensations rs start stop step true = map (fun k => rs (rs (inject_Z (Z.of_nat k) * step) + start)%Q) (seq 0 (S m)).
Proof. exact c59_ordered. Qed.
Print Assumptions C59_ordered.
Theorem C59_zero : forall rs start stop ordered, generate_precompensations rs start stop 0 ordered = [0%Q].
Proof. exact (fun rs start stop ordered => eq_refl). Qed.
Print Assumptions C59_zero.
(** main's defaults, 10 ppm in steps of 0.1 ppm: 201 values *)
Example C59_case : quotient (fl 53 (1 # 100000)) (fl 53 (1 # 10000000)) 100 /\ zigzag 3 = [0; 1; -1; 2; -2; 3; -3] /\
  length (generate_precompensations (fl 53) 0 (fl 53 (1 # 100000)) (fl 53 (1 # 10000000)) false) = 201%nat.
Proof. split; [split; vm_compute; (discriminate || reflexivity)|]. split; vm_compute; reflexivity. Qed.
Example C59_ordered_case : Forall2 Qeq (generate_precompensations (fl 53) 1 10 4 true) [1; 5; 9]%Q /\ quotient 9 4 2.
Proof. split; [vm_compute; repeat constructor|]. split; vm_compute; (discriminate || reflexivity). Qed.

(** C60 *)
Theorem C60_refuted : ~ C60_statement.
Proof. exact c60_refuted. Qed.
Print Assumptions C60_refuted.
(** what remains after both corrections; it holds only without a time or a frequency offset *)
Theorem C60_partial : forall dt df t, (-1 < df)%Q ->
  (corrected (invert (fun x => x) dt df) (corrected (dt, df) t) == t + dt * ((1 + df) * (1 + df) - 1))%Q.
Proof. exact c60_time. Qed.
Print Assumptions C60_partial.
Theorem C60_only_partial : forall dt df, (-1 < df)%Q ->
  ((forall t, corrected (invert (fun x => x) dt df) (corrected (dt, df) t) == t)%Q <-> (dt == 0 \/ df == 0)%Q).
Proof. exact c60_exact. Qed.
Print Assumptions C60_only_partial.
(** the formula is right for corrections that scale first and shift then, as freqcd does, and not the search *)
Theorem C60_other_partial : forall dt df t, (-1 < df)%Q ->
  let '(dt', df') := invert (fun x => x) dt df in ((t / (1 + df) - dt) / (1 + df') - dt' == t)%Q.
Proof. exact c60_other. Qed.
Print Assumptions C60_other_partial.
(** 1 ms and 100 ppm leave 200 ns *)
Example C60_case : (corrected (invert (fun x => x) 1000000 (1 # 10000)) (corrected (1000000, 1 # 10000) 5) == 205 + (1 # 100))%Q.
Proof. vm_compute. reflexivity. Qed.

(** C61: [printed inv] is the line printed with output 6 (7 if inverted), [accepted] what freqcd does with it as -f. *)
Theorem C61_refuted : ~ C61_statement.
Proof. exact c61_refuted. Qed.
Print Assumptions C61_refuted.
(** an inverted one that is refused *)
Theorem C61_refused : exists dt df, time_freq 1 MF P4 bob4 alice4 1 = Ok (dt, df) /\
  forall prog repr, (forall x, field_ok (repr x)) -> answers [prog; dash_f; printed true (fl 53) repr dt df] (Stops (-5)).
Proof. exact c61_refused. Qed.
Print Assumptions C61_refused.
Theorem C61_partial : forall prog repr dt df, (forall x, field_ok (repr x)) -> (fl 53 df == df)%Q -> (Qabs df < (1 # 2 ^ 13) - (1 # 2 ^ 35))%Q ->
  exists f, accepted prog (printed false (fl 53) repr dt df) f /\ nearest (df * inject_Z (2 ^ 34)) f.
Proof. exact c61_pipe. Qed.
Print Assumptions C61_partial.
Theorem C61_inverted_partial : forall prog repr dt df, (forall x, field_ok (repr x)) -> (Qabs df <= (1 # 2 ^ 13) - (1 # 2 ^ 25))%Q ->
  exists f, accepted prog (printed true (fl 53) repr dt df) f /\ nearest (snd (inverted (fl 53) (dt, df)) * inject_Z (2 ^ 34)) f.
Proof. exact c61_pipe_inverted. Qed.
Print Assumptions C61_inverted_partial.
Example C61_case : let df := fl 53 (12 # 100000) in (fl 53 df == df)%Q /\ (Qabs df < (1 # 2 ^ 13) - (1 # 2 ^ 35))%Q /\ (Qabs df <= (1 # 2 ^ 13) - (1 # 2 ^ 25))%Q /\
  accepted [102] (printed false (fl 53) (fun _ => [48]) 0 df) 2061584 /\ accepted [102] (printed true (fl 53) (fun _ => [48]) 0 df) (-2061337).
Proof.
  split; [vm_compute; reflexivity|]. split; [vm_compute; reflexivity|]. split; [vm_compute; discriminate|].
  split; (eexists; split; [vm_compute; reflexivity|vm_compute; reflexivity]).
Qed.

(** C62; [inverted] gives the exchanged offsets *)
Theorem C62 : forall rs repr flag dt df, (forall x, field_ok (repr x)) ->
  let c := if Z.testbit flag 0 then inverted rs (dt, df) else (dt, df) in
  exists freq time n, output rs repr flag dt df = freq ++ (if Z.testbit flag 2 then [] else 9 :: time) /\
    (if Z.testbit flag 1 then exists k, decimal freq k /\ nearest (rs (snd c * inject_Z (2 ^ 34))%Q) k else freq = repr (snd c)) /\
    decimal time n /\ nearest (if Z.testbit flag 3 then rs (fst c * 8)%Q else fst c) n.
Proof. exact c62. Qed.
Print Assumptions C62.
(** the digits determine the number *)
Theorem C62_unique : forall s n m, decimal s n -> decimal s m -> n = m.
Proof. exact decimal_unique. Qed.
Print Assumptions C62_unique.
(** "-172", tab, "1000003" *)
Example C62_case : field_ok [48; 46; 53] /\
  output (fl 53) (fun _ => [48; 46; 53]) 2 1000003 (-(1 # 100000000)) = [45; 49; 55; 50; 9; 49; 48; 48; 48; 48; 48; 51] /\
  output (fl 53) (fun _ => [48; 46; 53]) 12 1000003 (-(1 # 100000000)) = [48; 46; 53].
Proof. split; [exists [48; 46], 53; split; reflexivity|]. split; vm_compute; reflexivity. Qed.

(** C73 *)
Theorem C73_refuted : ~ C73_statement.
Proof. exact c73_refuted. Qed.
Print Assumptions C73_refuted.
Theorem C73_partial :
  Forall2 Qeq (generate_precompensations (fl 53) 0 0 0 false) [0]%Q /\
  Forall2 Qeq (generate_precompensations (fl 53) 1 10 5 false) [1; 6; -(4); 11; -(9)]%Q /\
  Forall2 Qeq (generate_precompensations (fl 53) 1 1 5 false) [1]%Q /\
  Forall2 Qeq (generate_precompensations (fl 53) 1 10 5 true) [1; 6]%Q.
Proof. exact c73_actual. Qed.
Print Assumptions C73_partial.
Example C73_case : Forall2 Qeq (generate_precompensations (fl 53) 1 10 5 true) [1; 6]%Q.
Proof. vm_compute. repeat constructor. Qed.
