(** Properties of the numerical functions: C45-C52, C69-C72. *)
From Coq Require Import QArith Qabs Qround Lqa Permutation.
From Verif Require Import Float Base TimestampsModel TimestampsSpec EpochsModel UtilsModel UtilsSpec UtilsProofs UtilsProofs2 UtilsProofs3 UtilsRefute.
Local Open Scope Z_scope.

(** C45, for device timestamps ([b] bits, times in units of 1/256 ns) of a format holding them, and a start time
    that is one too. *)
Theorem C45 : forall b p T skip n, 1 <= p -> b <= p -> T <> [] -> Forall (fun ts => ts <> []) T -> Forall (Forall (device_time b)) T ->
  (fl 53 (skip * 1000000000) == n)%Q ->
  (forall m, largest m (map (fun ts => hd 0%Q ts) T) -> device_time b (m + n)) ->
  exists m R, largest m (map (fun ts => hd 0%Q ts) T) /\
    normalize_timestamps (fl p) (fl 53) T skip true = Ok R /\
    Forall2 same_values R (map (fun ts => map (fun t => t - (m + n))%Q (from (m + n)%Q ts)) T).
Proof. exact c45_exact. Qed.
Print Assumptions C45.
(** for arbitrary values the differences are rounded, the selection is not *)
Theorem C45_rounded : forall p T skip, 1 <= p -> T <> [] -> Forall (fun ts => ts <> []) T ->
  exists m S, largest m (map (fun ts => hd 0%Q ts) T) /\ S = fl p (m + fl 53 (skip * 1000000000))%Q /\
    normalize_timestamps (fl p) (fl 53) T skip true = Ok (map (fun ts => map (fun t => fl p (t - S)%Q) (from S ts)) T).
Proof. exact c45. Qed.
Print Assumptions C45_rounded.
(** preserve_relative = False: every array is first moved to start at 0 *)
Theorem C45_separate : forall p T skip, 1 <= p -> Forall (fun ts => ts <> []) T ->
  normalize_timestamps (fl p) (fl 53) T skip false =
  normalize_timestamps (fl p) (fl 53) (map (fun ts => map (fun t => fl p (t - hd 0%Q ts)%Q) ts) T) skip true.
Proof. exact c45_separate. Qed.
Print Assumptions C45_separate.
Example C45_case : Forall (Forall (device_time 40)) [[1; 2; 3]; [2; 5]]%Q /\
  (fl 53 (0 * 1000000000) == 0)%Q /\
  exists R, normalize_timestamps (fl 64) (fl 53) [[1; 2; 3]; [2; 5]]%Q 0 true = Ok R /\ Forall2 same_values R [[0; 1]; [0; 3]]%Q.
Proof.
  split; [|split; [reflexivity|]].
  - assert (D : forall k, 0 <= k < 100 -> device_time 40 (inject_Z k)).
    { intros k K. exists (256 * k). split; [|change (2 ^ 40) with 1099511627776; lia]. rewrite inject_Z_mult. change (inject_Z 256) with 256%Q. field. }
    constructor; [|constructor; [|constructor]].
    + constructor; [apply (D 1); lia|]. constructor; [apply (D 2); lia|]. constructor; [apply (D 3); lia|constructor].
    + constructor; [apply (D 2); lia|]. constructor; [apply (D 5); lia|constructor].
  - eexists. split; [vm_compute; reflexivity|].
    constructor; [|constructor; [|constructor]]; (constructor; [reflexivity|constructor; [reflexivity|constructor]]).
Qed.

(** C46 *)
Theorem C46 : forall b p ts s d, 1 <= p -> b <= p -> Forall (device_time b) ts -> device_time b s -> (exists t, In t ts /\ (s <= t)%Q) ->
  exists l, slice_timestamps (fl p) ts (Some s) (Some d) = Ok l /\ same_values l (map (fun t => t - s)%Q (window s d ts)).
Proof. exact c46_device. Qed.
Print Assumptions C46.
Theorem C46_exact : forall p ts s d, 1 <= p -> Forall (fun t => fl p (t - s) == t - s)%Q ts -> (exists t, In t ts /\ (s <= t)%Q) ->
  exists l, slice_timestamps (fl p) ts (Some s) (Some d) = Ok l /\ same_values l (map (fun t => t - s)%Q (window s d ts)).
Proof. exact c46_exact. Qed.
Print Assumptions C46_exact.
(** any values; no event at or after the start is an IndexError when a duration is given *)
Theorem C46_rounded : forall p ts s d, 1 <= p ->
  slice_timestamps (fl p) ts (Some s) None = Ok (map (fun t => fl p (t - s)%Q) (from s ts)) /\
  slice_timestamps (fl p) ts (Some s) (Some d) =
    match from s ts with
    | [] => Err IndexError
    | l => Ok (filter (fun t => Qltb t d) (map (fun t => fl p (t - s)%Q) l))
    end.
Proof. exact c46. Qed.
Print Assumptions C46_rounded.
Example C46_case : (exists t, In t [1; 4; 6; 8; 9]%Q /\ (4 <= t)%Q) /\
  (exists l, slice_timestamps (fl 64) [1; 4; 6; 8; 9]%Q (Some 4%Q) (Some 4%Q) = Ok l /\ same_values l [0; 2]%Q) /\
  slice_timestamps (fl 64) [1; 4; 6; 8; 9]%Q (Some 10%Q) (Some 4%Q) = Err IndexError.
Proof.
  split; [|split].
  - exists 4%Q. split; [right; now left|lra].
  - eexists. split; [vm_compute; reflexivity|]. constructor; [reflexivity|constructor; [reflexivity|constructor]].
  - vm_compute. reflexivity.
Qed.

(** C47 *)
Theorem C47 : forall (A : Type) (arrays : list (list A)), arrays <> [] ->
  exists n, (exists a, In a arrays /\ len a = n) /\ (forall a, In a arrays -> n <= len a) /\
    get_overlap arrays = Ok (n, map (firstn (Z.to_nat n)) arrays).
Proof. exact @c47. Qed.
Print Assumptions C47.
Example C47_case : get_overlap [[1; 2; 3]; [4; 5]; [6; 7; 8; 9]] = Ok (2, [[1; 2]; [4; 5]; [6; 7]]).
Proof. reflexivity. Qed.

(** C48 *)
Theorem C48 : forall arr n res, arr <> [] -> 0 < n -> (0 < res)%Q -> exists h, histogram arr n res = Ok h /\ len h = n /\
  (forall k, 0 <= k < n -> counts (in_bin n res k) arr (nth (Z.to_nat k) h 0)) /\
  (forall t, exists k, 0 <= k < n /\ in_bin n res k t /\ forall j, 0 <= j < n -> in_bin n res j t -> j = k) /\
  fold_right Z.add 0 h = len arr.
Proof. exact c48. Qed.
Print Assumptions C48.
Example C48_case : histogram [0; 1; 5; 9; 17]%Q 4 2 = Ok [4; 0; 1; 0].
Proof. vm_compute. reflexivity. Qed.

(** C49, for every computed correlation that is less than one half off per bin. *)
Theorem C49 : forall a b s ys xs res, shifted a b s -> aperiodic a -> (s < length a)%nat -> near_correlation a b ys ->
  len xs = len a -> even_axis res xs -> (0 < res)%Q ->
  first_peak ys (Z.of_nat s) /\ (forall k, (k < length a)%nat -> k <> s -> (nth k ys 0 < nth s ys 0)%Q) /\
  exists d e, get_timing_delay_fft ys xs = Ok (d, e) /\
    (d == if (s =? 0)%nat then 0 else inject_Z (centered (len a) (Z.of_nat s)) * res)%Q.
Proof. exact c49. Qed.
Print Assumptions C49.
(** the exact correlation is one *)
Theorem C49_exact : forall a b, Forall (fun v => 0 <= v) a -> Forall (fun v => 0 <= v) b -> near_correlation a b (exact_xc a b).
Proof. exact exact_near. Qed.
Print Assumptions C49_exact.
Example C49_case : shifted [1; 0; 2; 0] [0; 1; 0; 2] 1 /\ aperiodic [1; 0; 2; 0] /\
  get_timing_delay_fft (exact_xc [1; 0; 2; 0] [0; 1; 0; 2]) [0; 1; 2; 3]%Q = Ok (1, - (3))%Q /\
  get_timing_delay_fft (exact_xc [1; 0; 2; 0] [0; 2; 0; 1]) [0; 1; 2; 3]%Q = Ok (- (1), 3)%Q.
Proof.
  split; [|split; [|split; vm_compute; reflexivity]].
  - split; [reflexivity|]. intros i I. cbn [length] in *. destruct i as [|[|[|[|i]]]]; try reflexivity. lia.
  - intros k K. exists 0%nat. split; [cbn; lia|]. cbn [length] in K. destruct k as [|[|[|[|k]]]]; try lia; cbn; lia.
Qed.

(** C50 *)
Theorem C50 : forall hist xs res, hist <> [] -> len xs = len hist -> even_axis res xs -> (0 < res)%Q ->
  exists p a b, first_peak hist p /\ get_timing_delay_fft hist xs = Ok (a, b) /\
    (a == if (p =? 0)%Z then 0 else inject_Z (centered (len hist) p) * res)%Q /\
    (b == if (p =? 0)%Z then 0 else inject_Z (2 * p - len hist - centered (len hist) p) * res)%Q /\
    (Qabs a <= Qabs b)%Q.
Proof. exact c50. Qed.
Print Assumptions C50.
Example C50_case : even_axis 2 [0; 2; 4; 6]%Q /\ get_timing_delay_fft [1; 0; 7; 7]%Q [0; 2; 4; 6]%Q = Ok (- (4), 4)%Q /\
  get_timing_delay_fft [1; 0; 0; 7]%Q [0; 2; 4; 6]%Q = Ok (- (2), 6)%Q /\
  get_timing_delay_fft [1; 0; 0; 0]%Q [0; 2; 4; 6]%Q = Ok (0, - 0)%Q.
Proof.
  split; [|split; [|split]; vm_compute; reflexivity].
  intros i I. cbn [length] in I. destruct i as [|[|[|[|i]]]]; try reflexivity. lia.
Qed.

(** C51.  Full statement: [C51_statement].  A float center is a float slice index, a TypeError. *)
Theorem C51_refuted : ~ C51_statement.
Proof. exact c51_refuted. Qed.
Print Assumptions C51_refuted.
Theorem C51_partial : forall hist res w, hist <> [] -> (0 < res)%Q -> (0 <= w)%Q ->
  exists s p S B, get_statistics hist (Some res) None w = Ok s /\ splits hist (signal s) (background s) S B /\ first_peak hist p /\ In p S.
Proof. exact c51_none. Qed.
Print Assumptions C51_partial.
(** an integer center in range that is not within the last bin's width below 0 *)
Theorem C51_center_partial : forall hist res c w, (0 < res)%Q -> (0 <= w)%Q ->
  (- (inject_Z (len hist) * res) <= c)%Q -> (c < inject_Z (len hist) * res)%Q -> (c < 0 -> res <= - c)%Q ->
  exists s S B, get_statistics hist (Some res) (Some (c, true)) w = Ok s /\ splits hist (signal s) (background s) S B /\
    In (if Qle_bool 0 c then Qfloor (c / res) else len hist - Qfloor (- c / res)) S.
Proof. exact c51_int_in. Qed.
Print Assumptions C51_center_partial.
Theorem C51_float : forall hist res c w, (0 < res)%Q -> (0 <= w)%Q -> 0 < middle_bin (len hist) res c < len hist -> w == 0%Q ->
  get_statistics hist (Some res) (Some (c, false)) w = Err TypeError.
Proof. exact c51_float. Qed.
Print Assumptions C51_float.
(** with exact mean and deviation *)
Theorem C51_flat : forall s m, background s <> [] -> peak_max s = Some m ->
  (forall x y, In x (background s) -> In y (background s) -> x == y)%Q -> significance exact_zs s = Ok 0%Q.
Proof. exact c51_flat. Qed.
Print Assumptions C51_flat.
Example C51_case :
  get_statistics [1; 2; 3; 9; 3; 2; 1; 1]%Q (Some 1%Q) None 2 = Ok (mkPeak [3; 9; 3] [2; 2; 1])%Q /\
  get_statistics [1; 2; 3; 9; 3; 2; 1; 1]%Q (Some 1%Q) (Some (- (2), true))%Q 0 = Ok (mkPeak [1] [9; 3; 2; 1])%Q /\
  get_statistics [1; 2; 3; 9; 3; 2; 1; 1]%Q (Some 1%Q) (Some (- (2), false))%Q 0 = Err TypeError /\
  (exists v, significance exact_zs (mkPeak [3; 9; 3] [2; 2; 1])%Q = Ok v /\ v == 15556 # 1000)%Q /\
  significance exact_zs (mkPeak [3; 9; 3] [2; 2; 2])%Q = Ok 0%Q.
Proof.
  split; [vm_compute; reflexivity|]. split; [vm_compute; reflexivity|]. split; [vm_compute; reflexivity|]. split; [|vm_compute; reflexivity].
  eexists. split; [vm_compute; reflexivity|reflexivity].
Qed.

(** C52 *)
Theorem C52 : forall hist xs res h, len hist = 2 * h -> 0 < h -> len hist <= len xs -> even_axis res xs ->
  exists ys ts, convert_histogram_fft hist xs = (ys, ts) /\ len ys = 2 * h /\ len ts = 2 * h /\
    forall j, 0 <= j < 2 * h -> (nth (Z.to_nat j) ts 0 == inject_Z (j - h) * res)%Q /\
      nth (Z.to_nat j) ys 0%Q = nth (Z.to_nat ((j - h) mod (2 * h))) hist 0%Q.
Proof. exact c52. Qed.
Print Assumptions C52.
Theorem C52_odd : forall hist xs h, len hist = 2 * h + 1 -> 0 <= h -> len hist <= len xs ->
  exists ys ts, convert_histogram_fft hist xs = (ys, ts) /\ len ys = 2 * h + 1 /\ len ts = 2 * h.
Proof. exact c52_odd. Qed.
Print Assumptions C52_odd.
Example C52_case : convert_histogram_fft [5; 6; 7; 8]%Q [0; 2; 4; 6]%Q = ([7; 8; 5; 6], [- (4); - (2); 0; 2])%Q.
Proof. vm_compute. reflexivity. Qed.

(** C69.  [k] are the events of the first party, each moved by [s] bins and any number of turns; the second party
    has them in any order. *)
Theorem C69 : forall ats bts n res s k ys, 0 < n -> (0 < res)%Q -> 0 <= s < n -> ats <> [] ->
  Forall2 (fun t u => exists q, u == t + inject_Z (q * n + s) * res)%Q ats k -> Permutation k bts ->
  exists ha hb, histogram ats n res = Ok ha /\ histogram bts n res = Ok hb /\
    (aperiodic ha -> near_correlation ha hb ys ->
     exists d e, get_timing_delay_fft ys (map (fun i => inject_Z (Z.of_nat i) * res)%Q (seq 0 (Z.to_nat n))) = Ok (d, e) /\
       (d == if (s =? 0)%Z then 0 else inject_Z (centered n s) * res)%Q).
Proof. exact c69. Qed.
Print Assumptions C69.
Example C69_case : Forall2 (fun t u => exists q, u == t + inject_Z (q * 4 + 1) * 2)%Q [0; 3; 3; 9]%Q [2; 5; 13; 11]%Q /\
  histogram [0; 3; 3; 9]%Q 4 2 = Ok [2; 2; 0; 0] /\ histogram [2; 5; 11; 13]%Q 4 2 = Ok [0; 2; 2; 0] /\
  get_timing_delay_fft (exact_xc [2; 2; 0; 0] [0; 2; 2; 0]) [0; 2; 4; 6]%Q = Ok (2, - (6))%Q.
Proof.
  split; [|split; [|split]; vm_compute; reflexivity].
  constructor; [exists 0; reflexivity|]. constructor; [exists 0; reflexivity|]. constructor; [exists 1; reflexivity|].
  constructor; [exists 0; reflexivity|constructor].
Qed.

(** C70 *)
Theorem C70 : forall part order hist xs res k, 2 <= k <= len hist -> len xs = len hist -> even_axis res xs ->
  top_positions hist k part -> Permutation order (map Z.of_nat (seq 0 (Z.to_nat k))) ->
  descending (map (fun o => nth (Z.to_nat (nth (Z.to_nat o) part 0)) hist 0%Q) order) ->
  exists ps rs, get_top_k_delays_fft part order hist xs k = Ok rs /\ Permutation ps part /\
    map (fun r => fst (fst r)) rs = map (fun p => Some (nth (Z.to_nat p) hist 0%Q)) ps /\
    descending (at_positions hist ps) /\
    Forall2 (fun p r => snd (fst r) == if (p =? 0)%Z then 0 else inject_Z (centered (len hist) p) * res)%Q ps rs.
Proof. exact top_k. Qed.
Print Assumptions C70.
(** one delay: the one of get_timing_delay_fft *)
Theorem C70_one : forall part order hist xs res, hist <> [] -> len xs = len hist -> even_axis res xs ->
  exists p a b, first_peak hist p /\ get_top_k_delays_fft part order hist xs 1 = Ok [(None, a, b)] /\
    get_timing_delay_fft hist xs = Ok (a, b) /\ (a == if (p =? 0)%Z then 0 else inject_Z (centered (len hist) p) * res)%Q.
Proof. exact top_one. Qed.
Print Assumptions C70_one.
Example C70_case : top_positions [3; 1; 8; 5]%Q 2 [3; 2] /\ Permutation [1; 0] (map Z.of_nat (seq 0 (Z.to_nat 2))) /\
  descending (map (fun o => nth (Z.to_nat (nth (Z.to_nat o) [3; 2] 0)) [3; 1; 8; 5]%Q 0%Q) [1; 0]) /\
  get_top_k_delays_fft [3; 2] [1; 0] [3; 1; 8; 5]%Q [0; 1; 2; 3]%Q 2 = Ok [(Some 8, - (2), 2); (Some 5, - (1), 3)]%Q.
Proof.
  split; [|split; [|split]].
  - split; [reflexivity|]. split; [constructor; [cbn; lia|constructor; [easy|constructor]]|]. split.
    + constructor; [vm_compute; split; [discriminate|reflexivity]|constructor; [vm_compute; split; [discriminate|reflexivity]|constructor]].
    + intros i j I J NJ. change (len [3; 1; 8; 5]%Q) with 4 in J. assert (j = 0 \/ j = 1) as [->| ->] by (cbn [In] in NJ; lia);
      (destruct I as [<-|[<-|[]]]; vm_compute; discriminate).
  - cbn. apply perm_swap.
  - intros i j [I J]. cbn [map length] in J. assert (i = 0%nat /\ j = 1%nat) as [-> ->] by lia. vm_compute. discriminate.
  - vm_compute. reflexivity.
Qed.

(** C71 *)
Theorem C71 : forall s m mean var, background s <> [] -> peak_max s = Some m -> is_mean (background s) mean -> is_variance (background s) var ->
  ~ (var == 0)%Q ->
  exists n, (mean <= m -> significance exact_zs s = Ok (inject_Z n / 1000))%Q /\ (m < mean -> significance exact_zs s = Ok (inject_Z (- n) / 1000))%Q /\
    near_sqrt ((m - mean) * (m - mean) / var * 1000000)%Q n.
Proof. exact c51_value. Qed.
Print Assumptions C71.
Theorem C71_total : forall s m, signal s <> [] -> background s <> [] -> is_mean (background s) m ->
  exists v, peak_total s = Ok (Some v) /\ (v == fold_right Qplus 0 (map (fun x => x - m) (signal s)))%Q.
Proof. exact total_spec. Qed.
Print Assumptions C71_total.
Example C71_case : is_mean [2; 2; 1]%Q (5 # 3)%Q /\ is_variance [2; 2; 1]%Q (2 # 9)%Q /\ near_sqrt ((9 - (5 # 3)) * (9 - (5 # 3)) / (2 # 9) * 1000000)%Q 15556.
Proof.
  split; [reflexivity|]. split; [exists (5 # 3)%Q; split; reflexivity|]. split; [lia|]. split; [vm_compute; discriminate|]. right. vm_compute. discriminate.
Qed.

(** C72.  Full statement: [C72_statement]. *)
Theorem C72_refuted : ~ C72_statement.
Proof. exact c72_refuted. Qed.
Print Assumptions C72_refuted.
Theorem C72_never : forall s v, significance_raw s <> Ok (Some v).
Proof. exact raw_never. Qed.
Print Assumptions C72_never.
(** None exactly for a non-empty constant background; TypeError otherwise *)
Theorem C72_exact : forall s, (significance_raw s = Ok None <-> background s <> [] /\ forall x y, In x (background s) -> In y (background s) -> (x == y)%Q) /\
  (significance_raw s = Ok None \/ significance_raw s = Err TypeError).
Proof. exact raw_exact. Qed.
Print Assumptions C72_exact.
Example C72_case : significance_raw (mkPeak [5] [3; 3])%Q = Ok None /\ significance_raw (mkPeak [5] [1; 3])%Q = Err TypeError.
Proof. vm_compute. split; reflexivity. Qed.
