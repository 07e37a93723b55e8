(** Model of fpfind.py: time_freq, fpfind, generate_precompensations and the output of main.

    Logging, argument parsing and file reading are not modelled (reading is, in the model files of the two
    formats).  Numbers are as in UtilsModel; [fpu] collects what floating point and the transforms compute.
    Division by zero gives 0 here and infinities there: it needs a zero separation, or a relative frequency
    of exactly -1, which line 292 refuses in both. *)
From Coq Require Import QArith Qabs Qround Qminmax.
From Verif Require Import Float Base TimestampsModel UtilsModel.
Local Open Scope Z_scope.

Record fpu : Type := mkFpu {
  rt : Q -> Q;                            (* rounding of timestamp arrays *)
  rs : Q -> Q;                            (* rounding of scalars *)
  xc : list Z -> list Z -> list Q;        (* the cross-correlation of two histograms *)
  zs : Q -> list Q -> Q }.                (* the significance of a peak over a background *)

(** lib/constants.py 14-18, fpfind.py 51 (the float64 nearest to the square root of 2) *)
Definition NTP_MAXDELAY_NS : Q := 100000000.
Definition MAX_FCORR : Q := 1 # 8192.
Definition RES_REFINE_FACTOR : Q := 6369051672525773 # 4503599627370496.
Definition EPOCH_LENGTH : Z := Z.shiftl 1 29.

Record params : Type := mkP {
  num_wraps : Z; num_bins : Z; target_resolution : Q; threshold : Q; separation_duration : Q }.

(** variables of the loop: bts, resolution, dt, f, and whether curr_iteration == 1 *)
Record fstate : Type := mkS { bts : list Q; resolution : Q; dt : Q; f : Q; is_first : bool }.

Definition qmin (x y : Q) : Q := if Qltb y x then y else x.
Definition qmax (x y : Q) : Q := if Qltb x y then y else x.
(** np.arange(n) * resolution *)
Definition axis (M : fpu) (n : Z) (res : Q) : list Q :=
  map (fun i => rs M (inject_Z (Z.of_nat i) * res)%Q) (seq 0 (Z.to_nat n)).
(** np.sum(ys.reshape(-1, 2), axis=1) *)
Fixpoint merge (M : fpu) (ys : list Q) : pyres (list Q) :=
  match ys with
  | [] => Ok []
  | [_] => Err ValueError
  | a :: b :: r => let* m := merge M r in Ok (rs M (a + b)%Q :: m)
  end.

(** 165-169 and 233-237: slices, transforms, correlation *)
Definition correlate (M : fpu) (P : params) (ats bts : list Q) (start duration res : Q) : pyres (list Q) :=
  let* a := slice_timestamps (rt M) ats (Some start) (Some duration) in
  let* b := slice_timestamps (rt M) bts (Some start) (Some duration) in
  let* ha := histogram a (num_bins P) res in
  let* hb := histogram b (num_bins P) res in
  get_xcorr (xc M) ha hb.
Definition delay_of (M : fpu) (n : Z) (ys : list Q) (res : Q) : pyres Q :=   (* 173-174, 212-213, 240-241 *)
  let* (d, _) := get_timing_delay_fft ys (axis M n res) in Ok d.
Definition sig_of (M : fpu) (ys : list Q) (res : Q) : pyres Q :=       (* 175, 214 *)
  let* s := get_statistics ys (Some res) None 0 in significance (zs M) s.

(** The loop 180-214 of the first iteration: resolution, delay.  The number of bins halves every time. *)
Fixpoint confirm (fuel : nat) (M : fpu) (P : params) (ys : list Q) (res dt1 sig : Q) : pyres (Q * Q) :=
  match fuel with
  | O => Err OutOfFuel
  | S k =>
      if Qeq_bool sig 0 then Err ValueError                            (* 188-192 *)
      else if Qle_bool (threshold P) sig then Ok (res, dt1)            (* 196-198 *)
      else
        let* ys := merge M ys in
        let res := rs M (res * 2)%Q in
        if Qltb 10000 res then Err ValueError                          (* 205-209 *)
        else
          let* dt1 := delay_of M (len ys) ys res in
          let* sig := sig_of M ys res in
          confirm k M P ys res dt1 sig
  end.

Inductive next : Type := Return (dt df : Q) | Again (s : fstate).

(** 156-158: the part of the data used at resolution [res].  end_time is of the arrays' precision, and so is the
    result when max_wraps is the smaller. *)
Definition used_duration (M : fpu) (P : params) (end_time duration res : Q) : Q :=
  let r := rs M (res * inject_Z (num_bins P))%Q in
  let max_wraps := Qfloor (rt M (end_time / r)%Q) in
  let num_wraps := rneQ (rs M (duration / r)%Q) in
  let rd := if max_wraps <? num_wraps then rt M else rs M in
  rd (rd (inject_Z (Z.min num_wraps max_wraps) * res) * inject_Z (num_bins P))%Q.

(** One iteration, 148-307 *)
Definition iteration (M : fpu) (P : params) (ats : list Q) (end_time duration : Q) (s : fstate) : pyres next :=
  let _duration := used_duration M P end_time duration (resolution s) in
  let* ys := correlate M P ats (bts s) 0 _duration (resolution s) in
  let* dt1 := delay_of M (num_bins P) ys (resolution s) in
  let* sig := sig_of M ys (resolution s) in
  let* (res, dt1) :=
    if is_first s then confirm (S (length ys)) M P ys (resolution s) dt1 sig
    else Ok (resolution s, dt1) in
  if Qltb NTP_MAXDELAY_NS (Qabs dt1) then Err ValueError               (* 217-221 *)
  else
    let* _ys := correlate M P ats (bts s) (separation_duration P) _duration res in
    let* _dt1 := delay_of M (num_bins P) _ys res in
    let df1 := rs M (rs M (_dt1 - dt1) / separation_duration P)%Q in
    let threshold_dt := rs M (10 * qmax (Qabs (dt s)) 1)%Q in
    let threshold_df := rs M (10 * qmax (Qabs (rs M (f s - 1))) (rs M (1 # 1000000000)))%Q in
    if negb (is_first s) && (Qltb threshold_dt (Qabs dt1) || Qltb threshold_dt (Qabs _dt1)
                             || Qltb threshold_df (Qabs df1))
    then Ok (Return (dt s) (rs M (f s - 1)%Q))                         (* 251-265 *)
    else
      let dt' := rs M (dt s + rs M (f s * dt1))%Q in                   (* 281 *)
      let f' := rs M (f s * rs M (1 + df1))%Q in                       (* 282 *)
      if Qle_bool MAX_FCORR (Qabs (rs M (f' - 1)%Q)) then Err ValueError  (* 292-297 *)
      else if Qeq_bool res (target_resolution P) then Ok (Return dt' (rs M (f' - 1)%Q))
      else
        let bts' := map (fun t => rt M (rt M (t - dt1) / rs M (1 + df1))%Q) (bts s) in   (* 304 *)
        let ratio := rs M (rs M (separation_duration P / duration) / RES_REFINE_FACTOR)%Q in
        let res' := qmax (rs M (res / ratio)%Q) (target_resolution P) in  (* 305-306 *)
        Ok (Again (mkS bts' res' dt' f' false)).

Fixpoint iterate (fuel : nat) (M : fpu) (P : params) (ats : list Q) (end_time duration : Q) (s : fstate) : pyres (Q * Q) :=
  match fuel with
  | O => Err OutOfFuel
  | S k =>
      let* n := iteration M P ats end_time duration s in
      match n with
      | Return dt df => Ok (dt, df)
      | Again s' => iterate k M P ats end_time duration s'
      end
  end.
(** 99-311 *)
Definition time_freq (fuel : nat) (M : fpu) (P : params) (ats bts : list Q) (res : Q) : pyres (Q * Q) :=
  let* a := getitem ats (-1) in
  let* b := getitem bts (-1) in
  let end_time := qmin a b in
  let duration := rs M (rs M (inject_Z (num_wraps P) * res) * inject_Z (num_bins P))%Q in
  iterate fuel M P ats end_time duration (mkS bts res 0 1 true).

(** ** fpfind (313-387).  Only ValueError is caught; the search itself is any function of the shifted target. *)
Fixpoint scan (rt rs : Q -> Q) (search : list Q -> pyres (Q * Q)) (bob : list Q) (df0s : list Q) (fullscan : bool) : pyres (Q * Q) :=
  match df0s with
  | [] => Err ValueError                                               (* 383-384 *)
  | df0 :: rest =>
      let f := rs (1 + df0)%Q in
      match search (map (fun t => rt (rt (t - 0) / f)%Q) bob) with
      | Err ValueError => scan rt rs search bob rest fullscan
      | Err e => Err e
      | Ok (dt1, df1) =>
          let dt := rs (0 + rs (f * dt1))%Q in
          let f' := rs (f * rs (1 + df1))%Q in
          if fullscan then scan rt rs search bob rest fullscan
          else Ok (dt, rs (f' - 1)%Q)
      end
  end.
Definition fpfind (fuel : nat) (M : fpu) (P : params) (alice bob : list Q) (res : Q) (df0s : list Q) (fullscan : bool) : pyres (Q * Q) :=
  scan (rt M) (rs M) (fun b => time_freq fuel M P alice b res) bob df0s fullscan.

(** ** generate_precompensations (390-420) *)
(** np.arange(1, n) // 2 with every other element negated, from the first *)
Definition flip_flop (n : Z) : list Z :=
  map (fun i => let v := (Z.of_nat i + 1) / 2 in if Z.even (Z.of_nat i) then - v else v) (seq 0 (Z.to_nat (n - 1))).
Definition generate_precompensations (rs : Q -> Q) (start stop step : Q) (ordered : bool) : list Q :=
  if Qeq_bool step 0 then [0%Q]
  else
    let ks := if ordered then map Z.of_nat (seq 0 (Z.to_nat (Qfloor (rs (stop - start) / step)%Q + 1)))
              else flip_flop ((Qfloor (stop / step) + 1) * 2) in
    map (fun k => rs (rs (inject_Z k * step) + start)%Q) ks.

(** ** Output (main, 661-677) *)
Definition bit (b flag : Z) : bool := negb (Z.land flag b =? 0).
(** 665-667 *)
Definition invert (rs : Q -> Q) (dt df : Q) : Q * Q :=
  (rs (rs (- dt) * rs (1 + df))%Q, rs (rs (1 / rs (1 + df)) - 1)%Q).
(** 668-669: round to an integer, ties to even *)
Definition freq_units (rs : Q -> Q) (df : Q) : Z := rneQ (rs (df * inject_Z (Z.shiftl 1 34))%Q).
(** str(n) of an int *)
Fixpoint digits (fuel : nat) (v : Z) : list Z :=
  match fuel with
  | O => []
  | S k => if v <? 10 then [48 + v] else digits k (v / 10) ++ [48 + v mod 10]
  end.
Definition dec (v : Z) : list Z :=
  if v <? 0 then 45 :: digits (Z.to_nat (Z.log2 (- v) + 1)) (- v) else digits (Z.to_nat (Z.log2 v + 1)) v.
Definition TAB : Z := 9.
(** characters removed by str.rstrip among ASCII *)
Definition is_blank (c : Z) : bool := (c =? 32) || ((9 <=? c) && (c <=? 13)) || ((28 <=? c) && (c <=? 31)).
Fixpoint lstrip (s : list Z) : list Z :=
  match s with c :: r => if is_blank c then lstrip r else s | [] => [] end.
Definition rstrip (s : list Z) : list Z := rev (lstrip (rev s)).
(** 664-677: the line printed; [repr] is str() of a float *)
Definition output (rs : Q -> Q) (repr : Q -> list Z) (flag : Z) (dt df : Q) : list Z :=
  let '(dt, df) := if bit 1 flag then invert rs dt df else (dt, df) in
  let freq := if bit 2 flag then dec (freq_units rs df) else repr df in
  let dt := if bit 8 flag then rs (dt * 8)%Q else dt in
  let out := freq ++ [TAB] in
  let out := if negb (bit 4 flag) then out ++ dec (rneQ dt) ++ [TAB] else out in
  rstrip out.
