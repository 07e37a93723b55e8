(** Model of the messages of a search: lib/constants.py 20-57 (PeakFindingFailed), the raises of fpfind.py's time_freq
    with what they carry, and the lines of level INFO which fpfind writes (351-380).

    The definitions repeat those of FpfindModel with the failure kept; [erased] gives back the exception (ScanLogProofs
    shows that they agree).  Messages of other levels are not modelled, nor is the text of a ValueError of numpy
    ([other]). *)
From Coq Require Import QArith Qabs String.
From Verif Require Import Float Base TimestampsModel UtilsModel FpfindModel ReportModel.
Local Open Scope Z_scope.

(** ** PeakFindingFailed (20-38) *)
Record pff : Type := mkF { message : list Z; f_s : option Q; f_r : option Q; f_dt1 : option Q; f_dt2 : option Q; f_dt : option Q; f_df : option Q }.
(** f"{v:.0f}": ties to even, as [fixed]; no zero printed here is negative *)
Definition fixed0 (v : Q) : list Z := (if Qltb v 0 then [45] else []) ++ dec (rneQ (Qabs v)).
Definition given (o : option Q) (show : Q -> list Z) : list (list Z) := match o with Some v => [show v] | None => [] end.
(** __str__ (40-57).  [rs] is the rounding of df*1e6. *)
Definition supplement (rs : Q -> Q) (e : pff) : list (list Z) :=
  given (f_s e) (fun v => text "S=" ++ pad 8 (fixed 3 v)) ++
  given (f_r e) (fun v => text "r=" ++ pad 5 (fixed0 v)) ++
  given (f_dt1 e) (fun v => text "dt1=" ++ pad 11 (fixed0 v)) ++
  given (f_dt2 e) (fun v => text "dt2=" ++ pad 11 (fixed0 v)) ++
  given (f_dt e) (fun v => text "dt=" ++ pad 11 (fixed0 v)) ++
  given (f_df e) (fun v => text "df=" ++ fixed 4 (rs (v * 1000000)%Q) ++ text "ppm").
Definition pff_str (rs : Q -> Q) (e : pff) : list Z :=
  match supplement rs e with
  | [] => message e
  | l => message e ++ text " (" ++ joined_by (text ", ") l ++ text ")"
  end.

(** ** time_freq with its failures *)
Inductive failure : Type := Failed (e : pff) | Raised (e : exn).
Definition logged (A : Type) : Type := res failure A.
Definition erased (e : failure) : exn := match e with Failed _ => ValueError | Raised e => e end.
Definition lift {A} (m : pyres A) : logged A := match m with Ok a => Ok a | Err e => Err (Raised e) end.
Definition failed {A} (msg : string) (s r dt1 : Q) : logged A :=
  Err (Failed (mkF (text msg) (Some s) (Some r) (Some dt1) None None None)).
(** 180-214: also the significance, which later messages carry *)
Fixpoint confirm_log (fuel : nat) (M : fpu) (P : params) (ys : list Q) (res dt1 sig : Q) : logged (Q * Q * Q) :=
  match fuel with
  | O => Err (Raised OutOfFuel)
  | S k =>
      if Qeq_bool sig 0 then failed "Bin saturation  " sig res dt1     (* 188-192 *)
      else if Qle_bool (threshold P) sig then Ok (res, dt1, sig)       (* 196-198 *)
      else
        let* ys := lift (merge M ys) in
        let res := rs M (res * 2)%Q in
        if Qltb 10000 res then failed "Resolution OOB  " sig res dt1   (* 205-209 *)
        else
          let* dt1 := lift (delay_of M (len ys) ys res) in
          let* sig := lift (sig_of M ys res) in
          confirm_log k M P ys res dt1 sig
  end.
(** 148-307 *)
Definition iteration_log (M : fpu) (P : params) (ats : list Q) (end_time duration : Q) (s : fstate) : logged next :=
  let _duration := used_duration M P end_time duration (resolution s) in
  let* ys := lift (correlate M P ats (bts s) 0 _duration (resolution s)) in
  let* dt1 := lift (delay_of M (num_bins P) ys (resolution s)) in
  let* sig := lift (sig_of M ys (resolution s)) in
  let* (c, sig) :=
    if is_first s then confirm_log (S (length ys)) M P ys (resolution s) dt1 sig
    else Ok (resolution s, dt1, sig) in
  let (res, dt1) := c in
  if Qltb NTP_MAXDELAY_NS (Qabs dt1) then failed "Time delay OOB  " sig res dt1   (* 217-221 *)
  else
    let* _ys := lift (correlate M P ats (bts s) (separation_duration P) _duration res) in
    let* _dt1 := lift (delay_of M (num_bins P) _ys res) in
    let df1 := rs M (rs M (_dt1 - dt1) / separation_duration P)%Q in
    let threshold_dt := rs M (10 * qmax (Qabs (dt s)) 1)%Q in
    let threshold_df := rs M (10 * qmax (Qabs (rs M (f s - 1))) (rs M (1 # 1000000000)))%Q in
    if negb (is_first s) && (Qltb threshold_dt (Qabs dt1) || Qltb threshold_dt (Qabs _dt1)
                             || Qltb threshold_df (Qabs df1))
    then Ok (Return (dt s) (rs M (f s - 1)%Q))                         (* 251-265 *)
    else
      let dt' := rs M (dt s + rs M (f s * dt1))%Q in                   (* 281 *)
      let f' := rs M (f s * rs M (1 + df1))%Q in                       (* 282 *)
      if Qle_bool MAX_FCORR (Qabs (rs M (f' - 1)%Q)) then              (* 292-297 *)
        Err (Failed (mkF (text "Compensation OOB") (Some sig) (Some res) (Some dt1) (Some _dt1) (Some dt') (Some (rs M (f' - 1)%Q))))
      else if Qeq_bool res (target_resolution P) then Ok (Return dt' (rs M (f' - 1)%Q))
      else
        let bts' := map (fun t => rt M (rt M (t - dt1) / rs M (1 + df1))%Q) (bts s) in   (* 304 *)
        let ratio := rs M (rs M (separation_duration P / duration) / RES_REFINE_FACTOR)%Q in
        let res' := qmax (rs M (res / ratio)%Q) (target_resolution P) in  (* 305-306 *)
        Ok (Again (mkS bts' res' dt' f' false)).
Fixpoint iterate_log (fuel : nat) (M : fpu) (P : params) (ats : list Q) (end_time duration : Q) (s : fstate) : logged (Q * Q) :=
  match fuel with
  | O => Err (Raised OutOfFuel)
  | S k =>
      let* n := iteration_log M P ats end_time duration s in
      match n with
      | Return dt df => Ok (dt, df)
      | Again s' => iterate_log k M P ats end_time duration s'
      end
  end.
(** 99-311 *)
Definition time_freq_log (fuel : nat) (M : fpu) (P : params) (ats bts : list Q) (res : Q) : logged (Q * Q) :=
  let* a := lift (getitem ats (-1)) in
  let* b := lift (getitem bts (-1)) in
  let end_time := qmin a b in
  let duration := rs M (rs M (inject_Z (num_wraps P) * res) * inject_Z (num_bins P))%Q in
  iterate_log fuel M P ats end_time duration (mkS bts res 0 1 true).

(** ** fpfind (351-384): the lines of level INFO and the result.  [other df0] is the text of a ValueError that is not a
    PeakFindingFailed. *)
Definition ppm_text (rs : Q -> Q) (df0 : Q) : list Z := pad 7 (fixed 3 (rs (df0 * 1000000)%Q)).
Definition failed_text (rs : Q -> Q) (df0 : Q) (why : list Z) : list Z :=
  text "Peak finding failed, " ++ ppm_text rs df0 ++ text " ppm: " ++ why.
Definition found_text (rs : Q -> Q) (df0 target dt df : Q) : list Z :=
  text "Peak found,          " ++ ppm_text rs df0 ++ text " ppm: " ++ pff_str rs (mkF [] None (Some target) None None (Some dt) (Some df)).
Fixpoint scan_log (rt rs : Q -> Q) (target : Q) (other : Q -> list Z) (search : list Q -> logged (Q * Q)) (bob : list Q) (df0s : list Q) (fullscan : bool)
  : list (list Z) * pyres (Q * Q) :=
  match df0s with
  | [] => ([], Err ValueError)                                         (* 383-384 *)
  | df0 :: rest =>
      let f := rs (1 + df0)%Q in
      let more line := let (lines, r) := scan_log rt rs target other search bob rest fullscan in (line :: lines, r) in
      match search (map (fun t => rt (rt (t - 0) / f)%Q) bob) with
      | Err (Failed e) => more (failed_text rs df0 (pff_str rs e))     (* 364-366 *)
      | Err (Raised ValueError) => more (failed_text rs df0 (other df0))
      | Err (Raised e) => ([], Err e)
      | Ok (dt1, df1) =>
          let dt := rs (0 + rs (f * dt1))%Q in
          let f' := rs (f * rs (1 + df1))%Q in
          let line := found_text rs df0 target dt (rs (f' - 1)%Q) in   (* 372-375 *)
          if fullscan then more line else ([line], Ok (dt, rs (f' - 1)%Q))
      end
  end.
Definition fpfind_log (fuel : nat) (M : fpu) (P : params) (other : Q -> list Z) (alice bob : list Q) (res : Q) (df0s : list Q) (fullscan : bool)
  : list (list Z) * pyres (Q * Q) :=
  scan_log (rt M) (rs M) (target_resolution P) other (fun b => time_freq_log fuel M P alice b res) bob df0s fullscan.
