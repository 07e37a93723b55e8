(** What a scan of precompensations and a failed search say: C153 to C155. *)
From Coq Require Import QArith Qabs String List.
From Verif Require Import Float Base TimestampsModel UtilsModel FpfindModel FpfindSpec ReportModel ScanLogModel ScanLogSpec ScanLogProofs ScanLogProofs2 ScanLogCase GroundCase FreqcdExamples.
Import ListNotations. Local Open Scope Z_scope.

(** C153.  The lines of level INFO. *)
Theorem C153 : forall fuel M P other alice bob res df0s full lines r, rs M = fl 53 -> fpfind_log fuel M P other alice bob res df0s full = (lines, r) ->
  let outcome df0 := time_freq_log fuel M P alice (attempt (rt M) (rs M) df0 bob) res in
  r = fpfind fuel M P alice bob res df0s full /\
  Forall2 (fun df0 line => line_for (rs M) (target_resolution P) other df0 (outcome df0) line) (firstn (length lines) df0s) lines /\
  ends outcome (rs M) df0s full (length lines) r.
Proof. exact c153_run. Qed.
Print Assumptions C153.
(** the outcomes are those of the search *)
Theorem C153_outcome : forall fuel M P ats bts res, time_freq fuel M P ats bts res =
  match time_freq_log fuel M P ats bts res with Ok p => Ok p | Err (Failed _) => Err ValueError | Err (Raised e) => Err e end.
Proof. exact outcome_of. Qed.
Print Assumptions C153_outcome.
Definition no_text (_ : Q) : list Z := [].
Example C153_case : let search b := match b with 0%Q :: _ => Ok (-(2000000001 # 2), -(1 # 200000))%Q | _ => Err (Failed E155) end in
  scan_log (fl 64) (fl 53) 1 no_text search [0]%Q [0; 1 # 8192]%Q true =
    ([str "Peak found,            0.000 ppm:  (r=    1, dt=-1000000000, df=-5.0000ppm)";
      str "Peak found,          122.070 ppm:  (r=    1, dt=-1000122071, df=117.0697ppm)"], Err ValueError) /\
  scan_log (fl 64) (fl 53) 1 no_text search [1]%Q [0; -(1 # 100000)]%Q false =
    ([str "Peak finding failed,   0.000 ppm: Resolution OOB   (S=   5.196, r=16384, dt1=     -16384)";
      str "Peak finding failed, -10.000 ppm: Resolution OOB   (S=   5.196, r=16384, dt1=     -16384)"], Err ValueError).
Proof. split; vm_compute; reflexivity. Qed.
Example C153_run_case : rs M139 = fl 53 /\ fpfind_log 10 M139 P155 no_text A155 B155 8192 [0]%Q false =
    ([str "Peak finding failed,   0.000 ppm: Resolution OOB   (S=   5.196, r=16384, dt1=     -16384)"], Err ValueError).
Proof. split; [reflexivity|vm_compute; reflexivity]. Qed.

(** C154. *)
Theorem C154 : forall n M P ats bts res e, good_xc M -> time_freq_log n M P ats bts res = Err (Failed e) -> truthful P e.
Proof. exact c154. Qed.
Print Assumptions C154.
Example C154_case : good_xc M139 /\ time_freq_log 10 M139 P155 A155 B155 8192 = Err (Failed E155) /\ truthful P155 E155.
Proof. split; [exact good_xc139|]. split; [exact run155|]. exact (C154 _ _ _ _ _ _ _ good_xc139 run155). Qed.

(** C155. *)
Theorem C155_refuted : ~ C155_statement.
Proof. exact c155_refuted. Qed.
Print Assumptions C155_refuted.
Theorem C155_partial : forall n M P ats bts res e, good_xc M -> time_freq_log n M P ats bts res = Err (Failed e) -> message e <> text "Resolution OOB  " ->
  exists s r d1, f_s e = Some s /\ f_r e = Some r /\ f_dt1 e = Some d1 /\ measured_in M P ats bts res s r d1.
Proof. exact c155_partial. Qed.
Print Assumptions C155_partial.
(** the significance and the delay are of half the resolution shown *)
Theorem C155_actual : forall n M P ats bts res e, good_xc M -> time_freq_log n M P ats bts res = Err (Failed e) -> message e = text "Resolution OOB  " ->
  exists s d1 w, f_s e = Some s /\ f_r e = Some (rs M (w * 2)%Q) /\ f_dt1 e = Some d1 /\ measured_in M P ats bts res s w d1.
Proof. exact c155_actual. Qed.
Print Assumptions C155_actual.
Example C155_case : let P := mkP 1 8 1 5 65536 in exists e, time_freq_log 10 M139 P A155 B155 8192 = Err (Failed e) /\ message e <> text "Resolution OOB  " /\
  pff_str (fl 53) e = str "Compensation OOB (S=   5.196, r= 8192, dt1=     -16384, dt2=          0, dt=     -16384, df=250000.0000ppm)".
Proof. cbv zeta. eexists. split; [vm_compute; reflexivity|]. split; [vm_compute; discriminate|vm_compute; reflexivity]. Qed.
