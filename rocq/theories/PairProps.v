(** The search in terms of differences of pairs of events: C95, C96. *)
From Coq Require Import QArith Qabs Qround.
From Verif Require Import Float Base TimestampsModel TimestampsSpec UtilsModel UtilsSpec FpfindModel FpfindSpec FpfindProofs4 FpfindRefute PairSpec PairProofs PairProofs2.
Local Open Scope Z_scope.

(** C95 *)
Theorem C95 : forall e fuel M P A B res out, exact_fpu M -> accurate_to e (num_bins P) (len A) (len B) M -> (0 < target_resolution P)%Q -> (0 < res)%Q ->
  time_freq fuel M P A B res = Ok out -> exists last dur, last_common A B last /\ (dur == inject_Z (num_wraps P) * res * inject_Z (num_bins P))%Q /\
    search e P A dur last true res 0 1 B out.
Proof. exact c95. Qed.
Print Assumptions C95.
Theorem C95_fpfind : forall e fuel M P alice bob res df0s dt df, exact_fpu M -> accurate_to e (num_bins P) (len alice) (len bob) M -> good_xc M -> (0 < target_resolution P)%Q -> (0 < res)%Q ->
  (forall df0, In df0 df0s -> ~ (1 + df0 == 0)%Q) -> fpfind fuel M P alice bob res df0s false = Ok (dt, df) ->
  exists df0 c B last dur, In df0 df0s /\ same_values B (map (corrected (0, df0)%Q) bob) /\ last_common alice B last /\
    (dur == inject_Z (num_wraps P) * res * inject_Z (num_bins P))%Q /\ search e P alice dur last true res 0 1 B c /\
    (forall t, corrected (dt, df) t == corrected c (corrected (0, df0) t))%Q.
Proof. exact c95_fpfind. Qed.
Print Assumptions C95_fpfind.
(** exact transforms have no error *)
Theorem C95_exact : forall n a b M, xc M = exact_xc -> accurate_to 0 n a b M.
Proof. exact exact_accurate. Qed.
Print Assumptions C95_exact.
(** five and five events: pairs by groups of two lags, and a run of two iterations *)
Example C95_case : map (pairs 8 1 2 (view 0 64 alice96) (view 0 64 bob96)) [0; 1; 2; 3] = [4; 4; 7; 10] /\
  exact_fpu MQ /\ accurate_to 0 (num_bins P1) (len alice1) (len bob1) MQ /\ (0 < target_resolution P1)%Q /\ time_freq 2 MQ P1 alice1 bob1 2 = Ok (196609 # 65536, 1 # 65536)%Q.
Proof. split; [vm_compute; reflexivity|]. split; [exact MQ_exact|]. split; [now apply exact_accurate|]. split; [reflexivity|exact run1]. Qed.

(** C96 *)
Theorem C96_refuted : ~ C96_full.
Proof. exact c96_refuted. Qed.
Print Assumptions C96_refuted.
(** what is found instead *)
Theorem C96_actual : forall M P A B res k q dt df, exact_fpu M -> accurate_to 0 (num_bins P) (len A) (len B) M -> (0 < res)%Q -> constant_delay P A B res (target_resolution P) k q ->
  time_freq 1 M P A B res = Ok (dt, df) ->
  let n := num_bins P in let r := target_resolution P in
  (dt == inject_Z (centered (n / 2 ^ k) (q mod (n / 2 ^ k))) * r)%Q /\ (df == (inject_Z q * r - dt) / separation_duration P)%Q.
Proof. exact c96. Qed.
Print Assumptions C96_actual.
Theorem C96_partial : forall M P A B res k q dt df, exact_fpu M -> accurate_to 0 (num_bins P) (len A) (len B) M -> (0 < res)%Q -> constant_delay P A B res (target_resolution P) k q ->
  time_freq 1 M P A B res = Ok (dt, df) -> ~ (separation_duration P == 0)%Q -> 0 < num_bins P / 2 ^ k ->
  let h := num_bins P / 2 ^ k in
  (- h <= 2 * q < h -> (dt == inject_Z q * target_resolution P)%Q /\ (df == 0)%Q) /\ (~ - h <= 2 * q < h -> ~ (df == 0)%Q).
Proof. exact c96_within. Qed.
Print Assumptions C96_partial.
Example C96_case : constant_delay P96 alice96 bob96 1 2 1 3 /\ bob96 = map (fun t => t + (13 # 2))%Q alice96 /\
  time_freq 1 MQ P96 alice96 bob96 1 = Ok (- (2), 1 # 16384)%Q.
Proof. split; [exact constant96|]. split; [reflexivity|exact run96]. Qed.
