(** The accuracy of the search when the coincidences stand out in the data: C98. *)
From Coq Require Import QArith Qabs.
From Verif Require Import Float Base TimestampsModel TimestampsSpec UtilsModel UtilsSpec FpfindModel FpfindSpec FpfindRefute AccuracySpec PairSpec PairProofs SignalSpec SignalProofs SignalCase.
Local Open Scope Z_scope.

(** C98 *)
Theorem C98 : forall e fuel M P A B res D F W j x y, exact_fpu M -> accurate_to e (num_bins P) (len A) (len B) M -> (0 <= j)%Q -> (0 < target_resolution P)%Q -> (0 < res)%Q ->
  (0 < separation_duration P)%Q -> (0 <= W)%Q -> always_clear e P A B res D F j W -> time_freq fuel M P A B res = Ok (x, y) ->
  found_within 1 e P A B res D F j W (x - D) (y - F).
Proof. exact c98. Qed.
Print Assumptions C98.
Theorem C98_fpfind : forall e fuel M P A bob res df0s dt df, exact_fpu M -> accurate_to e (num_bins P) (len A) (len bob) M -> good_xc M -> (0 < target_resolution P)%Q -> (0 < res)%Q ->
  (0 < separation_duration P)%Q -> (forall df0, In df0 df0s -> ~ (1 + df0 == 0)%Q) -> fpfind fuel M P A bob res df0s false = Ok (dt, df) ->
  exists df0 B, In df0 df0s /\ same_values B (map (corrected (0, df0)%Q) bob) /\
    forall D F j W, (0 <= j)%Q -> (0 <= W)%Q -> let D' := (D / (1 + df0))%Q in let F' := ((1 + F) / (1 + df0) - 1)%Q in
      always_clear e P A B res D' F' j W -> found_within (Qabs (1 + df0)) e P A B res D' F' j W (dt - D) (df - F).
Proof. exact c98_fpfind. Qed.
Print Assumptions C98_fpfind.
(** A delay of 12288 ns growing by 2^-16, with a jitter of at most 1 ns: cells of 8192 and then of 4096 ns, and the result within a cell. *)
Example C98_case : exact_fpu MQ /\ accurate_to 0 (num_bins P98) (len alice98) (len bob98) MQ /\ always_clear 0 P98 alice98 bob98 8192 12288 (1 # 65536) 1 65536 /\
  time_freq 2 MQ P98 alice98 bob98 8192 = Ok (196609 # 16, 1 # 65536)%Q.
Proof. split; [exact MQ_exact|]. split; [now apply exact_accurate|]. split; [exact clear98|exact run98]. Qed.
Example C98_case_widths : forall last dur ws, last_common alice98 bob98 last -> (dur == inject_Z (num_wraps P98) * 8192 * inject_Z (num_bins P98))%Q ->
  widths_used 0 P98 alice98 bob98 dur last 8192 ws -> same_values ws [4096; 8192]%Q.
Proof. exact widths98. Qed.
Example C98_case_bound : (freq_error 0 (1 # 65536) 536870912 65536 (widened 1 [4096; 8192]) < 1 # 60000)%Q /\ (time_error 0 (1 # 65536) 536870912 65536 (widened 1 [4096; 8192]) 12288 < 4102)%Q.
Proof. split; vm_compute; reflexivity. Qed.
