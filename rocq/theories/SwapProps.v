(** The search with reference and target exchanged: C110. *)
From Coq Require Import QArith Qabs.
From Verif Require Import Float Base TimestampsModel UtilsModel UtilsSpec FpfindModel FpfindSpec FpfindRefute AccuracySpec PairSpec PairProofs SwapSpec SwapProofs SwapCase.
Local Open Scope Z_scope.

(** C110: the product of the factors is 1 and time_invariance dt1 df1 dt2 is 0, up to the errors of the searches.  The first holds; the second holds with the frequency of the
    other side, and with that of the same side the sum is D F (1 + 1 / (1 + F)). *)
Theorem C110_partial : forall e fuel M p P A B res D F j W j' W' dt1 df1 dt2 df2, rt M = fl p -> rs M = fl 53 -> accurate_to e (num_bins P) (len A) (len B) M -> accurate_to e (num_bins P) (len B) (len A) M -> (0 <= e)%Q -> 54 <= p ->
  (0 < target_resolution P)%Q -> (0 < res)%Q -> (fl 53 res == res)%Q -> (0 < separation_duration P)%Q -> (0 <= W)%Q -> (0 <= j)%Q -> (0 <= W')%Q -> (0 <= j')%Q ->
  Forall (device_time 54) A -> Forall (device_time 54) B -> ~ (1 + F == 0)%Q ->
  stand_out e M P A B res D F j W -> stand_out e M P B A res (other_D D F) (other_F F) j' W' ->
  fpfind fuel M P A B res [0%Q] false = Ok (dt1, df1) -> fpfind fuel M P B A res [0%Q] false = Ok (dt2, df2) ->
  exists ws1 ws2, cells_of M P A B res ws1 /\ cells_of M P B A res ws2 /\
  let E1 := freq_off P F j W ws1 in let E2 := freq_off P (other_F F) j' W' ws2 in let T1 := time_off P D F j W ws1 dt1 in let T2 := time_off P (other_D D F) (other_F F) j' W' ws2 dt2 in
  (Qabs (freq_invariance df1 df2 - 1) <= Qabs (1 + F) * E2 + Qabs (1 + other_F F) * E1 + E1 * E2)%Q /\
  (Qabs (time_invariance dt1 df2 dt2) <= Qabs D * E2 + Qabs (1 + other_F F) * T1 + T1 * E2 + T2)%Q /\
  (Qabs (time_invariance dt1 df1 dt2 - D * F * (1 + 1 / (1 + F))) <= Qabs D * E1 + Qabs (1 + F) * T1 + T1 * E1 + T2)%Q.
Proof. exact c110. Qed.
Print Assumptions C110_partial.
Example C110_case : accurate_to 0 (num_bins P110) (len A110) (len B110) MF /\ accurate_to 0 (num_bins P110) (len B110) (len A110) MF /\ (fl 53 65536 == 65536)%Q /\ Forall (device_time 54) A110 /\ Forall (device_time 54) B110 /\
  stand_out 0 MF P110 A110 B110 65536 (inject_Z D110) (1 # 16384) 1 8519680 /\ stand_out 0 MF P110 B110 A110 65536 (other_D (inject_Z D110) (1 # 16384)) (other_F (1 # 16384)) 1 8519680 /\
  fpfind 4 MF P110 A110 B110 65536 [0%Q] false = Ok (dt1_110, df1_110) /\ fpfind 4 MF P110 B110 A110 65536 [0%Q] false = Ok (dt2_110, df2_110) /\
  (Qabs (freq_invariance df1_110 df2_110 - 1) < 1 # 10 ^ 9)%Q /\ (Qabs (time_invariance dt1_110 df2_110 dt2_110) < 101 # 100)%Q.
Proof.
  split; [now apply exact_accurate|]. split; [now apply exact_accurate|]. split; [vm_compute; reflexivity|]. split; [apply device110|]. split; [apply device110|]. split; [exact stand110|]. split; [exact stand110'|].
  split; [apply run110|]. split; [apply run110|]. split; vm_compute; reflexivity.
Qed.
(** The sum the tests expect to be within 1 ns of 0 is 254 ns in this run, in which both results are within 2 ns and 10^-9 of the clock relation. *)
Theorem C110_refuted : exists A B P dt1 df1 dt2 df2, stand_out 0 MF P A B 65536 (inject_Z D110) (1 # 16384) 1 8519680 /\
  fpfind 4 MF P A B 65536 [0%Q] false = Ok (dt1, df1) /\ fpfind 4 MF P B A 65536 [0%Q] false = Ok (dt2, df2) /\
  (Qabs (dt1 - inject_Z D110) < 2)%Q /\ (Qabs (df1 - (1 # 16384)) < 1 # 10 ^ 9)%Q /\ (Qabs (dt2 - other_D (inject_Z D110) (1 # 16384)) < 2)%Q /\ (Qabs (df2 - other_F (1 # 16384)) < 1 # 10 ^ 9)%Q /\
  (254 < time_invariance dt1 df1 dt2)%Q.
Proof.
  exists A110, B110, P110, dt1_110, df1_110, dt2_110, df2_110. split; [exact stand110|]. split; [apply run110|]. split; [apply run110|]. repeat split; vm_compute; reflexivity.
Qed.
Print Assumptions C110_refuted.
