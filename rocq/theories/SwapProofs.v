From Coq Require Import QArith Qabs Lqa.
From Verif Require Import Float Base FreqcdSpec UtilsModel UtilsSpec FpfindModel FpfindSpec AccuracySpec AccuracyProofs PairSpec SignalSpec RoundedSpec RoundedProofs WholeSpec WholeProofs SwapSpec.
Local Open Scope Z_scope.

Lemma found_met e fuel M p P A B res D F j W a b dt df : rt M = fl p -> rs M = fl 53 -> accurate_to e (num_bins P) (len A) (len B) M -> (0 <= e)%Q -> 54 <= p -> (0 < target_resolution P)%Q -> (0 < res)%Q -> (fl 53 res == res)%Q ->
  (0 < separation_duration P)%Q -> (0 <= W)%Q -> (0 <= j)%Q -> Forall (device_time 54) B -> getitem A (-1) = Ok a -> getitem B (-1) = Ok b ->
  (forall s ws k r d1 d2, history M P A (qmin a b) (rs M (rs M (inject_Z (num_wraps P) * res) * inject_Z (num_bins P))%Q) (mkS B res 0 1 true) s ws ->
    finds M P A (qmin a b) (rs M (rs M (inject_Z (num_wraps P) * res) * inject_Z (num_bins P))%Q) s r d1 d2 -> (r == resolution s * inject_Z (2 ^ k))%Q -> doublings P ws (resolution s) k ->
    clear_state U53 e (rt M) P A D F j W (used_duration M P (qmin a b) (rs M (rs M (inject_Z (num_wraps P) * res) * inject_Z (num_bins P))%Q) (resolution s)) s k) ->
  fpfind fuel M P A B res [0%Q] false = Ok (dt, df) ->
  exists ws, cells_of M P A B res ws /\ (Qabs (df - F) <= freq_off P F j W ws)%Q /\ (Qabs (dt - D) <= time_off P D F j W ws dt)%Q.
Proof.
  intros RT RS AC E0 PP TR R0 RF SP W0 J0 DV GA GB CL FP.
  destruct (scan_plain M p _ fuel _ _ _ dt df RT RS PP DV FP) as (x & y & TF & ED & EF).
  assert (RS' : forall v, rs M v = fl 53 v) by (intros v; now rewrite RS).
  destruct (c99_met U53 e fuel M P A B res D F W j x y a b) as (ws & EN & B1 & B2); try assumption.
  { exact (rounds_float M RS'). } { exact (float_by_value 53 M RS'). } { discriminate. } { discriminate. } { exact (float_representable 53 M _ RS' RF). }
  exists ws. split; [exists a, b; repeat split; assumption|]. unfold freq_off, time_off. cbv zeta.
  set (SF := freq_error _ _ _ _ _) in *. set (SE := time_error _ _ _ _ _ _) in *. clearbody SF SE.
  unfold U53 in *. change (1 # 2 ^ 53)%Q with (1 # 9007199254740992)%Q in *. change (1 # 2 ^ 51)%Q with (1 # 2251799813685248)%Q in *. change (1 # 2 ^ 50)%Q with (1 # 1125899906842624)%Q.
  pose proof (Qabs_nonneg F) as F0. pose proof (Qabs_nonneg x) as X0. pose proof (Qabs_nonneg dt) as D0. pose proof (Qabs_nonneg (y - F)) as Y0.
  assert (T1 : (Qabs y <= Qabs (y - F) + Qabs F)%Q) by (eapply Qle_trans; [|apply Qabs_triangle]; apply Qle_lteq; right; apply Qabs_wd; ring).
  assert (T2 : (Qabs (df - F) <= Qabs (df - y) + Qabs (y - F))%Q) by (eapply Qle_trans; [|apply Qabs_triangle]; apply Qle_lteq; right; apply Qabs_wd; ring).
  assert (T3 : (Qabs (dt - D) <= Qabs (dt - x) + Qabs (x - D))%Q) by (eapply Qle_trans; [|apply Qabs_triangle]; apply Qle_lteq; right; apply Qabs_wd; ring).
  assert (T4 : (Qabs x <= Qabs dt + Qabs (dt - x))%Q).
  { rewrite <- (Qabs_opp (dt - x)). eapply Qle_trans; [|apply Qabs_triangle]. apply Qle_lteq; right; apply Qabs_wd; ring. }
  split; lra.
Qed.
Lemma found e fuel M p P A B res D F j W dt df : rt M = fl p -> rs M = fl 53 -> accurate_to e (num_bins P) (len A) (len B) M -> (0 <= e)%Q -> 54 <= p -> (0 < target_resolution P)%Q -> (0 < res)%Q -> (fl 53 res == res)%Q ->
  (0 < separation_duration P)%Q -> (0 <= W)%Q -> (0 <= j)%Q -> Forall (device_time 54) B -> stand_out e M P A B res D F j W ->
  fpfind fuel M P A B res [0%Q] false = Ok (dt, df) ->
  exists ws, cells_of M P A B res ws /\ (Qabs (df - F) <= freq_off P F j W ws)%Q /\ (Qabs (dt - D) <= time_off P D F j W ws dt)%Q.
Proof.
  intros RT RS AC E0 PP TR R0 RF SP W0 J0 DV (a & b & GA & GB & CL) FP. apply (found_met e fuel M p P A B res D F j W a b); try assumption.
  intros s ws k r d1 d2 HI _ _. now apply CL.
Qed.
Lemma mul_le a b x y : (Qabs a <= x -> Qabs b <= y -> Qabs (a * b) <= x * y)%Q.
Proof.
  intros H1 H2. rewrite Qabs_Qmult. pose proof (Qabs_nonneg a). pose proof (Qabs_nonneg b).
  apply (Qle_trans _ (x * Qabs b)); [now apply Qmult_le_compat_r|]. rewrite (Qmult_comm x), (Qmult_comm x). apply Qmult_le_compat_r; lra.
Qed.
Lemma product_near x y X Y ex ey : (Qabs (x - X) <= ex -> Qabs (y - Y) <= ey -> Qabs (x * y - X * Y) <= Qabs X * ey + Qabs Y * ex + ex * ey)%Q.
Proof.
  intros H1 H2. setoid_replace (x * y - X * Y)%Q with ((X * (y - Y) + Y * (x - X)) + (x - X) * (y - Y))%Q by ring.
  eapply Qle_trans; [apply Qabs_triangle|]. apply Qplus_le_compat; [|now apply mul_le].
  eapply Qle_trans; [apply Qabs_triangle|]. apply Qplus_le_compat; apply mul_le; try assumption; apply Qle_refl.
Qed.
Lemma sum_near x y z X Y Z ex ey ez : (Qabs (x - X) <= ex -> Qabs (y - Y) <= ey -> Qabs (z - Z) <= ez -> Qabs (x * y + z - (X * Y + Z)) <= Qabs X * ey + Qabs Y * ex + ex * ey + ez)%Q.
Proof.
  intros H1 H2 H3. setoid_replace (x * y + z - (X * Y + Z))%Q with ((x * y - X * Y) + (z - Z))%Q by ring.
  eapply Qle_trans; [apply Qabs_triangle|]. apply Qplus_le_compat; [now apply product_near|assumption].
Qed.
Lemma c110 e fuel M p P A B res D F j W j' W' dt1 df1 dt2 df2 : rt M = fl p -> rs M = fl 53 -> accurate_to e (num_bins P) (len A) (len B) M -> accurate_to e (num_bins P) (len B) (len A) M -> (0 <= e)%Q -> 54 <= p ->
  (0 < target_resolution P)%Q -> (0 < res)%Q -> (fl 53 res == res)%Q -> (0 < separation_duration P)%Q -> (0 <= W)%Q -> (0 <= j)%Q -> (0 <= W')%Q -> (0 <= j')%Q ->
  Forall (device_time 54) A -> Forall (device_time 54) B -> ~ (1 + F == 0)%Q ->
  stand_out e M P A B res D F j W -> stand_out e M P B A res (other_D D F) (other_F F) j' W' ->
  fpfind fuel M P A B res [0%Q] false = Ok (dt1, df1) -> fpfind fuel M P B A res [0%Q] false = Ok (dt2, df2) ->
  exists ws1 ws2, cells_of M P A B res ws1 /\ cells_of M P B A res ws2 /\
  let E1 := freq_off P F j W ws1 in let E2 := freq_off P (other_F F) j' W' ws2 in let T1 := time_off P D F j W ws1 dt1 in let T2 := time_off P (other_D D F) (other_F F) j' W' ws2 dt2 in
  (Qabs (freq_invariance df1 df2 - 1) <= Qabs (1 + F) * E2 + Qabs (1 + other_F F) * E1 + E1 * E2)%Q /\
  (Qabs (time_invariance dt1 df2 dt2) <= Qabs D * E2 + Qabs (1 + other_F F) * T1 + T1 * E2 + T2)%Q /\
  (Qabs (time_invariance dt1 df1 dt2 - D * F * (1 + 1 / (1 + F))) <= Qabs D * E1 + Qabs (1 + F) * T1 + T1 * E1 + T2)%Q.
Proof.
  intros RT RS AC AC' E0 PP TR R0 RF SP W0 J0 W1 J1 DA DB NF S1 S2 F1 F2.
  destruct (found e fuel M p P A B res D F j W dt1 df1 RT RS AC E0 PP TR R0 RF SP W0 J0 DB S1 F1) as (ws1 & C1 & A1 & B1).
  destruct (found e fuel M p P B A res (other_D D F) (other_F F) j' W' dt2 df2 RT RS AC' E0 PP TR R0 RF SP W1 J1 DA S2 F2) as (ws2 & C2 & A2 & B2).
  exists ws1, ws2. split; [exact C1|]. split; [exact C2|]. cbv zeta.
  set (E1 := freq_off P F j W ws1) in *. set (E2 := freq_off P (other_F F) j' W' ws2) in *. set (T1 := time_off P D F j W ws1 dt1) in *. set (T2 := time_off P _ _ j' W' ws2 dt2) in *. clearbody E1 E2 T1 T2.
  assert (A1' : (Qabs (1 + df1 - (1 + F)) <= E1)%Q) by (setoid_replace (1 + df1 - (1 + F))%Q with (df1 - F)%Q by ring; exact A1).
  assert (A2' : (Qabs (1 + df2 - (1 + other_F F)) <= E2)%Q) by (setoid_replace (1 + df2 - (1 + other_F F))%Q with (df2 - other_F F)%Q by ring; exact A2).
  unfold freq_invariance, time_invariance. split; [|split].
  - setoid_replace ((df1 + 1) * (df2 + 1) - 1)%Q with ((1 + df1) * (1 + df2) - (1 + F) * (1 + other_F F))%Q by (unfold other_F; field; exact NF). now apply product_near.
  - setoid_replace (dt1 * (1 + df2) + dt2)%Q with (dt1 * (1 + df2) + dt2 - (D * (1 + other_F F) + other_D D F))%Q by (unfold other_F, other_D; field; exact NF). now apply sum_near.
  - setoid_replace (dt1 * (1 + df1) + dt2 - D * F * (1 + 1 / (1 + F)))%Q with (dt1 * (1 + df1) + dt2 - (D * (1 + F) + other_D D F))%Q by (unfold other_D; field; exact NF). now apply sum_near.
Qed.
