(** Property theorems about PeakStatistics.significance2 and g2. *)
From Coq Require Import QArith Qround Lqa.
From Verif Require Import Float Base TimestampsModel UtilsModel UtilsSpec UtilsProofs Peak2Model Peak2Spec Peak2Proofs.
Local Open Scope Z_scope.

(** C175 *)
Theorem C175 : forall s mean r var, 0 < len (signal s) <= len (background s) -> is_mean (background s) mean ->
  group_sums (len (signal s)) (background s) r -> is_variance r var -> ~ (var == 0)%Q ->
  exists k, near_sqrt (excess (signal s) mean * excess (signal s) mean / var * 1000000)%Q k /\
    (0 <= excess (signal s) mean -> significance2 s = Ok (Some (inject_Z k / 1000)))%Q /\
    (excess (signal s) mean < 0 -> significance2 s = Ok (Some (inject_Z (- k) / 1000)))%Q.
Proof. exact c175. Qed.
Print Assumptions C175.
Theorem C175_none : forall s r, group_sums (len (signal s)) (background s) r ->
  significance2 s = Ok None <-> (signal s <> [] /\ constant r) \/ (background s <> [] /\ constant (background s)).
Proof. exact c175_none. Qed.
Print Assumptions C175_none.
Theorem C175_error : forall s, significance2 s = Err ZeroDivisionError <-> signal s = [] /\ ~ (background s <> [] /\ constant (background s)).
Proof. exact c175_error. Qed.
Print Assumptions C175_error.
Example C175_case : let s := mkPeak [9; 7]%Q [1; 2; 2; 4; 3; 3; 6]%Q in
  is_mean (background s) 3%Q /\ group_sums 2 (background s) [3; 6; 6]%Q /\ is_variance [3; 6; 6]%Q 2%Q /\
  excess (signal s) 3 = 10%Q /\ near_sqrt (10 * 10 / 2 * 1000000)%Q 7071 /\ significance2 s = Ok (Some (7071 # 1000))%Q /\
  significance2 (mkPeak [9; 7] [1; 2; 2; 1; 3; 0; 5])%Q = Ok None /\ significance2 (mkPeak [] [1; 2])%Q = Err ZeroDivisionError.
Proof.
  cbv zeta. split; [reflexivity|]. split; [|split; [|split; [reflexivity|split; [|split; [reflexivity|split; reflexivity]]]]].
  - split; [reflexivity|]. change (len [3; 6; 6]%Q) with 3. intros i I. assert (i = 0 \/ i = 1 \/ i = 2) as [->|[->| ->]] by lia; reflexivity.
  - exists 5%Q. split; reflexivity.
  - split; [lia|]. split; [vm_compute; discriminate|right; vm_compute; discriminate].
Qed.

(** C176 *)
Theorem C176 : forall s m, background s <> [] -> is_mean (background s) m ->
  (m == 0 -> UtilsModel.g2 s = Ok None)%Q /\
  (~ m == 0 -> signal s = [] -> UtilsModel.g2 s = Err TypeError)%Q /\
  (forall x, ~ m == 0 -> largest x (signal s) -> exists v, UtilsModel.g2 s = Ok (Some v) /\ v == x / m)%Q.
Proof. exact c176. Qed.
Print Assumptions C176.
Theorem C176_empty : forall s, background s = [] -> UtilsModel.g2 s = Err TypeError.
Proof. exact c176_empty. Qed.
Print Assumptions C176_empty.
Example C176_case : is_mean [1; 3; 2]%Q 2%Q /\ largest 9%Q [4; 9; 7]%Q /\
  (exists v, UtilsModel.g2 (mkPeak [4; 9; 7] [1; 3; 2])%Q = Ok (Some v) /\ v == 9 # 2)%Q /\ UtilsModel.g2 (mkPeak [4] [0; 0])%Q = Ok None.
Proof.
  split; [reflexivity|]. split; [|split; [|reflexivity]].
  - split; [right; now left|]. intros x [<-|[<-|[<-|[]]]]; vm_compute; discriminate.
  - eexists. split; [reflexivity|]. reflexivity.
Qed.
