(** Six and six events, eight bins of 8192 ns: the correlation is [1; 2; 2; 2; 1; 2; 4; 2], of significance 5.196, and
    [3; 4; 3; 6] with bins of 16384 ns, of significance 5. *)
From Coq Require Import QArith Qabs String List.
From Verif Require Import Float Base TimestampsModel UtilsModel FpfindModel FpfindSpec ReportModel ScanLogModel ScanLogSpec ScanLogProofs ScanLogProofs2 GroundCase.
Import ListNotations. Local Open Scope Q_scope.

Definition P155 : params := mkP 1 8 1 6 65536.
Definition A155 : list Q := [0; 10000; 20000; 41000; 66000; 140000].
Definition B155 : list Q := [100; 30000; 51000; 60000; 70000; 150000].
Definition E155 : pff := mkF (text "Resolution OOB  ") (Some (5196 # 1000)) (Some 16384) (Some (-16384)) None None None.
Lemma run155 : time_freq_log 10 M139 P155 A155 B155 8192 = Err (Failed E155).
Proof. vm_compute. reflexivity. Qed.
Definition s155 : fstate := mkS B155 8192 0 1 true.
Lemma first155 : iteration M139 P155 A155 140000 65536 s155 = Err ValueError.
Proof. vm_compute. reflexivity. Qed.
Lemma later155 s : later M139 P155 A155 140000 65536 s155 s -> s = s155.
Proof. induction 1 as [|s1 s2 L IH E]; [reflexivity|]. subst s1. rewrite first155 in E. discriminate. Qed.
Lemma ys155 : correlate M139 P155 A155 B155 0 (used_duration M139 P155 140000 65536 8192) 8192 = Ok [1; 2; 2; 2; 1; 2; 4; 2].
Proof. vm_compute. reflexivity. Qed.
Lemma paired_merge M ys zs : paired (rs M) ys zs -> merge M ys = Ok zs.
Proof. induction 1 as [|a b l m H IH]; [reflexivity|]. cbn [merge]. rewrite IH. reflexivity. Qed.
(** the widths there are *)
Definition widths155 : list (list Q * Q) := [([1; 2; 2; 2; 1; 2; 4; 2], 8192); ([3; 4; 3; 6], 16384); ([7; 9], 32768); ([16], 65536)].
Lemma widened155 zs w : widened (rs M139) [1; 2; 2; 2; 1; 2; 4; 2] 8192 zs w -> In (zs, w) widths155.
Proof.
  induction 1 as [|zs w zs' W IH H]; [now left|]. apply paired_merge in H.
  destruct IH as [E|[E|[E|[E|[]]]]]; injection E as <- <-; vm_compute in H; try discriminate; injection H as <-; vm_compute; tauto.
Qed.
Lemma c155_refuted : ~ C155_statement.
Proof.
  intros C. destruct (C 10%nat M139 P155 A155 B155 8192 E155 good_xc139 good_zs139 run155) as (s & r & d1 & F1 & F2 & F3 & a & b & st & GA & GB & L & ys & zs & CO & W & S1 & _).
  cbn [E155 f_s f_r f_dt1] in F1, F2, F3. injection F1 as <-. injection F2 as <-.
  vm_compute in GA. injection GA as <-. vm_compute in GB. injection GB as <-.
  match type of L with later _ _ _ ?e ?d _ _ => change e with 140000 in L, CO; replace d with 65536 in L, CO by (vm_compute; reflexivity) end.
  apply later155 in L. subst st. change (bts s155) with B155 in CO. change (resolution s155) with 8192 in CO, W. rewrite ys155 in CO. injection CO as <-.
  apply widened155 in W. destruct W as [E|[E|[E|[E|[]]]]]; try discriminate E. injection E as <-. vm_compute in S1. discriminate.
Qed.
