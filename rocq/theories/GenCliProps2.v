(** The chain of processes in tests/freqcd/test_freqcd.py: C134. *)
From Coq Require Import QArith String List.
From Verif Require Import Float Base FreqcdModel FreqcdSpec FreqcdCliSpec FreqcdExamples FpfindModel MiscModel CdRunModel CdRunSpec TimestampsModel TimestampsSpec ChainCase FpCliSpec CliSpec TsCliModel TsCliSpec
  GenCliModel GenCliSpec GenCliCase ChainSpec GenCliChain.
Import ListNotations. Local Open Scope string_scope. Local Open Scope list_scope. Local Open Scope Z_scope.

(** C134 *)
Theorem C134 : forall p args1 ss1 tmp1 fs1 in1 ws ts junk ib ob fb prog args2 ss2 f fs2 args3 ss3 tmp3 fs3,
  54 <= p -> gcommand args1 ss1 -> Forall ggood ss1 -> ~ In GHelp ss1 -> last_given gout_of ss1 = None -> last_given gtimes_of ss1 = Some ws -> Forall2 whole ws ts ->
  Forall (fun t => 0 <= t < 2 ^ 54) ts -> nondecr ts ->
  alloc_ok ib ob fb -> asks args2 ss2 f -> static false ss2 -> FreqcdCliSpec.last_of FreqcdCliSpec.in_of ss2 = None -> FreqcdCliSpec.last_of FreqcdCliSpec.out_of ss2 = None ->
  with_input args3 ss3 [45] -> Forall ggood ss3 -> ~ In GHelp ss3 -> ~ In GLegacy ss3 -> last_given gtimes_of ss3 = None -> last_given gout_of ss3 = None -> fs3 tmp3 = None ->
  exists e1 e2 out times,
    grun p tmp1 args1 fs1 in1 = Ends e1 /\ code e1 = 0 /\
    freqcd_main true junk ib ob fb (prog :: args2) fs2 (CdRunModel.stdout e1) = Some (Ok e2) /\ code e2 = 0 /\
    said (grun p tmp3 args3 fs3 (CdRunModel.stdout e2)) 0 fs3 out /\ numbers (map (fun t => t mod 2 ^ 54) times) out /\ length times = length ts /\ nondecr times /\
    forall i t0 t t', nth_error ts 0 = Some t0 -> nth_error ts i = Some t -> nth_error times i = Some t' -> accurate f t0 (Z.of_nat i / 1024 + 1) t t'.
Proof. exact c134. Qed.
Print Assumptions C134.
(** the test case: 0, 1000000000, 2000000000 and -f 1000000 *)
Example C134_case : gcommand (codes "-t" :: ws130) [GTimes ws130] /\ Forall ggood [GTimes ws130] /\ Forall2 whole ws130 zs130 /\ nondecr zs130 /\ asks (args_f 1000000) (ss_f 1000000) 1000000 /\ with_input [[45]] [] [45] /\
  match grun 64 tmpname (codes "-t" :: ws130) none_fs [] with
  | Ends e => shown (grun 64 tmpname [[45]] none_fs (piped 1000000 (CdRunModel.stdout e)))
  | _ => None
  end = Some (0, lines_text (map codes ["0"; "1000058207"; "2000116415"])).
Proof.
  split; [pose proof (times_command [] [] G_end) as H; rewrite app_nil_r in H; exact H|]. split; [pose proof good130 as G; inversion G; assumption|]. split; [exact whole130|]. split; [vm_compute; repeat split; discriminate|].
  split; [apply asks_f; discriminate|]. split; [apply input_alone; [right; now left|repeat constructor; discriminate]|]. vm_compute. reflexivity.
Qed.
(** the second example of the header of generate_freqcd_testcase: forwards and back *)
Theorem C134_twice : forall p args1 ss1 tmp1 fs1 in1 ws ts junk ib ob fb prog args2 ss2 f fs2 junk3 ib3 ob3 fb3 prog3 args3 ss3 g fs3,
  gcommand args1 ss1 -> Forall ggood ss1 -> ~ In GHelp ss1 -> last_given gout_of ss1 = None -> last_given gtimes_of ss1 = Some ws -> Forall2 whole ws ts ->
  Forall (fun t => 0 <= t < 2 ^ 53) ts -> nondecr ts -> len ts < 2 ^ 60 ->
  alloc_ok ib ob fb -> asks args2 ss2 f -> static false ss2 -> FreqcdCliSpec.last_of FreqcdCliSpec.in_of ss2 = None -> FreqcdCliSpec.last_of FreqcdCliSpec.out_of ss2 = None ->
  alloc_ok ib3 ob3 fb3 -> asks args3 ss3 g -> static false ss3 -> FreqcdCliSpec.last_of FreqcdCliSpec.in_of ss3 = None ->
  exists e1 e2 e3 times,
    grun p tmp1 args1 fs1 in1 = Ends e1 /\ code e1 = 0 /\
    freqcd_main true junk ib ob fb (prog :: args2) fs2 (CdRunModel.stdout e1) = Some (Ok e2) /\ code e2 = 0 /\
    freqcd_main true junk3 ib3 ob3 fb3 (prog3 :: args3) fs3 (CdRunModel.stdout e2) = Some (Ok e3) /\ code e3 = 0 /\
    output_of (files e3) (CdRunModel.stdout e3) ss3 = Some (events_at false times) /\ length times = length ts /\ nondecr times /\
    forall i t0 t t', nth_error ts 0 = Some t0 -> nth_error ts i = Some t -> nth_error times i = Some t' ->
      accurate2 f g t0 (Z.of_nat i / 1024 + 1) t t' /\ (inverse_units f g -> restored t0 (Z.of_nat i / 1024 + 1) t t').
Proof. exact c134_twice. Qed.
Print Assumptions C134_twice.
(** -999933 in the header is not the inverse of 1000000 (that is -999942), but for these times it makes no difference beyond a unit *)
Example C134_twice_case : asks (args_f (-999933)) (ss_f (-999933)) (-999933) /\ inverse_units 1000000 (-999942) /\ ~ inverse_units 1000000 (-999933) /\
  piped (-999933) (piped 1000000 (events_at false zs130)) = events_at false [0; 1000000000; 2000000000].
Proof. split; [apply asks_f; discriminate|]. split; [vm_compute; discriminate|]. split; [vm_compute; intros H; apply H; reflexivity|]. vm_compute. reflexivity. Qed.
