(** Times typed into generate_freqcd_testcase: C200. *)
From Coq Require Import QArith String List.
From Verif Require Import Float Base TimestampsModel FpCliSpec CliSpec CdRunModel TsCliModel TsCliSpec GenCliModel GenCliSpec GenCliCase GenRefuseSpec GenRefuseProofs TypedSpec TypedProofs.
Import ListNotations. Local Open Scope string_scope. Local Open Scope list_scope. Local Open Scope Z_scope.

(** C200 *)
Theorem C200 : forall p tmp args ss fs s ls zs, gcommand args ss -> args <> [] -> Forall ggood ss -> ~ In GHelp ss -> last_given gtimes_of ss = None ->
  plain_text s -> has_lines s ls -> entered ls zs -> delivers (grun p tmp args fs s) 1 fs (last_given gout_of ss) greeting (events_at false zs).
Proof. exact c200. Qed.
Print Assumptions C200.
(** Every text has its lines and its times. *)
Theorem C200_all : forall s, exists ls zs, has_lines s ls /\ entered ls zs.
Proof. exact c200_all. Qed.
Print Assumptions C200_all.
(** 1_0, then 1x, then -1: one event; the last line has no newline *)
Definition text200 : list Z := codes "1_0" ++ 10 :: codes "1x" ++ 10 :: codes "-1" ++ 10 :: codes "5".
Example C200_case : gcommand [codes "-x"] [GLegacy] /\ plain_text text200 /\ has_lines text200 [codes "1_0"; codes "1x"; codes "-1"; codes "5"] /\
  entered [codes "1_0"; codes "1x"; codes "-1"; codes "5"] [10] /\
  shown (grun 64 tmpname [codes "-x"] none_fs text200) = Some (1, greeting ++ events_at false [10]).
Proof.
  assert (NN : forall l, forallb (fun c => negb (c =? 10)) l = true -> Forall (fun c => c <> 10) l).
  { intros l H. apply Forall_forall. intros c I. rewrite forallb_forall in H. specialize (H c I). intros ->. discriminate H. }
  split; [exact x_command|]. split; [apply Forall_forall; intros c I; vm_compute in I; repeat (destruct I as [<-|I]; [repeat split; discriminate|]); destruct I|].
  split; [apply (H_line (codes "1_0")); [apply NN; reflexivity|]; apply (H_line (codes "1x")); [apply NN; reflexivity|]; apply (H_line (codes "-1")); [apply NN; reflexivity|]; apply H_open; [discriminate|apply NN; reflexivity]|].
  split; [|vm_compute; reflexivity].
  apply E_number; [apply int_of_word; vm_compute; reflexivity|discriminate|]. apply E_other; [|apply (E_negative _ (-1)); [apply int_of_word; vm_compute; reflexivity|reflexivity]].
  intros z W. apply word_int_of in W. vm_compute in W. discriminate W.
Qed.
