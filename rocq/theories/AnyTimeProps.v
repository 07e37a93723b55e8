(** Times of generate_freqcd_testcase written in any way: C201. *)
From Coq Require Import QArith String List.
From Verif Require Import Float Base TimestampsModel FpCliSpec CliSpec CdRunModel TsCliModel TsCliSpec GenCliModel GenCliSpec GenCliCase GenRefuseSpec GenRefuseProofs AnyTimeSpec AnyTimeProofs.
Import ListNotations. Local Open Scope string_scope. Local Open Scope list_scope. Local Open Scope Z_scope.

(** C201 *)
Theorem C201 : forall p tmp args ss fs stdin ws zs, gcommand args ss -> Forall fine ss -> last_given gtimes_of ss = Some ws -> Forall2 int_word ws zs ->
  (In GHelp ss -> grun p tmp args fs stdin = Shows_help) /\
  (~ In GHelp ss -> Forall (fun t => 0 <= t) zs -> delivers (grun p tmp args fs stdin) 0 fs (out_chosen ss) [] (events_at false zs)) /\
  (~ In GHelp ss -> forall zs1 z zs2, zs = zs1 ++ z :: zs2 -> Forall (fun t => 0 <= t) zs1 -> z < 0 -> delivers (grun p tmp args fs stdin) 1 fs (out_chosen ss) [] (events_at false zs1)).
Proof. exact c201. Qed.
Print Assumptions C201.
(** A word which is no number: exit code 2, nothing written. *)
Theorem C201_refused : forall p tmp args ss fs stdin, gcommand args ss -> bad_after_fine ss -> said (grun p tmp args fs stdin) 2 fs [].
Proof. exact c201_refused. Qed.
Print Assumptions C201_refused.
(** All words are numbers, or one is none. *)
Theorem C201_all : forall ws, (exists zs, Forall2 int_word ws zs) \/ exists w, In w ws /\ no_number w.
Proof. exact c201_all. Qed.
Print Assumptions C201_all.
Definition ws201 : list (list Z) := map codes ["1_0"; "+7"; " 3"].
Example C201_case : gcommand (codes "-t" :: ws201 ++ []) ([] ++ GTimes ws201 :: []) /\ Forall fine ([] ++ GTimes ws201 :: []) /\ Forall2 int_word ws201 [10; 7; 3] /\
  shown (grun 64 tmpname (codes "-t" :: ws201 ++ []) none_fs []) = Some (0, events_at false [10; 7; 3]).
Proof.
  assert (W : Forall2 int_word ws201 [10; 7; 3]) by (repeat (constructor; [apply int_of_word; vm_compute; reflexivity|]); constructor).
  split; [apply (G_times [] [] ws201 [] []); [constructor|discriminate| |constructor]; repeat constructor; cbn; try lia; try discriminate|].
  split; [|split; [exact W|vm_compute; reflexivity]]. constructor; [|constructor]. cbn [fine]. clear -W. induction W; constructor; [now exists y|assumption].
Qed.
(** -t 1_0 and then -t 3.5 *)
Definition ss201 : list gask := [] ++ GTimes [codes "1_0"] :: [] ++ GTimes [codes "3.5"] :: [].
Definition args201 : list (list Z) := codes "-t" :: [codes "1_0"] ++ codes "-t" :: [codes "3.5"] ++ [].
Example C201_refused_case : gcommand args201 ss201 /\ bad_after_fine ss201 /\ shown (grun 64 tmpname args201 none_fs []) = Some (2, []).
Proof.
  split; [apply (G_times [] [] [codes "1_0"] _ _); [constructor|discriminate| |apply (G_times [] [] [codes "3.5"] [] []); [constructor|discriminate| |constructor]]; repeat constructor; cbn; try lia; try discriminate|].
  split; [|vm_compute; reflexivity]. exists [GTimes [codes "1_0"]], [codes "3.5"], (codes "3.5"), []. split; [reflexivity|].
  split; [constructor; [|constructor]; cbn [fine]; constructor; [exists 10; apply int_of_word; vm_compute; reflexivity|constructor]|]. split; [intros [X|[]]; discriminate X|]. split; [now left|].
  apply (letter_no_number _ 46); unfold is_digit, is_blank; cbn; lia.
Qed.
(** -o with an empty name: standard output *)
Example C201_empty_case : gcommand ([codes "-o"; []] ++ codes "-t" :: ws201 ++ []) ([GOut []] ++ [] ++ GTimes ws201 :: []) /\ out_chosen ([GOut []] ++ [] ++ GTimes ws201 :: []) = None /\
  shown (grun 64 tmpname ([codes "-o"; []] ++ codes "-t" :: ws201 ++ []) none_fs []) = Some (0, events_at false [10; 7; 3]).
Proof.
  split; [|split; [reflexivity|vm_compute; reflexivity]]. apply G_more; [apply (P_detached _ _ _ _ [] [] (GOut []) 111 [] [] []); [constructor|reflexivity|reflexivity|left; discriminate|constructor|constructor]|].
  apply (G_times [] [] ws201 [] []); [constructor|discriminate| |constructor]; repeat constructor; cbn; try lia; try discriminate.
Qed.
