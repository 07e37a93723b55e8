(** Concrete runs of freqcd in a chain. *)
From Coq Require Import String List.
From Verif Require Import Base FreqcdModel FreqcdSpec FreqcdExamples FreqcdCliSpec FpfindModel FpfindSpec FpfindProofs3 FpfindProofs4 FpfindPipe CdRunModel CdRunSpec TimestampsModel TimestampsSpec ChainSpec.
Import ListNotations.
Local Open Scope string_scope. Local Open Scope list_scope.
Local Open Scope Z_scope.

(** -f n, reading standard input and writing standard output *)
Definition ss_f (n : Z) : list setting := [Corr (dec n)].
Definition args_f (n : Z) : list (list Z) := [str "-f"; dec n].
Lemma asks_f n : Z.abs n <= 2097151 -> asks (args_f n) (ss_f n) n.
Proof.
  intros H. assert (G : good_number (dec n) n) by (split; [apply decimal_denotes, dec_spec|lia]). split; [|split; [|split]].
  - apply (W_detached [] (Corr (dec n)) (dec n) [] []); [constructor|reflexivity|]. constructor. exact I.
  - constructor; [|constructor]. exists n. exact G.
  - intros [E|[]]; discriminate E.
  - exists n. split; [exact G|]. unfold documented. cbn [decimal_of existsb ss_f orb]. destruct (Z.leb_spec (Z.abs n) 2097151); [reflexivity|lia].
Qed.
Lemma static_f n : static false (ss_f n).
Proof. split; [reflexivity|]. split; [reflexivity|]. left. reflexivity. Qed.
(** standard output of freqcd -f n, empty unless it ended with exit code 0 *)
Definition piped (n : Z) (X : list Z) : list Z :=
  match freqcd_main true None IB IB FB (str "freqcd" :: args_f n) (fun _ => None) X with Some (Ok e) => if code e =? 0 then stdout e else [] | _ => [] end.
Definition evs109 : list event := [(5, 3); (1000000000, 1); (2000000000, 8); (2 ^ 50, 2)].
Lemma rec109 : recording evs109 /\ no_rollover evs109.
Proof. split; (split; [repeat constructor; cbn; lia|vm_compute; repeat split; discriminate]) || (split; [repeat constructor; cbn; lia|reflexivity]). Qed.
