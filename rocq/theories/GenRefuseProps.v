(** Times which are no numbers: C190. *)
From Coq Require Import QArith String.
From Verif Require Import Base TimestampsModel CdRunModel FpCliSpec CliSpec TsCliModel TsCliSpec GenCliModel GenCliSpec GenRefuseSpec GenRefuseProofs.
Import ListNotations. Local Open Scope string_scope. Local Open Scope list_scope. Local Open Scope Z_scope.

(** C190 *)
Theorem C190 : forall p tmp args ss fs stdin, gcommand args ss -> asks_no_number ss -> said (grun p tmp args fs stdin) 2 fs [].
Proof. exact c190. Qed.
Print Assumptions C190.
Definition ws190 : list (list Z) := map codes ["12"; "3.5"].
Example C190_case : gcommand (codes "-t" :: ws190 ++ []) ([] ++ GTimes ws190 :: []) /\ asks_no_number ([] ++ GTimes ws190 :: []) /\
  said (grun 64 (codes "tmp") (codes "-t" :: ws190 ++ []) (fun _ => None) []) 2 (fun _ => None) [].
Proof.
  assert (C : gcommand (codes "-t" :: ws190 ++ []) ([] ++ GTimes ws190 :: [])).
  { apply (G_times [] [] ws190 [] []); [constructor|discriminate| |constructor]. repeat constructor; cbn; try lia; try discriminate. }
  assert (A : asks_no_number ([] ++ GTimes ws190 :: [])).
  { exists [], ws190, (codes "3.5"), []. split; [reflexivity|]. split; [constructor|]. split; [intros []|]. split; [right; now left|]. apply (letter_no_number _ 46); unfold is_digit, is_blank; cbn; lia. }
  split; [exact C|]. split; [exact A|]. exact (C190 _ _ _ _ _ _ C A).
Qed.
(** a number in the sense used: " +1_000" *)
Example C190_number : int_word (codes " +1_000") 1000.
Proof.
  exists [32], [43], (codes "1_000"), [], 1000. split; [reflexivity|]. split; [constructor; [right; lia|constructor]|]. split; [constructor|]. split; [|left; split; [now right|reflexivity]].
  apply (N_next (codes "1_00") 100 48); [|unfold is_digit; lia]. apply (N_next (codes "1_0") 10 48); [|unfold is_digit; lia]. apply (N_under (codes "1") 1 48); [|unfold is_digit; lia]. apply (N_digit 49). unfold is_digit. lia.
Qed.
