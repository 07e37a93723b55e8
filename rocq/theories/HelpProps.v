(** The help of fpfind: C172 - C174. *)
From Coq Require Import String List Lia.
From Verif Require Import Float Base FreqcdExamples HelpModel HelpSpec HelpProofs.
Import ListNotations. Local Open Scope string_scope. Local Open Scope list_scope. Local Open Scope Z_scope.

(** C172 *)
Theorem C172 : forall shown a, names a <> [] -> exists ns, listed comma (names a) ns /\
  (flag a = true -> invocation shown a = ([], ns)) /\
  (flag a = false -> choices a <> Some [] -> exists v, stands (dest a) (metavar a) (choices a) v /\ invocation shown a = ([], ns ++ 32 :: v)).
Proof. exact c172. Qed.
Print Assumptions C172.
(** --freq of fpplot with this formatter, and fpfind's -t *)
Example C172_case : invocation (fun _ => [63]) (mkAction [str "-f"; str "--freq"] false (str "freq") None None) = ([], str "-f, --freq FREQ") /\
  invocation (fun _ => [63]) (mkAction [str "-t"; str "--reference"] false (str "reference") (Some []) None) = ([], str "-t, --reference ").
Proof. split; reflexivity. Qed.

(** C173 *)
Theorem C173 : forall wrap text lines width, has_lines text lines -> split_lines wrap (str "rawtext|" ++ text) width = lines.
Proof. exact c173. Qed.
Print Assumptions C173.
Theorem C173_other : forall wrap text width, (forall r, text <> str "rawtext|" ++ r) -> split_lines wrap text width = wrap text width.
Proof. exact c173_other. Qed.
Print Assumptions C173_other.
Example C173_case : has_lines (str "Results" ++ [13; 10] ++ str "- bit 0") [str "Results"; str "- bit 0"] /\ split_lines (fun _ _ => []) (str "rawtext|Results" ++ 10 :: str "- bit 0") 60 = [str "Results"; str "- bit 0"].
Proof.
  split; [|reflexivity]. apply (H_line (str "Results") [13; 10] (str "- bit 0") [str "- bit 0"]); [|now left|apply H_last; [discriminate|]]; apply Forall_forall; intros c I; vm_compute in I; unfold in_line; repeat (destruct I as [<-|I]; [lia|]); destruct I.
Qed.

(** C174 *)
Definition C174_statement : Prop := forall shown a, fst (invocation shown a) = [].
Theorem C174_refuted : ~ C174_statement.
Proof. intros H. specialize (H (fun _ => [63; 10]) (mkAction [] false [97] None None)). discriminate. Qed.
Print Assumptions C174_refuted.
(** options are shown without printing; an argument without a name is printed, whatever its result *)
Theorem C174_partial : forall shown a, (names a <> [] -> fst (invocation shown a) = []) /\ (names a = [] -> fst (invocation shown a) = shown a).
Proof. intros shown a. unfold invocation. destruct (names a); split; congruence || reflexivity. Qed.
Print Assumptions C174_partial.
Example C174_case : names (mkAction [str "-t"] false (str "t") None None) <> [].
Proof. discriminate. Qed.
