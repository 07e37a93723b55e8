(** C126, C127: a recording and the T1 files cut from it. *)
From Coq Require Import QArith Qabs Qround Lia.
From Verif Require Import Float Base TimestampsModel TimestampsSpec EpochsModel EpochsSpec ChopSpec ChopProofs.
Import ListNotations. Local Open Scope Z_scope.

(** C126.  The recording may go on after the epochs read ([rest]). *)
Theorem C126 : forall p lg r fr e evss rest, 54 <= p -> cut_at e evss -> Forall event_ok rest -> Forall visible (concat evss) ->
  exists T tp ts ps, read_a1 p (encode (A1 lg) (map word_of (concat evss ++ rest))) lg r fr = Ok (T, tp) /\
    read_all false r fr (epoch_files e evss) ts ps /\ length ts = length (concat evss) /\
    same_values ts (firstn (length ts) (tvalues T)) /\ ps = firstn (length ps) tp /\ length ps = length ts.
Proof. exact c126. Qed.
Print Assumptions C126.
(** three epochs, the second empty, the clock starting anew with the third *)
Definition chopped : list (list event) := [[(131070 * 2 ^ 37 + 5, 1); (131070 * 2 ^ 37 + 300, 9)]; []; [(0, 2); (2 ^ 37 - 1, 15)]].
Example C126_case : cut_at (28438 * 2 ^ 17 - 2) chopped /\ Forall event_ok [(2 ^ 37, 3)] /\ Forall visible (concat chopped) /\
  read_all false NS1 false (epoch_files (28438 * 2 ^ 17 - 2) chopped) (map inject_Z [131070 * 2 ^ 29; 131070 * 2 ^ 29 + 1; 0; 2 ^ 29 - 1]) [1; 9; 2; 15].
Proof.
  split; [|split; [|split]].
  - assert (I1 : forall e t q, 0 <= t < 2 ^ 54 -> 0 <= q < 16 -> t / 2 ^ 37 =? e mod 2 ^ 17 = true -> in_epoch e (t, q)) by (intros e t q A B C; split; [split; assumption|now apply Z.eqb_eq]).
    split; [repeat apply Forall_cons; [apply I1; try lia; vm_compute; reflexivity|apply I1; try lia; vm_compute; reflexivity|apply Forall_nil]|]. split; [lia|]. split; [reflexivity|].
    split; [apply Forall_nil|]. split; [lia|]. split; [reflexivity|].
    split; [repeat apply Forall_cons; [apply I1; try lia; vm_compute; reflexivity|apply I1; try lia; vm_compute; reflexivity|apply Forall_nil]|]. split; [lia|]. split; [reflexivity|]. exact I.
  - constructor; [split; cbn [fst snd]; lia|constructor].
  - unfold chopped. cbn [concat app]. repeat apply Forall_cons; try apply Forall_nil; discriminate.
  - assert (E1 : read_T1 (epoch_file (28438 * 2 ^ 17 - 2) (nth 0 chopped [])) false NS1 false = Ok (EU64 [131070 * 2 ^ 29; 131070 * 2 ^ 29 + 1], [1; 9])) by (vm_compute; reflexivity).
    assert (E2 : read_T1 (epoch_file (28438 * 2 ^ 17 - 2 + 1) (nth 1 chopped [])) false NS1 false = Ok (EU64 [], [])) by (vm_compute; reflexivity).
    assert (E3 : read_T1 (epoch_file (28438 * 2 ^ 17 - 2 + 1 + 1) (nth 2 chopped [])) false NS1 false = Ok (EU64 [0; 2 ^ 29 - 1], [2; 15])) by (vm_compute; reflexivity).
    exact (ReadNext _ _ _ _ _ _ _ _ _ E1 (ReadNext _ _ _ _ _ _ _ _ _ E2 (ReadNext _ _ _ _ _ _ _ _ _ E3 (ReadNone _ _ _)))).
Qed.

(** C127.  The full statement is [C127_statement].  It fails for the last 16 units before the clock starts anew: in ns they may be rounded up to the next turn. *)
Theorem C127_refuted : ~ C127_statement.
Proof. exact c127_refuted. Qed.
Print Assumptions C127_refuted.
Theorem C127_partial : forall p lg e evss rest, 54 <= p -> recorded e evss rest -> Forall (fun ev => fst ev < 2 ^ 54 - 16) (concat evss) -> agree_full p lg e evss rest.
Proof. exact c127_partial. Qed.
Print Assumptions C127_partial.
(** the first half without exception *)
Theorem C127_integers : forall p lg e evss rest, 54 <= p -> recorded e evss rest ->
  exists T tp ts, read_a1 p (encode (A1 lg) (map word_of (concat evss ++ rest))) lg PS4 false = Ok (T, tp) /\
     read_all true PS4 false (epoch_files e evss) ts (firstn (length (concat evss)) tp) /\
     Forall2 (fun et tt => qmod et (2 ^ 54) == tt)%Q ts (firstn (length (concat evss)) (tvalues T)).
Proof. exact c127_integers. Qed.
Print Assumptions C127_integers.
Example C127_case : recorded (28438 * 2 ^ 17 - 2) chopped [(2 ^ 37, 3)] /\ Forall (fun ev => fst ev < 2 ^ 54 - 16) (concat chopped).
Proof.
  destruct C126_case as (A & B & C & _). split; [split; [exact A|split; [exact B|exact C]]|]. unfold chopped. cbn [concat app]. repeat apply Forall_cons; try apply Forall_nil; cbn [fst]; lia.
Qed.
