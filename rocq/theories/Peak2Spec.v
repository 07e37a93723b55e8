(** What significance2 and g2 are to be, without reference to the model. *)
From Coq Require Import QArith.
From Verif Require Import Base UtilsSpec.
Local Open Scope Z_scope.

Definition constant (l : list Q) : Prop := forall x y, In x l -> In y l -> (x == y)%Q.
(** [r]: the sums of consecutive groups of [n] values of [bg], an incomplete last group left out *)
Definition group_sums (n : Z) (bg r : list Q) : Prop :=
  len r = len bg / n /\
  forall i, 0 <= i < len r ->
    (nth (Z.to_nat i) r 0 == fold_right Qplus 0 (map (fun j => nth (Z.to_nat (i * n) + j) bg 0) (seq 0 (Z.to_nat n))))%Q.
(** what the signal has more than as many background bins *)
Definition excess (signal : list Q) (mean : Q) : Q := fold_right Qplus 0%Q (map (fun x => x - mean)%Q signal).
