(** C150 to C152: [round] with significant figures. *)
From Coq Require Import QArith Qabs String.
From Verif Require Import Float Base FpfindModel ReportModel FpCliSpec RoundModel RoundSpec RoundProofs RoundProofs4 RoundCase.
Import ListNotations. Local Open Scope Z_scope.

(** round(x, sf=p) of a float writes the nearest number with p significant figures.  Not so with 16 figures: the text of the
    number rounded is read as a float and written again. *)
Theorem C150_refuted : ~ (forall x p, common_float x -> 1 <= p -> exists t y, round (NFloat x) None (Some p) None = Ok (RText t) /\ numeral t y /\ nearest p x y).
Proof.
  intros H. destruct (H above23 16 above23_common ltac:(lia)) as (t & y & R & N & M). rewrite above23_round in R. injection R as <-. exact (not_nearest23 y N M).
Qed.
Print Assumptions C150_refuted.
(** With any other number of figures it does. *)
Theorem C150_partial : forall x p, common_float x -> 1 <= p -> p <> 16 -> exists t y, round (NFloat x) None (Some p) None = Ok (RText t) /\ numeral t y /\ nearest p x y.
Proof. exact round_float. Qed.
Print Assumptions C150_partial.
Example C150_case : common_float x1234 /\ common_float above23 /\ round (NFloat x1234) None (Some 2) None = Ok (RText (codes "0.12")) /\
  round (NFloat above23) None (Some 17) None = Ok (RText (codes "1.0000000000000001e+23")) /\ round (NFloat above23) None (Some 3) None = Ok (RText (codes "1e+23")).
Proof. split; [ exact x1234_common | ]. split; [ exact above23_common | ]. vm_compute. repeat split; reflexivity. Qed.

(** round(n, sf=p) of a whole number is the nearest one with p significant figures.  Not so for large ones, which pass through float:
    10^23 with 3 figures becomes 99999999999999991611392, and 2^1024 is an error. *)
Theorem C151_refuted : ~ (forall n p, 1 <= p -> exists r, round (NInt n) None (Some p) None = Ok (RInt r) /\ nearest p (inject_Z n) (inject_Z r)).
Proof. intros H. destruct (H (10 ^ 23) 3 ltac:(lia)) as (r & R & N). rewrite int23_round in R. injection R as <-. exact (int23_not_nearest N). Qed.
Print Assumptions C151_refuted.
Theorem C151_overflow : round (NInt (2 ^ 1024)) None (Some 3) None = Err OverflowError.
Proof. exact int1024_round. Qed.
Print Assumptions C151_overflow.
(** It is so up to 2^53, *)
Theorem C151_partial : forall n p, Z.abs n <= 2 ^ 53 -> 1 <= p -> exists r, round (NInt n) None (Some p) None = Ok (RInt r) /\ nearest p (inject_Z n) (inject_Z r).
Proof. exact round_int. Qed.
Print Assumptions C151_partial.
(** and up to 10^307 the error is that of rounding to p figures, half a unit of the last one, and two roundings to float64. *)
Theorem C151_close : forall n p, Z.abs n < 10 ^ 307 -> 1 <= p ->
  exists r, round (NInt n) None (Some p) None = Ok (RInt r) /\ (Qabs (inject_Z r - inject_Z n) <= ((1 # 2) * power10 (1 - p) + (1 # 2 ^ 51)) * Qabs (inject_Z n))%Q.
Proof. exact round_int_err. Qed.
Print Assumptions C151_close.
Example C151_case : round (NInt (-123456)) None (Some 2) None = Ok (RInt (-120000)) /\ round (NInt 25) None (Some 1) None = Ok (RInt 20) /\
  round (NInt 9999) None (Some 2) None = Ok (RInt 10000) /\ round (NInt 123456789) None (Some 20) None = Ok (RInt 123456789).
Proof. vm_compute. repeat split; reflexivity. Qed.

(** round stands in for the built-in function: it returns a number.  Of a float with sf it returns a str, always. *)
Theorem C152_refuted : forall x p, 0 <= p -> exists t, round (NFloat x) None (Some p) None = Ok (RText t).
Proof. intros x p P. unfold round, round_sf. destruct (Z.ltb_spec p 0); [ lia | ]. cbv zeta. destruct (infinite _); eexists; reflexivity. Qed.
Print Assumptions C152_refuted.
(** Of whole numbers, and without sf, it rounds as the built-in function, to digits after the point or, negative, before it. *)
Theorem C152_partial :
  (forall n d, exists r, round (NInt n) (Some d) None None = Ok (RInt r) /\ (0 <= d -> r = n) /\ (d <= 0 -> to_digits d (inject_Z n) (inject_Z r))) /\
  (forall x, exists r, round (NFloat x) None None None = Ok (RInt r) /\ to_digits 0 x (inject_Z r)) /\
  (forall v d nd, round v nd None (Some d) = round v (Some d) None None) /\
  (forall n p r, round (NInt n) None (Some p) None = Ok r -> exists m, r = RInt m).
Proof.
  split; [ exact round_whole | ]. split; [ exact round_plain | ]. split; [ intros v d nd; destruct nd; reflexivity | ].
  intros n p r H. unfold round, round_sf in H. destruct (p <? 0); [ discriminate | ]. cbv zeta in H. destruct (infinite _); [ discriminate | ]. destruct (infinite _); [ discriminate | ].
  injection H as <-. eexists. reflexivity.
Qed.
Print Assumptions C152_partial.
Example C152_case : round (NFloat (15 # 10)) None (Some 1) None = Ok (RText (codes "2")) /\ round (NInt 1250) (Some (-2)) None None = Ok (RInt 1200) /\
  round (NFloat (25 # 10)) None None None = Ok (RInt 2) /\ round (NInt 1250) (Some (-1)) None (Some (-2)) = Ok (RInt 1200).
Proof. vm_compute. repeat split; reflexivity. Qed.
