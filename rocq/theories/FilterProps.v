(** A correlation with a filter: C159.  Real numbers, with the axioms of Coq.Reals. *)
From Coq Require Import QArith Qreals Reals.
From Verif Require Import Base TimestampsModel UtilsModel UtilsSpec FftModel FilterModel FilterSpec FilterProofs.
Local Open Scope R_scope.

(** C159 *)
Theorem C159 : forall a b F, length a = length b -> (2 <= length a)%nat -> Nat.even (length a) = true -> length F = (length a / 2 + 1)%nat ->
  exists h ys, irfft F = Ok h /\ get_xcorr_fft (rfft a) (rfft b) (Some F) = Ok ys /\ length h = length a /\ length ys = length a /\
    forall j, (j < length a)%nat -> nth j ys 0 = Rabs (convolved (length a) (fun m => IZR (correlation a b m)) (fun m => nth m h 0) j).
Proof. exact c159. Qed.
Print Assumptions C159.
(** ones change nothing *)
Theorem C159_ones : forall a b, length a = length b -> get_xcorr_fft (rfft a) (rfft b) (Some (repeat (1, 0) (length a / 2 + 1))) = xcorr_fft (rfft a) (rfft b).
Proof. exact c159_ones. Qed.
Print Assumptions C159_ones.
(** no filter *)
Theorem C159_none : forall A B, get_xcorr_fft A B None = xcorr_fft A B.
Proof. exact c159_none. Qed.
Print Assumptions C159_none.
(** one value stands for as many as needed *)
Theorem C159_one : forall a b c, length a = length b -> get_xcorr_fft (rfft a) (rfft b) (Some [c]) = get_xcorr_fft (rfft a) (rfft b) (Some (repeat c (length a / 2 + 1))).
Proof. exact c159_one. Qed.
Print Assumptions C159_one.
(** other lengths are refused *)
Theorem C159_length : forall a b F, length a = length b -> length F <> (length a / 2 + 1)%nat -> length F <> 1%nat -> get_xcorr_fft (rfft a) (rfft b) (Some F) = Err ValueError.
Proof. exact c159_length. Qed.
Print Assumptions C159_length.
(** the filter that keeps only the mean: one pair in four bins gives a quarter everywhere *)
Example C159_case : exists ys, get_xcorr_fft (rfft [1; 0; 0; 0]%Z) (rfft [0; 1; 0; 0]%Z) (Some [(1, 0); (0, 0); (0, 0)]) = Ok ys /\ length ys = 4%nat /\ forall j, (j < 4)%nat -> nth j ys 0 = 1 / 4.
Proof. exact c159_mean. Qed.
