(** The delay at a position of the correlation: C194. *)
From Coq Require Import QArith Qabs.
From Verif Require Import Float Base TimestampsModel UtilsModel UtilsSpec IndexProofs.
Import ListNotations.
Local Open Scope Z_scope.

(** C194 *)
Theorem C194 : forall xs res p, (0 < res)%Q -> even_axis res xs ->
  (p < 0 -> get_delay_at_index_fft xs p = Err AssertionError) /\ (len xs <= p -> get_delay_at_index_fft xs p = Err IndexError) /\
  (p = 0 -> 0 < len xs -> exists a b, get_delay_at_index_fft xs p = Ok (a, b) /\ (a == 0)%Q /\ (b == 0)%Q) /\
  (0 < p < len xs -> exists a b, get_delay_at_index_fft xs p = Ok (a, b) /\ (Qabs a <= Qabs b)%Q /\
     ((a == inject_Z p * res /\ b == inject_Z (p - len xs) * res)%Q \/ (a == inject_Z (p - len xs) * res /\ b == inject_Z p * res)%Q)).
Proof. exact c194. Qed.
Print Assumptions C194.
(** numbers of delays which get_top_k_delays_fft refuses *)
Theorem C194_top : forall part order hist xs k,
  (k < 1 -> get_top_k_delays_fft part order hist xs k = Err AssertionError) /\ (1 < k -> len hist < k -> get_top_k_delays_fft part order hist xs k = Err ValueError).
Proof. exact c194_top. Qed.
Print Assumptions C194_top.
Example C194_case : even_axis 2 [0; 2; 4; 6; 8]%Q /\ get_delay_at_index_fft [0; 2; 4; 6; 8]%Q 3 = Ok (- (4), 6)%Q /\ get_delay_at_index_fft [0; 2; 4; 6; 8]%Q (-1) = Err AssertionError /\
  get_delay_at_index_fft [0; 2; 4; 6; 8]%Q 5 = Err IndexError.
Proof.
  split; [|repeat split; vm_compute; reflexivity]. intros i H. cbn [length] in H. do 5 (destruct i as [|i]; [vm_compute; reflexivity|]). lia.
Qed.
