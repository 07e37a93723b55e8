(** Times and patterns of different lengths: C189. *)
From Coq Require Import List.
From Verif Require Import Base TimestampsModel WidthSpec WidthProofs.
Import ListNotations.
Local Open Scope Z_scope.

(** C189 *)
Theorem C189 : forall p f t pats r, misfit t pats -> (forall file, write p f t pats r <> Ok file) /\ (forall n, writable p f t r n -> write p f t pats r = Err ValueError).
Proof. exact c189. Qed.
Print Assumptions C189.
(** one pattern is used for all times *)
Theorem C189_one : forall p f t v r, write p f t [v] r = write p f t (repeat v (length (tvalues t))) r.
Proof. exact c189_one. Qed.
Print Assumptions C189_one.
Definition three : tarr := TU64 [100; 250; 1000].
Example C189_case : misfit three [1; 2] /\ writable 64 A2 three NS1 3 /\ write 64 A2 three [1; 2] NS1 = Err ValueError /\
  write 64 A2 three [5] NS1 = write 64 A2 three [5; 5; 5] NS1 /\ write 64 A2 three [5] NS1 <> write 64 A2 three [5; 5; 4] NS1.
Proof.
  split; [split; discriminate|]. split; [exists [1; 2; 3]; eexists; split; vm_compute; reflexivity|]. split; [vm_compute; reflexivity|]. split; [vm_compute; reflexivity|]. vm_compute. discriminate.
Qed.
