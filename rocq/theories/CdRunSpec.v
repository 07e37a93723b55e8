(** Specification of a run of freqcd on files. *)
From Verif Require Import Base FreqcdSpec FreqcdCliSpec.
Local Open Scope Z_scope.

(** a byte string cut into blocks of [n] bytes; the last may be shorter *)
Inductive blocks (n : Z) : list Z -> list (list Z) -> Prop :=
| blocks_nil : blocks n [] []
| blocks_cons b l bs : 0 < len b -> (len b = n \/ len b < n /\ l = []) -> blocks n l bs -> blocks n (b ++ l) (b :: bs).
(** the options of a command line *)
Definition legacy_of (ss : list setting) : bool := existsb (fun s => match s with Legacy => true | _ => false end) ss.
Definition decimal_of (ss : list setting) : bool := existsb (fun s => match s with Decimal => true | _ => false end) ss.
(** the words [args] ask for the settings [ss], with the correction [f] *)
Definition asks (args : list (list Z)) (ss : list setting) (f : Z) : Prop :=
  writes args ss /\ Forall good ss /\ ~ In Help ss /\ exists n,
    match last_of corr_of ss with Some t => good_number t n | None => n = 0 end /\ documented (decimal_of ss) n = Some f.
(** the input of a run: the file named or standard input *)
Definition input_of (fs : list Z -> option (list Z)) (stdin : list Z) (ss : list setting) : option (list Z) :=
  match last_of in_of ss with Some t => fs t | None => Some stdin end.
(** After the run the output file or standard output is [Y], all other files are as before. *)
Definition left_behind (fs fs' : list Z -> option (list Z)) (out : list Z) (ss : list setting) (Y : list Z) : Prop :=
  match last_of out_of ss with
  | Some t => fs' t = Some Y /\ out = [] /\ forall m, m <> t -> fs' m = fs m
  | None => out = Y /\ forall m, fs' m = fs m
  end.
(** a whole number of events, with times in order *)
Definition event_file (lg : bool) (X : list Z) : Prop := bytes_ok X /\ len X mod 8 = 0 /\ nondecr (map (ev_time lg) (groups X)).
(** two files asked for are not the same one *)
Definition separate (a b : option (list Z)) : Prop := a = None \/ a <> b.
(** event [i] of a file has the time [t] *)
Definition event_time (lg : bool) (X : list Z) (i : nat) (t : Z) : Prop := nth_error (map (ev_time lg) (groups X)) i = Some t.
(** The output is the input with the times replaced by [times], which are in order. *)
Definition retimed_file (fs fs' : list Z -> option (list Z)) (out : list Z) (ss : list setting) (X times : list Z) : Prop :=
  length times = length (groups X) /\ nondecr times /\ left_behind fs fs' out ss (concat (retime (legacy_of ss) (groups X) times)).
