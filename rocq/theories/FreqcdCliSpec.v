(** Specification of freqcd's command line, independent of getopt and of the model. *)
From Verif Require Import Base FreqcdSpec.
Local Open Scope Z_scope.

(** What a user can ask for. *)
Inductive setting : Type :=
| Legacy                     (* -x *)
| Decimal                    (* -d *)
| Help                       (* -h *)
| InName (t : list Z)        (* -i t *)
| OutName (t : list Z)       (* -o t *)
| FreqName (t : list Z)      (* -F t *)
| Corr (t : list Z).         (* -f t *)
Definition letter (s : setting) : Z :=
  match s with
  | Legacy => 120 | Decimal => 100 | Help => 104
  | InName _ => 105 | OutName _ => 111 | FreqName _ => 70 | Corr _ => 102
  end.
Definition argument (s : setting) : option (list Z) :=
  match s with
  | Legacy | Decimal | Help => None
  | InName t | OutName t | FreqName t | Corr t => Some t
  end.
Definition flag (s : setting) : Prop := argument s = None.

(** Where option parsing stops: no more words, a word without dash, or one starting "--". *)
Definition no_options (args : list (list Z)) : Prop :=
  match args with
  | [] => True
  | w :: _ => (forall r, w <> 45 :: r) \/ exists r, w = 45 :: 45 :: r
  end.
(** [writes args ss]: the words [args] spell the settings [ss], flags separate or clustered,
    arguments attached to the letter or in the next word. *)
Inductive writes : list (list Z) -> list setting -> Prop :=
| W_end args : no_options args -> writes args []
| W_flags fs args ss : Forall flag fs -> fs <> [] -> writes args ss ->
    writes ((45 :: map letter fs) :: args) (fs ++ ss)
| W_attached fs s t args ss : Forall flag fs -> argument s = Some t -> t <> [] -> writes args ss ->
    writes ((45 :: map letter fs ++ letter s :: t) :: args) (fs ++ s :: ss)
| W_detached fs s t args ss : Forall flag fs -> argument s = Some t -> writes args ss ->
    writes ((45 :: map letter fs ++ [letter s]) :: t :: args) (fs ++ s :: ss).

(** A usable file name and a usable number. *)
Definition good_name (t : list Z) : Prop :=
  t <> [] /\ len t <= 199 /\ Forall (fun c => c <> 0 /\ ~ blank c) t.
Definition good_number (t : list Z) (n : Z) : Prop := denotes t n /\ - 2 ^ 31 <= n < 2 ^ 31.
Definition good (s : setting) : Prop :=
  match s with
  | InName t | OutName t | FreqName t => good_name t
  | Corr t => exists n, good_number t n
  | _ => True
  end.

(** Last one wins. *)
Definition last_of {A} (pick : setting -> option A) (ss : list setting) : option A :=
  fold_left (fun acc s => match pick s with Some v => Some v | None => acc end) ss None.
Definition in_of s := match s with InName t => Some t | _ => None end.
Definition out_of s := match s with OutName t => Some t | _ => None end.
Definition freq_of s := match s with FreqName t => Some t | _ => None end.
Definition corr_of s := match s with Corr t => Some t | _ => None end.
Definition name_of (o : option (list Z)) : list Z := match o with Some t => t | None => [] end.

(** The documented reading of the correction: units of 2^-34, or of 1e-10 with -d. *)
Definition documented (dec : bool) (n : Z) : option Z :=
  if dec then if Z.abs n <=? 1220703 then Some (Z.quot (n * 2 ^ 34) (10 ^ 10)) else None
  else if Z.abs n <=? 2097151 then Some n else None.

(** What can be observed of a start of freqcd: exit code, or correction, names ("" = standard
    stream / none) and format. *)
Inductive seen : Type :=
| Stops (code : Z)
| Runs (fcorr : Z) (input output freqs : list Z) (legacy : bool).
