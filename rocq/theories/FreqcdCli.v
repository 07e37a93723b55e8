(** Model of the command line of freqcd: lib/getopt.c and freqcd.c 168-216.

    Strings are byte lists without their terminating NUL.  [argv] includes the program name.
    libc's sscanf is modelled for the two formats used ("%d", "%200s") as glibc implements it.
    Opening the named files (215-232) is not modelled. *)
From Verif Require Import Base FreqcdModel Float.
Local Open Scope Z_scope.

(** ** lib/getopt.c *)
Definition QUESTION : Z := 63.  (* '?', BADCH, 45 *)
Definition COLON : Z := 58.     (* ':' *)
Definition DASH : Z := 45.      (* '-' *)
(** [strchr] restricted to non-NUL characters: the string from the first occurrence. *)
Fixpoint strchr (s : list Z) (c : Z) : option (list Z) :=
  match s with
  | [] => None
  | x :: r => if x =? c then Some s else strchr r c
  end.
(** nargv[i] *)
Definition argn (argv : list (list Z)) (i : Z) : list Z := nth (Z.to_nat i) argv [].

Record gstate : Type := mkG { place : list Z; optind : Z }.   (* statics, 40 and 55 *)
(** One call (53-106): the result ([None] is -1), optarg, and the new statics.
    opterr = 0 as set by freqcd.c 180, so nothing is printed; optreset is never set. *)
Definition getopt (argv : list (list Z)) (ostr : list Z) (g : gstate)
  : option Z * option (list Z) * gstate :=
  let nargc := len argv in
  let start :=                                                  (* 58-69: Some = go on *)
    match place g with
    | [] =>
        if nargc <=? optind g then inr (mkG [] (optind g))
        else match argn argv (optind g) with
             | c :: r =>
                 if c =? DASH then
                   match r with
                   | c2 :: _ => if c2 =? DASH then inr (mkG [] (optind g + 1))
                                else inl r
                   | [] => inl [DASH]
                   end
                 else inr (mkG [] (optind g))
             | [] => inr (mkG [] (optind g))
             end
    | p => inl p
    end in
  match start with
  | inr g' => (None, None, g')
  | inl [] => (None, None, g)                                   (* not reached *)
  | inl (optopt :: pl) =>                                       (* 70 *)
      match (if optopt =? COLON then None else strchr ostr optopt) with
      | None =>
          if optopt =? DASH then (None, None, mkG pl (optind g))
          else let oi := match pl with [] => optind g + 1 | _ => optind g end in
               (Some QUESTION, None, mkG pl oi)
      | Some oli =>
          match tl oli with
          | c :: _ =>
              if c =? COLON then                                (* 89-104 *)
                match pl with
                | _ :: _ => (Some optopt, Some pl, mkG [] (optind g + 1))
                | [] =>
                    let oi := optind g + 1 in
                    if nargc <=? oi then (Some QUESTION, None, mkG [] oi)
                    else (Some optopt, Some (argn argv oi), mkG [] (oi + 1))
                end
              else (Some optopt, None, mkG pl (match pl with [] => optind g + 1 | _ => optind g end))
          | [] => (Some optopt, None, mkG pl (match pl with [] => optind g + 1 | _ => optind g end))
          end
      end
  end.

(** ** sscanf *)
(** "%d": blanks, optional sign, digits; saturates to long, stored as int. *)
Definition sscanf_d (s : list Z) : option Z :=
  let '(moved, v, _) := strtol s in if moved then Some (s32 v) else None.
(** "%200s": blanks, then at most 200 non-blank characters, at least one. *)
Fixpoint span_nonblank (n : nat) (s : list Z) : list Z :=
  match n, s with
  | S n', c :: r => if is_space c then [] else c :: span_nonblank n' r
  | _, _ => []
  end.
Definition sscanf_s (width : nat) (s : list Z) : option (list Z) :=
  match span_nonblank width (skip_spaces s) with [] => None | w => Some w end.

(** ** freqcd.c 172-213 *)
Definition FNAMELENGTH : Z := 200.                              (* 82 *)
Definition FNAMEWIDTH : nat := 200.                             (* 83 *)
Definition OPTS : list Z :=                                     (* "i:o:F:f:xdh", 181 *)
  [105; 58; 111; 58; 70; 58; 102; 58; 120; 100; 104].

Record config : Type := mkC {
  c_fcorr : Z; c_in : list Z; c_out : list Z; c_freq : list Z;  (* the name buffers, 200 bytes each *)
  c_legacy : bool; c_decimal : bool }.
Definition config0 : config :=                                  (* 173-178 *)
  mkC 0 (repeat 0 FNAMEWIDTH) (repeat 0 FNAMEWIDTH) (repeat 0 FNAMEWIDTH) false false.

Inductive outcome : Type :=
| Exit (code : Z)         (* return or exit from main *)
| Start (c : config).     (* reaches line 215 with this configuration *)

(** sscanf into a name buffer and the "security termination" (184-193). *)
Definition store_name (buf : list Z) (w : list Z) : cres (list Z) :=
  let* b := store buf 0 (w ++ [0]) in store b (FNAMELENGTH - 1) [0].

(** lines 182-207: the effect of one option; [inr] = leave main *)
Definition option_step (c : config) (opt : Z) (arg : option (list Z)) : cres (config + Z) :=
  match arg with
  | Some a =>
      if opt =? 105 then                                        (* 'i' *)
        match sscanf_s FNAMEWIDTH a with
        | None => Ok (inr (-2))
        | Some w => let* b := store_name (c_in c) w in
                    Ok (inl (mkC (c_fcorr c) b (c_out c) (c_freq c) (c_legacy c) (c_decimal c)))
        end
      else if opt =? 111 then                                   (* 'o' *)
        match sscanf_s FNAMEWIDTH a with
        | None => Ok (inr (-8))
        | Some w => let* b := store_name (c_out c) w in
                    Ok (inl (mkC (c_fcorr c) (c_in c) b (c_freq c) (c_legacy c) (c_decimal c)))
        end
      else if opt =? 70 then                                    (* 'F' *)
        match sscanf_s FNAMEWIDTH a with
        | None => Ok (inr (-10))
        | Some w => let* b := store_name (c_freq c) w in
                    Ok (inl (mkC (c_fcorr c) (c_in c) (c_out c) b (c_legacy c) (c_decimal c)))
        end
      else if opt =? 102 then                                   (* 'f' *)
        match sscanf_d a with
        | None => Ok (inr (-4))
        | Some v => Ok (inl (mkC v (c_in c) (c_out c) (c_freq c) (c_legacy c) (c_decimal c)))
        end
      else Ok (inl c)
  | None =>
      if opt =? 120 then Ok (inl (mkC (c_fcorr c) (c_in c) (c_out c) (c_freq c) true (c_decimal c)))
      else if opt =? 100 then Ok (inl (mkC (c_fcorr c) (c_in c) (c_out c) (c_freq c) (c_legacy c) true))
      else if opt =? 104 then Ok (inr 1)                        (* usage(); exit(1) *)
      else Ok (inl c)
  end.

(** The loop 181-208.  [None] = out of fuel. *)
Fixpoint option_loop (fuel : nat) (argv : list (list Z)) (g : gstate) (c : config)
  : option (cres (config + Z)) :=
  match fuel with
  | O => None
  | S fuel' =>
      match getopt argv OPTS g with
      | (None, _, _) => Some (Ok (inl c))
      | (Some opt, arg, g') =>
          match option_step c opt arg with
          | Err e => Some (Err e)
          | Ok (inr code) => Some (Ok (inr code))
          | Ok (inl c') => option_loop fuel' argv g' c'
          end
      end
  end.

(** (int)x for a double x: truncation; out of range x86 gives INT_MIN. *)
Definition double_to_int (x : Q) : Z :=
  let t := Z.quot (Qnum x) (Zpos (Qden x)) in
  if (- 2 ^ 31 <=? t) && (t <? 2 ^ 31) then t else - 2 ^ 31.
(** 170: ((long long)1 << 34) / pow(10, 10) *)
Definition FCORR_DTOB : Q := fl 53 (inject_Z (2 ^ 34) / inject_Z (10 ^ 10)).
(** 212: fcorr = (int) fcorr * FCORR_DTOB *)
Definition decimal_fcorr (n : Z) : Z := double_to_int (fl 53 (inject_Z n * FCORR_DTOB)).
(** 212-213 *)
Definition check_fcorr (c : config) : outcome :=
  let f := if c_decimal c then decimal_fcorr (c_fcorr c) else c_fcorr c in
  if FCORR_MAX <=? abs32 f then Exit (-5)
  else Start (mkC f (c_in c) (c_out c) (c_freq c) (c_legacy c) (c_decimal c)).

Definition cli_fuel (argv : list (list Z)) : nat :=
  S (fold_right (fun a n => (1 + length a + n)%nat) O argv).
Definition cli (argv : list (list Z)) : option (cres outcome) :=
  match option_loop (cli_fuel argv) argv (mkG [] 1) config0 with
  | None => None
  | Some (Err e) => Some (Err e)
  | Some (Ok (inr code)) => Some (Ok (Exit code))
  | Some (Ok (inl c)) => Some (Ok (check_fcorr c))
  end.
