(** A whole run of freqcd on files: freqcd.c 159-461, from the argument vector to what is left in the file system.

    Simplifications: the named files and standard input are regular files, so select() reports them as ready, read() returns what is
    there up to the size asked for, and write() writes everything; a file can always be created and written (no permissions, directories or
    full disks), so "Error opening output stream" (223) does not occur; standard input and output are open, so no file is given
    descriptor 0; malloc() succeeds.  The file system maps names to contents, names that are links to one another are not modelled. *)
From Verif Require Import Base FreqcdModel FreqcdCli.
Local Open Scope Z_scope.

Definition filesys : Type := list Z -> option (list Z).
Fixpoint same_name (a b : list Z) : bool :=
  match a, b with
  | [], [] => true
  | x :: a', y :: b' => (x =? y) && same_name a' b'
  | _, _ => false
  end.
(** the file [name] with the contents [c] *)
Definition put (fs : filesys) (name c : list Z) : filesys := fun m => if same_name m name then Some c else fs m.
(** what can be read through a handle: 216-220, 228-232; no name is standard input *)
Definition source (fs : filesys) (stdin name : list Z) : list Z :=
  match name with [] => stdin | _ => match fs name with Some c => c | None => [] end end.
Definition missing (fs : filesys) (name : list Z) : bool :=
  match name with [] => false | _ => match fs name with Some _ => false | None => true end end.

(** exit code, files, and what was written to standard output *)
Record ending : Type := mkEnd { code : Z; files : filesys; stdout : list Z }.

(** ** The loop 282-454, until a [break]; [out] is what was written so far, [ioff] and [foff] the positions in the files read.
    [None] = out of fuel. *)
Fixpoint main_loop (fuel : nat) (strict lg : bool) (iname oname fname stdin : list Z) (fs : filesys) (out : list Z) (ioff foff : Z) (s : fstate)
  : option (cres (filesys * list Z)) :=
  match fuel with
  | O => None
  | S k =>
      let t := Tick (Some (RdBytes (drop ioff (source fs stdin iname))))
                    (match fname with [] => None | _ => Some (RdBytes (drop foff (source fs stdin fname))) end) None in
      match step strict lg s t with
      | Err e => Some (Err e)
      | Ok (s', o, st) =>
          let out' := out ++ tx o in
          let fs' := match oname with [] => fs | _ => put fs oname out' end in
          match st with
          | Stopped => Some (Ok (fs', out'))
          | Running => main_loop k strict lg iname oname fname stdin fs' out' (ioff + len (rx o)) (foff + len (rx_freq o)) s'
          end
      end
  end.
(** 215-461: opening the files in order, the loop, [return 0].  [junk], [ib], [ob], [fb]: contents of uninitialised memory. *)
Definition freqcd_main (strict : bool) (junk : option (Z * Z)) (ib ob fb : list Z) (argv : list (list Z)) (fs : filesys) (stdin : list Z)
  : option (cres ending) :=
  match cli argv with
  | None => None
  | Some (Err e) => Some (Err e)
  | Some (Ok (Exit c)) => Some (Ok (mkEnd c fs []))
  | Some (Ok (Start c)) =>
      match cstring (c_in c), cstring (c_out c), cstring (c_freq c) with
      | Ok iname, Ok oname, Ok fname =>
          if missing fs iname then Some (Ok (mkEnd (-3) fs []))                            (* 218 *)
          else
            let fs1 := match oname with [] => fs | _ => put fs oname [] end in             (* 224: O_TRUNC *)
            if missing fs1 fname then Some (Ok (mkEnd (-11) fs1 []))                       (* 231 *)
            else
              let fg := match fname with [] => false | _ => true end in
              match main_loop (S (length (source fs1 stdin iname))) strict (c_legacy c) iname oname fname stdin fs1 [] 0 0
                      (init_state junk ib ob fb fg (c_fcorr c)) with
              | None => None
              | Some (Err e) => Some (Err e)
              | Some (Ok (fs2, out)) => Some (Ok (mkEnd 0 fs2 (match oname with [] => out | _ => [] end)))
              end
      | _, _, _ => Some (Err OutOfBounds)
      end
  end.
