(** Model of lib/generate_freqdetuneg2.py as run, in floating point (MiscModel.detune is exact).  [p] bits of a longdouble. *)
From Coq Require Import QArith.
From Verif Require Import Float Base TimestampsModel EpochsModel UtilsModel.
Local Open Scope Z_scope.

(** t[p==channel] with p[p==channel] *)
Definition chosen (channel : Z) (t : list Q) (ps : list Z) : list (Q * Z) := filter (fun e => snd e =? channel) (combine t ps).
(** 27-39; ratio and offset are Python floats *)
Definition detune_ld (p : Z) (t : list Q) (ps : list Z) (channel : Z) (ratio offset : Q) : pyres (list Q * list Z) :=
  let c := chosen channel t ps in
  let* t0 := getitem t 0 in
  let g := fl 53 (1 + ratio)%Q in
  Ok (map (fun e => fl p (fl p (fl p (fl p (fst e - t0) * g) + t0) + offset)%Q) c, map snd c).
(** 1e-10 ... 1e-3, 42-49 *)
Definition ratios : list Q := [1 # 10000000000; 1 # 1000000000; 1 # 100000000; 1 # 10000000; 1 # 1000000; 1 # 100000; 1 # 10000; 1 # 1000].
(** 21-24 and 41-49: the contents of c1_a2.dat and of c4e10.dat ... c4e3.dat from that of FILE.  An exception leaves the files
    written before it, which the model does not show. *)
Definition detune_script (p : Z) (file : list Z) : pyres (list Z * list (list Z)) :=
  let* (t, ps) := read_a1 p file true NS1 true in
  let t := tvalues t in
  let c := chosen 1 t ps in
  let* c1 := write p A2 (TLD (map fst c)) (map snd c) NS1 in
  let* cs := mapM (fun r => let* (tc, pc) := detune_ld p t ps 8 (fl 53 r) 0 in write p (A1 true) (TLD tc) pc NS1) ratios in
  Ok (c1, cs).
