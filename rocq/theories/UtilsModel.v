(** Model of the numerical part of lib/utils.py.

    Numbers are exact rationals; what floating point makes of them is a parameter of the functions: [rt] rounds
    the result of an operation on timestamp arrays (np_float), [rs] that of an operation on scalars (float64).
    Theorems hold for every such function unless they say what it must satisfy; [fl p] and the identity are
    instances.  Integers are used as rationals, so that an integer result is rounded like a float one; the
    two differ only above 2^53.  Infinities, NaN and warnings are not modelled. *)
From Coq Require Import QArith Qabs Qround Qminmax.
From Verif Require Import Float Base TimestampsModel EpochsModel.
Local Open Scope Z_scope.

(** l[i]; negative indexes count from the end *)
Definition getitem {A} (l : list A) (i : Z) : pyres A :=
  let j := if i <? 0 then i + len l else i in
  if j <? 0 then Err IndexError
  else match nth_error l (Z.to_nat j) with Some x => Ok x | None => Err IndexError end.
(** l[i:j] *)
Definition slice_index {A} (l : list A) (i : Z) : Z :=
  if i <? 0 then Z.max 0 (i + len l) else Z.min i (len l).
Definition slice {A} (l : list A) (i j : Z) : list A :=
  let a := slice_index l i in let b := slice_index l j in take (b - a) (drop a l).

(** ** get_overlap (46-54); min() of nothing is a ValueError *)
Definition get_overlap {A} (arrays : list (list A)) : pyres (Z * list (list A)) :=
  match map len arrays with
  | [] => Err ValueError
  | n :: r => let overlap := fold_left Z.min r n in Ok (overlap, map (fun a => slice a 0 overlap) arrays)
  end.

(** ** slice_timestamps (263-279) *)
Definition slice_timestamps (rt : Q -> Q) (ts : list Q) (start duration : option Q) : pyres (list Q) :=
  let* ts :=
    match start with
    | Some s => Ok (filter (fun t => Qle_bool 0 t) (map (fun t => rt (t - s)%Q) ts))
    | None => let* x := getitem ts 0 in Ok (map (fun t => rt (t - x)%Q) ts)
    end in
  match duration with
  | None => Ok ts
  | Some d => let* _ := getitem ts (-1) in Ok (filter (fun t => Qltb t d) ts)
  end.
Definition qmax_list (x : Q) (l : list Q) : Q := fold_left (fun a b => if Qltb a b then b else a) l x.
(** ** normalize_timestamps (413-426) *)
Definition normalize_timestamps (rt rs : Q -> Q) (T : list (list Q)) (skip : Q) (preserve_relative : bool) : pyres (list (list Q)) :=
  let* T := if preserve_relative then Ok T else mapM (fun ts => slice_timestamps rt ts None None) T in
  let* firsts := mapM (fun ts => getitem ts 0) T in
  match firsts with
  | [] => Err ValueError
  | x :: r => let start_time := rt (qmax_list x r + rs (skip * 1000000000))%Q in
              mapM (fun ts => slice_timestamps rt ts (Some start_time) None) T
  end.

(** ** generate_fft (171-194) up to the transform: the histogram.
    [arr // time_res] is the exact floor: numpy computes it from the exact remainder, which gives the floor
    for quotients below 2^51.  A zero resolution or number of bins makes NaN indexes, refused by bincount. *)
Definition bin_index (num_bins : Z) (time_res t : Q) : Z := Qfloor (t / time_res) mod num_bins.
Definition histogram (arr : list Q) (num_bins : Z) (time_res : Q) : pyres (list Z) :=
  match arr with
  | [] => Err ValueError                                            (* 189-190 *)
  | _ =>
      if (num_bins <=? 0) || Qeq_bool time_res 0 then Err ValueError
      else Ok (fold_left (fun h t => incr (Z.to_nat (bin_index num_bins time_res t)) h) arr
                 (repeat 0 (Z.to_nat num_bins)))
  end.

(** ** get_xcorr (197-208) of two histograms of the same length: irfft(conj(rfft a) * rfft b) *)
Definition sumZ (l : list Z) : Z := fold_right Z.add 0 l.
(** what the transforms compute in exact arithmetic, for even lengths: the circular correlation *)
Definition circular (a b : list Z) : list Z :=
  map (fun k => sumZ (map (fun i => nth i a 0 * nth ((i + k) mod length a) b 0) (seq 0 (length a)))) (seq 0 (length a)).
Definition exact_xc (a b : list Z) : list Q := map (fun v => inject_Z (Z.abs v)) (circular a b).
(** [xc] is the numerical computation.  irfft returns 2 (length - 1) values: one bin leaves none (ValueError), an odd
    number loses one and is not modelled. *)
Definition get_xcorr (xc : list Z -> list Z -> list Q) (a b : list Z) : pyres (list Q) :=
  if len a =? 1 then Err ValueError
  else if Z.odd (len a) then Err Unspecified
  else Ok (xc a b).

(** ** convert_histogram_fft (211-216) *)
Definition convert_histogram_fft (hist time_bins : list Q) : list Q * list Q :=
  let hlen := len hist / 2 in
  (slice hist hlen (len hist) ++ slice hist 0 hlen,
   map Qopp (rev (slice time_bins 1 (hlen + 1))) ++ slice time_bins 0 hlen).

(** ** get_timing_delay_fft (220-241) *)
Fixpoint argmax_go (l : list Q) (i best : Z) (v : Q) : Z :=
  match l with
  | [] => best
  | x :: r => if Qltb v x then argmax_go r (i + 1) i x else argmax_go r (i + 1) best v
  end.
(** np.argmax: the first position of the maximum *)
Definition argmax (l : list Q) : pyres Z :=
  match l with [] => Err ValueError | x :: r => Ok (argmax_go r 1 0 x) end.
Definition delay_at (n : Z) (time_bins : list Q) (ppos : Z) : pyres (Q * Q) :=
  let* ptime := getitem time_bins ppos in
  let npos := if ppos =? 0 then 0 else n - ppos in
  let* nt := getitem time_bins npos in
  let ntime := (- nt)%Q in
  Ok (if Z.abs ppos <? Z.abs npos then (ptime, ntime) else (ntime, ptime)).
Definition get_timing_delay_fft (hist time_bins : list Q) : pyres (Q * Q) :=
  let* ppos := argmax hist in delay_at (len hist) time_bins ppos.
(** 243-249 *)
Definition get_delay_at_index_fft (time_bins : list Q) (pos : Z) : pyres (Q * Q) :=
  if pos <? 0 then Err AssertionError else delay_at (len time_bins) time_bins pos.
(** 251-260.  np.argpartition and argsort leave the order of equal values open: [part] are the positions the
    former puts last, [order] the positions of the latter, reversed.  The results are (y, first, second) except for
    k = 1, where y is missing ([None]). *)
Definition get_top_k_delays_fft (part order : list Z) (hist time_bins : list Q) (k : Z) : pyres (list (option Q * Q * Q)) :=
  if k <? 1 then Err AssertionError
  else if k =? 1 then
    let* i := argmax hist in
    let* (a, b) := get_delay_at_index_fft time_bins i in Ok [(None, a, b)]
  else if len hist <? k then Err ValueError
  else
    mapM (fun o => let* x := getitem part o in
                   let* y := getitem hist x in
                   let* (a, b) := get_delay_at_index_fft time_bins x in Ok (Some y, a, b)) order.

(** ** Peak statistics (56-118) *)
Record peak : Type := mkPeak { signal : list Q; background : list Q }.
Definition qsum (l : list Q) : Q := fold_right Qplus 0%Q l.
Definition qmean (l : list Q) : Q := (qsum l / inject_Z (len l))%Q.
(** np.std squared *)
Definition qvar (l : list Q) : Q := (qsum (map (fun x => (x - qmean l) * (x - qmean l)) l) / inject_Z (len l))%Q.
(** None stands for Python's None *)
Definition peak_max (s : peak) : option Q :=                         (* 61-65 *)
  match signal s with [] => None | x :: r => Some (qmax_list x r) end.
Definition peak_mean (s : peak) : option Q :=                        (* 67-71 *)
  match background s with [] => None | l => Some (qmean l) end.
Definition peak_total (s : peak) : pyres (option Q) :=               (* 79-83 *)
  match signal s, peak_mean s with
  | [], _ => Ok None
  | _, None => Err TypeError
  | l, Some m => Ok (Some (qsum l - inject_Z (len l) * m)%Q)
  end.
(** the integer nearest to sqrt(x), ties to even *)
Definition rsqrt (x : Q) : Z :=
  let n := Z.sqrt (Qfloor x) in
  let h := (inject_Z (2 * n + 1) / 2)%Q in
  match (x ?= h * h)%Q with Lt => n | Gt => n + 1 | Eq => if Z.even n then n else n + 1 end.
(** round((max - mean) / stdev, 3) in exact arithmetic, for a nonzero deviation *)
Definition exact_zs (m : Q) (bg : list Q) : Q :=
  if Qeq_bool (qvar bg) 0 then 0%Q
  else let d := (m - qmean bg)%Q in
       let v := rsqrt (d * d * 1000000 / qvar bg)%Q in
       (inject_Z (if Qle_bool 0 d then v else - v) / 1000)%Q.
(** 85-89; [zs m bg] is the computation for a maximum and a background, 0 if the deviation is 0 *)
Definition significance (zs : Q -> list Q -> Q) (s : peak) : pyres Q :=
  match background s with
  | [] => Err TypeError                                              (* None in the subtraction *)
  | bg => match peak_max s with
          | Some m => Ok (zs m bg)
          | None => if Qeq_bool (qvar bg) 0 then Ok 0%Q else Err TypeError
          end
  end.
(** 91-96: np.hstack takes one argument *)
Definition significance_raw (s : peak) : pyres (option Q) :=
  match background s with
  | [] => Err TypeError
  | bg => if Qeq_bool (qvar bg) 0 then Ok None else Err TypeError
  end.
Fixpoint groups (fuel : nat) (n : Z) (l : list Q) : list (list Q) :=
  match fuel with
  | O => []
  | S k => match l with [] => [] | _ => take n l :: groups k n (drop n l) end
  end.
(** 98-112: total and the variance of the regrouped background; the quotient is rounded like significance *)
Definition significance2_parts (s : peak) : pyres (option (Q * Q)) :=
  match background s with
  | [] => if len (signal s) =? 0 then Err ZeroDivisionError else Ok None
  | bg =>
      if Qeq_bool (qvar bg) 0 then Ok None
      else if len (signal s) =? 0 then Err ZeroDivisionError
      else let length' := len bg / len (signal s) * len (signal s) in
           if length' =? 0 then Ok None
           else let rebinned := map qsum (groups (length bg) (len (signal s)) (slice bg 0 length')) in
                if Qeq_bool (qvar rebinned) 0 then Ok None
                else let* t := peak_total s in
                     match t with None => Err TypeError | Some v => Ok (Some (v, qvar rebinned)) end
  end.
(** 114-118 *)
Definition g2 (s : peak) : pyres (option Q) :=
  match peak_mean s, peak_max s with
  | Some m, mx => if Qeq_bool m 0 then Ok None
                  else match mx with Some x => Ok (Some (x / m)%Q) | None => Err TypeError end
  | None, _ => Err TypeError
  end.

(** ** get_statistics (120-167).  [center]: None, or its value and whether |center| // resolution is an int;
    a float slice index is a TypeError.  max(0, x) and min(n, x) return the int when it is not beaten. *)
Definition get_statistics (hist : list Q) (resolution : option Q) (center : option (Q * bool)) (window : Q) : pyres peak :=
  match resolution with
  | None => match center with None => Ok (mkPeak hist hist) | Some _ => Err ValueError end
  | Some res =>
      let* (bin_center, is_int) :=
        match center with
        | None => let* c := argmax hist in Ok (c, true)
        | Some (c, is_int) =>
            let b := Qfloor (Qabs c / res) in
            Ok (if Qltb c 0 then len hist - b else b, is_int)
        end in
      let w := Qceiling (window / 2 / res) in
      let left := Z.max 0 (bin_center - w) in
      let right := Z.min (len hist) (bin_center + w) in
      if negb is_int && ((0 <? bin_center - w) || (bin_center + w <? len hist)) then Err TypeError
      else
        let left_bg := left / 2 in
        let right_bg := (len hist + right) / 2 in
        Ok (mkPeak (slice hist left (right + 1))
                   (slice hist left_bg left ++ slice hist (right + 1) (right_bg + 1)))
  end.
