(** Model of get_xcorr with a filter (lib/utils.py 197-208), over the real numbers as in FftModel. *)
From Coq Require Import Reals.
From Verif Require Import Base TimestampsModel FftModel.
Local Open Scope R_scope.

(** fft * filter (206): arrays of one length, or one value for all; other lengths do not broadcast *)
Definition filtered (fft flt : list C) : pyres (list C) :=
  if (length flt =? length fft)%nat then Ok (map (fun c => cmul (fst c) (snd c)) (combine fft flt))
  else match flt with
       | [c] => Ok (map (fun x => cmul x c) fft)
       | _ => Err ValueError
       end.
(** 204-208, for arrays [afft] and [bfft] of one length *)
Definition get_xcorr_fft (afft bfft : list C) (flt : option (list C)) : pyres (list R) :=
  let fft := map (fun c => cmul (conj (fst c)) (snd c)) (combine afft bfft) in
  let* fft := match flt with Some f => filtered fft f | None => Ok fft end in
  let* r := irfft fft in Ok (map Rabs r).
