(** Model of the STA/LTA onset functions: quakemigrate/core/src/onsetlib.c with the wrappers in
    quakemigrate/core/lib.py, and the Python versions and the combination of components in
    quakemigrate/signal/onsets/stalta.py.

    [double] is [R]; an array element that is the result of a division by zero (inf or NaN) is
    [None].  A read or write outside an array is undefined behaviour (outer [None]). *)
From Coq Require Import List ZArith Reals Bool.
From Verif Require Import Lib PySlice.
Import ListNotations.
Open Scope Z_scope.

(** An IEEE division whose divisor may be zero; the result then is not a number (or infinite). *)
Definition fdiv (a b : R) : option R := if Req_EM_T b 0 then None else Some (a / b)%R.
Definition fscale (o : option R) (c : R) : option R := option_map (fun x => x * c)%R o.

(** sta += signal[i] for i in [lo, hi). onsetlib.c:43-45, 88-90, 93-95. *)
Definition c_sum (signal : list R) (lo hi : Z) (init : R) : option R :=
  for_ lo hi (fun i s => match rd signal i with Some x => Some (s + x)%R | None => None end) init.

(** onsetlib.c:35-59. [head] is (n, nsta, nlta). The division nlta/nsta (line 40) is by the
    short window length, which the caller makes at least 1. *)
Definition c_overlapping (signal : list R) (n nsta nlta : Z) (onset : list (option R))
  : option (list (option R)) :=
  let frac := (IZR nlta / IZR nsta)%R in
  (* lines 43-45 *)
  match c_sum signal 0 nsta 0 with None => None | Some sta0 =>
  (* lines 46-51 *)
  match for_ nsta nlta (fun i (st : R * R) =>
          let (sta, lta) := st in
          match rd signal i, rd signal (i - nsta) with
          | Some buf, Some old => Some (sta + (buf - old), lta + buf)%R
          | _, _ => None
          end) (sta0, sta0) with None => None | Some (sta1, lta1) =>
  (* line 52 *)
  match wr onset (nlta - 1) (fscale (fdiv sta1 lta1) frac) with None => None | Some onset1 =>
  (* lines 53-58 *)
  match for_ nlta n (fun i (st : R * R * list (option R)) =>
          let '(sta, lta, on) := st in
          match rd signal i, rd signal (i - nsta), rd signal (i - nlta) with
          | Some buf, Some olds, Some oldl =>
              let sta' := (sta + (buf - olds))%R in
              let lta' := (lta + (buf - oldl))%R in
              match wr on i (fscale (fdiv sta' lta') frac) with
              | Some on' => Some (sta', lta', on')
              | None => None
              end
          | _, _, _ => None
          end) (sta1, lta1, onset1) with None => None | Some (_, _, onset2) => Some onset2
  end end end end.

(** onsetlib.c:79-108. *)
Definition c_centred (signal : list R) (n nsta nlta : Z) (onset : list (option R))
  : option (list (option R)) :=
  let frac := (IZR nlta / IZR nsta)%R in
  (* lines 88-90 *)
  match c_sum signal 0 nlta 0 with None => None | Some lta0 =>
  (* lines 93-95 *)
  match c_sum signal nlta (nlta + nsta) 0 with None => None | Some sta0 =>
  (* line 98 *)
  match wr onset (nlta - 1) (fscale (fdiv sta0 lta0) frac) with None => None | Some onset1 =>
  (* lines 99-107 *)
  match for_ nlta (n - nsta) (fun i (st : R * R * list (option R)) =>
          let '(sta, lta, on) := st in
          match rd signal (i + nsta), rd signal i, rd signal (i - nlta) with
          | Some a, Some b, Some c =>
              let sta' := (sta + (a - b))%R in
              let lta' := (lta + (b - c))%R in
              match wr on i (if Rlt_dec 0 lta' then fscale (fdiv sta' lta') frac else Some 1%R) with
              | Some on' => Some (sta', lta', on')
              | None => None
              end
          | _, _, _ => None
          end) (sta0, lta0, onset1) with None => None | Some (_, _, onset2) => Some onset2
  end end end end.

(** onsetlib.c:126-148. *)
Definition c_recursive (signal : list R) (n nsta nlta : Z) (onset : list (option R))
  : option (list (option R)) :=
  let csta := (1 / IZR nsta)%R in
  let clta := (1 / IZR nlta)%R in
  (* lines 135-140 *)
  match for_ 1 n (fun i (st : R * R * list (option R)) =>
          let '(sta, lta, on) := st in
          match rd signal i with
          | Some buf =>
              let sta' := (csta * buf + (1 - csta) * sta)%R in
              let lta' := (clta * buf + (1 - clta) * lta)%R in
              match wr on i (fdiv sta' lta') with
              | Some on' => Some (sta', lta', on')
              | None => None
              end
          | None => None
          end) (0%R, 0%R, onset) with None => None | Some (_, _, onset1) =>
  (* lines 142-147 *)
  if nlta <? n
  then for_ 0 nlta (fun i on => wr on i (Some 1%R)) onset1
  else Some onset1
  end.

(** lib.py:176-208, 214-246, 252-285: the output starts as ones (zeros for the recursive one). *)
Definition lib_overlapping (signal : list R) (nsta nlta : Z) : outcome (list (option R)) :=
  match c_overlapping signal (Z.of_nat (length signal)) nsta nlta (repeat (Some 1%R) (length signal)) with
  | Some o => Ret o | None => Undef end.
Definition lib_centred (signal : list R) (nsta nlta : Z) : outcome (list (option R)) :=
  match c_centred signal (Z.of_nat (length signal)) nsta nlta (repeat (Some 1%R) (length signal)) with
  | Some o => Ret o | None => Undef end.
Definition lib_recursive (signal : list R) (nsta nlta : Z) : outcome (list (option R)) :=
  match c_recursive signal (Z.of_nat (length signal)) nsta nlta (repeat (Some 0%R) (length signal)) with
  | Some o => Ret o | None => Undef end.

(* ------------------------------------------------------------------ *)
(** * Python versions, signal/onsets/stalta.py *)

(** [np.cumsum] *)
Fixpoint cumsum_from (acc : R) (l : list R) : list R :=
  match l with [] => [] | x :: l' => (acc + x)%R :: cumsum_from (acc + x)%R l' end.
Definition cumsum (l : list R) : list R := cumsum_from 0%R l.

(** Elementwise difference of two arrays of equal length; otherwise a broadcasting error. *)
Fixpoint sub_lists (a b : list R) : option (list R) :=
  match a, b with
  | [], [] => Some []
  | x :: a', y :: b' => match sub_lists a' b' with Some l => Some ((x - y)%R :: l) | None => None end
  | _, _ => None
  end.

(** [a[w:] = a[w:] - a[:-w]], stalta.py:61, 65, 116, 118. *)
Definition window_diff (a : list R) (w : Z) : option (list R) :=
  match sub_lists (pyslice a (Some w) None) (pyslice a None (Some (- w))) with
  | Some d => pyset a (Some w) None d
  | None => None
  end.

Definition scale_list (c : R) (a : list R) : list R := map (fun x => (x / c)%R) a.

(** stalta.py:74-79, 127-134: samples with a vanishing LTA get sta = lta = [tiny], then divide.
    [tiny] is numpy's smallest normal double. *)
Definition guarded_ratio (tiny : R) (sta lta : list R) : list (option R) :=
  map (fun p => let '(s, l) := p in
         let '(s', l') := if Rlt_dec l tiny then (tiny, tiny) else (s, l) in fdiv s' l')
      (combine sta lta).

(** stalta.py:82-134.  A shape error of an assignment raises ValueError. *)
Definition overlapping_py (tiny : R) (signal : list R) (nsta nlta : Z) : outcome (list (option R)) :=
  let cs := cumsum signal in
  match window_diff cs nsta, window_diff cs nlta with
  | Some s, Some l =>
      let sta := pyfill (scale_list (IZR nsta) s) None (Some (nlta - 1)) 1%R in
      let lta := pyfill (scale_list (IZR nlta) l) None (Some (nlta - 1)) 1%R in
      Ret (guarded_ratio tiny sta lta)
  | _, _ => Raise ValueError
  end.

(** stalta.py:25-79. *)
Definition centred_py (tiny : R) (signal : list R) (nsta nlta : Z) : outcome (list (option R)) :=
  let cs := cumsum signal in
  match window_diff cs nsta, window_diff cs nlta with
  | Some s, Some l =>
      (* line 62: sta[nsta:-nsta] = sta[nsta * 2:] *)
      match pyset s (Some nsta) (Some (- nsta)) (pyslice s (Some (nsta * 2)) None) with
      | Some s2 =>
          let sta := pyfill (pyfill (scale_list (IZR nsta) s2) None (Some (nlta - 1)) 1%R)
                            (Some (- nsta)) None 1%R in
          let lta := pyfill (pyfill (scale_list (IZR nlta) l) None (Some (nlta - 1)) 1%R)
                            (Some (- nsta)) None 1%R in
          Ret (guarded_ratio tiny sta lta)
      | None => Raise ValueError
      end
  | _, _ => Raise ValueError
  end.

(* ------------------------------------------------------------------ *)
(** * Combination of components, stalta.py:491-584 *)

(** stalta.py:579-582 of [_trim_taper_pad], for one component. *)
Definition trim_taper_pad1 (stw ltw taper_pad : Z) (onset : list (option R)) : list (option R) :=
  pyfill (pyfill onset None (Some (taper_pad + ltw - 1)) (Some 1%R))
         (Some (- (stw + taper_pad))) None (Some 1%R).

(** Arithmetic on elements that may not be numbers. *)
Definition fadd (a b : option R) : option R :=
  match a, b with Some x, Some y => Some (x + y)%R | _, _ => None end.
Definition fsq (a : option R) : option R := option_map (fun x => x * x)%R a.
Fixpoint add_lists (a b : list (option R)) : list (option R) :=
  match a, b with x :: a', y :: b' => fadd x y :: add_lists a' b' | _, _ => [] end.

(** stalta.py:544: [np.sqrt(np.sum([onset**2 for onset in onsets], axis=0) / len(onsets))].
    All component arrays have the same length. *)
Definition combine_components (onsets : list (list (option R))) : list (option R) :=
  match onsets with
  | [] => []
  | o :: os =>
      let total := fold_left (fun acc x => add_lists acc (map fsq x)) os (map fsq o) in
      map (option_map (fun v => sqrt (v / INR (length onsets)))) total
  end.

(** stalta.py:546: [np.clip(onset, self.min_onset_value, np.inf)]; NaN stays NaN. *)
Definition clip_min (mov : R) (onset : list (option R)) : list (option R) :=
  map (option_map (fun v => Rmax v mov)) onset.

(** stalta.py:491-548 after the onset function has been applied to each transformed component.
    [taper] is the number of taper samples when a timespan is given. *)
Definition combined_onset (mov : R) (stw ltw : Z) (taper : option Z)
    (components : list (list (option R))) : list (option R) :=
  let cs := match taper with
            | Some tp => map (trim_taper_pad1 stw ltw tp) components
            | None => components
            end in
  clip_min mov (combine_components cs).

(** stalta.py:308-312: the constructor rejects a floor below 0.01. *)
Definition check_min_onset (mov : R) : outcome R :=
  if Rlt_dec mov (1 / 100) then Raise ValueError else Ret mov.

(** stalta.py:518-519: [tr.data**2]. *)
Definition energy (data : list R) : list R := map (fun x => (x * x)%R) data.
(** stalta.py:520-521: [np.abs(tr.data)]. *)
Definition absval (data : list R) : list R := map Rabs data.
