(** Model of the plot of amplitudes against distance: plot/amplitudes.py and Magnitude.plot_amplitudes in
    signal/local_mag/magnitude.py.

    The plot is the record of what is put on the axes. SIMPLIFICATIONS: colours (but for the grey of labels), markers,
    fonts, legend, titles and the output file are left out; floats as in Mag_Model.v. *)
From Coq Require Import String Ascii.
From Coq Require Import List ZArith Reals Bool.
From Verif Require Import Lib Mag_Model.
Import ListNotations.
Open Scope Z_scope.

(** * Labels of the stations *)

(** [s[:-1]] *)
Fixpoint but_last (s : string) : string :=
  match s with
  | EmptyString => EmptyString
  | String c EmptyString => EmptyString
  | String c r => String c (but_last r)
  end.
(** [s[-1]] *)
Fixpoint last_char (s : string) : outcome ascii :=
  match s with
  | EmptyString => Raise IndexError
  | String c EmptyString => Ret c
  | String _ r => last_char r
  end.

(** The builtin max: the first of the largest; a NaN stays if it is the first one. *)
Definition pymax (l : list ext) : outcome ext :=
  match l with [] => Raise ValueError | x :: r => Ret (fold_left (fun m y => if eltb m y then y else m) r x) end.

(** One row of tr_ids, amps and dists, which have the same length. *)
Record lrow : Type := mk_lrow { l_id : string; l_amp : ext; l_dist : ext }.
(** An annotation: text, position, grey or not. *)
Record note : Type := mk_note { n_text : string; n_dist : ext; n_amp : ext; n_grey : bool }.

(** quakemigrate/plot/amplitudes.py:216-219, 242-245, 264-267: components separated by commas *)
Definition compstring (comps : list ascii) : string :=
  fold_left (fun s c => append (append s (String c EmptyString)) ",") comps EmptyString.
Definition label (stn : string) (comps : list ascii) : string :=
  append stn (append "[" (append (but_last (compstring comps)) "]")).

(** The variables of the loop; [stn = None] is the empty string, which is as false. *)
Record lstate : Type := mk_lstate
  { s_stn : string; s_start : Z; s_comps : list ascii; s_stns : list string; s_notes : list note }.

Definition ifempty {A} (s : string) (a b : A) : A := match s with EmptyString => a | _ => b end.
(** [x[a:b]] for 0 <= a *)
Definition slice {A} (l : list A) (a b : Z) : list A := firstn (Z.to_nat (b - a)) (skipn (Z.to_nat a) l).
(** [dists.iloc[i]] *)
Definition iloc (l : list ext) (i : Z) : outcome ext := match rd l i with Some x => Ret x | None => Raise IndexError end.

(** The annotation of station [stn]: at the distance of row [i], above the largest amplitude of [amps]. *)
Definition annotate (rows : list lrow) (rejected : bool) (stn : string) (comps : list ascii) (i : Z) (amps : list ext) : outcome note :=
  bind (iloc (map l_dist rows) i) (fun distance =>
  bind (pymax amps) (fun amp => Ret (mk_note (label stn comps) distance amp rejected))).

(** quakemigrate/plot/amplitudes.py:205-284, body of the loop *)
Definition label_step (rows : list lrow) (rejected : bool) (i : Z) (tr_id : string) (st : lstate) : outcome lstate :=
  let n := Z.of_nat (length rows) in
  let amps := map l_amp rows in
  if ifempty (s_stn st) true false then
    bind (last_char tr_id) (fun c => Ret (mk_lstate (but_last tr_id) 0 (s_comps st ++ [c]) (s_stns st) (s_notes st)))
  else if negb (String.eqb (but_last tr_id) (s_stn st)) then
    bind (annotate rows rejected (s_stn st) (s_comps st) (i - 1) (slice amps (s_start st) i)) (fun a =>
    bind (last_char tr_id) (fun c =>
    let st' := mk_lstate (but_last tr_id) i [c] (s_stns st ++ [s_stn st]) (s_notes st ++ [a]) in
    if i =? n - 1 then
      bind (annotate rows rejected (s_stn st') (s_comps st') i (slice amps i n)) (fun b =>
      Ret (mk_lstate (s_stn st') (s_start st') (s_comps st') (s_stns st') (s_notes st' ++ [b])))
    else Ret st'))
  else
    bind (last_char tr_id) (fun c =>
    if i =? n - 1 then
      bind (annotate rows rejected (but_last tr_id) (s_comps st ++ [c]) i (slice amps (s_start st) n)) (fun a =>
      Ret (mk_lstate (but_last tr_id) (s_start st) (s_comps st ++ [c]) (s_stns st ++ [but_last tr_id]) (s_notes st ++ [a])))
    else Ret (mk_lstate (s_stn st) (s_start st) (s_comps st ++ [c]) (s_stns st) (s_notes st))).

(** quakemigrate/plot/amplitudes.py:175-285 (label_stations): the annotations and the list of labelled stations *)
Fixpoint label_loop (rows : list lrow) (rejected : bool) (i : Z) (todo : list lrow) (st : lstate) : outcome lstate :=
  match todo with
  | [] => Ret st
  | r :: todo' => bind (label_step rows rejected i (l_id r) st) (label_loop rows rejected (i + 1) todo')
  end.
Definition label_stations (rows : list lrow) (rejected : bool) : outcome (list note * list string) :=
  bind (label_loop rows rejected 0 rows (mk_lstate EmptyString 0 [] [] [])) (fun st => Ret (s_notes st, s_stns st)).

(** * The plot *)

Definition row_of (k : mag_params) (f : fobs) : lrow := mk_lrow (o_id (m_obs (f_mobs f))) (corrected_amp k f) (f_dist f).

(** quakemigrate/plot/amplitudes.py:114-161: labels of the used observations, then of the stations among the others
    that are not labelled yet. *)
Definition plot_labels (k : mag_params) (table : list fobs) : outcome (list note) :=
  bind (label_stations (map (row_of k) (filter f_used table)) false) (fun r =>
  let '(notes, stns) := r in
  match filter (fun f => negb (f_used f)) table with
  | [] => Ret notes
  | rejected =>
      let rest := filter (fun f => negb (existsb (String.eqb (but_last (l_id (row_of k f)))) stns)) rejected in
      bind (label_stations (map (row_of k) rest) true) (fun r' => Ret (notes ++ fst r'))
  end).

Definition epow10 (x : ext) : ext :=
  match x with Fin a => Fin (Rpower 10 a) | PInf => PInf | NInf => Fin 0 | NaN => NaN end.

(** pandas' max and min of a Series: without NaN. *)
Definition series_best (better : ext -> ext -> bool) (l : list ext) : ext :=
  match filter (fun x => negb (is_nan x)) l with
  | [] => NaN
  | x :: r => fold_left (fun m y => if better m y then y else m) r x
  end.
Definition series_max (l : list ext) : ext := series_best eltb l.
Definition series_min (l : list ext) : ext := series_best (fun m y => eltb y m) l.
(** [np.max]: NaN if one is NaN. *)
Definition np_max (l : list ext) : ext := if existsb is_nan l then NaN else series_max l.
(** [np.linspace(a, b, n)] *)
Definition linspace (a b : ext) (n : Z) : list ext :=
  map (fun i => eadd a (ediv (emul (Fin (IZR i)) (esub b a)) (Fin (IZR (n - 1))))) (zrange n).

(** matplotlib's set_xlim and set_ylim: ValueError for limits that are NaN or infinite. *)
Definition limits (a b : ext) : outcome (ext * ext) :=
  match a, b with Fin _, Fin _ => Ret (a, b) | _, _ => Raise ValueError end.

Record plot : Type := mk_plot
  { p_used : list (ext * ext); p_rejected : list (ext * ext); p_noise : list (ext * ext); p_xerr : ext;
    p_labels : list note; p_curve : ext -> ext; p_upper : ext -> ext; p_lower : ext -> ext;
    p_xlim : ext * ext; p_ylim : ext * ext }.

(** quakemigrate/plot/amplitudes.py:74-78, signal/local_mag/magnitude.py:490-494 *)
Definition corrected_noise (k : mag_params) (f : fobs) : ext :=
  emul (emul (o_noise (m_obs (f_mobs f))) (Fin (amp_multiplier k))) (Fin (Rpower 10 (f_corr f))).
Definition point (k : mag_params) (f : fobs) : ext * ext := (f_dist f, corrected_amp k f).

(** quakemigrate/signal/local_mag/magnitude.py:473-484: distance error from the Gaussian uncertainties of the location,
    in km; [ucf] is the unit_conversion_factor of the lookup table *)
Definition distance_error (k : mag_params) (ucf : R) (x y z : ext) : ext :=
  let km (e : ext) := ediv e (Fin (1000 / ucf)) in
  let epi := esqrt (eadd (esq (km x)) (esq (km y))) in
  if use_hyp_dist k then esqrt (eadd (esq epi) (esq (km z))) else epi.

(** quakemigrate/signal/local_mag/magnitude.py:433-572 (plot_amplitudes), quakemigrate/plot/amplitudes.py:22-172
    (amplitudes_summary). [max(np.max(predicted_amp), amps_max)] is the builtin. *)
Definition plot_amplitudes (k : mag_params) (ucf : R) (uncertainty : ext * ext * ext) (mag err : ext) (table : list fobs) : outcome plot :=
  let '(ux, uy, uz) := uncertainty in
  let amps_max := emul (series_max (map (corrected_amp k) table)) (Fin 5) in
  let amps_min := ediv (series_min (map (corrected_noise k) table)) (Fin 10) in
  let dist_min := ediv (series_min (map f_dist table)) (Fin 2) in
  let dist_max := emul (series_max (map f_dist table)) (Fin (15 / 10)) in
  bind (plot_labels k table) (fun labels =>
  bind (get_attenuation k) (fun att =>
  let curve (m : ext) (d : ext) := epow10 (esub m (att d)) in
  bind (limits dist_min dist_max) (fun xlim =>
  bind (pymax [np_max (map (curve mag) (linspace dist_min dist_max 10000)); amps_max]) (fun top =>
  bind (limits amps_min top) (fun ylim =>
  Ret (mk_plot (map (point k) (filter f_used table)) (map (point k) (filter (fun f => negb (f_used f)) table))
         (map (fun f => (f_dist f, corrected_noise k f)) table) (distance_error k ucf ux uy uz) labels
         (curve mag) (curve (eadd mag err)) (curve (esub mag err)) xlim ylim)))))).
