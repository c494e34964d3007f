(** Vocabulary for the statements about locating events in an archive. *)
From Coq Require Import String.
From Coq Require Import List ZArith QArith Reals.
From Verif Require Import Lib PyDict Timeline_Model Timeline_Spec Migrate_Spec Lut_Model Lut_Spec Locate_Model Locate_Spec Resample_Spec Onset_Model Onset_Spec Shift_Spec LocateRun_Model.
Import ListNotations.
Open Scope Z_scope.

(** Settings, lookup table and times with which an event can be located. [tab]: the traveltimes of a station and phase; [mw]: the marginal window; [pre], [post]: the pads. *)
Record locate_ready (lowpass : Z -> list R -> list R) (taper : list R -> list R) (tiny : R) (secs : Z) (k : onset_cfg) (l : lut)
  (tab : string -> string -> table) (stations : list string) (mw pre post : Z) : Prop := {
  lr_ticks : ticks_ok secs (o_rate k); lr_tiny : (0 < tiny <= 1)%R; lr_python : o_python k = true;
  lr_lowpass : forall dd x, length (lowpass dd x) = length x; lr_taper : forall x, length (taper x) = length x; lr_transform : forall x, length (o_transform k x) = length x;
  lr_ms : whole_ms (o_clock secs k); lr_mw : 0 < mw; lr_whole : (secs / o_rate k | mw);
  lr_pre0 : 0 <= stalta_pre_pad (map (fun kv => (ph_sta (snd kv), ph_lta (snd kv))) (o_cfg k)); lr_post0 : 0 <= o_post k;
  lr_pads : onset_pad (o_clock secs k) (4 * mw) (stalta_pre_pad (map (fun kv => (ph_sta (snd kv), ph_lta (snd kv))) (o_cfg k))) (o_post k) = (pre, post);
  lr_phases : forall ph, In ph (o_phases k) -> exists pc, dget (o_cfg k) ph = Some pc
    /\ (let nsta := stw_samples (o_clock secs k) (ph_sta pc) in let nlta := ltw_samples (o_clock secs k) (ph_lta pc) in 1 <= nsta < nlta /\ nlta + nsta <= (4 * mw + pre + post) / (secs / o_rate k) + 1)
    /\ (o_all k = true -> 0 < ph_count pc) /\ (forall dd x, length (ph_band pc dd x) = length x) /\ (ph_highcut pc < inject_Z (o_rate k) * (1 # 2))%Q;
  lr_grid : grid_ok (l_grid l); lr_nd_phases : NoDup (o_phases k); lr_nd_stations : NoDup stations; lr_pl_phases : Forall plain_name (o_phases k); lr_pl_stations : Forall plain_name stations;
  lr_tables : forall s p, In s stations -> In p (o_phases k) -> table_of l s p (tab s p) /\ has_shape (tab s p) (g_count (l_grid l))
    /\ forall q, is_node (g_count (l_grid l)) q -> (-2147483648 <= entry0 (tab s p) q * IZR (o_rate k) <= IZR (post / (secs / o_rate k)))%R;
  lr_size : Z.of_nat (length (o_phases k) * length stations) * ((4 * mw + pre + post) / (secs / o_rate k) + 1) < 2147483648 }.

(** The first sample, of [ns], with the largest value of all nodes and samples, and a node that has it. *)
Definition first_peak (n : ijk) (ns : Z) (f : Z -> ijk -> R) (s0 : Z) (q0 : ijk) : Prop :=
  0 <= s0 < ns /\ is_node n q0 /\ forall s q, 0 <= s < ns -> is_node n q -> (f s q <= f s0 q0)%R /\ (s < s0 -> (f s q < f s0 q0)%R).
(** The node has the largest sum over the samples [lo] to [lo + len - 1]. *)
Definition best_sum (n : ijk) (f : Z -> ijk -> R) (lo len : Z) (p : ijk) : Prop :=
  is_node n p /\ forall q, is_node n q -> (sum (fun i => f (lo + i)%Z q) (zrange len) <= sum (fun i => f (lo + i)%Z p) (zrange len))%R.

(** The same event [t] later. *)
Definition row_later (t : Z) (r : coarow) : coarow := mk_coarow (r_dt r + t) (r_coa r) (r_norm r) (r_xyz r).
Definition event_later {M} (t : Z) (e : event M) : event M := mk_event (e_trig e + t) (e_mw e) (map (row_later t) (e_rows e)) (e_map e) (e_otime e + t).
Definition located_later (t : Z) (a b : located) : Prop :=
  lo_event b = event_later t (lo_event a) /\ lo_spline b = lo_spline a /\ lo_cov b = lo_cov a
  /\ Forall2 (fun x y => later_pick t (fst x) (fst y) /\ snd y = snd x) (lo_picks a) (lo_picks b).
Definition skipped_or {A} (P : A -> A -> Prop) (a b : option A) : Prop := match a, b with Some x, Some y => P x y | None, None => True | _, _ => False end.
