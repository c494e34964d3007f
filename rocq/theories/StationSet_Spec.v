(** Vocabulary for the statements about the order of the stations and stations without data. *)
From Coq Require Import String.
From Coq Require Import List ZArith QArith Reals.
From Verif Require Import Lib PyDict Timeline_Model Timeline_Spec Avail_Model Migrate_Spec Lut_Spec Locate_Spec Resample_Spec Onset_Model Onset_Spec.
From Verif Require Lut_Model.
Import ListNotations.
Open Scope Z_scope.

(** No trace is of the station. *)
Definition silent (s : string) (d : wdata) : Prop := forall g, In g (d_waveforms d) -> ~ of_station s (sg_id g).
(** The same window and the same data of each station, whatever the order of the stations and of the traces of different channels; stations without data may be in one of the lists only. *)
Record same_stations (d d' : wdata) : Prop := {
  ss_start : d_start d = d_start d'; ss_end : d_end d = d_end d'; ss_resample : d_resample d = d_resample d'; ss_upfactor : d_upfactor d = d_upfactor d';
  ss_both : forall s, In s (d_stations d) -> In s (d_stations d') -> same_data s (d_waveforms d) (d_waveforms d');
  ss_left : forall s, In s (d_stations d) -> ~ In s (d_stations d') -> silent s d;
  ss_right : forall s, In s (d_stations d') -> ~ In s (d_stations d) -> silent s d' }.

(** Settings, lookup table, window and data with which the coalescence can be computed. *)
Record window_ready (lowpass : Z -> list R -> list R) (taper : list R -> list R) (tiny : R) (secs : Z) (k : onset_cfg) (l : Lut_Model.lut) (tab : string -> string -> Lut_Model.table) (rate : R) (first last : Z) (d : wdata) : Prop := {
  wr_ticks : ticks_ok secs (o_rate k); wr_tiny : (0 < tiny <= 1)%R; wr_python : o_python k = true;
  wr_lowpass : forall dd x, length (lowpass dd x) = length x; wr_taper : forall x, length (taper x) = length x; wr_transform : forall x, length (o_transform k x) = length x;
  wr_start : (secs / o_rate k | d_start d); wr_end : (secs / o_rate k | d_end d); wr_order : d_start d <= d_end d;
  wr_phases : forall ph, In ph (o_phases k) -> exists pc, dget (o_cfg k) ph = Some pc
    /\ (let nsta := stw_samples (o_clock secs k) (ph_sta pc) in let nlta := ltw_samples (o_clock secs k) (ph_lta pc) in 1 <= nsta < nlta /\ nlta + nsta <= n_window secs (o_rate k) (d_start d) (d_end d))
    /\ (o_all k = true -> 0 < ph_count pc) /\ (forall dd x, length (ph_band pc dd x) = length x) /\ (ph_highcut pc < inject_Z (o_rate k) * (1 # 2))%Q;
  wr_data : Forall (usable secs (o_rate k) (d_resample d) (d_upfactor d) (d_start d) (d_end d)) (d_waveforms d);
  wr_grid : grid_ok (Lut_Model.l_grid l); wr_nd_phases : NoDup (o_phases k); wr_nd_stations : NoDup (d_stations d); wr_pl_phases : Forall plain_name (o_phases k); wr_pl_stations : Forall plain_name (d_stations d);
  wr_dots : Forall plain_station (d_stations d);
  wr_tables : forall s p, In s (d_stations d) -> In p (o_phases k) -> table_of l s p (tab s p) /\ has_shape (tab s p) (Lut_Model.g_count (Lut_Model.l_grid l))
     /\ forall q, is_node (Lut_Model.g_count (Lut_Model.l_grid l)) q -> (-2147483648 <= entry0 (tab s p) q * rate <= IZR last)%R;
  wr_first : 0 <= first; wr_last : 0 <= last; wr_samples : first + last <= n_window secs (o_rate k) (d_start d) (d_end d);
  wr_size : Z.of_nat (length (o_phases k) * length (d_stations d)) * n_window secs (o_rate k) (d_start d) (d_end d) < 2147483648 }.
