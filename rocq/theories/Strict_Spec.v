(** Vocabulary for the statements about stricter and wider trigger settings. *)
From Coq Require Import List ZArith QArith Ascii.
From Verif Require Import Lib Timeline_Model Trigger_Model Trigger_Spec.
Import ListNotations.
Open Scope Z_scope.

(** The same settings, but for windows that are at least as wide. *)
Record wider (p p' : params) : Prop := {
  w_method : threshold_method p' = threshold_method p;
  w_static : static_threshold p' = static_threshold p;
  w_madw : mad_window_length p' = mad_window_length p; w_mad : mad_multiplier p' = mad_multiplier p;
  w_medw : median_window_length p' = median_window_length p; w_med : median_multiplier p' = median_multiplier p;
  w_norm : normalise_coalescence p' = normalise_coalescence p;
  w_marginal : marginal_window p <= marginal_window p';
  w_interval : min_event_interval p <= min_event_interval p' }.

(** Two events that differ in their time windows only. *)
Definition same_source (e e' : event) : Prop :=
  EventID e = EventID e' /\ CoaTime (cand e) = CoaTime (cand e') /\ TRIG_COA (cand e) = TRIG_COA (cand e')
  /\ CCOA (cand e) = CCOA (cand e') /\ COA_NORM (cand e) = COA_NORM (cand e')
  /\ COA_X (cand e) = COA_X (cand e') /\ COA_Y (cand e) = COA_Y (cand e') /\ COA_Z (cand e) = COA_Z (cand e').

(** Event [e] has the time of [e'] in its window. *)
Definition covers (e e' : event) : Prop := MinTime (cand e) <= CoaTime (cand e') <= MaxTime (cand e).

(** The events that the thresholds [th] give for the scan data [data]. *)
Definition events_at (c : clock) (p : params) (data : list scanrow) (th : list Q) (es : list event) : Prop :=
  exists cands, identify_candidates p data th = Ret cands /\ refine_candidates c p cands = Ret es.

(** The sample at time [t] reaches the threshold. *)
Definition hit_time (p : params) (data : list scanrow) (th : list Q) (t : Z) : Prop :=
  exists i r, rd data i = Some r /\ DT r = t /\ hit p data th i.
(** Time [t] is in a stretch of samples that all reach the threshold; any other sample that does is more than [gap] from all of the stretch. *)
Definition stands_alone (p : params) (data : list scanrow) (th : list Q) (gap t : Z) : Prop :=
  exists lo hi i r first final, maximal_run p data th lo hi /\ lo <= i <= hi /\ rd data i = Some r /\ DT r = t
  /\ rd data lo = Some first /\ rd data hi = Some final
  /\ forall u, hit_time p data th u -> DT first <= u <= DT final \/ u < DT first - gap \/ DT final + gap < u.

(** The same settings, but for a threshold that is at least as high. *)
Record stricter (p p' : params) : Prop := {
  s_method : threshold_method p' = threshold_method p;
  s_static : (static_threshold p <= static_threshold p')%Q;
  s_madw : mad_window_length p' = mad_window_length p; s_mad : (mad_multiplier p <= mad_multiplier p')%Q;
  s_medw : median_window_length p' = median_window_length p; s_med : (median_multiplier p <= median_multiplier p')%Q;
  s_norm : normalise_coalescence p' = normalise_coalescence p;
  s_marginal : marginal_window p' = marginal_window p; s_interval : min_event_interval p' = min_event_interval p }.
