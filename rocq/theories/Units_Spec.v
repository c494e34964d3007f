(** Vocabulary for the statement about the units of the coalescence. *)
From Coq Require Import List ZArith QArith Bool Ascii.
From Verif Require Import Lib Timeline_Model Trigger_Model.
Import ListNotations.
Open Scope Z_scope.

(** The value in other units, and with another zero. *)
Definition converted (k u a a' : Q) : Prop := (a' == k * a + u)%Q.
(** The same sample, with its coalescence and its normalised coalescence in other units. *)
Record same_row (k u kn un : Q) (x y : scanrow) : Prop := {
  rw_time : DT y = DT x; rw_coa : converted k u (COA x) (COA y); rw_coa_n : converted kn un (COA_N x) (COA_N y);
  rw_x : PX y = PX x; rw_y : PY y = PY x; rw_z : PZ y = PZ x }.
(** The same event, with its values in other units. *)
Record same_event (norm : bool) (k u kn un : Q) (a b : event) : Prop := {
  se_id : EventID b = EventID a; se_num : EventNum (cand b) = EventNum (cand a); se_time : CoaTime (cand b) = CoaTime (cand a);
  se_min : MinTime (cand b) = MinTime (cand a); se_max : MaxTime (cand b) = MaxTime (cand a);
  se_x : COA_X (cand b) = COA_X (cand a); se_y : COA_Y (cand b) = COA_Y (cand a); se_z : COA_Z (cand b) = COA_Z (cand a);
  se_trig : if norm then converted kn un (TRIG_COA (cand a)) (TRIG_COA (cand b)) else converted k u (TRIG_COA (cand a)) (TRIG_COA (cand b));
  se_coa : converted k u (CCOA (cand a)) (CCOA (cand b)); se_norm : converted kn un (COA_NORM (cand a)) (COA_NORM (cand b)) }.
(** The threshold follows the units [k], [u] of the values that it is applied to: MAD any, median ratio without a new zero, static only in the same units. *)
Definition follows (m : method) (k u : Q) : Prop := match m with Mad => True | MedianRatio => (u == 0)%Q | Static => (k == 1)%Q /\ (u == 0)%Q end.
(** The same files, and the same outcome, with the values in other units. *)
Definition same_files (norm : bool) (k u kn un : Q) (w w' : world) : Prop :=
  output_cols w' = output_cols w /\ forall d, match tfiles w d, tfiles w' d with
    | Some (cols, l), Some (cols', l') => cols' = cols /\ Forall2 (same_event norm k u kn un) l l' | None, None => True | _, _ => False end.
Definition same_outcome {A B} (P : A -> B -> Prop) (a : outcome A) (b : outcome B) : Prop :=
  match a, b with Ret x, Ret y => P x y | Raise x, Raise y => x = y | Undef, Undef => True | _, _ => False end.
