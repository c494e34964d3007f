(** What users expect of parameters. *)
From Coq Require Import String Ascii.
From Coq Require Import List ZArith Reals.
From Verif Require Import Lib PyDict Params_Model.
Import ListNotations.

(** Arguments under their present names that mean the same as [k]: an old name, where given,
    replaces the value of the new one. *)
Definition renamed_onset (k : onset_kw) : onset_kw :=
  mk_okw (k_rate k)
    (match k_centred k with
     | Some true => Some "centred"%string | Some false => Some "classic"%string | None => k_position k end)
    (k_min k)
    (match k_p_bp k, k_s_bp k with
     | None, None => k_bp k
     | Some p, None => Some (dset (opt (k_bp k) default_bp) "P" p)
     | None, Some s => Some (dset (opt (k_bp k) default_bp) "S" s)
     | Some p, Some s => Some (dset (dset (opt (k_bp k) default_bp) "P" p) "S" s)
     end)
    (match k_p_win k, k_s_win k with
     | None, None => k_win k
     | Some p, None => Some (dset (opt (k_win k) default_win) "P" p)
     | None, Some s => Some (dset (opt (k_win k) default_win) "S" s)
     | Some p, Some s => Some (dset (dset (opt (k_win k) default_win) "P" p) "S" s)
     end)
    None None None None None.

(** The windows in use for a phase. *)
Definition window_of (o : onset) (phase : string) (sta lta : R) : Prop := In (phase, (sta, lta)) (o_win o).

(** The pads cover the windows of all phases: before the period the LTA and three times the STA, after
    it the largest traveltime and twice the LTA. *)
Definition pads_cover (o : onset) (ttmax : R) : Prop :=
  forall phase sta lta, window_of o phase sta lta ->
    (exists pre, pre_pad o = Ret pre /\ (lta + 3 * sta <= pre)%R) /\ (ttmax + 2 * lta <= o_post o)%R.

(** Assignments that leave the windows alone. *)
Definition keeps_windows (a : onset_op) : Prop :=
  match a with SetWin _ => False | OldWin _ (Some _) => False | _ => True end.
Definition keeps_rate (a : onset_op) : Prop := match a with SetRate _ => False | _ => True end.
