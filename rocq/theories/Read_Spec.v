(** Vocabulary for the statements about reading from archives that are organised differently. *)
From Coq Require Import String Ascii.
From Coq Require Import List ZArith Reals Bool.
From Verif Require Import Lib Timeline_Model Archive_Model Archive_Spec.
Import ListNotations.
Open Scope Z_scope.

(** Files, their contents, and the archive format. *)
Record archive : Type := mk_archive { ar_files : list path; ar_content : path -> option (list wtrace); ar_format : string; ar_channels : list gtok }.

(** A stretch of data in a file of a station to be read, for a day of the period from [lo] to [hi]. *)
Definition stored (c : clock) (A : archive) (read_all : bool) (stations : list name) (lo hi : Z) (t : wtrace) : Prop :=
  exists p ts d s s', In p (ar_files A) /\ ar_content A p = Some ts /\ In t ts /\ layout (ar_format A) (ar_channels A) s s' d p /\ day_in c lo hi d
    /\ (read_all = true \/ (s = s' /\ In s stations)).
(** A sample of a channel, by station and channel name. *)
Definition stored_sample (c : clock) (A : archive) (read_all : bool) (stations : list name) (lo hi : Z) (s ch : name) (tau : Z) (v : R) : Prop :=
  exists t, stored c A read_all stations lo hi t /\ w_station t = s /\ w_chan t = ch /\ has_sample t tau v.

(** Each channel has one sampling interval; its samples and the ends of the period are on one grid; no two values are stored for one time. *)
Definition regular (interval : name -> name -> Z) (c : clock) (A : archive) (read_all : bool) (stations : list name) (lo hi : Z) : Prop :=
  (forall t, stored c A read_all stations lo hi t -> ~ In "."%char (w_station t) /\ w_delta t = interval (w_station t) (w_chan t) /\ 0 < w_delta t
     /\ (w_delta t | w_start t - lo) /\ (w_delta t | hi - lo))
  /\ (forall s ch tau v v', stored_sample c A read_all stations lo hi s ch tau v -> stored_sample c A read_all stations lo hi s ch tau v' -> v = v').

(** The traces of a channel. *)
Definition traces (l : list wtrace) (s ch : name) : list wtrace :=
  filter (fun t => (if list_eq_dec ascii_dec (w_station t) s then true else false) && (if list_eq_dec ascii_dec (w_chan t) ch then true else false)) l.
