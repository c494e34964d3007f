(** C137: the units of the coalescence. *)
From Coq Require Import List ZArith QArith Bool Ascii Lia.
From Verif Require Import Lib LibFacts Timeline_Model Trigger_Model Trigger_Spec Trigger_Proofs Units_Spec Units_Proofs.
Import ListNotations.
Open Scope Z_scope.

(** C137, the thresholds: with values in other units the threshold is the same threshold in those units, sample by sample. *)
Theorem C137_threshold :
  forall p k u values values' rate i x, (0 < k)%Q -> follows (threshold_method p) k u -> Forall2 (converted k u) values values' ->
  rd (get_threshold p values rate) i = Some x -> exists x', rd (get_threshold p values' rate) i = Some x' /\ converted k u x x'.
Proof. exact threshold_converted. Qed.
Print Assumptions C137_threshold.

(** C137, a batch: with the coalescence and the normalised coalescence of the scan in other units, a batch leads to the same events (identifiers, times, windows and places), their values in those units, and to the same files. *)
Theorem C137_same_events :
  forall c p k u kn un read read' reg w w' s e,
  (0 < k)%Q -> (0 < kn)%Q -> follows (threshold_method p) (if normalise_coalescence p then kn else k) (if normalise_coalescence p then un else u) ->
  same_outcome (Forall2 (same_row k u kn un)) (read s e) (read' s e) -> same_files (normalise_coalescence p) k u kn un w w' ->
  same_outcome (fun a b => same_files (normalise_coalescence p) k u kn un (fst a) (fst b) /\ Forall2 (same_event (normalise_coalescence p) k u kn un) (snd a) (snd b))
    (trigger_batch c p read reg w s e) (trigger_batch c p read' reg w' s e).
Proof.
  intros c p k u kn un read read' reg w w' s e Hk Hkn Hf Hr (Hc & Hd). unfold trigger_batch. destruct (read s e) as [data|x|], (read' s e) as [data'|x'|]; try contradiction; cbn [bind same_outcome] in *; [|exact Hr|exact I].
  set (rate := Qmake (sec c) (Z.to_pos (delta c))). pose proof (candidates_converted p k u kn un Hk Hkn Hf data data' Hr rate) as C.
  destruct (identify_candidates p data _) as [a|x|], (identify_candidates p data' _) as [b|x'|]; try contradiction; cbn [bind same_outcome]; [|exact C].
  destruct C as [|x y a b Hxy C]; [split; [split; assumption|constructor]|].
  pose proof (refined_converted c p k u kn un Hk Hkn Hf (x :: a) (y :: b) ltac:(constructor; assumption)) as R.
  destruct (refine_candidates c p (x :: a)) as [l|z|], (refine_candidates c p (y :: b)) as [l'|z'|]; try contradiction; cbn [bind same_outcome]; [|exact R].
  pose proof (filter_converted _ _ _ _ _ s (if e mod day c =? 0 then e - delta c else e) reg _ _ R) as G. cbn [fst snd]. split; [|exact G]. unfold write_triggered_events, same_files. cbn [output_cols tfiles]. rewrite Hc. split; [reflexivity|].
  intros d. destruct (d =? s / day c); [split; [reflexivity|exact G]|apply Hd].
Qed.
Print Assumptions C137_same_events.

(** C137, a run over any number of batches. *)
Theorem C137_same_run :
  forall c p k u kn un read read' reg batches w w',
  (0 < k)%Q -> (0 < kn)%Q -> follows (threshold_method p) (if normalise_coalescence p then kn else k) (if normalise_coalescence p then un else u) ->
  (forall s e, In (s, e) batches -> same_outcome (Forall2 (same_row k u kn un)) (read s e) (read' s e)) -> same_files (normalise_coalescence p) k u kn un w w' ->
  same_outcome (fun a b => same_files (normalise_coalescence p) k u kn un (fst a) (fst b) /\ Forall2 (Forall2 (same_event (normalise_coalescence p) k u kn un)) (snd a) (snd b))
    (run_batches c p read reg w batches) (run_batches c p read' reg w' batches).
Proof.
  intros c p k u kn un read read' reg batches w w' Hk Hkn Hf. revert w w'. induction batches as [|(s & e) l IH]; intros w w' Hr Hw; cbn [run_batches]; [split; [exact Hw|constructor]|].
  pose proof (C137_same_events c p k u kn un read read' reg w w' s e Hk Hkn Hf (Hr s e (or_introl eq_refl)) Hw) as B.
  destruct (trigger_batch c p read reg w s e) as [a|x|], (trigger_batch c p read' reg w' s e) as [b|x'|]; try contradiction; cbn [bind same_outcome] in *; [|exact B|exact I]. destruct B as (B1 & B2).
  specialize (IH (fst a) (fst b) (fun s e I => Hr s e (or_intror I)) B1). destruct (run_batches c p read reg (fst a) l) as [a2|x|], (run_batches c p read' reg (fst b) l) as [b2|x'|]; try contradiction; cbn [bind same_outcome] in *; [|exact IH|exact I].
  destruct IH as (I1 & I2). cbn [fst snd]. split; [exact I1|]. constructor; assumption.
Qed.
Print Assumptions C137_same_run.

(** Seven samples; the same in units ten times as fine, from another zero; a MAD threshold. *)
Definition c137_clock : clock := {| sec := 1; delta := 1 |}.
Definition c137_row (t : Z) (v : Q) : scanrow := {| DT := t; COA := v; COA_N := v; PX := inject_Z t; PY := 0; PZ := 0 |}.
Definition c137_data (f : Q -> Q) : list scanrow := map (fun tv => c137_row (fst tv) (f (snd tv))) [(100, 1%Q); (101, 2%Q); (102, 1%Q); (103, 9%Q); (104, 2%Q); (105, 1%Q); (106, 2%Q)].
Definition c137_params (m : method) : params := Build_params m 5 7 3 7 3 1 2 false 10 false.
Definition c137_world : world := {| tfiles := fun _ => None; output_cols := OUTPUT_COLS |}.
Definition c137_times (o : outcome (world * list event)) : list Z := match o with Ret (_, l) => map (fun e => CoaTime (cand e)) l | _ => [] end.
Example C137_applies :
  let k := 10%Q in let u := 3%Q in let convert v := (k * v + u)%Q in
  (0 < k)%Q /\ follows (threshold_method (c137_params Mad)) k u /\ Forall2 (same_row k u k u) (c137_data (fun v => v)) (c137_data convert) /\ same_files false k u k u c137_world c137_world /\
  c137_times (trigger_batch c137_clock (c137_params Mad) (fun _ _ => Ret (c137_data (fun v => v))) None c137_world 0 200) = [103] /\
  c137_times (trigger_batch c137_clock (c137_params Mad) (fun _ _ => Ret (c137_data convert)) None c137_world 0 200) = [103].
Proof.
  cbv zeta. split; [reflexivity|]. split; [exact I|]. split; [|split; [|split; vm_compute; reflexivity]].
  - unfold c137_data. cbn [map fst snd]. repeat (constructor; [constructor; cbn; unfold converted; reflexivity|]). constructor.
  - split; [reflexivity|]. intros d. exact I.
Qed.

(** Another zero changes what the median ratio finds, and other units what a static threshold finds. *)
Theorem C137_other_thresholds_differ :
  (exists data data', Forall2 (same_row 1 20 1 20) data data' /\
     c137_times (trigger_batch c137_clock (c137_params MedianRatio) (fun _ _ => Ret data) None c137_world 0 200) <> c137_times (trigger_batch c137_clock (c137_params MedianRatio) (fun _ _ => Ret data') None c137_world 0 200)) /\
  (exists data data', Forall2 (same_row (1 # 2) 0 (1 # 2) 0) data data' /\
     c137_times (trigger_batch c137_clock (c137_params Static) (fun _ _ => Ret data) None c137_world 0 200) <> c137_times (trigger_batch c137_clock (c137_params Static) (fun _ _ => Ret data') None c137_world 0 200)).
Proof.
  split.
  - exists (c137_data (fun v => v)), (c137_data (fun v => 1 * v + 20)%Q). split; [unfold c137_data; cbn [map fst snd]; repeat (constructor; [constructor; cbn; unfold converted; reflexivity|]); constructor|]. vm_compute. discriminate.
  - exists (c137_data (fun v => v)), (c137_data (fun v => (1 # 2) * v + 0)%Q). split; [unfold c137_data; cbn [map fst snd]; repeat (constructor; [constructor; cbn; unfold converted; reflexivity|]); constructor|]. vm_compute. discriminate.
Qed.
Print Assumptions C137_other_thresholds_differ.
