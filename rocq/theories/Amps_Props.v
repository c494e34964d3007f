(** C104: amplitude files keep the measurements. *)
From Coq Require Import String Ascii.
From Coq Require Import List ZArith Reals Lra Lia.
From Verif Require Import Lib Mag_Model ScanMseed_Model ScanMseed_Proofs Catalogue_Model Catalogue_Spec Catalogue_Proofs Amps_Model Amps_Spec Amps_Proofs.
Import ListNotations.
Open Scope R_scope.

(** Every row is in the file, in its place, and stands for the row of the table. *)
Theorem C104_kept : forall rows, Forall2 kept rows (write_amps rows).
Proof.
  assert (H5 : forall x, near_ext (1 / 20000) (sig_ext 5 x) x)
    by (intros x; apply sig_ext_near; change (1 - 5)%Z with (-4)%Z; rewrite ten_m4; lra).
  assert (H3 : forall x, near_ext (1 / 200) (sig_ext 3 x) x)
    by (intros x; apply sig_ext_near; change (1 - 3)%Z with (-2)%Z; rewrite ten_m2; lra).
  assert (H2 : forall x, near_ext (1 / 20) (sig_ext 2 x) x)
    by (intros x; apply sig_ext_near; change (1 - 2)%Z with (-1)%Z; rewrite ten_m1; lra).
  induction rows as [|r rows IH]; [constructor|]. constructor; [|exact IH]. unfold kept, write_row.
  cbn [ar_id ar_epi ar_z ar_p_amp ar_p_freq ar_p_time ar_p_avg ar_p_gain ar_s_amp ar_s_freq ar_s_time ar_s_avg ar_s_gain ar_noise ar_picked ar_ml].
  repeat (split; [first [reflexivity | apply H5 | apply H3 | apply H2]|]).
  destruct (ar_ml r) as [[m e]|]; cbn [option_map fst snd]; [split; apply H3|exact I].
Qed.
Print Assumptions C104_kept.

(** In every column the order of the numbers and their signs stay. *)
Theorem C104_order : forall rows i j r r' w w' col x x', In col columns ->
  nth_error rows i = Some r -> nth_error rows j = Some r' ->
  nth_error (write_amps rows) i = Some w -> nth_error (write_amps rows) j = Some w' ->
  col r = Fin x -> col r' = Fin x' ->
  exists y y', col w = Fin y /\ col w' = Fin y' /\ (x <= x' -> y <= y') /\ (0 < x -> 0 < y) /\ (x < 0 -> y < 0) /\ (x = 0 -> y = 0).
Proof.
  intros rows i j r r' w w' col x x' Hc Hi Hj Hwi Hwj Hx Hx'. unfold write_amps in Hwi, Hwj.
  rewrite (map_nth_error write_row _ _ Hi) in Hwi. rewrite (map_nth_error write_row _ _ Hj) in Hwj.
  replace w with (write_row r) by congruence. replace w' with (write_row r') by congruence.
  assert (E : exists n, (1 <= n)%Z /\ forall t, col (write_row t) = sig_ext n (col t)).
  { cbn in Hc. repeat (destruct Hc as [<-|Hc]; [eexists; split; [|intros t; reflexivity]; lia|]). destruct Hc. }
  destruct E as [n [Hn E]]. rewrite !E, Hx, Hx'. exists (sig n x), (sig n x'). cbn [sig_ext].
  split; [reflexivity|]. split; [reflexivity|]. split; [apply sig_mono; exact Hn|]. split; [apply sig_pos; exact Hn|].
  split; [apply sig_neg; exact Hn|]. intros ->. apply sig_zero.
Qed.
Print Assumptions C104_order.

(** What is not a number stays so, and only that. *)
Theorem C104_missing : forall r col, In col columns -> (col (write_row r) = NaN <-> col r = NaN).
Proof.
  intros r col Hc. cbn in Hc.
  repeat (destruct Hc as [<-|Hc]; [cbn; match goal with |- sig_ext _ ?x = _ <-> _ => destruct x; cbn; split; congruence end|]). destruct Hc.
Qed.
Print Assumptions C104_missing.

(** Magnitudes and their errors below 10 are off by at most 0.005. *)
Theorem C104_magnitudes : forall r m e, ar_ml r = Some (Fin m, Fin e) -> Rabs m < 10 -> Rabs e < 10 ->
  exists m' e', ar_ml (write_row r) = Some (Fin m', Fin e') /\ Rabs (m' - m) <= 5 / 1000 /\ Rabs (e' - e) <= 5 / 1000.
Proof.
  intros r m e H Hm He. exists (sig 3 m), (sig 3 e). cbn [write_row ar_ml]. rewrite H. split; [reflexivity|].
  pose proof (sig_small 3 m ltac:(lia) Hm) as A. pose proof (sig_small 3 e ltac:(lia) He) as B.
  change (1 - 3)%Z with (-2)%Z in A, B. rewrite ten_m2 in A, B. unfold near in A, B. split; lra.
Qed.
Print Assumptions C104_magnitudes.

(** The logarithm of an amplitude of the file, from which the magnitude is computed, is off by at most
    0.00003. *)
Theorem C104_log_amplitude : forall r a, 0 < a ->
  (ar_p_amp r = Fin a -> exists b, ar_p_amp (write_row r) = Fin b /\ Rabs (ln b / ln 10 - ln a / ln 10) <= 3 / 100000) /\
  (ar_s_amp r = Fin a -> exists b, ar_s_amp (write_row r) = Fin b /\ Rabs (ln b / ln 10 - ln a / ln 10) <= 3 / 100000).
Proof.
  intros r a Ha. assert (X : Rabs (ln (sig 5 a) / ln 10 - ln a / ln 10) <= 3 / 100000).
  { eapply Rle_trans; [apply (log_near (1 / 20000)); [exact Ha|lra|]|lra].
    pose proof (sig_near 5 a) as N. change (1 - 5)%Z with (-4)%Z in N. rewrite ten_m4, (Rabs_right a) in N by lra.
    eapply near_weaken; [exact N|lra]. }
  split; intros E; exists (sig 5 a); (split; [cbn [write_row ar_p_amp ar_s_amp]; rewrite E; reflexivity|exact X]).
Qed.
Print Assumptions C104_log_amplitude.

(** A table read from the file and written again gives the same file. *)
Theorem C104_written_again : forall rows, write_amps (write_amps rows) = write_amps rows.
Proof.
  assert (H : forall n x, (1 <= n)%Z -> sig_ext n (sig_ext n x) = sig_ext n x)
    by (intros n [x| | |] Hn; cbn [sig_ext]; try reflexivity; rewrite sig_again by exact Hn; reflexivity).
  intros rows. unfold write_amps. rewrite map_map. apply map_ext. intros r. unfold write_row.
  cbn [ar_id ar_epi ar_z ar_p_amp ar_p_freq ar_p_time ar_p_avg ar_p_gain ar_s_amp ar_s_freq ar_s_time ar_s_avg ar_s_gain ar_noise ar_picked ar_ml].
  rewrite !H by lia. destruct (ar_ml r) as [[m e]|]; cbn [option_map fst snd]; [rewrite !H by lia|]; reflexivity.
Qed.
Print Assumptions C104_written_again.

Definition ex_row : amps_row :=
  mk_amps_row "AB.STN..BHE" (Fin 12) (Fin (-3)) NaN NaN None (Fin 1) (Fin 1) (Fin (1 / 3)) (Fin 2) (Some 5%Z) (Fin 1) (Fin 1)
    (Fin (1 / 10)) true (Some (Fin (4 / 3), Fin (1 / 10))).
Example C104_applies : In ar_s_amp columns /\ nth_error [ex_row] 0 = Some ex_row /\ ar_s_amp ex_row = Fin (1 / 3) /\
  0 < 1 / 3 /\ ar_ml ex_row = Some (Fin (4 / 3), Fin (1 / 10)) /\ Rabs (4 / 3) < 10 /\ Rabs (1 / 10) < 10.
Proof. rewrite !Rabs_right by lra. repeat split; try lra. cbn; tauto. Qed.
