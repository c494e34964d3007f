(** C117: how the data are cut into pieces does not matter. *)
From Coq Require Import String Ascii.
From Coq Require Import List ZArith Reals Bool Lia Lra Permutation.
From Verif Require Import Lib LibFacts PyDict Timeline_Model Avail_Model Avail_Spec Avail_Proofs Merge_Model Merge_Spec Merge_Proofs.
From Verif Require Avail_Props.
Import ListNotations.
Open Scope Z_scope.

(** Merging neither loses, invents, moves nor changes a sample of a channel with one sampling interval. *)
Theorem C117_samples_kept :
  forall order st i d, enumerates order st -> on_rate st i d ->
  (forall t v, recorded (merge_stream order st) i t v <-> recorded st i t v)
  /\ (forall s, In s (merge_stream order st) -> sg_id s = i -> sg_delta s = d /\ sg_data s <> []).
Proof.
  intros order st i d E R. destruct (cleanup_ok st i d R) as (l & El & F & H & _). pose proof (merged_select order st i E) as S. unfold part in S. rewrite El in S. split.
  - intros t v. rewrite <- H, <- S. unfold recorded, held. split.
    + intros (s & I & Ei & Hs). exists s. rewrite select_in. auto.
    + intros (s & I & Hs). apply select_in in I. exists s. tauto.
  - intros s I Ei. assert (J : In s l) by (rewrite <- S; apply select_in; auto). apply (proj1 (Forall_forall _ _) F) in J. destruct J as (_ & J). exact J.
Qed.
Print Assumptions C117_samples_kept.

(** Two streams with the same samples of a channel give the same traces: those between the gaps. *)
Theorem C117_pieces :
  forall order st order' st' i d, enumerates order st -> enumerates order' st' -> same_channel st st' i d ->
  select_id (merge_stream order st) i = select_id (merge_stream order' st') i /\ separated d (select_id (merge_stream order st) i).
Proof.
  intros order st order' st' i d E E' (R & R' & G & G' & C & H). rewrite !merged_select by assumption. unfold part.
  assert (C' : consistent st' i) by (intros t v v' H1 H2; apply H in H1; apply H in H2; apply (C t); assumption).
  destruct (cleanup_ok st i d R) as (l & -> & F & Hl & S). destruct (cleanup_ok st' i d R') as (l' & -> & F' & Hl' & S').
  split; [|apply S; assumption]. apply (separated_unique i d (proj1 R)); auto. intros t v. rewrite Hl, Hl'. apply H.
Qed.
Print Assumptions C117_pieces.

(** The pieces of one trace, in any number and order, overlapping or repeated, give that trace. *)
Theorem C117_unsplit :
  forall order st s, enumerates order st -> sg_data s <> [] -> on_rate st (sg_id s) (sg_delta s) ->
  (forall t v, recorded st (sg_id s) t v <-> sample s t v) -> select_id (merge_stream order st) (sg_id s) = [s].
Proof.
  intros order st s E N R H. assert (P : 0 < sg_delta s) by apply R.
  destruct (cleanup_ok st (sg_id s) (sg_delta s) R) as (l & El & F & Hl & S). rewrite merged_select by exact E. unfold part. rewrite El.
  apply (separated_unique (sg_id s) (sg_delta s) P); [exact F|repeat constructor; exact N| |exact I|].
  - apply S.
    + intros a b Ia Ib Ea Eb Na Nb. destruct (first_sample a Na) as (v & Hv). destruct (first_sample b Nb) as (w & Hw).
      destruct (proj1 (H (sg_start a) v)) as (k & Ek & _); [exists a; auto|]. destruct (proj1 (H (sg_start b) w)) as (k' & Ek' & _); [exists b; auto|]. exists (k' - k). rewrite Ek, Ek'. ring.
    + intros t v v' H1 H2. apply H in H1. apply H in H2. apply (sample_fun (sg_delta s) s t); auto.
  - intros t v. rewrite Hl, H. unfold held. split; [intros Hs; exists s; cbn; auto|]. intros (x & [<-|[]] & Hs). exact Hs.
Qed.
Print Assumptions C117_unsplit.

(** So the data availability does not depend on how the data are cut. *)
Theorem C117_availability :
  forall c starttime endtime k order st order' st', 0 < sec c -> complete_args k -> enumerates order st -> enumerates order' st' ->
  (forall i, exists d, same_channel st st' i d /\ sec c <= 500000 * d) ->
  exists av l l', check_availability c starttime endtime k (merge_stream order st) = Ret (av, l)
    /\ check_availability c starttime endtime k (merge_stream order' st') = Ret (av, l') /\ forall i v, In (i, v) l <-> In (i, v) l'.
Proof.
  intros c a b k order st order' st' Hsec Ca E E' H.
  assert (Sel : forall i, select_id (merge_stream order st) i = select_id (merge_stream order' st') i).
  { intros i. destruct (H i) as (d & Sc & _). apply (C117_pieces order st order' st' i d E E' Sc). }
  assert (W : forall o s, enumerates o s -> (forall i, exists d, on_rate s i d /\ sec c <= 500000 * d) -> Forall (sampled c) (merge_stream o s) /\ one_rate k (merge_stream o s)).
  { intros o s Eo Hr. split.
    - apply Forall_forall. intros x Ix. destruct (Hr (sg_id x)) as (d & Rx & L). destruct (proj2 (C117_samples_kept o s (sg_id x) d Eo Rx) x Ix eq_refl) as (D & N). split; [exact N|]. rewrite D. split; [apply Rx|exact L].
    - right. intros x y Ix Iy Ei. destruct (Hr (sg_id x)) as (d & Rx & _). pose proof (proj2 (C117_samples_kept o s (sg_id x) d Eo Rx)) as K.
      destruct (K x Ix eq_refl) as (-> & _). destruct (K y Iy (eq_sym Ei)) as (-> & _). reflexivity. }
  destruct (W order st E) as (F & O); [intros i; destruct (H i) as (d & (R & _) & L); exists d; auto|].
  destruct (W order' st' E') as (F' & O'); [intros i; destruct (H i) as (d & (_ & R & _) & L); exists d; auto|]. clear W.
  destruct (Avail_Props.C47_verdict_exact c a b k _ Hsec F Ca O) as (av & l & Ec & ND & K & V & Bin & Hav).
  destruct (Avail_Props.C47_verdict_exact c a b k _ Hsec F' Ca O') as (av' & l' & Ec' & ND' & K' & V' & Bin' & Hav').
  assert (Id : forall i, is_id (merge_stream order st) i <-> is_id (merge_stream order' st') i).
  { intros i. assert (Q : forall s, is_id s i <-> select_id s i <> []).
    { intros s. split.
      - intros (x & Ix & Ei) C. assert (J : In x (select_id s i)) by (apply select_in; auto). rewrite C in J. destruct J.
      - destruct (select_id s i) as [|x r] eqn:Es; [contradiction|]. intros _. assert (J : In x (select_id s i)) by (rewrite Es; left; reflexivity). apply select_in in J. exists x. exact J. }
    rewrite !Q, Sel. reflexivity. }
  assert (Ok : forall i, channel_ok a b k (filter (fun s => String.eqb (sg_id s) i) (merge_stream order st)) <-> channel_ok a b k (filter (fun s => String.eqb (sg_id s) i) (merge_stream order' st'))).
  { intros i. pose proof (Sel i) as Es. unfold select_id in Es. rewrite Es. reflexivity. }
  assert (Dic : forall l1 l2 : dict Z, (forall i, In i (keys l1) -> In i (keys l2)) ->
    (forall i v w, In (i, v) l1 -> In (i, w) l2 -> v = w) -> forall i v, In (i, v) l1 -> In (i, v) l2).
  { intros l1 l2 Hk Hv i v I. assert (J : In i (keys l2)) by (apply Hk; unfold keys; apply in_map_iff; exists (i, v); auto). unfold keys in J. apply in_map_iff in J. destruct J as ((i' & w) & Ej & J). cbn in Ej. subst i'.
    rewrite (Hv i v w I J). exact J. }
  assert (Eqv : forall i v w, In (i, v) l -> In (i, w) l' -> v = w).
  { intros i v w I1 I2. destruct (V i v I1) as (B1 & H1). destruct (V' i w I2) as (B2 & H2). specialize (Ok i).
    destruct B1 as [->| ->], B2 as [->| ->]; try reflexivity; exfalso.
    - assert (0 = 1) by (apply H1, Ok, H2; reflexivity). lia.
    - assert (0 = 1) by (apply H2, Ok, H1; reflexivity). lia. }
  assert (Ek : forall i, In i (keys l) <-> In i (keys l')) by (intros i; rewrite K, K'; apply Id).
  assert (Len : length l = length l').
  { assert (P : Permutation (keys l) (keys l')) by (apply NoDup_Permutation; auto). apply Permutation_length in P. unfold keys in P. rewrite !map_length in P. exact P. }
  assert (Nil : merge_stream order st <> [] <-> merge_stream order' st' <> []).
  { assert (Q : forall s, s <> [] <-> exists i, is_id s i).
    { intros [|x r]; [split; [contradiction|intros (i & y & [] & _)]|]. split; [intros _; exists (sg_id x), x; split; [left; reflexivity|reflexivity]|discriminate]. }
    rewrite !Q. split; intros (i & Hi); exists i; apply Id; exact Hi. }
  assert (Eav : av = av').
  { assert (Hiff : av = 1 <-> av' = 1).
    { rewrite Hav, Hav', Nil, Len. destruct (all_channels k); (split; [intros (H1 & H2)|intros (H1 & H2)]; (split; [exact H1|])).
      - destruct H2 as (H2 & H3). split; [exact H2|]. intros i Hi. apply Ok, H3, Id, Hi.
      - destruct H2 as (H2 & H3). split; [exact H2|]. intros i Hi. apply Ok, H3, Id, Hi.
      - destruct H2 as (i & Hi & H2). exists i. split; [apply Id; exact Hi|apply Ok; exact H2].
      - destruct H2 as (i & Hi & H2). exists i. split; [apply Id; exact Hi|apply Ok; exact H2]. }
    destruct Bin as [->| ->], Bin' as [->| ->]; try reflexivity; exfalso; [assert (0 = 1) by (apply Hiff; reflexivity)|assert (0 = 1) by (apply Hiff; reflexivity)]; lia. }
  subst av'. exists av, l, l'. split; [exact Ec|]. split; [exact Ec'|]. intros i v. split.
  - apply Dic; [intros j; apply Ek|exact Eqv].
  - apply Dic; [intros j; apply Ek|]. intros j x y I1 I2. symmetry. apply (Eqv j); assumption.
Qed.
Print Assumptions C117_availability.

(** Data that contradict each other are not used: a channel with pieces that overlap and are not sampled at the same times, or differ, fails the check whatever is asked for. *)
Theorem C117_clash_rejected :
  forall c starttime endtime k order st i d s s', 0 < sec c -> sec c <= 500000 * d -> (check_rate k = true -> rate k <> None) ->
  enumerates order st -> on_rate st i d -> In s st -> In s' st -> sg_id s = i -> sg_id s' = i -> sg_data s <> [] -> sg_data s' <> [] -> clash d s s' ->
  check_channel c starttime endtime k (select_id (merge_stream order st) i) = Ret false.
Proof.
  intros c a b k order st i d s s' Hsec Hd Hr E R Is Is' Ei Ei' N N' (O1 & O2 & Cl). assert (P : 0 < d) by apply R.
  pose proof (merged_select order st i E) as Sel. destruct (cleanup_ok st i d R) as (l & El & F & Hl & _). unfold part in Sel. rewrite El in Sel. rewrite Sel.
  assert (Inc : forall x, In x (chan st i) -> exists m, In m l /\ forall t v, sample x t v -> sample m t v).
  { intros x Ix. assert (Fc : Forall (tr_ok i d) (chan st i)).
    { apply Forall_forall. intros y Iy. apply chan_in in Iy. destruct Iy as (I1 & I2 & I3). split; [exact I2|]. split; [apply R; assumption|exact I3]. }
    assert (So : sorted_from None (chan st i)) by apply sort_sorted.
    unfold cleanup in El. change (sort_segs (filter (fun s => 0 <? npts s) (select_id st i))) with (chan st i) in El.
    destruct (chan st i) as [|y r]; [destruct Ix|]. destruct (forallb _ r); [|discriminate]. injection El as <-. inversion_clear Fc as [|? ? Gy Gr]. apply (join_all_incl i d P r y Gy Gr); [|exact Ix]. apply sorted_ordered, So. }
  assert (Gd : forall m, In m l -> sg_delta m = d /\ sg_data m <> []) by (intros m Im; apply (proj1 (Forall_forall _ _) F) in Im; apply Im).
  destruct (Inc s) as (m & Im & Hm); [apply chan_in; auto|]. destruct (Inc s') as (m' & Im' & Hm'); [apply chan_in; auto|]. destruct (Gd m Im) as (Dm & Nm). destruct (Gd m' Im') as (Dm' & Nm').
  destruct (check_channel_ok c a b k l Hsec) as (v & Ev & Hv).
  - intros ->. destruct Im.
  - apply Forall_forall. intros x Ix. destruct (Gd x Ix) as (D & Nx). split; [exact Nx|]. rewrite D. auto.
  - exact Hr.
  - right. intros x y Ix Iy. destruct (Gd x Ix) as (-> & _). destruct (Gd y Iy) as (-> & _). reflexivity.
  - rewrite Ev. destruct v; [|reflexivity]. exfalso. destruct (proj1 Hv eq_refl) as (_ & Of & _).
    assert (Ds : sg_delta s = d) by (apply R; assumption). assert (Ds' : sg_delta s' = d) by (apply R; assumption).
    assert (B : forall x y, sg_delta x = d -> sg_delta y = d -> sg_data x <> [] -> (forall t v, sample x t v -> sample y t v) -> sg_start y <= sg_start x /\ sg_end x <= sg_end y).
    { intros x y Dx Dy Nx Hx. split.
      - destruct (first_sample x Nx) as (w & Hw). apply Hx in Hw. apply (sample_bounds d y _ _ P Dy Hw).
      - destruct (last_sample x Nx) as (w & Hw). apply Hx in Hw. apply (sample_bounds d y _ _ P Dy Hw). }
    pose proof (B s m Ds Dm N Hm) as B1. pose proof (B s' m' Ds' Dm' N' Hm') as B2.
    assert (Ne : m <> m').
    { intros <-. destruct Cl as [Ng|(t & w & w' & H1 & H2 & Nw)].
      - apply Ng. destruct (first_sample s N) as (w & Hw). destruct (first_sample s' N') as (w' & Hw'). apply Hm in Hw. apply Hm' in Hw'.
        destruct Hw as (j & Ej & _). destruct Hw' as (j' & Ej' & _). exists (j' - j). rewrite Ej, Ej', Dm. ring.
      - apply Nw. apply (sample_fun d m t w w' P Dm); auto. }
    destruct (ForallOrdPairs_In Of _ _ Im Im') as [C|[C|C]]; [contradiction|destruct C as [C|C]|destruct C as [C|C]]; unfold after in C; rewrite ?Dm, ?Dm' in C; lia.
Qed.
Print Assumptions C117_clash_rejected.

(** A channel with different sampling intervals is left out, and does not affect the others. *)
Theorem C117_mixed_rates :
  forall order st i, enumerates order st ->
  (forall s s', In s st -> In s' st -> sg_id s = i -> sg_id s' = i -> sg_data s <> [] -> sg_data s' <> [] -> sg_delta s <> sg_delta s' -> select_id (merge_stream order st) i = [])
  /\ (forall order' st', enumerates order' st' -> select_id st i = select_id st' i -> select_id (merge_stream order st) i = select_id (merge_stream order' st') i).
Proof.
  intros order st i E. split.
  - intros s s' Is Is' Ei Ei' N N' D. rewrite merged_select by exact E. unfold part, cleanup. change (sort_segs (filter (fun s => 0 <? npts s) (select_id st i))) with (chan st i).
    assert (I1 : In s (chan st i)) by (apply chan_in; auto). assert (I2 : In s' (chan st i)) by (apply chan_in; auto).
    destruct (chan st i) as [|a r]; [reflexivity|]. destruct (forallb _ r) eqn:Ef; [|reflexivity]. exfalso. apply D. rewrite forallb_forall in Ef.
    assert (Q : forall x, In x (a :: r) -> sg_delta x = sg_delta a) by (intros x [<-|Ix]; [reflexivity|apply Z.eqb_eq, Ef; exact Ix]). rewrite (Q s I1), (Q s' I2). reflexivity.
  - intros order' st' E' Es. rewrite !merged_select by assumption. unfold part. rewrite Es. reflexivity.
Qed.
Print Assumptions C117_mixed_rates.

(** Three pieces of a trace, out of order, one within another, and a second channel whose pieces contradict each other. *)
Definition c117_whole : seg := mk_seg "Z" 0 20 [1; 2; 3; 4; 5]%R.
Definition c117_pieces : list seg :=
  [mk_seg "Z" 60 20 [4; 5]%R; mk_seg "Z" 0 20 [1; 2; 3]%R; mk_seg "Z" 20 20 [2; 3]%R; mk_seg "N" 0 20 [1; 2]%R; mk_seg "N" 20 20 [7; 8]%R].
Definition c117_clock : clock := {| sec := 1000; delta := 20 |}.
Example C117_example :
  enumerates ["N"; "Z"]%string c117_pieces /\ on_rate c117_pieces "Z" 20 /\ (forall t v, recorded c117_pieces "Z" t v <-> sample c117_whole t v)
  /\ select_id (merge_stream ["N"; "Z"]%string c117_pieces) "Z" = [c117_whole]
  /\ forall k, rate k = Some 20 -> check_channel c117_clock 0 80 k (select_id (merge_stream ["N"; "Z"]%string c117_pieces) "N") = Ret false.
Proof.
  assert (E : enumerates ["N"; "Z"]%string c117_pieces).
  { split; [repeat constructor; cbn; intuition congruence|]. intros i. cbn. intuition. }
  assert (R : forall i, on_rate c117_pieces i 20) by (intros i; split; [lia|]; intros s Is _ _; cbn in Is; intuition; subst s; reflexivity).
  assert (D : forall s t v, sample s t v -> exists n, (n < length (sg_data s))%nat /\ t = sg_start s + Z.of_nat n * sg_delta s /\ nth_error (sg_data s) n = Some v).
  { intros s t v (k & Et & Hk). pose proof (rd_bounds _ _ _ _ Hk). exists (Z.to_nat k). split; [lia|]. rewrite Z2Nat.id by lia. split; [exact Et|]. rewrite <- rd_nat, Z2Nat.id by lia. exact Hk. }
  assert (Rc : forall t v, recorded c117_pieces "Z" t v <-> sample c117_whole t v).
  { intros t v. split.
    - intros (s & Is & Ei & Hs). apply D in Hs. destruct Hs as (n & Ln & -> & En). cbn in Is.
      assert (Q : forall k, rd [1; 2; 3; 4; 5]%R k = Some v -> sg_start s + Z.of_nat n * sg_delta s = k * 20 -> sample c117_whole (sg_start s + Z.of_nat n * sg_delta s) v) by (intros k H1 H2; exists k; split; [exact H2|exact H1]).
      destruct Is as [<-|[<-|[<-|[<-|[<-|[]]]]]]; try discriminate Ei; cbn [sg_start sg_delta sg_data length] in *;
        destruct n as [|[|[|n]]]; try lia; cbn in En; injection En as <-;
        first [apply (Q 0); reflexivity|apply (Q 1); reflexivity|apply (Q 2); reflexivity|apply (Q 3); reflexivity|apply (Q 4); reflexivity].
    - intros Hs. apply D in Hs. destruct Hs as (n & Ln & -> & En). cbn [c117_whole sg_start sg_delta sg_data length] in *.
      destruct n as [|[|[|[|[|n]]]]]; try lia; cbn in En; injection En as <-.
      1-3: exists (mk_seg "Z" 0 20 [1; 2; 3]%R); (split; [cbn; auto|]; split; [reflexivity|]); first [exists 0; split; reflexivity|exists 1; split; reflexivity|exists 2; split; reflexivity].
      1-2: exists (mk_seg "Z" 60 20 [4; 5]%R); (split; [cbn; auto|]; split; [reflexivity|]); first [exists 0; split; reflexivity|exists 1; split; reflexivity]. }
  split; [exact E|]. split; [apply R|]. split; [exact Rc|]. split.
  - apply (C117_unsplit _ _ c117_whole E); [discriminate|apply R|exact Rc].
  - intros k Hk. apply (C117_clash_rejected c117_clock 0 80 k _ c117_pieces "N" 20 (mk_seg "N" 0 20 [1; 2]%R) (mk_seg "N" 20 20 [7; 8]%R)); try reflexivity; try (cbn; lia); try discriminate.
    + rewrite Hk. discriminate.
    + exact E.
    + apply R.
    + cbn. auto 10.
    + cbn. auto 10.
    + split; [cbn; lia|]. split; [cbn; lia|]. right. exists 20, 2%R, 7%R. split; [exists 1; split; reflexivity|]. split; [exists 0; split; reflexivity|]. lra.
Qed.
