(** C118: what is read depends on the data that are stored, not on how the archive is organised. *)
From Coq Require Import String Ascii.
From Coq Require Import List ZArith Reals Bool Lia Lra.
From Verif Require Import Lib LibFacts Timeline_Model Timeline_Spec Avail_Model Archive_Model Archive_Spec Archive_Proofs Merge_Model Merge_Spec Merge_Proofs Read_Model Read_Spec Read_Proofs.
From Verif Require Timeline_Props Merge_Props.
Import ListNotations.
Open Scope Z_scope.

Definition any_order (order : list seg -> list string) : Prop := forall st, enumerates (order st) st.

Section Channel.
Variables (order : list seg -> list string) (interval : name -> name -> Z) (c : clock) (A : archive) (ra : bool) (sts : list name) (lo hi : Z) (raw0 : list wtrace).
Hypothesis Or : any_order order.
Hypothesis Rg : regular interval c A ra sts lo hi.
Hypothesis Rw : forall tr, In tr raw0 <-> exists t, stored c A ra sts lo hi t /\ tr = trim t lo hi /\ nonempty tr = true.
Lemma raw_dotless t : In t raw0 -> ~ In dot (w_station t).
Proof. intros I. apply Rw in I. destruct I as (u & St & -> & _). destruct (trim_meta u lo hi) as (-> & _). apply (proj1 Rg u St). Qed.
Lemma raw_recorded s ch tau v : ~ In dot s -> recorded (map to_seg raw0) (chan_id s ch) tau v <-> stored_sample c A ra sts lo hi s ch tau v /\ lo <= tau <= hi.
Proof.
  intros N. split.
  - intros (m & Im & Ei & Hm). apply in_map_iff in Im. destruct Im as (t & <- & It). pose proof (raw_dotless t It) as Nt. apply Rw in It. destruct It as (u & St & -> & _). apply to_sample in Hm.
    destruct (proj1 Rg u St) as (Nu & _ & P & G1 & G2). apply trim_grid in Hm; [|assumption..]. destruct Hm as (Hm & B). split; [|exact B]. exists u. split; [exact St|].
    cbn [to_seg sg_id] in Ei. apply (f_equal (fun x => at_dot (list_ascii_of_string x))) in Ei. rewrite !at_dot_chan in Ei by assumption. destruct (trim_meta u lo hi) as (M1 & M2 & _). rewrite M1, M2 in Ei.
    split; [congruence|]. split; [congruence|exact Hm].
  - intros ((u & St & Es & Ec & Hu) & B). destruct (proj1 Rg u St) as (Nu & _ & P & G1 & G2). assert (Ht : has_sample (trim u lo hi) tau v) by (apply trim_grid; auto).
    exists (to_seg (trim u lo hi)). split; [|split].
    + apply in_map. apply Rw. exists u. split; [exact St|]. split; [reflexivity|]. apply (has_sample_nonempty _ _ _ Ht).
    + destruct (trim_meta u lo hi) as (M1 & M2 & _). cbn [to_seg sg_id]. rewrite M1, M2, Es, Ec. reflexivity.
    + apply to_sample. exact Ht.
Qed.
Definition step (s ch : name) : Z := if 0 <? interval s ch then interval s ch else 1.
Lemma raw_seg m s ch : ~ In dot s -> In m (map to_seg raw0) -> sg_id m = chan_id s ch -> sg_delta m = step s ch /\ (step s ch | sg_start m - lo).
Proof.
  intros N Im Ei. apply in_map_iff in Im. destruct Im as (t & <- & It). pose proof (raw_dotless t It) as Nt. apply Rw in It. destruct It as (u & St & -> & _).
  destruct (proj1 Rg u St) as (Nu & D & P & G1 & G2). destruct (trim_meta u lo hi) as (M1 & M2 & M3). cbn [to_seg sg_id sg_delta sg_start] in *. rewrite M3.
  apply (f_equal (fun x => at_dot (list_ascii_of_string x))) in Ei. rewrite !at_dot_chan in Ei by assumption. rewrite M1, M2 in Ei. assert (E1 : w_station u = s) by congruence. assert (E2 : w_chan u = ch) by congruence.
  rewrite E1, E2 in D. assert (Es : step s ch = w_delta u) by (unfold step; rewrite <- D; destruct (Z.ltb_spec 0 (w_delta u)); [reflexivity|lia]). rewrite Es. split; [reflexivity|].
  destruct (trim_start u lo hi) as (k & ->). replace (w_start u + k * w_delta u - lo) with (w_start u - lo + k * w_delta u) by ring. apply Z.divide_add_r; [exact G1|apply Z.divide_factor_r].
Qed.
Lemma step_pos s ch : 0 < step s ch.
Proof. unfold step. destruct (Z.ltb_spec 0 (interval s ch)); lia. Qed.
Lemma raw_rate s ch : ~ In dot s -> on_rate (map to_seg raw0) (chan_id s ch) (step s ch) /\ on_grid (map to_seg raw0) (chan_id s ch) (step s ch) /\ consistent (map to_seg raw0) (chan_id s ch).
Proof.
  intros N. split; [|split].
  - split; [apply step_pos|]. intros m Im Ei _. apply (raw_seg m s ch N Im Ei).
  - intros m m' Im Im' Ei Ei' _ _. destruct (raw_seg m s ch N Im Ei) as (_ & k & Ek). destruct (raw_seg m' s ch N Im' Ei') as (_ & k' & Ek'). exists (k' - k). lia.
  - intros tau v v' H1 H2. apply (raw_recorded s ch tau v N) in H1. apply (raw_recorded s ch tau v' N) in H2. apply (proj2 Rg s ch tau); [apply H1|apply H2].
Qed.
End Channel.

(** Partial: the ends of the padded period are sampling times. Every stored sample of the padded period is read once, and nothing else; the traces of a channel are as long as they can be: a new one only after a gap. *)
Theorem C118_samples_partial :
  forall order interval fuel c A ra sts f starttime endtime pre post raw st, any_order order -> 0 < sec c -> starttime <= endtime ->
  path_structure (ar_format A) (ar_channels A) = Ret f -> regular interval c A ra sts (starttime - Z.max 0 pre) (endtime + Z.max 0 post) ->
  read_merged order fuel c (ar_files A) (ar_content A) (Some f) ra sts starttime endtime pre post = Some (Ret (raw, st)) ->
  forall s ch, (forall tau v, (exists t, In t raw /\ w_station t = s /\ w_chan t = ch /\ has_sample t tau v)
                  <-> stored_sample c A ra sts (starttime - Z.max 0 pre) (endtime + Z.max 0 post) s ch tau v /\ starttime - Z.max 0 pre <= tau <= endtime + Z.max 0 post)
  /\ (forall tau t t', In t (traces raw s ch) -> In t' (traces raw s ch) -> forall v v', has_sample t tau v -> has_sample t' tau v' -> t = t' /\ v = v')
  /\ separated (interval s ch) (map to_seg (traces raw s ch)).
Proof.
  intros order interval fuel c [a fd fmt ch0] ra sts f t0 t1 pre post raw st Or Hc Hse E Rg H s ch. cbn [ar_files ar_content ar_format ar_channels] in *.
  destruct (merged_split order fmt ch0 f fuel c a fd ra sts t0 t1 pre post _ Hc Hse E H) as (raw0 & Rw & [(_ & e & Eo)|(_ & Eo)]); [discriminate|].
  assert (Er : raw = merge_traces order raw0) by congruence. clear Eo H. set (lo := t0 - Z.max 0 pre) in *. set (hi := t1 + Z.max 0 post) in *.
  pose proof (raw_dotless interval c _ ra sts lo hi raw0 Rg Rw) as Dl.
  assert (Tr : forall tau v, (exists t, In t raw /\ w_station t = s /\ w_chan t = ch /\ has_sample t tau v) <-> exists t, In t (traces raw s ch) /\ has_sample t tau v).
  { intros tau v. split; intros (t & T); exists t; [rewrite in_traces; tauto|rewrite in_traces in T; tauto]. }
  destruct (in_dec ascii_dec dot s) as [Y|N].
  - assert (Nil : traces raw s ch = []) by (subst raw; apply traces_merged_dot; exact Y). rewrite Nil. split; [|split; [intros tau t t' []|exact I]].
    intros tau v. rewrite Tr, Nil. split; [intros (t & [] & _)|]. intros ((u & St & Es & _) & _). exfalso. destruct (proj1 Rg u St) as (Nu & _). rewrite Es in Nu. contradiction.
  - pose proof (traces_merged order raw0 (Or _) Dl s ch N) as Et. rewrite <- Er in Et.
    destruct (raw_rate interval c _ ra sts lo hi raw0 Rg Rw s ch N) as (R & G & C).
    pose proof (Merge_Props.C117_pieces _ _ _ _ _ _ (Or _) (Or _) (conj R (conj R (conj G (conj G (conj C (fun t v => iff_refl _))))))) as (_ & Sep).
    destruct (Merge_Props.C117_samples_kept _ _ _ _ (Or _) R) as (K1 & K2).
    set (M := merge_stream (order (map to_seg raw0)) (map to_seg raw0)) in *.
    assert (Ms : forall m, In m (select_id M (chan_id s ch)) -> to_seg (of_seg m) = m).
    { intros m Im. apply select_in in Im. destruct Im as (_ & Ei). unfold to_seg, of_seg. cbn [sg_id w_station w_chan w_start w_delta w_data]. rewrite Ei, at_dot_chan by exact N. cbn [fst snd]. rewrite <- Ei. destruct m. reflexivity. }
    split; [|split].
    + intros tau v. rewrite Tr, <- (raw_recorded interval c _ ra sts lo hi raw0 Rg Rw s ch tau v N), <- K1, Et. split.
      * intros (t & It & Ht). apply in_map_iff in It. destruct It as (m & <- & Im). apply select_in in Im. apply of_sample in Ht. exists m. tauto.
      * intros (m & Im & Ei & Hm). exists (of_seg m). split; [apply in_map; apply select_in; auto|apply of_sample; exact Hm].
    + rewrite Et. intros tau t t' It It' v v' Ht Ht'. apply in_map_iff in It. apply in_map_iff in It'. destruct It as (m & <- & Im). destruct It' as (m' & <- & Im'). apply of_sample in Ht. apply of_sample in Ht'.
      assert (Em : m = m').
      { destruct (separated_overlap (chan_id s ch) (step interval s ch) (step_pos interval s ch) (select_id M (chan_id s ch))) with (a := m) (b := m') as [X|X]; auto.
        - apply Forall_forall. intros x Ix. apply select_in in Ix. destruct Ix as (Ix & Ei). destruct (K2 x Ix Ei). split; auto.
        - exfalso. apply select_in in Im, Im'. destruct Im as (Im & Ei), Im' as (Im' & Ei'). pose proof (sample_bounds _ _ _ _ (step_pos interval s ch) (proj1 (K2 m Im Ei)) Ht). pose proof (sample_bounds _ _ _ _ (step_pos interval s ch) (proj1 (K2 m' Im' Ei')) Ht'). lia. }
      subst m'. split; [reflexivity|]. apply select_in in Im. destruct Im as (Im & Ei). apply (sample_fun _ _ _ _ _ (step_pos interval s ch) (proj1 (K2 m Im Ei)) Ht Ht').
    + rewrite Et. rewrite map_map. assert (Em : map (fun x => to_seg (of_seg x)) (select_id M (chan_id s ch)) = select_id M (chan_id s ch)).
      { transitivity (map (fun x : seg => x) (select_id M (chan_id s ch))); [apply map_ext_in; exact Ms|apply map_id]. }
      rewrite Em. destruct (select_id M (chan_id s ch)) as [|m0 r] eqn:Es; [exact I|].
      assert (Ei0 : step interval s ch = interval s ch); [|rewrite <- Ei0; exact Sep].
      unfold step. destruct (Z.ltb_spec 0 (interval s ch)) as [L|L]; [reflexivity|]. exfalso.
      assert (Im0 : In m0 (select_id M (chan_id s ch))) by (rewrite Es; left; reflexivity). apply select_in in Im0. destruct Im0 as (Im0 & Ei0). destruct (K2 m0 Im0 Ei0) as (_ & Nm). destruct (first_sample m0 Nm) as (v & Hv).
      destruct (proj1 (K1 (sg_start m0) v)) as (m1 & Im1 & Ei1 & _); [exists m0; auto|]. apply in_map_iff in Im1. destruct Im1 as (t & <- & It). pose proof It as It'. apply Rw in It'. destruct It' as (u & St & -> & _).
      destruct (proj1 Rg u St) as (Nu & D & P & _). destruct (trim_meta u lo hi) as (M1 & M2 & _). cbn [to_seg sg_id] in Ei1. apply (f_equal (fun x => at_dot (list_ascii_of_string x))) in Ei1. rewrite !at_dot_chan in Ei1 by (try exact N; apply Dl; exact It).
      rewrite M1, M2 in Ei1. assert (w_station u = s /\ w_chan u = ch) as (X1 & X2) by (split; congruence). rewrite X1, X2 in D. lia.
Qed.
Print Assumptions C118_samples_partial.

(** The sampling times of a stretch of data are whole numbers of samples after midnight, at a whole rate in Hz and to the microsecond; so are the ends of the period. *)
Definition on_samples (c : clock) (starttime endtime lo : Z) (t : wtrace) : Prop :=
  let c' := {| sec := sec c; delta := w_delta t |} in
  clock_ok c' /\ integer_rate c' /\ (sec c / 1000000 | w_delta t) /\ on_sample c' lo /\ on_sample c' starttime /\ on_sample c' endtime.
(** Partial: as above, and without shifts. The waveforms hold the stored samples of the period, of the stations selected. *)
Theorem C118_waveforms_partial :
  forall order interval fuel c A ra sts f starttime endtime pre post raw st, any_order order -> 0 < sec c -> (1000000 | sec c) -> starttime <= endtime ->
  path_structure (ar_format A) (ar_channels A) = Ret f ->
  let lo := starttime - Z.max 0 pre in let hi := endtime + Z.max 0 post in
  regular interval c A ra sts lo hi -> (forall t, stored c A ra sts lo hi t -> on_samples c starttime endtime lo t) ->
  read_merged order fuel c (ar_files A) (ar_content A) (Some f) ra sts starttime endtime pre post = Some (Ret (raw, st)) ->
  forall s ch tau v, (exists t, In t st /\ w_station t = s /\ w_chan t = ch /\ has_sample t tau v)
    <-> stored_sample c A ra sts lo hi s ch tau v /\ starttime <= tau <= endtime /\ (ra = true -> In s sts).
Proof.
  intros order interval fuel c A ra sts f t0 t1 pre post raw st Or Hc Hus Hse E lo hi Rg Os H s ch tau v.
  pose proof (C118_samples_partial order interval fuel c A ra sts f t0 t1 pre post raw st Or Hc Hse E Rg H) as Sm. destruct A as [a fd fmt ch0]. cbn [ar_files ar_content ar_format ar_channels] in *.
  destruct (merged_split order fmt ch0 f fuel c a fd ra sts t0 t1 pre post _ Hc Hse E H) as (raw0 & Rw & [(_ & e & Eo)|(_ & Eo)]); [discriminate|].
  assert (Er : raw = merge_traces order raw0) by congruence. assert (Es : st = after_merge c t0 t1 (Z.max 0 pre) (Z.max 0 post) ra sts raw) by congruence. clear Eo H. fold lo in Rw, Sm. fold hi in Rw, Sm.
  assert (Ne : forall t, In t raw -> exists v, has_sample t (w_start t) v).
  { intros t It. assert (X : w_data t <> []).
    { rewrite Er in It. unfold merge_traces in It. cbv zeta in It. apply in_map_iff in It. destruct It as (m & <- & Im). pose proof (raw_dotless interval c _ ra sts lo hi raw0 Rg Rw) as Dl.
      destruct (merged_id order raw0 (Or _) Dl m Im) as (x & y & Nx & Ei). destruct (raw_rate interval c _ ra sts lo hi raw0 Rg Rw x y Nx) as (R & _).
      apply (proj2 (Merge_Props.C117_samples_kept _ _ _ _ (Or _) R) m Im Ei). }
    destruct (w_data t) as [|w l] eqn:Ed; [contradiction|]. exists w, 0. rewrite Ed. split; [reflexivity|ring]. }
  assert (Gr : forall t, In t raw -> exists u, stored c (mk_archive a fd fmt ch0) ra sts lo hi u /\ w_station u = w_station t /\ w_chan u = w_chan t /\ w_delta u = w_delta t /\ (w_delta t | w_start t - lo)).
  { intros t It. destruct (Ne t It) as (w & Hw). destruct (proj1 (proj1 (Sm (w_station t) (w_chan t)) (w_start t) w)) as ((u & St & E1 & E2 & Hu) & _); [exists t; auto|].
    exists u. split; [exact St|]. split; [exact E1|]. split; [exact E2|]. destruct (proj1 Rg u St) as (Nu & D & P & G1 & G2).
    assert (Dt : w_delta t = w_delta u).
    { rewrite Er in It. unfold merge_traces in It. cbv zeta in It. apply in_map_iff in It. destruct It as (m & Em & Im). pose proof (raw_dotless interval c _ ra sts lo hi raw0 Rg Rw) as Dl.
      destruct (merged_id order raw0 (Or _) Dl m Im) as (x & y & Nx & Ei). destruct (raw_rate interval c _ ra sts lo hi raw0 Rg Rw x y Nx) as (R & _).
      destruct (proj2 (Merge_Props.C117_samples_kept _ _ _ _ (Or _) R) m Im Ei) as (Dm & _).
      assert (X : w_station t = x /\ w_chan t = y /\ w_delta t = sg_delta m) by (rewrite <- Em; unfold of_seg; cbn [w_station w_chan w_delta]; rewrite Ei, at_dot_chan by exact Nx; auto).
      destruct X as (X1 & X2 & X3). rewrite X3, Dm, D, E1, E2, X1, X2. unfold step. rewrite <- X1, <- X2, <- E1, <- E2, <- D. destruct (Z.ltb_spec 0 (w_delta u)); [reflexivity|lia]. }
    split; [symmetry; exact Dt|]. rewrite Dt. destruct Hu as (k & _ & Ek). destruct G1 as (j & Ej). exists (j + k). lia. }
  assert (Sh : map (shift_trace c) raw = raw).
  { transitivity (map (fun t : wtrace => t) raw); [|apply map_id]. apply map_ext_in. intros t It. destruct (Gr t It) as (u & St & _ & _ & Du & G). destruct (Os u St) as (O1 & O2 & O3 & O4 & O5 & O6). rewrite Du in *.
    unfold on_sample in O4. cbn [delta] in O4.
    assert (Ds : (w_delta t | w_start t)) by (replace (w_start t) with (w_start t - lo + lo) by ring; apply Z.divide_add_r; assumption).
    unfold shift_trace. destruct (Timeline_Props.C20_shift_to_sample_partial {| sec := sec c; delta := w_delta t |} (w_start t) O1 O2 Hus) as (_ & _ & K).
    - cbn [sec]. apply (Z.divide_trans _ (w_delta t)); assumption.
    - rewrite K by exact Ds. destruct t. reflexivity. }
  assert (St' : st = cut_padding t0 t1 (Z.max 0 pre) (Z.max 0 post) (select_stations ra sts raw)) by (rewrite Es; unfold after_merge; rewrite Sh; reflexivity).
  assert (Cut : forall t x w, In t raw -> has_sample (trim t t0 t1) x w <-> has_sample t x w /\ t0 <= x <= t1).
  { intros t x w It. destruct (Gr t It) as (u & Su & _ & _ & Du & G). destruct (proj1 Rg u Su) as (_ & _ & P & _). destruct (Os u Su) as (_ & _ & _ & O4 & O5 & O6). rewrite Du in *. unfold on_sample in *. cbn [delta] in *.
    apply trim_grid; [exact P| |apply Z.divide_sub_r; assumption]. replace (w_start t - t0) with (w_start t - lo + lo - t0) by ring. apply Z.divide_sub_r; [apply Z.divide_add_r; assumption|exact O5]. }
  assert (In' : (exists t, In t st /\ w_station t = s /\ w_chan t = ch /\ has_sample t tau v) <-> (exists t, In t raw /\ w_station t = s /\ w_chan t = ch /\ has_sample t tau v) /\ t0 <= tau <= t1 /\ (ra = true -> In s sts)).
  { rewrite St'. unfold cut_padding. destruct (negb (Z.max 0 pre =? 0) || negb (Z.max 0 post =? 0)) eqn:Ep.
    - split.
      + intros (t' & It' & E1 & E2 & Ht'). apply filter_In in It'. destruct It' as (It' & _). apply in_map_iff in It'. destruct It' as (t & <- & It). apply Archive_Proofs.select_in in It. destruct It as (It & Sel).
        destruct (trim_meta t t0 t1) as (M1 & M2 & _). rewrite M1 in E1. rewrite M2 in E2. apply (Cut t tau v It) in Ht'. split; [exists t; tauto|]. split; [apply Ht'|]. rewrite <- E1. exact Sel.
      + intros ((t & It & E1 & E2 & Ht) & B & Sel). destruct (trim_meta t t0 t1) as (M1 & M2 & _). assert (Hk : has_sample (trim t t0 t1) tau v) by (apply Cut; auto). exists (trim t t0 t1). rewrite M1, M2.
        split; [|auto]. apply filter_In. split; [|apply (has_sample_nonempty _ _ _ Hk)]. apply (in_map (fun t => trim t t0 t1)). apply Archive_Proofs.select_in. split; [exact It|]. rewrite E1. exact Sel.
    - apply orb_false_iff in Ep. destruct Ep as (Ep1 & Ep2). apply negb_false_iff, Z.eqb_eq in Ep1. apply negb_false_iff, Z.eqb_eq in Ep2. split.
      + intros (t & It & E1 & E2 & Ht). apply Archive_Proofs.select_in in It. destruct It as (It & Sel). split; [exists t; auto|]. split; [|rewrite <- E1; exact Sel].
        destruct (proj1 (proj1 (Sm s ch) tau v)) as (_ & B); [exists t; auto|]. unfold lo, hi in B. lia.
      + intros ((t & It & E1 & E2 & Ht) & B & Sel). exists t. split; [|auto]. apply Archive_Proofs.select_in. split; [exact It|]. rewrite E1. exact Sel. }
  rewrite In', (proj1 (Sm s ch) tau v). split; [tauto|]. intros (X & B & Sel). split; [split; [exact X|]; unfold lo, hi; lia|auto].
Qed.
Print Assumptions C118_waveforms_partial.

(** Partial: the ends of the padded period are sampling times. Two archives, with different formats, files and orders of reading, that store the same samples give the same traces of each channel. *)
Theorem C118_organisation_partial :
  forall order order' interval fuel fuel' c A A' ra sts f f' starttime endtime pre post raw st o', any_order order -> any_order order' -> 0 < sec c -> starttime <= endtime ->
  path_structure (ar_format A) (ar_channels A) = Ret f -> path_structure (ar_format A') (ar_channels A') = Ret f' ->
  let lo := starttime - Z.max 0 pre in let hi := endtime + Z.max 0 post in
  regular interval c A ra sts lo hi -> regular interval c A' ra sts lo hi ->
  (forall s ch tau v, lo <= tau <= hi -> stored_sample c A ra sts lo hi s ch tau v <-> stored_sample c A' ra sts lo hi s ch tau v) ->
  read_merged order fuel c (ar_files A) (ar_content A) (Some f) ra sts starttime endtime pre post = Some (Ret (raw, st)) ->
  read_merged order' fuel' c (ar_files A') (ar_content A') (Some f') ra sts starttime endtime pre post = Some o' ->
  exists raw' st', o' = Ret (raw', st') /\ forall s ch, traces raw s ch = traces raw' s ch /\ traces st s ch = traces st' s ch.
Proof.
  intros order order' interval fuel fuel' c [a fd fmt ch0] [a' fd' fmt' ch0'] ra sts f f' t0 t1 pre post raw st o' Or Or' Hc Hse E E' lo hi Rg Rg' Same H H'. cbn [ar_files ar_content ar_format ar_channels] in *.
  destruct (merged_split order fmt ch0 f fuel c a fd ra sts t0 t1 pre post _ Hc Hse E H) as (raw0 & Rw & [(_ & e & Eo)|(Ne & Eo)]); [discriminate|].
  destruct (merged_split order' fmt' ch0' f' fuel' c a' fd' ra sts t0 t1 pre post _ Hc Hse E' H') as (raw0' & Rw' & Eo'). clear H H'.
  fold lo in Rw, Rw'. fold hi in Rw, Rw'.
  assert (Er : raw = merge_traces order raw0) by congruence. assert (Es : st = after_merge c t0 t1 (Z.max 0 pre) (Z.max 0 post) ra sts raw) by congruence. clear Eo.
  pose proof (raw_dotless interval c _ ra sts lo hi raw0 Rg Rw) as Dl. pose proof (raw_dotless interval c _ ra sts lo hi raw0' Rg' Rw') as Dl'.
  assert (Eq : forall s ch, traces raw s ch = traces (merge_traces order' raw0') s ch).
  { intros s ch. rewrite Er. destruct (in_dec ascii_dec dot s) as [Y|N]; [rewrite !traces_merged_dot by exact Y; reflexivity|].
    rewrite (traces_merged order raw0 (Or _) Dl s ch N), (traces_merged order' raw0' (Or' _) Dl' s ch N). f_equal.
    destruct (raw_rate interval c _ ra sts lo hi raw0 Rg Rw s ch N) as (R & G & C). destruct (raw_rate interval c _ ra sts lo hi raw0' Rg' Rw' s ch N) as (R' & G' & C').
    apply (Merge_Props.C117_pieces _ _ _ _ _ (step interval s ch) (Or _) (Or' _)). split; [exact R|]. split; [exact R'|]. split; [exact G|]. split; [exact G'|]. split; [exact C|].
    intros tau v. rewrite (raw_recorded interval c _ ra sts lo hi raw0 Rg Rw s ch tau v N), (raw_recorded interval c _ ra sts lo hi raw0' Rg' Rw' s ch tau v N).
    split; intros (X & B); (split; [apply (Same s ch tau v B); exact X|exact B]). }
  assert (Eq' : forall s ch, traces st s ch = traces (after_merge c t0 t1 (Z.max 0 pre) (Z.max 0 post) ra sts (merge_traces order' raw0')) s ch).
  { intros s ch. rewrite Es, !traces_after, Eq. reflexivity. }
  destruct Eo' as [(Nil & _)|(_ & Eo')].
  - exfalso. assert (Ns : st <> []) by (rewrite Es, Er; exact Ne). destruct st as [|t r]; [contradiction|]. assert (It : In t (traces (t :: r) (w_station t) (w_chan t))) by (apply in_traces; cbn; auto).
    rewrite Eq', Nil in It. destruct It.
  - exists (merge_traces order' raw0'), (after_merge c t0 t1 (Z.max 0 pre) (Z.max 0 post) ra sts (merge_traces order' raw0')). split; [exact Eo'|]. intros s ch. split; [apply Eq|apply Eq'].
Qed.
Print Assumptions C118_organisation_partial.

(** Ids in the order of their first traces. *)
Definition c118_order (st : list seg) : list string := nodup string_dec (map sg_id st).
Lemma c118_any : any_order c118_order.
Proof. intros st. split; [apply NoDup_nodup|]. intros i. apply nodup_In. Qed.
Definition c118_t0 : Z := 18262 * 86400 * 1000000.
Definition c118_clock : clock := {| sec := 1000000; delta := 10000 |}.
Definition c118_file : path := [txt "2020"; txt "001"; txt "ST10_Z.m"].
Definition c118_whole : wtrace := mk_wtrace (txt "ST10") (txt "Z") c118_t0 10000 [1; 2; 3; 4]%R.
Definition c118_first : wtrace := mk_wtrace (txt "ST10") (txt "Z") c118_t0 10000 [1; 2]%R.
Definition c118_second : wtrace := mk_wtrace (txt "ST10") (txt "Z") (c118_t0 + 20000) 10000 [3; 4]%R.
(** The same record as one trace, and in two pieces. *)
Definition c118_A : archive := mk_archive [c118_file] (fun _ => Some [c118_whole]) "YEAR/JD/STATION" [GStar].
Definition c118_B : archive := mk_archive [c118_file] (fun _ => Some [c118_second; c118_first]) "YEAR/JD/STATION" [GStar].

Lemma c118_sample t tau v : has_sample t tau v -> exists n, (n < length (w_data t))%nat /\ tau = w_start t + Z.of_nat n * w_delta t /\ nth_error (w_data t) n = Some v.
Proof.
  intros (k & Hk & Et). pose proof (rd_bounds _ _ _ _ Hk). exists (Z.to_nat k). split; [lia|]. rewrite Z2Nat.id by lia. split; [exact Et|]. rewrite <- rd_nat, Z2Nat.id by lia. exact Hk.
Qed.
Lemma c118_pieces tau v : has_sample c118_whole tau v <-> has_sample c118_first tau v \/ has_sample c118_second tau v.
Proof.
  split.
  - intros H. apply c118_sample in H. destruct H as (n & Ln & -> & En). cbn [c118_whole w_data w_start w_delta length] in *.
    destruct n as [|[|[|[|n]]]]; try lia; cbn in En; injection En as <-; [left; exists 0|left; exists 1|right; exists 0|right; exists 1]; (split; [reflexivity|cbn [c118_first c118_second w_start w_delta]; lia]).
  - intros [H|H]; apply c118_sample in H; destruct H as (n & Ln & -> & En); cbn [c118_first c118_second w_data w_start w_delta length] in *;
      (destruct n as [|[|n]]; try lia; cbn in En; injection En as <-); [exists 0|exists 1|exists 2|exists 3]; (split; [reflexivity|cbn [c118_whole w_start w_delta]; lia]).
Qed.
Lemma c118_same ra sts lo hi s ch tau v : stored_sample c118_clock c118_A ra sts lo hi s ch tau v <-> stored_sample c118_clock c118_B ra sts lo hi s ch tau v.
Proof.
  split.
  - intros (t & (p & ts & d & x & x' & Ip & Ec & It & HL & Hd & Hs) & Es & Eh & Ht). cbn [c118_A ar_content] in Ec. assert (ts = [c118_whole]) by congruence. subst ts. destruct It as [<-|[]].
    apply c118_pieces in Ht. destruct Ht as [Ht|Ht]; [exists c118_first|exists c118_second]; (split; [|auto]); exists p, [c118_second; c118_first], d, x, x'; cbn; auto 10.
  - intros (t & (p & ts & d & x & x' & Ip & Ec & It & HL & Hd & Hs) & Es & Eh & Ht). cbn [c118_B ar_content] in Ec. assert (ts = [c118_second; c118_first]) by congruence. subst ts.
    exists c118_whole. assert (Hw : has_sample c118_whole tau v) by (apply c118_pieces; destruct It as [<-|[<-|[]]]; auto). split; [exists p, [c118_whole], d, x, x'; cbn; auto 10|]. destruct It as [<-|[<-|[]]]; auto.
Qed.
Lemma c118_value tau v v' : has_sample c118_whole tau v -> has_sample c118_whole tau v' -> v = v'.
Proof. intros (k & H1 & E1) (k' & H2 & E2). cbn [c118_whole w_start w_delta] in *. assert (k = k') by lia. subst k'. congruence. Qed.

(** The archives of the example meet the conditions, and give one trace. *)
Example C118_example :
  any_order c118_order /\ path_structure (ar_format c118_A) (ar_channels c118_A) = Ret [ [FYear]; [FJday]; [FStation] ++ fstar ]
  /\ regular (fun _ _ => 10000) c118_clock c118_A false [txt "ST10"] c118_t0 (c118_t0 + 30000) /\ regular (fun _ _ => 10000) c118_clock c118_B false [txt "ST10"] c118_t0 (c118_t0 + 30000)
  /\ (forall t, stored c118_clock c118_A false [txt "ST10"] c118_t0 (c118_t0 + 30000) t -> on_samples c118_clock (c118_t0 + 10000) (c118_t0 + 20000) c118_t0 t)
  /\ read_merged c118_order 2 c118_clock (ar_files c118_A) (ar_content c118_A) (Some [ [FYear]; [FJday]; [FStation] ++ fstar ]) false [txt "ST10"] (c118_t0 + 10000) (c118_t0 + 20000) 10000 10000
     = Some (Ret ([c118_whole], [mk_wtrace (txt "ST10") (txt "Z") (c118_t0 + 10000) 10000 [2; 3]%R]))
  /\ exists raw st, read_merged c118_order 2 c118_clock (ar_files c118_B) (ar_content c118_B) (Some [ [FYear]; [FJday]; [FStation] ++ fstar ]) false [txt "ST10"] (c118_t0 + 10000) (c118_t0 + 20000) 10000 10000
     = Some (Ret (raw, st)).
Proof.
  split; [exact c118_any|]. split; [reflexivity|].
  assert (RA : regular (fun _ _ => 10000) c118_clock c118_A false [txt "ST10"] c118_t0 (c118_t0 + 30000)).
  { split.
    - intros t (p & ts & d & x & x' & _ & Ec & It & _). cbn [c118_A ar_content] in Ec. assert (ts = [c118_whole]) by congruence. subst ts. destruct It as [<-|[]]. split; [cbn; intuition congruence|]. split; [reflexivity|]. split; [reflexivity|].
      split; [exists 0|exists 3]; reflexivity.
    - intros s ch tau v v' (t & (p & ts & d & x & x' & _ & Ec & It & _) & _ & _ & Ht) (t' & (p' & ts' & d' & y & y' & _ & Ec' & It' & _) & _ & _ & Ht'). cbn [c118_A ar_content] in Ec, Ec'.
      assert (ts = [c118_whole]) by congruence. assert (ts' = [c118_whole]) by congruence. subst ts ts'. destruct It as [<-|[]], It' as [<-|[]]. apply (c118_value tau); assumption. }
  assert (RB : regular (fun _ _ => 10000) c118_clock c118_B false [txt "ST10"] c118_t0 (c118_t0 + 30000)).
  { split.
    - intros t (p & ts & d & x & x' & _ & Ec & It & _). cbn [c118_B ar_content] in Ec. assert (ts = [c118_second; c118_first]) by congruence. subst ts.
      destruct It as [<-|[<-|[]]]; (split; [cbn; intuition congruence|]; split; [reflexivity|]; split; [reflexivity|]; split); [exists 2|exists 3|exists 0|exists 3]; reflexivity.
    - intros s ch tau v v' H H'. apply c118_same in H. apply c118_same in H'. apply (proj2 RA s ch tau); assumption. }
  split; [exact RA|]. split; [exact RB|]. split.
  { intros t (p & ts & d & x & x' & _ & Ec & It & _). cbn [c118_A ar_content] in Ec. assert (ts = [c118_whole]) by congruence. subst ts. destruct It as [<-|[]]. unfold on_samples, clock_ok, integer_rate, on_sample. cbn [sec delta c118_clock c118_whole w_delta].
    split; [split; [lia|]; split; [exists 10; reflexivity|reflexivity]|]. split; [exists 100; reflexivity|]. split; [exists 10000; reflexivity|]. unfold c118_t0. split; [exists (18262 * 86400 * 100); reflexivity|]. split; [exists (18262 * 86400 * 100 + 1); reflexivity|exists (18262 * 86400 * 100 + 2); reflexivity]. }
  split; [vm_compute; reflexivity|]. eexists. eexists. vm_compute. reflexivity.
Qed.

(** Refuted: the same for a period that ends between two samples. Of the whole record the sample nearest to the end is read; a piece that begins with that sample is dropped. *)
Theorem C118_organisation_refuted :
  exists raw st raw' st', any_order c118_order
  /\ (forall s ch tau v, stored_sample c118_clock c118_A false [txt "ST10"] c118_t0 (c118_t0 + 16000) s ch tau v <-> stored_sample c118_clock c118_B false [txt "ST10"] c118_t0 (c118_t0 + 16000) s ch tau v)
  /\ read_merged c118_order 2 c118_clock (ar_files c118_A) (ar_content c118_A) (Some [ [FYear]; [FJday]; [FStation] ++ fstar ]) false [txt "ST10"] c118_t0 (c118_t0 + 16000) 0 0 = Some (Ret (raw, st))
  /\ read_merged c118_order 2 c118_clock (ar_files c118_B) (ar_content c118_B) (Some [ [FYear]; [FJday]; [FStation] ++ fstar ]) false [txt "ST10"] c118_t0 (c118_t0 + 16000) 0 0 = Some (Ret (raw', st'))
  /\ map w_data (traces st (txt "ST10") (txt "Z")) = [[1; 2; 3]%R] /\ map w_data (traces st' (txt "ST10") (txt "Z")) = [[1; 2]%R].
Proof.
  do 4 eexists. split; [exact c118_any|]. split; [intros; apply c118_same|]. split; [vm_compute; reflexivity|]. split; [vm_compute; reflexivity|]. split; reflexivity.
Qed.
Print Assumptions C118_organisation_refuted.
