(** Proofs about reading. *)
From Coq Require Import String Ascii.
From Coq Require Import List ZArith Reals Bool Lia.
From Verif Require Import Lib LibFacts Timeline_Model Avail_Model Archive_Model Archive_Spec Archive_Proofs Merge_Model Merge_Spec Merge_Proofs Read_Model Read_Spec.
Import ListNotations.
Open Scope Z_scope.

(** ** Ids *)
Lemma at_dot_ok s ch : ~ In dot s -> at_dot (s ++ dot :: ch) = (s, ch).
Proof.
  induction s as [|x s IH]; intros N; cbn [app at_dot]; [rewrite Ascii.eqb_refl; reflexivity|].
  destruct (Ascii.eqb x dot) eqn:E; [apply Ascii.eqb_eq in E; exfalso; apply N; left; exact E|]. rewrite IH by (intros I; apply N; right; exact I). reflexivity.
Qed.
Lemma at_dot_chan s ch : ~ In dot s -> at_dot (list_ascii_of_string (chan_id s ch)) = (s, ch).
Proof. intros N. unfold chan_id. rewrite list_ascii_of_string_of_list_ascii. apply at_dot_ok. exact N. Qed.
Lemma at_dot_nodot l : ~ In dot (fst (at_dot l)).
Proof.
  induction l as [|x l IH]; cbn [at_dot fst]; [intros []|]. destruct (Ascii.eqb x dot) eqn:E; cbn [fst]; [intros []|]. intros [->|I]; [rewrite Ascii.eqb_refl in E; discriminate|exact (IH I)].
Qed.
Lemma of_to t : ~ In dot (w_station t) -> of_seg (to_seg t) = t.
Proof. intros N. destruct t as [s ch st dl da]. unfold of_seg, to_seg. cbn [sg_id sg_start sg_delta sg_data w_station w_chan w_start w_delta w_data] in *. rewrite at_dot_chan by exact N. reflexivity. Qed.
Lemma to_sample t tau v : sample (to_seg t) tau v <-> has_sample t tau v.
Proof. unfold sample, has_sample, to_seg. cbn. split; intros (k & H1 & H2); exists k; auto. Qed.
Lemma of_sample m tau v : has_sample (of_seg m) tau v <-> sample m tau v.
Proof. unfold sample, has_sample, of_seg. cbn. split; intros (k & H1 & H2); exists k; auto. Qed.

Lemma in_traces l s ch t : In t (traces l s ch) <-> In t l /\ w_station t = s /\ w_chan t = ch.
Proof.
  unfold traces. rewrite filter_In, andb_true_iff. destruct (list_eq_dec ascii_dec (w_station t) s), (list_eq_dec ascii_dec (w_chan t) ch); intuition congruence.
Qed.

Section Merging.
Variables (order : list seg -> list string) (raw : list wtrace).
Hypothesis O : enumerates (order (map to_seg raw)) (map to_seg raw).
Hypothesis D : forall t, In t raw -> ~ In dot (w_station t).
Lemma merged_id m : In m (merge_stream (order (map to_seg raw)) (map to_seg raw)) -> exists s ch, ~ In dot s /\ sg_id m = chan_id s ch.
Proof.
  unfold merge_stream. intros I. apply in_flat_map in I. destruct I as (i & Ii & Im). fold (part (map to_seg raw) i) in Im. apply part_id in Im. subst i.
  apply (proj1 (proj2 O _)) in Ii. rewrite map_map, in_map_iff in Ii. destruct Ii as (t & E & It). exists (w_station t), (w_chan t). split; [apply D; exact It|]. symmetry. exact E.
Qed.
Lemma traces_merged s ch : ~ In dot s ->
  traces (merge_traces order raw) s ch = map of_seg (select_id (merge_stream (order (map to_seg raw)) (map to_seg raw)) (chan_id s ch)).
Proof.
  intros N. unfold merge_traces, traces, select_id. cbv zeta. pose proof merged_id as H. set (M := merge_stream _ _) in *. clearbody M.
  induction M as [|m M IH]; [reflexivity|]. cbn [map filter]. rewrite IH by (intros m' I; apply H; right; exact I).
  destruct (H m (or_introl eq_refl)) as (s0 & c0 & N0 & E0). assert (Em : w_station (of_seg m) = s0 /\ w_chan (of_seg m) = c0) by (unfold of_seg; cbn [w_station w_chan]; rewrite E0, at_dot_chan by exact N0; auto).
  destruct Em as (E1 & E2).
  assert (B : forall x y, chan_id s0 x = chan_id s y -> s0 = s /\ x = y).
  { intros x y E. apply (f_equal (fun x => at_dot (list_ascii_of_string x))) in E. rewrite !at_dot_chan in E by assumption. split; congruence. }
  destruct (String.eqb_spec (sg_id m) (chan_id s ch)) as [E|E].
  - rewrite E0 in E. apply B in E. destruct E as (-> & ->). destruct (list_eq_dec ascii_dec (w_station (of_seg m)) s); [|contradiction]. destruct (list_eq_dec ascii_dec (w_chan (of_seg m)) ch); [|contradiction]. reflexivity.
  - destruct (list_eq_dec ascii_dec (w_station (of_seg m)) s) as [F|_]; [|reflexivity]. destruct (list_eq_dec ascii_dec (w_chan (of_seg m)) ch) as [G|_]; [|reflexivity]. exfalso. apply E. rewrite E0. congruence.
Qed.
Lemma traces_merged_dot s ch : In dot s -> traces (merge_traces order raw) s ch = [].
Proof.
  intros N. apply filter_none_. intros t I. unfold merge_traces in I. cbv zeta in I. apply in_map_iff in I. destruct I as (m & <- & _). unfold of_seg. cbn [w_station w_chan].
  destruct (list_eq_dec ascii_dec _ s) as [E|_]; [|reflexivity]. exfalso. rewrite <- E in N. exact (at_dot_nodot _ N).
Qed.
End Merging.

(** ** Trimming on the grid *)
Lemma trim_start t a b : exists k, w_start (trim t a b) = w_start t + k * w_delta t.
Proof.
  assert (L : exists k, w_start (ltrim t a) = w_start t + k * w_delta t).
  { unfold ltrim. cbv zeta. destruct (_ <=? 0); [exists 0; ring|]. eexists. reflexivity. }
  assert (R : forall u, w_start (rtrim u b) = w_start u) by (intros u; unfold rtrim; cbv zeta; destruct (0 <=? _); [reflexivity|]; destruct (_ <? _); reflexivity).
  unfold trim. rewrite R. exact L.
Qed.
Lemma trim_grid t a b tau v : 0 < w_delta t -> (w_delta t | w_start t - a) -> (w_delta t | b - a) ->
  has_sample (trim t a b) tau v <-> has_sample t tau v /\ a <= tau <= b.
Proof.
  intros P (k & Ek) (n & En). split.
  - intros H. destruct (trim_only t a b tau v P H) as (Hs & B). split; [exact Hs|]. destruct Hs as (i & _ & Et). set (d := w_delta t) in *. clearbody d.
    assert (E1 : tau - a = (k + i) * d) by lia. assert (E2 : b - tau = (n - k - i) * d) by lia. split; [assert (0 <= k + i) by nia; nia|assert (0 <= n - k - i) by nia; nia].
  - intros (H & B). apply trim_keeps; assumption.
Qed.

(** ** The steps after the merge go channel by channel *)
Lemma filter_comm {A} (f g : A -> bool) l : filter f (filter g l) = filter g (filter f l).
Proof. induction l as [|x l IH]; [reflexivity|]. cbn. destruct (g x) eqn:G, (f x) eqn:F; cbn; rewrite ?G, ?F, IH; reflexivity. Qed.
Lemma filter_map_meta (f : wtrace -> wtrace) l s ch : (forall t, w_station (f t) = w_station t /\ w_chan (f t) = w_chan t) -> traces (map f l) s ch = map f (traces l s ch).
Proof.
  intros H. unfold traces. induction l as [|t l IH]; [reflexivity|]. cbn [map filter]. rewrite IH. destruct (H t) as (-> & ->).
  destruct (_ && _); reflexivity.
Qed.
Lemma traces_select ra sts l s ch : traces (select_stations ra sts l) s ch = select_stations ra sts (traces l s ch).
Proof.
  unfold select_stations. destruct ra; [|reflexivity]. unfold traces. induction sts as [|x sts IH]; [reflexivity|]. cbn [flat_map]. rewrite filter_app, IH. f_equal. apply filter_comm.
Qed.
Lemma traces_cut a b pre post l s ch : traces (cut_padding a b pre post l) s ch = cut_padding a b pre post (traces l s ch).
Proof.
  unfold cut_padding. destruct (_ || _); [|reflexivity]. rewrite <- (filter_map_meta (fun t => trim t a b)); [unfold traces; apply filter_comm|].
  intros t. destruct (trim_meta t a b) as (H1 & H2 & _). auto.
Qed.
Definition after_merge (c : clock) (a b pre post : Z) (ra : bool) (sts : list name) (l : list wtrace) : list wtrace :=
  cut_padding a b pre post (select_stations ra sts (map (shift_trace c) l)).
Lemma traces_after c a b pre post ra sts l s ch : traces (after_merge c a b pre post ra sts l) s ch = after_merge c a b pre post ra sts (traces l s ch).
Proof. unfold after_merge. rewrite traces_cut, traces_select, filter_map_meta by (intros; split; reflexivity). reflexivity. Qed.
Lemma after_nil c a b pre post ra sts : after_merge c a b pre post ra sts [] = [].
Proof.
  unfold after_merge. cbn [map]. assert (E : select_stations ra sts [] = []) by (unfold select_stations; destruct ra; [induction sts; [reflexivity|exact IHsts]|reflexivity]).
  rewrite E. unfold cut_padding. destruct (_ || _); reflexivity.
Qed.

(** ** Reading *)
Lemma merge_nil order : merge_traces order [] = [].
Proof. unfold merge_traces, merge_stream. cbn [map]. induction (order []) as [|i o IH]; [reflexivity|exact IH]. Qed.
Lemma merged_split order fmt ch f fuel c a fd ra sts t0 t1 pre post o : 0 < sec c -> t0 <= t1 -> path_structure fmt ch = Ret f ->
  read_merged order fuel c a fd (Some f) ra sts t0 t1 pre post = Some o ->
  exists raw0, let raw := merge_traces order raw0 in let st := after_merge c t0 t1 (Z.max 0 pre) (Z.max 0 post) ra sts raw in
    (forall tr, In tr raw0 <-> exists t, stored c (mk_archive a fd fmt ch) ra sts (t0 - Z.max 0 pre) (t1 + Z.max 0 post) t /\ tr = trim t (t0 - Z.max 0 pre) (t1 + Z.max 0 post) /\ nonempty tr = true)
    /\ ((st = [] /\ exists e, o = Raise e) \/ (st <> [] /\ o = Ret (raw, st))).
Proof.
  intros Hc Hse E. unfold read_merged. cbv zeta. intros H.
  destruct (load_from_path fuel c a (Some f) ra sts (t0 - Z.max 0 pre) (t1 + Z.max 0 post)) as [r|] eqn:El; [|discriminate].
  assert (Hse' : t0 - Z.max 0 pre <= t1 + Z.max 0 post) by lia.
  destruct (load_from_path_in fmt ch f fuel c a ra sts _ _ r Hc Hse' E El) as (files & -> & Hfl).
  exists (flat_map (read_file fd (t0 - Z.max 0 pre) (t1 + Z.max 0 post)) files). split.
  - intros tr. rewrite (raw_in fd t0 t1 pre post files tr). split.
    + intros (p & ts & t & Ip & Ef & It & Et & Ne). apply Hfl in Ip. destruct Ip as (Ia & d & s & s' & Hd & Hs & HL). exists t. split; [|auto]. exists p, ts, d, s, s'. cbn. auto 10.
    + intros (t & (p & ts & d & s & s' & Ia & Ef & It & HL & Hd & Hs) & Et & Ne). exists p, ts, t. cbn in *. split; [apply Hfl; split; [exact Ia|exists d, s, s'; auto]|auto].
  - destruct files as [|f0 fl]; [left; split; [cbn [flat_map]; rewrite merge_nil; apply after_nil|exists ArchiveEmpty; congruence]|]. unfold after_merge.
    destruct (cut_padding _ _ _ _ _) as [|x l] eqn:Es; [left; split; [reflexivity|exists DataGapException; congruence]|right]. split; [discriminate|congruence].
Qed.
Lemma separated_overlap i d : 0 < d -> forall l, Forall (tr_ok i d) l -> separated d l -> forall a b, In a l -> In b l -> a = b \/ sg_end a < sg_start b \/ sg_end b < sg_start a.
Proof.
  intros P. induction l as [|x l IH]; intros F S a b Ia Ib; [destruct Ia|]. pose proof (separated_after i d P l x F S) as A.
  destruct Ia as [<-|Ia], Ib as [<-|Ib].
  - left. reflexivity.
  - right. left. specialize (A b Ib). lia.
  - right. right. specialize (A a Ia). lia.
  - inversion_clear F as [|? ? _ F']. apply IH; auto. destruct l; [exact I|apply S].
Qed.
