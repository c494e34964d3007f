(** Proofs about the units and the polarity of the waveforms. *)
From Coq Require Import String Ascii.
From Coq Require Import List ZArith Reals QArith Bool Lia Lra.
From Verif Require Import Lib LibFacts PyDict PySlice Timeline_Model Avail_Model Avail_Spec Avail_Proofs Archive_Model Read_Model Migrate_Spec StaLta_Model StaLta_Spec StaLta_Proofs Onset_Model Onset_Spec Onset_Proofs Gain_Spec.
From Verif Require Resample_Model StaLta_Props.
Import ListNotations.
Open Scope Z_scope.

(** * Lists *)
Lemma upd_map {A B} (f : A -> B) l i v : upd (map f l) i (f v) = option_map (map f) (upd l i v).
Proof. revert i. induction l as [|x l IH]; intros [|i]; cbn [map upd]; try reflexivity. rewrite IH. destruct (upd l i v); reflexivity. Qed.
Lemma wr_map {A B} (f : A -> B) l i v : wr (map f l) i (f v) = option_map (map f) (wr l i v).
Proof. unfold wr. destruct (i <? 0); [reflexivity|apply upd_map]. Qed.
Lemma loop_map {S S'} (g : S -> S') (b : Z -> S -> option S) (b' : Z -> S' -> option S') : (forall i s, b' i (g s) = option_map g (b i s)) ->
  forall n i s, loop n i b' (g s) = option_map g (loop n i b s).
Proof. intros H. induction n as [|n IH]; intros i s; cbn [loop]; [reflexivity|]. rewrite H. destruct (b i s); cbn [option_map]; [apply IH|reflexivity]. Qed.
Lemma set_stride_map {A B} (f : A -> B) l i u vals : set_stride (map f l) i u (map f vals) = option_map (map f) (set_stride l i u vals).
Proof.
  unfold set_stride. rewrite !map_length. destruct (_ =? _); [|reflexivity]. unfold for_. apply (loop_map (map f)). intros j s. rewrite rd_map.
  destruct (rd vals j); cbn [option_map]; [apply wr_map|reflexivity].
Qed.
Lemma skipn_map_ {A B} (f : A -> B) n l : skipn n (map f l) = map f (skipn n l).
Proof. revert l. induction n as [|n IH]; intros [|x l]; cbn; auto. Qed.
Lemma firstn_map_ {A B} (f : A -> B) n l : firstn n (map f l) = map f (firstn n l).
Proof. revert l. induction n as [|n IH]; intros [|x l]; cbn; try reflexivity. f_equal. apply IH. Qed.
Lemma pyslice_map {A B} (f : A -> B) l a b : pyslice (map f l) a b = map f (pyslice l a b).
Proof. unfold pyslice. rewrite map_length, skipn_map_, firstn_map_. reflexivity. Qed.
Lemma combine_map_ {A B} (f : A -> B) (l l' : list A) : combine (map f l) (map f l') = map (fun p => (f (fst p), f (snd p))) (combine l l').
Proof. revert l'. induction l as [|x l IH]; intros [|y l']; cbn; try reflexivity. f_equal. apply IH. Qed.
Lemma repeat_zero c n : repeat 0%R n = map (Rmult c) (repeat 0%R n).
Proof. induction n as [|n IH]; cbn; [reflexivity|]. rewrite <- IH, Rmult_0_r. reflexivity. Qed.
Lemma every_map {A B} (f : A -> B) k l : Resample_Model.every k (map f l) = map f (Resample_Model.every k l).
Proof.
  unfold Resample_Model.every. rewrite map_length. induction (zrange _) as [|i r IH]; cbn [flat_map]; [reflexivity|]. rewrite IH, map_app, rd_map. destruct (rd l (i * k)); reflexivity.
Qed.
Lemma filter_map_ {A B} (f : A -> B) (p : B -> bool) l : filter p (map f l) = map f (filter (fun x => p (f x)) l).
Proof. induction l as [|x l IH]; cbn [map filter]; [reflexivity|]. rewrite IH. destruct (p (f x)); reflexivity. Qed.
Lemma filter_same {A B} (f : A -> B) (p : B -> bool) (q : A -> bool) l : (forall x, p (f x) = q x) -> filter p (map f l) = map f (filter q l).
Proof. intros H. rewrite filter_map_. f_equal. apply filter_ext. exact H. Qed.
Lemma bind_out {A B C} (f : A -> B) (g : B -> outcome C) o : bind (out_map f o) g = bind o (fun a => g (f a)).
Proof. destruct o; reflexivity. Qed.
Lemma out_bind {A B C} (f : B -> C) (g : A -> outcome B) o : out_map f (bind o g) = bind o (fun a => out_map f (g a)).
Proof. destruct o; reflexivity. Qed.
Lemma bind_ext_ {A B} (o : outcome A) (f g : A -> outcome B) : (forall a, o = Ret a -> f a = g a) -> bind o f = bind o g.
Proof. intros H. destruct o; cbn; [apply H|..]; reflexivity. Qed.

(** * Preparation of the waveforms *)
Lemma upsample_data_scale c data u : upsample_data (map (Rmult c) data) u = option_map (map (Rmult c)) (upsample_data data u).
Proof.
  unfold upsample_data. rewrite map_length. rewrite (repeat_zero c) at 1. rewrite set_stride_map. destruct (set_stride _ 0 u data) as [dn|]; cbn [option_map]; [|reflexivity].
  unfold for_. apply (loop_map (map (Rmult c))). intros i s. rewrite !pyslice_map, combine_map_, map_map. rewrite <- set_stride_map, map_map. f_equal. apply map_ext. intros [a b]. cbn [fst snd]. ring.
Qed.

Section Gain.
Variable gain : string -> R.
Hypothesis Hgain : forall i, gain i <> 0%R.
Let G := gained gain.

Lemma g_npts s : npts (G s) = npts s.
Proof. unfold npts, G, gained. cbn [sg_data]. rewrite map_length. reflexivity. Qed.
Lemma g_end s : sg_end (G s) = sg_end s.
Proof. unfold sg_end. rewrite g_npts. reflexivity. Qed.
Lemma trim_g a b s : Resample_Model.trim a b (G s) = G (Resample_Model.trim a b s).
Proof. unfold Resample_Model.trim. rewrite g_npts. unfold G, gained. cbn [sg_id sg_start sg_delta sg_data]. rewrite firstn_map_, skipn_map_. reflexivity. Qed.
Lemma trim_stream_g a b st : Resample_Model.trim_stream a b (map G st) = map G (Resample_Model.trim_stream a b st).
Proof.
  unfold Resample_Model.trim_stream. rewrite map_map. rewrite (map_ext (fun s => Resample_Model.trim a b (G s)) (fun s => G (Resample_Model.trim a b s))) by (intros s; apply trim_g).
  rewrite <- (map_map (Resample_Model.trim a b) G). apply filter_same. intros s. rewrite g_npts. reflexivity.
Qed.

Variables (lowpass : Z -> list R -> list R).
Hypothesis Hlow : forall dd, homogeneous (lowpass dd).
Lemma decimate_g dd s : Resample_Model.decimate lowpass dd (G s) = out_map G (Resample_Model.decimate lowpass dd s).
Proof.
  unfold Resample_Model.decimate. cbn [G gained sg_delta]. destruct (dd / sg_delta s <=? 0); [reflexivity|]. cbn [out_map]. unfold G, gained. cbn [sg_id sg_start sg_delta sg_data]. rewrite Hlow, every_map. reflexivity.
Qed.
Lemma upsample_g secs u t0 t1 s : unpadded t0 t1 s -> Resample_Model.upsample_trace secs u t0 t1 (G s) = out_map G (Resample_Model.upsample_trace secs u t0 t1 s).
Proof.
  intros (U0 & U1). unfold Resample_Model.upsample_trace. change (sg_delta (G s)) with (sg_delta s). change (sg_data (G s)) with (map (Rmult (gain (sg_id s))) (sg_data s)). change (sg_start (G s)) with (sg_start s). change (sg_id (G s)) with (sg_id s). destruct (_ || _ || _); [reflexivity|]. unfold upsample. cbn [delta]. rewrite upsample_data_scale, map_length.
  destruct (upsample_data (sg_data s) u) as [dn|]; cbn [option_map]; [|reflexivity].
  unfold sg_end, npts in U1.
  replace ((0 <? sg_start s - t0) && (sg_start s - t0 <? sg_delta s)) with false by (symmetry; apply andb_false_iff; destruct (Z.ltb_spec 0 (sg_start s - t0)); [right; apply Z.ltb_ge; lia|left; reflexivity]).
  replace ((0 <? t1 - (sg_start s + (Z.of_nat (length (sg_data s)) - 1) * sg_delta s)) && (t1 - (sg_start s + (Z.of_nat (length (sg_data s)) - 1) * sg_delta s) <? sg_delta s)) with false
    by (symmetry; apply andb_false_iff; destruct (Z.ltb_spec 0 (t1 - (sg_start s + (Z.of_nat (length (sg_data s)) - 1) * sg_delta s))); [right; apply Z.ltb_ge; lia|left; reflexivity]).
  cbn [out_map]. rewrite <- trim_g. reflexivity.
Qed.
Variables (secs rate : Z) (rs : bool) (uf : option Z) (t0 t1 : Z).
Let one := Resample_Model.resample_trace lowpass secs rate rs uf t0 t1.
Let scal := scalable secs rate rs uf t0 t1.
Lemma resample_trace_g s : 0 < sg_delta s -> scal s -> one (G s) = out_map G (one s).
Proof.
  intros Hd Hs. unfold one, Resample_Model.resample_trace, Resample_Model.at_rate, Resample_Model.decimable. cbn [G gained sg_delta]. fold (G s).
  destruct (Z.eqb_spec (sg_delta s) (secs / rate)) as [|N1]; [reflexivity|]. destruct (Z.eqb_spec ((secs / rate) mod sg_delta s) 0) as [|N2]; [apply decimate_g|].
  destruct rs eqn:Er; [|reflexivity]. destruct uf as [u|] eqn:Eu; [|reflexivity]. destruct (negb _); [reflexivity|].
  destruct Hs as [Hs|[Hs|[Hs|[Hs|Hs]]]]; [congruence|exfalso; apply N2, Z.mod_divide; [lia|exact Hs]|congruence|congruence|].
  rewrite upsample_g by exact Hs. rewrite bind_out, out_bind. apply bind_ext_. intros a _. apply decimate_g.
Qed.
Lemma resample_loop_g mv st : (forall s, mv (G s) = mv s) -> Forall (fun s => 0 < sg_delta s /\ scal s) st ->
  Resample_Model.resample_loop one mv (map G st) = out_map (fun kn => (map G (fst kn), map G (snd kn))) (Resample_Model.resample_loop one mv st).
Proof.
  intros Hm. induction 1 as [|s st (Hd & Hs) _ IH]; [reflexivity|]. cbn [map Resample_Model.resample_loop]. rewrite resample_trace_g by assumption. rewrite bind_out, out_bind. apply bind_ext_. intros a _.
  rewrite IH, bind_out, out_bind. apply bind_ext_. intros [kn nw] _. cbn [fst snd]. rewrite Hm. destruct (mv s); reflexivity.
Qed.
Lemma pre_process_g band hc st : (forall dd, homogeneous (band dd)) -> Forall (fun s => 0 < sg_delta s /\ scal s) st ->
  Resample_Model.pre_process lowpass band secs rate rs uf hc t0 t1 (map G st) = out_map (map G) (Resample_Model.pre_process lowpass band secs rate rs uf hc t0 t1 st).
Proof.
  intros Hb F. unfold Resample_Model.pre_process, Resample_Model.resample. fold one. rewrite resample_loop_g by (exact F || reflexivity).
  rewrite bind_out. destruct (Resample_Model.resample_loop one _ st) as [[kn nw]| |]; cbn [bind out_map fst snd]; try reflexivity. rewrite <- map_app, trim_stream_g.
  destruct (Qle_bool _ _); [reflexivity|]. cbn [out_map]. rewrite !map_map. f_equal. apply map_ext. intros s. unfold G, gained. cbn [sg_id sg_start sg_delta sg_data]. rewrite Hb. reflexivity.
Qed.
End Gain.

(** * The checks of the data *)
Section Checks.
Variable gain : string -> R.
Hypothesis Hgain : forall i, gain i <> 0%R.
Let G := gained gain.
Lemma flat_g c d : c <> 0%R -> flat (map (Rmult c) d) <-> flat d.
Proof.
  intros Hc. split; intros (v & F).
  - exists (v / c)%R. rewrite Forall_map in F. eapply Forall_impl; [|exact F]. intros x Hx. cbv beta in Hx. rewrite <- Hx. field. exact Hc.
  - exists (c * v)%R. rewrite Forall_map. eapply Forall_impl; [|exact F]. intros x ->. reflexivity.
Qed.
Lemma flatline_g s : flatline (G s) = flatline s.
Proof.
  destruct (sg_data s) as [|x r] eqn:E. { unfold flatline, G, gained. cbn [sg_data]. rewrite E. reflexivity. }
  destruct (flatline_ok s) as (b & -> & Hb); [rewrite E; discriminate|]. destruct (flatline_ok (G s)) as (b' & -> & Hb'); [unfold G, gained; cbn [sg_data]; rewrite E; discriminate|].
  unfold G, gained in Hb'. cbn [sg_data] in Hb'. rewrite flat_g in Hb' by apply Hgain. f_equal. destruct b, b'; try reflexivity; intuition.
Qed.
Lemma any_flat_g l : any_flat (map G l) = any_flat l.
Proof. induction l as [|s l IH]; [reflexivity|]. cbn [map any_flat]. rewrite flatline_g. apply bind_ext_. intros f _. destruct f; [reflexivity|exact IH]. Qed.
Lemma seg_le_g a b : seg_le (G a) (G b) = seg_le a b.
Proof. unfold seg_le. rewrite !(g_end gain : forall s, sg_end (G s) = sg_end s). reflexivity. Qed.
Lemma insert_seg_g a l : insert_seg (G a) (map G l) = map G (insert_seg a l).
Proof. induction l as [|b l IH]; [reflexivity|]. cbn [map insert_seg]. rewrite seg_le_g, IH. destruct (seg_le a b); reflexivity. Qed.
Lemma sort_segs_g l : sort_segs (map G l) = map G (sort_segs l).
Proof. unfold sort_segs. induction l as [|a l IH]; [reflexivity|]. cbn [map fold_right]. rewrite IH. apply insert_seg_g. Qed.
Lemma listed_g c o a b : listed c o (G a) (G b) = listed c o a b.
Proof. unfold listed, gap_length. rewrite !(g_end gain : forall s, sg_end (G s) = sg_end s). reflexivity. Qed.
Lemma has_gap_g c o l : has_gap c o (map G l) = has_gap c o l.
Proof. induction l as [|a l IH]; [reflexivity|]. cbn [map has_gap]. destruct l as [|b l]; [reflexivity|]. cbn [map] in *. rewrite listed_g, IH. reflexivity. Qed.
Lemma get_gaps_g c o l : get_gaps c o (map G l) = get_gaps c o l.
Proof. unfold get_gaps. rewrite sort_segs_g. apply has_gap_g. Qed.
Lemma existsb_g (p q : seg -> bool) l : (forall s, p (G s) = q s) -> existsb p (map G l) = existsb q l.
Proof. intros H. induction l as [|s l IH]; [reflexivity|]. cbn [map existsb]. rewrite H, IH. reflexivity. Qed.
Lemma check_channel_g c t0 t1 k l : check_channel c t0 t1 k (map G l) = check_channel c t0 t1 k l.
Proof.
  unfold check_channel. rewrite any_flat_g, !get_gaps_g. apply bind_ext_. intros f _. destruct f; [reflexivity|]. destruct (get_gaps c true l); [reflexivity|]. destruct (_ && _); [reflexivity|].
  assert (E : (if check_rate k then match rate k with None => Raise TypeError | Some d => Ret (existsb (fun s => negb (sg_delta s =? d)) (map G l)) end else Ret false)
    = (if check_rate k then match rate k with None => Raise TypeError | Some d => Ret (existsb (fun s => negb (sg_delta s =? d)) l) end else Ret false)).
  { destruct (check_rate k); [|reflexivity]. destruct (rate k) as [d|]; [|reflexivity]. f_equal. apply existsb_g. reflexivity. }
  rewrite E. apply bind_ext_. intros b _. destruct b; [reflexivity|]. destruct l as [|s0 l]; [reflexivity|]. cbn [map]. rewrite (g_npts gain : forall s, npts (G s) = npts s), (g_end gain : forall s, sg_end (G s) = sg_end s).
  cbn [G gained sg_start sg_delta]. destruct l; reflexivity.
Qed.
Lemma select_id_g l i : select_id (map G l) i = map G (select_id l i).
Proof. unfold select_id. apply filter_same. reflexivity. Qed.
Lemma sorted_ids_g l : sorted_ids (map G l) = sorted_ids l.
Proof. unfold sorted_ids. rewrite map_map. reflexivity. Qed.
Lemma check_channels_g c t0 t1 k l ids : check_channels c t0 t1 k (map G l) ids = check_channels c t0 t1 k l ids.
Proof. induction ids as [|i r IH]; [reflexivity|]. cbn [check_channels]. rewrite select_id_g, check_channel_g, IH. reflexivity. Qed.
Lemma check_availability_g c t0 t1 k l : check_availability c t0 t1 k (map G l) = check_availability c t0 t1 k l.
Proof. unfold check_availability. destruct l as [|s l]; [reflexivity|]. rewrite <- (check_channels_g c t0 t1 k (s :: l)), <- (sorted_ids_g (s :: l)). reflexivity. Qed.
Lemma remove_unavailable_g av l : remove_unavailable av (map G l) = map G (remove_unavailable av l).
Proof.
  unfold remove_unavailable. revert l. induction av as [|[i v] av IH]; intros l; [reflexivity|]. cbn [fold_left fst snd]. destruct (v =? 0); [|apply IH].
  rewrite <- IH. f_equal. apply filter_same. reflexivity.
Qed.
Lemma select_station_g l s : select_station (map G l) s = map G (select_station l s).
Proof. unfold select_station. apply filter_same. reflexivity. Qed.
Lemma select_channel_g p l : select_channel p (map G l) = map G (select_channel p l).
Proof. unfold select_channel. apply filter_same. reflexivity. Qed.
End Checks.

(** * The onset functions *)
Lemma sample_scale m x i : sample (map (Rmult m) x) i = (m * sample x i)%R.
Proof. unfold sample. rewrite rd_map. destruct (rd x i); cbn [option_map]; [reflexivity|ring]. Qed.
Lemma map_scale_array m x : map (Rmult m) x = array1 (Z.of_nat (length x)) (fun i => m * sample x i)%R.
Proof. rewrite <- (array1_sample (map (Rmult m) x)), map_length. apply array1_ext. intros i _. apply sample_scale. Qed.

Definition loud_ (tiny : R) (k : onset_cfg) (nlta : Z) (x : list R) : Prop := o_python k = true -> never_silent tiny (Z.of_nat (length x)) nlta (sample x).
Lemma onset_fn_g tiny k x m nsta nlta : (0 < tiny <= 1)%R -> (0 < m)%R -> 1 <= nsta < nlta -> loud_ tiny k nlta x -> loud_ tiny k nlta (map (Rmult m) x) ->
  onset_fn tiny k (map (Rmult m) x) nsta nlta = onset_fn tiny k x nsta nlta.
Proof.
  intros Ht Hm Hs L L'. rewrite map_scale_array. transitivity (onset_fn tiny k (array1 (Z.of_nat (length x)) (sample x)) nsta nlta); [|rewrite array1_sample; reflexivity]. unfold onset_fn. set (n := Z.of_nat (length x)).
  destruct (StaLta_Props.C15_scale_invariance m (sample x) n nsta nlta) as (A & B & _); [lra|lia|lia|].
  assert (P : o_python k = true -> overlapping_py tiny (array1 n (fun i => m * sample x i)%R) nsta nlta = overlapping_py tiny (array1 n (sample x)) nsta nlta /\ centred_py tiny (array1 n (fun i => m * sample x i)%R) nsta nlta = centred_py tiny (array1 n (sample x)) nsta nlta).
  { intros Py. apply StaLta_Props.C15_python_scale_invariance; try lra; try lia. intros i Hi. specialize (L Py i Hi). specialize (L' Py i). rewrite map_length in L'. specialize (L' Hi). split; [exact L|].
    rewrite <- window_mean_scale. unfold window_mean in *. rewrite (map_ext (fun j => m * sample x j)%R (sample (map (Rmult m) x))); [exact L'|]. intros j. symmetry. apply sample_scale. }
  destruct (o_centred k), (o_python k); auto; apply P; reflexivity.
Qed.

Section Run.
Variables (gain : string -> R) (lowpass : Z -> list R -> list R) (taper : list R -> list R) (tiny : R) (secs : Z) (k : onset_cfg) (d : wdata) (ts : option Z).
Hypothesis Hgain : forall i, gain i <> 0%R.
Hypothesis Htiny : (0 < tiny <= 1)%R.
Hypothesis Hlow : forall dd, homogeneous (lowpass dd).
Hypothesis Htr : positively (o_transform k).
Hypothesis Hgaps : o_gaps k = false.
Hypothesis Hfull : o_full k = true.
Let G := gained gain.
Let d' := gained_data gain d.
Let stw pc := stw_samples (o_clock secs k) (ph_sta pc).
Let ltw pc := ltw_samples (o_clock secs k) (ph_lta pc).
(** Both the trace and its multiple are loud. *)
Let both_loud (nlta : Z) (s : seg) : Prop := loud tiny k nlta s /\ loud tiny k nlta (G s).

Lemma map_out_map {A B C} (g : A -> B) (f : B -> outcome C) (h : A -> outcome C) l : (forall x, In x l -> f (g x) = h x) -> map_out f (map g l) = map_out h l.
Proof. induction l as [|x l IH]; intros H; [reflexivity|]. cbn [map map_out]. rewrite H by (left; reflexivity). rewrite IH by (intros y Iy; apply H; right; exact Iy). reflexivity. Qed.
Lemma onset_g nsta nlta st : 1 <= nsta < nlta -> Forall (both_loud nlta) st -> onset tiny secs k nsta nlta ts (map G st) = onset tiny secs k nsta nlta ts st.
Proof.
  intros Hs F. unfold onset. rewrite (map_out_map G _ (fun s => onset_fn tiny k (o_transform k (sg_data s)) nsta nlta)); [reflexivity|]. intros s Is. pose proof (proj1 (Forall_forall _ _) F s Is) as (L & L').
  unfold loud, G, gained in L, L'. unfold G, gained. cbn [sg_data] in *. destruct (Htr (gain (sg_id s)) (sg_data s) (Hgain _)) as (m & Hm & Em). rewrite Em in *. apply onset_fn_g; assumption.
Qed.
Lemma remove_in av l x : In x (remove_unavailable av l) -> In x l.
Proof.
  unfold remove_unavailable. revert l. induction av as [|[i v] av IH]; intros l; [auto|]. cbn [fold_left fst snd]. intros H. apply IH in H. destruct (v =? 0); [|exact H]. apply filter_In in H. apply H.
Qed.
Lemma station_g pc fl s : 1 <= stw pc < ltw pc -> Forall (both_loud (ltw pc)) fl ->
  station_onset taper tiny secs k d' ts pc (map G fl) s = out_map (fun r => (fst r, option_map (fun ow => (fst ow, map G (snd ow))) (snd r))) (station_onset taper tiny secs k d ts pc fl s).
Proof.
  intros Hs F. unfold station_onset. cbv zeta. cbn [d' gained_data d_start d_end]. unfold G. rewrite select_station_g, (check_availability_g gain Hgain). rewrite out_bind. apply bind_ext_. intros [av dct] _. destruct (av =? 0); [reflexivity|].
  unfold fill_gaps. rewrite Hgaps, Hfull. cbn [orb negb bind]. rewrite remove_unavailable_g. rewrite onset_g.
  - rewrite out_bind. apply bind_ext_. reflexivity.
  - exact Hs.
  - apply Forall_forall. intros x Ix. apply remove_in in Ix. apply filter_In in Ix. apply (proj1 (Forall_forall _ _) F), Ix.
Qed.
Let upd_state (r : loop_state) := mk_state (l_onsets r) (l_dict r) (map G (l_filtered r)) (l_avail r).
Lemma stations_g ph pc fl : 1 <= stw pc < ltw pc -> Forall (both_loud (ltw pc)) fl -> forall sts a,
  fold_out (station_body taper tiny secs k d' ts ph pc (map G fl)) sts (upd_state a) = out_map upd_state (fold_out (station_body taper tiny secs k d ts ph pc fl) sts a).
Proof.
  intros Hs F. induction sts as [|s sts IH]; intros a; [reflexivity|]. cbn [fold_out]. unfold station_body at 1 3. rewrite station_g by assumption.
  destruct (station_onset taper tiny secs k d ts pc fl s) as [[av [[o w]|]]| |]; cbn [out_map bind fst snd option_map]; try reflexivity.
  - rewrite <- IH. f_equal. unfold upd_state. cbn [l_onsets l_dict l_filtered l_avail]. rewrite map_app. reflexivity.
  - rewrite <- IH. reflexivity.
Qed.
Hypothesis Hscal : Forall (fun s => 0 < sg_delta s /\ scalable secs (o_rate k) (d_resample d) (d_upfactor d) (d_start d) (d_end d) s) (d_waveforms d).
Hypothesis Hcfg : forall ph pc, In ph (o_phases k) -> dget (o_cfg k) ph = Some pc ->
  (forall dd, homogeneous (ph_band pc dd)) /\ 1 <= stw pc < ltw pc /\ forall fl, phase_waveforms lowpass secs k d pc = Ret fl -> Forall (both_loud (ltw pc)) fl.
Lemma phase_waveforms_g pc : (forall dd, homogeneous (ph_band pc dd)) -> phase_waveforms lowpass secs k d' pc = out_map (map G) (phase_waveforms lowpass secs k d pc).
Proof.
  intros Hb. unfold phase_waveforms. cbn [d' gained_data d_waveforms d_resample d_upfactor d_start d_end]. rewrite select_channel_g. apply pre_process_g; [exact Hlow|exact Hb|].
  apply Forall_forall. intros s Is. apply filter_In in Is. apply (proj1 (Forall_forall _ _) Hscal), Is.
Qed.
Lemma phases_g phs : (forall ph, In ph phs -> In ph (o_phases k)) -> forall a,
  fold_out (phase_body lowpass taper tiny secs k d' ts) phs (upd_state a) = out_map upd_state (fold_out (phase_body lowpass taper tiny secs k d ts) phs a).
Proof.
  induction phs as [|ph phs IH]; intros Hi a; [reflexivity|]. cbn [fold_out]. unfold phase_body at 1 3. destruct (dget (o_cfg k) ph) as [pc|] eqn:Ec; [|reflexivity].
  destruct (Hcfg ph pc (Hi ph (or_introl eq_refl)) Ec) as (Hb & Hs & Hl). rewrite phase_waveforms_g by exact Hb. destruct (phase_waveforms lowpass secs k d pc) as [fl| |]; cbn [out_map bind]; try reflexivity.
  change (d_stations d') with (d_stations d). rewrite stations_g by (first [exact Hs|apply Hl; reflexivity]). destruct (fold_out (station_body taper tiny secs k d ts ph pc fl) (d_stations d) a) as [b| |]; cbn [out_map bind]; try reflexivity.
  apply IH. intros p Ip. apply Hi. right. exact Ip.
Qed.
Lemma calculate_g : calculate_onsets lowpass taper tiny secs k d' ts = out_map upd_state (calculate_onsets lowpass taper tiny secs k d ts).
Proof.
  unfold calculate_onsets. change (mk_state [] [] [] []) with (upd_state (mk_state [] [] [] [])) at 1. rewrite phases_g by auto. destruct (fold_out _ _ _) as [r| |]; cbn [out_map bind]; try reflexivity.
  cbn [upd_state l_avail l_onsets]. destruct (_ =? 0); [reflexivity|]. destruct (l_onsets r) as [|o rows] eqn:Eo; [reflexivity|]. destruct (forallb _ rows); [|reflexivity]. cbn [out_map]. unfold upd_state. rewrite Eo. reflexivity.
Qed.
End Run.
