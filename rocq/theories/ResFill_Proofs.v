(** Proofs about whole streams: resampling and the filling of gaps. *)
From Coq Require Import List ZArith Reals Lia Bool Permutation.
From Verif Require Import Lib LibFacts Timeline_Model Timeline_Proofs Avail_Model Avail_Spec Avail_Proofs Resample_Model Resample_Spec Resample_Proofs.
Import ListNotations.
Open Scope Z_scope.

(** ** Samples of concatenations *)
Lemma sample_app id st d a b t v :
  sample_at (mk_seg id st d (a ++ b)) t v <->
  sample_at (mk_seg id st d a) t v \/ sample_at (mk_seg id (st + Z.of_nat (length a) * d) d b) t v.
Proof.
  unfold sample_at. cbn [sg_data sg_start sg_delta]. split.
  - intros (k & Ek & ->). destruct (Z_lt_le_dec k (Z.of_nat (length a))) as [C|C].
    + left. exists k. rewrite rd_app1 in Ek by exact C. split; [exact Ek|reflexivity].
    + right. exists (k - Z.of_nat (length a)). rewrite rd_app2 in Ek by exact C. split; [exact Ek|ring].
  - intros [(k & Ek & ->)|(k & Ek & ->)].
    + exists k. rewrite rd_app1 by (apply rd_bounds in Ek; lia). split; [exact Ek|reflexivity].
    + pose proof (rd_bounds _ _ _ _ Ek). exists (k + Z.of_nat (length a)). rewrite rd_app2 by lia.
      replace (k + Z.of_nat (length a) - Z.of_nat (length a)) with k by ring. split; [exact Ek|ring].
Qed.
Lemma sample_repeat id st d f n t v :
  sample_at (mk_seg id st d (repeat f n)) t v <-> v = f /\ exists k, 0 <= k < Z.of_nat n /\ t = st + k * d.
Proof.
  unfold sample_at. cbn [sg_data sg_start sg_delta]. split.
  - intros (k & Ek & ->). pose proof (rd_bounds _ _ _ _ Ek) as B. rewrite repeat_length in B. rewrite rd_repeat in Ek by lia.
    injection Ek as <-. split; [reflexivity|]. exists k. lia.
  - intros (-> & k & Hk & ->). exists k. rewrite rd_repeat by lia. split; reflexivity.
Qed.
Lemma sample_range s t v : 0 < sg_delta s -> sample_at s t v -> sg_start s <= t <= sg_end s.
Proof. intros Hd (k & Ek & ->). apply rd_bounds in Ek. fold (npts s) in Ek. unfold sg_end. nia. Qed.
Lemma sample_exists s k : 0 <= k < npts s -> exists v, sample_at s (sg_start s + k * sg_delta s) v.
Proof. intros H. destruct (rd_in_range _ (sg_data s) k H) as [v Ev]. exists v, k. split; [exact Ev|reflexivity]. Qed.
Lemma seg_eta s : s = mk_seg (sg_id s) (sg_start s) (sg_delta s) (sg_data s).
Proof. destruct s. reflexivity. Qed.

(** ** The order of the traces *)
Lemma in_order_tail a l : in_order (a :: l) -> in_order l.
Proof. destruct l; [exact (fun _ => I)|intros [_ H]; exact H]. Qed.
Lemma in_order_start l : forall a, in_order (a :: l) -> Forall (fun s => 0 < sg_delta s /\ 1 <= npts s) (a :: l) ->
  forall s, In s l -> sg_start a + npts a * sg_delta a <= sg_start s.
Proof.
  induction l as [|b l IH]; intros a O F s Hs; [destruct Hs|]. destruct O as [O1 O2]. destruct Hs as [->|Hs]; [exact O1|].
  assert (H := IH b O2 (Forall_inv_tail F) s Hs). pose proof (Forall_inv (Forall_inv_tail F)) as [Hd Hn]. nia.
Qed.
Lemma sort_order st : forall l, Permutation st l -> in_order l -> Forall (fun s => 0 < sg_delta s /\ 1 <= npts s) l -> sort_segs st = l.
Proof.
  intros l P O F. assert (Q : Permutation (sort_segs st) l) by (rewrite sort_perm; exact P).
  pose proof (sort_sorted st) as S. revert Q S. generalize (sort_segs st) as m. clear P st. induction l as [|a l IH]; intros m Q S.
  { apply Permutation_sym, Permutation_nil in Q. exact Q. }
  destruct m as [|b m]; [apply Permutation_nil in Q; discriminate|].
  assert (E : b = a).
  { assert (Hb : In b (a :: l)) by (apply (Permutation_in b Q); left; reflexivity). destruct Hb as [Hb|Hb]; [symmetry; exact Hb|].
    pose proof (in_order_start l a O F b Hb) as H1. pose proof (Forall_inv F) as [Hd Hn].
    assert (Ha : In a (b :: m)) by (apply (Permutation_in a (Permutation_sym Q)); left; reflexivity). destruct Ha as [Ha|Ha]; [exact Ha|].
    destruct S as [_ S]. pose proof (sorted_start m b a S Ha). nia. }
  subst b. f_equal. apply IH.
  - apply in_order_tail in O. exact O.
  - exact (Forall_inv_tail F).
  - apply Permutation_cons_inv with a. exact Q.
  - destruct S as [_ S]. apply sorted_weaken in S. exact S.
Qed.

(** ** Joining *)
Lemma round_away_mul x d : 0 < d -> round_away (x * d) d = x.
Proof.
  intros Hd. unfold round_away. destruct (Z.leb_spec 0 (x * d)) as [H|H].
  - replace (2 * (x * d) + d) with (x * (2 * d) + d) by ring. rewrite Z.div_add_l by lia. rewrite Z.div_small by lia. lia.
  - replace (2 * - (x * d) + d) with (- x * (2 * d) + d) by ring. rewrite Z.div_add_l by lia. rewrite Z.div_small by lia. lia.
Qed.

Lemma join_ok fill d l r : 0 < d -> sg_delta l = d -> sg_delta r = d -> 1 <= npts l -> 1 <= npts r ->
  aligned d (sg_start l) (sg_start r) -> sg_start l + npts l * d <= sg_start r ->
  exists o, join fill l r = Ret o /\ sg_id o = sg_id l /\ sg_start o = sg_start l /\ sg_delta o = d /\ sg_end o = sg_end r /\ 1 <= npts o
  /\ forall t v, sample_at o t v <-> sample_at l t v \/ sample_at r t v \/ (v = fill /\ aligned d (sg_start l) t /\ sg_end l < t < sg_start r).
Proof.
  intros Hd Dl Dr Nl Nr [m Em] Hle. unfold join. rewrite Dl, Dr, Z.eqb_refl.
  assert (El : sg_end l = sg_start l + (npts l - 1) * d) by (unfold sg_end; rewrite Dl; reflexivity).
  assert (G : round_away (sg_start r - sg_end l) d = m - npts l + 1).
  { replace (sg_start r - sg_end l) with ((m - npts l + 1) * d) by (rewrite El, Em; ring). apply round_away_mul, Hd. }
  rewrite G. assert (Hm : npts l <= m) by nia. destruct (Z.ltb_spec (m - npts l + 1 - 1) 0); [lia|]. cbn [orb negb].
  eexists. split; [reflexivity|]. cbn [sg_id sg_start sg_delta]. split; [reflexivity|]. split; [reflexivity|]. split; [reflexivity|].
  assert (NN : npts (mk_seg (sg_id l) (sg_start l) d (sg_data l ++ repeat fill (Z.to_nat (m - npts l + 1 - 1)) ++ sg_data r)) = m + npts r).
  { unfold npts at 1. cbn [sg_data]. rewrite !app_length, repeat_length. unfold npts in *. lia. }
  split; [|split; [lia|]].
  - unfold sg_end at 1. rewrite NN. cbn [sg_start sg_delta]. unfold sg_end. rewrite Dr, Em. ring.
  - intros t v. rewrite sample_app, sample_app, sample_repeat, repeat_length. fold (npts l). rewrite Z2Nat.id by lia.
    assert (XL : sample_at (mk_seg (sg_id l) (sg_start l) d (sg_data l)) t v <-> sample_at l t v) by (unfold sample_at; cbn [sg_data sg_start sg_delta]; rewrite Dl; reflexivity).
    assert (XR : sample_at (mk_seg (sg_id l) (sg_start r) d (sg_data r)) t v <-> sample_at r t v) by (unfold sample_at; cbn [sg_data sg_start sg_delta]; rewrite Dr; reflexivity).
    assert (ES : sg_start l + npts l * d + (m - npts l + 1 - 1) * d = sg_start r) by (rewrite Em; ring). rewrite ES.
    rewrite XL, XR.
    split.
    + intros [H1|[(-> & k & Hk & Et)|H1]]; [left; exact H1| |right; left; exact H1].
      right. right. split; [reflexivity|]. split; [exists (npts l + k); rewrite Et; ring|]. rewrite El, Em, Et. nia.
    + intros [H1|[H1|(-> & [k Ek] & Hk)]]; [left; exact H1|right; right; exact H1|]. right. left. split; [reflexivity|].
      exists (k - npts l). split; [|rewrite Ek; ring]. rewrite El, Em, Ek in Hk. nia.
Qed.

Definition filled (d : Z) (fill : R) (l : list seg) (lo hi : Z) (o : seg) : Prop := forall t v,
  sample_at o t v <-> (exists s, In s l /\ sample_at s t v)
    \/ (v = fill /\ aligned d lo t /\ lo <= t <= hi /\ forall s w, In s l -> ~ sample_at s t w).

Lemma join_all_ok fill d l : forall s, 0 < d -> Forall (fun s => sg_delta s = d /\ 1 <= npts s) (s :: l) ->
  Forall (fun r => aligned d (sg_start s) (sg_start r)) l -> in_order (s :: l) ->
  exists o, join_all fill s l = Ret o /\ sg_id o = sg_id s /\ sg_start o = sg_start s /\ sg_delta o = d /\ 1 <= npts o
  /\ sg_end o = sg_end (last l s) /\ filled d fill (s :: l) (sg_start s) (sg_end o) o.
Proof.
  induction l as [|r l IH]; intros s Hd F A O.
  - exists s. pose proof (Forall_inv F) as [Ds Ns]. split; [reflexivity|]. split; [reflexivity|]. split; [reflexivity|]. split; [exact Ds|]. split; [exact Ns|]. split; [reflexivity|].
    intros t v. split.
    + intros H. left. exists s. split; [left; reflexivity|exact H].
    + intros [(x & [<-|[]] & H)|(-> & [k ->] & Hk & N)]; [exact H|exfalso]. unfold sg_end in Hk. rewrite Ds in Hk.
      destruct (sample_exists s k) as [w Hw]; [nia|]. rewrite Ds in Hw. apply (N s w); [left; reflexivity|exact Hw].
  - pose proof (Forall_inv F) as [Ds Ns]. pose proof (Forall_inv (Forall_inv_tail F)) as [Dr Nr]. pose proof (Forall_inv A) as Ar.
    pose proof O as [O1 O2]. rewrite Ds in O1.
    destruct (join_ok fill d s r Hd Ds Dr Ns Nr Ar O1) as (s' & Ej & Ei & Es & Ed & Ee & En & Sm). cbn [join_all]. rewrite Ej. cbn [bind].
    assert (E2 : sg_start s' + npts s' * d = sg_start r + npts r * d) by (unfold sg_end in Ee; rewrite Ed, Dr in Ee; nia).
    destruct (IH s') as (o & Eo & Io & So & Do & No & Lo & Fo).
    + exact Hd.
    + constructor; [split; assumption|exact (Forall_inv_tail (Forall_inv_tail F))].
    + rewrite Es. exact (Forall_inv_tail A).
    + destruct l as [|q l]; [exact I|]. destruct O2 as [O2 O3]. split; [|exact O3]. rewrite Ed, E2, <- Dr. exact O2.
    + exists o. split; [exact Eo|]. split; [congruence|]. split; [congruence|]. split; [exact Do|]. split; [exact No|]. split.
      { rewrite Lo. destruct l as [|q l]; [cbn [last]; exact Ee|]. cbn [last]. destruct l; reflexivity || apply f_equal. clear. induction l as [|y l IH]; [reflexivity|]. cbn [last]. destruct l; [reflexivity|]. apply IH. }
      assert (Late : forall x w t, In x (r :: l) -> sample_at x t w -> sg_start r <= t).
      { intros x w t Hx Hw. assert (P : Forall (fun s => 0 < sg_delta s /\ 1 <= npts s) (r :: l)).
        { eapply Forall_impl; [|exact (Forall_inv_tail F)]. cbv beta. intros ? [? ?]. lia. }
        pose proof (proj1 (Forall_forall _ _) P x Hx) as [Px _]. pose proof (sample_range x t w Px Hw).
        destruct Hx as [<-|Hx]; [lia|]. pose proof (in_order_start l r O2 P x Hx). nia. }
      intros t v. pose proof (Fo t v) as Ft. rewrite Es in Ft. rewrite Ft. clear Ft Fo. split.
      * intros [(x & [<-|Hx] & Hs)|(-> & Al & Hr & N)].
        -- apply Sm in Hs. destruct Hs as [Hs|[Hs|(-> & Al & Hb)]].
           ++ left. exists s. split; [left; reflexivity|exact Hs].
           ++ left. exists r. split; [right; left; reflexivity|exact Hs].
           ++ right. split; [reflexivity|]. split; [exact Al|]. split.
              { assert (sg_start s <= sg_end s) by (unfold sg_end; rewrite Ds; nia).
                assert (sg_start r <= sg_end o).
                { rewrite Lo. destruct l as [|q l]; [cbn [last]; rewrite Ee; unfold sg_end; rewrite Dr; nia|].
                  assert (Hin : In (last (q :: l) s') (q :: l)) by (clear; revert q; induction l as [|y l IHl]; intros q; [left; reflexivity|right; apply IHl]).
                  assert (P : Forall (fun s => sg_delta s = d /\ 1 <= npts s) (q :: l)) by exact (Forall_inv_tail (Forall_inv_tail F)).
                  pose proof (proj1 (Forall_forall _ _) P _ Hin) as [Dq Nq].
                  destruct (sample_exists (last (q :: l) s') 0 ltac:(lia)) as [w Hw].
                  pose proof (Late _ w _ (or_intror Hin) Hw). unfold sg_end. rewrite Dq in *. nia. }
                lia. }
              intros x w [<-|Hx] Hw.
              ** apply sample_range in Hw; [lia|rewrite Ds; exact Hd].
              ** pose proof (Late x w t Hx Hw). lia.
        -- left. exists x. split; [right; right; exact Hx|exact Hs].
        -- right. split; [reflexivity|]. split; [exact Al|]. split; [exact Hr|].
           intros x w [<-|[<-|Hx]] Hw; [apply (N s' w); [left; reflexivity|apply Sm; left; exact Hw]|apply (N s' w); [left; reflexivity|apply Sm; right; left; exact Hw]|apply (N x w); [right; exact Hx|exact Hw]].
      * intros [(x & [<-|[<-|Hx]] & Hs)|(-> & Al & Hr & N)].
        -- left. exists s'. split; [left; reflexivity|apply Sm; left; exact Hs].
        -- left. exists s'. split; [left; reflexivity|apply Sm; right; left; exact Hs].
        -- left. exists x. split; [right; exact Hx|exact Hs].
        -- destruct (Z_le_gt_dec t (sg_end s')) as [C|C].
           ++ left. exists s'. split; [left; reflexivity|]. destruct Al as [k Ek].
              destruct (sample_exists s' k) as [w Hw]; [unfold sg_end in C; rewrite Ed, Es in C; subst t; nia|].
              rewrite Ed, Es, <- Ek in Hw. pose proof Hw as Hw'. apply Sm in Hw'. destruct Hw' as [H|[H|(-> & _)]].
              ** exfalso. apply (N s w); [left; reflexivity|exact H].
              ** exfalso. apply (N r w); [right; left; reflexivity|exact H].
              ** exact Hw.
           ++ right. split; [reflexivity|]. split; [exact Al|]. split; [exact Hr|]. intros x w [<-|Hx] Hw.
              ** apply sample_range in Hw; [lia|rewrite Ed; exact Hd].
              ** apply (N x w); [right; right; exact Hx|exact Hw].
Qed.

(** ** Padding to the window *)
Lemma pad_trim_ok secs rate fill starttime endtime s : ticks_ok secs rate -> sg_delta s = secs / rate -> 1 <= npts s ->
  (secs / rate | sg_start s) -> (secs / rate | starttime) -> (secs / rate | endtime) -> starttime <= sg_start s -> sg_end s <= endtime ->
  let o := pad_trim fill (starttime - secs / 100000) (endtime + secs / 100000) s in
  sg_id o = sg_id s /\ sg_start o = starttime /\ sg_delta o = secs / rate /\ npts o = n_window secs rate starttime endtime
  /\ forall t v, sample_at o t v <-> sample_at s t v \/ (v = fill /\ aligned (secs / rate) starttime t /\ starttime <= t <= endtime /\ ~ sg_start s <= t <= sg_end s).
Proof.
  intros T Ed Nn [a Ea] [b Eb] [c Ec] Hs He. destruct (ticks_d _ _ T) as [HD _]. destruct T as (_ & _ & _ & E0 & E1).
  set (D := secs / rate) in *. set (e := secs / 100000) in *. unfold pad_trim, n_window. fold D. rewrite Ed.
  assert (En : sg_end s = (a + (npts s - 1)) * D) by (unfold sg_end; rewrite Ed, Ea; ring).
  assert (A0 : (sg_start s - (starttime - e)) / D = a - b).
  { replace (sg_start s - (starttime - e)) with ((a - b) * D + e) by (rewrite Ea, Eb; ring). rewrite Z.div_add_l by lia. rewrite Z.div_small by lia. lia. }
  assert (A1 : (endtime + e - sg_end s) / D = c - a - (npts s - 1)).
  { replace (endtime + e - sg_end s) with ((c - a - (npts s - 1)) * D + e) by (rewrite En, Ec; ring). rewrite Z.div_add_l by lia. rewrite Z.div_small by lia. lia. }
  rewrite A0, A1. assert (H0 : 0 <= a - b) by nia. assert (H1 : 0 <= c - a - (npts s - 1)) by nia.
  destruct (Z.leb_spec 0 (a - b)); [|lia]. destruct (Z.leb_spec 0 (c - a - (npts s - 1))); [|lia].
  cbv zeta. cbn [sg_id sg_start sg_delta]. split; [reflexivity|]. split; [rewrite Ea, Eb; ring|]. split; [reflexivity|]. split.
  - unfold npts at 1. cbn [sg_data]. rewrite !app_length, !repeat_length. replace (endtime - starttime) with ((c - b) * D) by (rewrite Eb, Ec; ring).
    rewrite Z.div_mul by lia. unfold npts in *. lia.
  - intros t v. rewrite sample_app, sample_app, !sample_repeat, app_length, repeat_length, Nat2Z.inj_add, !Z2Nat.id by lia. fold (npts s).
    replace (sg_start s - (a - b) * D) with starttime by (rewrite Ea, Eb; ring).
    replace (starttime + (a - b) * D) with (sg_start s) by (rewrite Ea, Eb; ring).
    assert (XS : sample_at (mk_seg (sg_id s) (sg_start s) D (sg_data s)) t v <-> sample_at s t v) by (unfold sample_at; cbn [sg_data sg_start sg_delta]; rewrite Ed; reflexivity).
    rewrite XS. split.
    + intros [[(-> & k & Hk & ->)|Hk]|(-> & k & Hk & ->)]; [|left; exact Hk|].
      * right. split; [reflexivity|]. split; [exists k; reflexivity|]. rewrite En, Ec, Eb, Ea in *. nia.
      * right. split; [reflexivity|]. split; [exists (a - b + npts s + k); ring|]. rewrite En, Ec, Eb, Ea in *. nia.
    + intros [Hk|(-> & [k ->] & Hk & Hn)]; [left; right; exact Hk|]. rewrite En, Ec, Eb, Ea in *.
      destruct (Z_lt_le_dec k (a - b)) as [C|C].
      * left. left. split; [reflexivity|]. exists k. split; [nia|ring].
      * right. split; [reflexivity|]. exists (k - (a - b) - npts s). split; [nia|ring].
Qed.

(** ** One channel *)
Lemma with_npts taper s : (forall l, length (taper l) = length l) -> npts (with_data taper s) = npts s.
Proof. intros H. unfold npts, with_data. cbn [sg_data]. rewrite H. reflexivity. Qed.
Lemma last_in A (l : list A) : forall d, In (last l d) (d :: l).
Proof. induction l as [|x l IH]; intros d; [left; reflexivity|]. destruct l as [|y l]; [right; left; reflexivity|]. change (last (x :: y :: l) d) with (last (y :: l) d). destruct (IH d) as [H|H]; [left; exact H|right; right; exact H]. Qed.
Lemma last_default A (l : list A) d e : l <> [] -> last l d = last l e.
Proof. induction l as [|x l IH]; intros H; [congruence|]. destruct l as [|y l]; [reflexivity|]. cbn [last] in *. apply IH. discriminate. Qed.

Lemma fill_channel_ok taper fill secs rate starttime endtime l st :
  ticks_ok secs rate -> (forall x, length (taper x) = length x) -> (secs / rate | starttime) -> (secs / rate | endtime) ->
  l <> [] -> in_order l -> Permutation st l ->
  Forall (fun s => sg_delta s = secs / rate /\ 1 <= npts s /\ (secs / rate | sg_start s) /\ starttime <= sg_start s /\ sg_end s <= endtime) l ->
  exists o, fill_channel taper fill secs starttime endtime st = Ret o /\ sg_start o = starttime /\ sg_delta o = secs / rate
    /\ npts o = n_window secs rate starttime endtime
    /\ forall t v, sample_at o t v <-> (exists s, In s l /\ sample_at (with_data taper s) t v)
       \/ (v = fill /\ aligned (secs / rate) starttime t /\ starttime <= t <= endtime /\ forall s w, In s l -> ~ sample_at (with_data taper s) t w).
Proof.
  intros T HT Hs He Hn O P F. destruct (ticks_d _ _ T) as [HD _]. unfold fill_channel, merge_fill.
  change (fun s => mk_seg (sg_id s) (sg_start s) (sg_delta s) (taper (sg_data s))) with (with_data taper).
  set (m := map (with_data taper) l).
  assert (Om : in_order m).
  { subst m. clear - O HT. induction l as [|a l IH]; [exact I|]. destruct l as [|b l]; [exact I|]. destruct O as [O1 O2]. split; [|apply IH, O2].
    rewrite with_npts by exact HT. exact O1. }
  assert (Fm : Forall (fun s => sg_delta s = secs / rate /\ 1 <= npts s /\ (secs / rate | sg_start s) /\ starttime <= sg_start s /\ sg_end s <= endtime) m).
  { subst m. apply Forall_map. eapply Forall_impl; [|exact F]. cbv beta. intros s H. unfold sg_end. rewrite with_npts by exact HT. exact H. }
  assert (Im : forall s, In s m <-> exists x, In x l /\ s = with_data taper x).
  { intros s. subst m. rewrite in_map_iff. split; intros (x & A & B); exists x; split; try assumption; congruence. }
  rewrite (sort_order _ m); [|apply Permutation_map, P|exact Om|eapply Forall_impl; [|exact Fm]; cbv beta; intros ? (-> & ? & _); lia].
  destruct m as [|s m'] eqn:Em; [destruct l; [congruence|discriminate]|].
  destruct (join_all_ok fill (secs / rate) m' s) as (o & Eo & Io & So & Do & No & Lo & Fo).
  - exact HD.
  - eapply Forall_impl; [|exact Fm]. cbv beta. tauto.
  - apply Forall_forall. intros r Hr. pose proof (proj1 (Forall_forall _ _) Fm s (or_introl eq_refl)) as (_ & _ & [a Ea] & _).
    pose proof (proj1 (Forall_forall _ _) Fm r (or_intror Hr)) as (_ & _ & [b Eb] & _). exists (b - a). rewrite Ea, Eb. ring.
  - exact Om.
  - rewrite Eo. cbn [bind].
    pose proof (proj1 (Forall_forall _ _) Fm s (or_introl eq_refl)) as (Ds & Ns & As & Bs & _).
    assert (Le : sg_end o <= endtime).
    { rewrite Lo. destruct (proj1 (Forall_forall _ _) Fm (last m' s)) as (_ & _ & _ & _ & H); [apply last_in|exact H]. }
    destruct (pad_trim_ok secs rate fill starttime endtime o T Do No) as (Ip & Sp & Dp & Np & Pp); try assumption; [rewrite So; exact As|rewrite So; exact Bs|].
    eexists. split; [reflexivity|]. split; [exact Sp|]. split; [exact Dp|]. split; [exact Np|].
    assert (Rng : forall x w t, In x (s :: m') -> sample_at x t w -> sg_start o <= t <= sg_end o).
    { intros x w t Hx Hw. apply (sample_range o t w); [rewrite Do; exact HD|]. apply Fo. left. exists x. split; assumption. }
    intros t v. rewrite Pp. pose proof (Fo t v) as Ft. rewrite Ft. clear Ft. split.
    + intros [[(x & Hx & Hv)|(-> & [k Ek] & Hr & N)]|(-> & Al & Hr & N)].
      * left. apply Im in Hx. destruct Hx as (y & Hy & ->). exists y. split; assumption.
      * right. split; [reflexivity|]. split; [|split].
        -- destruct As as [a Ea], Hs as [b Eb]. exists (a + k - b). rewrite Ek, Ea, Eb. ring.
        -- lia.
        -- intros y w Hy. apply N. apply Im. exists y. split; [exact Hy|reflexivity].
      * right. split; [reflexivity|]. split; [exact Al|]. split; [exact Hr|]. intros y w Hy Hw. apply N.
        apply (Rng (with_data taper y) w); [apply Im; exists y; split; [exact Hy|reflexivity]|exact Hw].
    + intros [(y & Hy & Hv)|(-> & Al & Hr & N)].
      * left. left. exists (with_data taper y). split; [apply Im; exists y; split; [exact Hy|reflexivity]|exact Hv].
      * destruct (Z_le_gt_dec (sg_start o) t) as [C1|C1]; [destruct (Z_le_gt_dec t (sg_end o)) as [C2|C2]|].
        -- left. right. split; [reflexivity|]. split; [|split; [lia|]].
           ++ destruct As as [a Ea], Hs as [b Eb], Al as [k Ek]. exists (b + k - a). rewrite Ek, Ea, Eb. ring.
           ++ intros x w Hx. apply Im in Hx. destruct Hx as (y & Hy & ->). apply N, Hy.
        -- right. split; [reflexivity|]. split; [exact Al|]. split; [exact Hr|]. lia.
        -- right. split; [reflexivity|]. split; [exact Al|]. split; [exact Hr|]. lia.
Qed.

(** ** Resampling a stream *)
Lemma resample_loop_ok one mv st : forall g, (forall s, In s st -> one s = Ret (g s)) ->
  exists k n, resample_loop one mv st = Ret (k, n) /\ Permutation (k ++ n) (map g st).
Proof.
  induction st as [|s st IH]; intros g H; [exists [], []; split; reflexivity|]. cbn [resample_loop]. rewrite H by (left; reflexivity). cbn [bind].
  destruct (IH g) as (k & n & -> & P); [intros x Hx; apply H; right; exact Hx|]. cbn [bind fst snd].
  destruct (mv s); eexists _, _; (split; [reflexivity|]); cbn [map].
  - rewrite <- Permutation_middle. apply perm_skip, P.
  - cbn [app]. apply perm_skip, P.
Qed.
Lemma resample_loop_ret one mv st : forall k n, resample_loop one mv st = Ret (k, n) ->
  forall s, In s st -> exists o, one s = Ret o /\ In o (k ++ n).
Proof.
  induction st as [|a st IH]; intros k n E s Hs; [destruct Hs|]. cbn [resample_loop] in E. destruct (one a) as [a'| |] eqn:Ea; cbn [bind] in E; try discriminate.
  destruct (resample_loop one mv st) as [[k' n']| |] eqn:El; cbn [bind fst snd] in E; try discriminate.
  destruct Hs as [->|Hs].
  - exists a'. split; [exact Ea|]. destruct (mv s); injection E as <- <-; [apply in_or_app; right; left; reflexivity|left; reflexivity].
  - destruct (IH k' n' eq_refl s Hs) as (o & Eo & Io). exists o. split; [exact Eo|]. apply in_app_or in Io.
    destruct (mv a); injection E as <- <-; apply in_or_app; destruct Io as [Io|Io]; try (left; exact Io); try (right; exact Io); [right; right; exact Io|left; right; exact Io].
Qed.
Lemma trim_nonempty a b s t v : 0 < sg_delta s -> sample_at s t v -> a <= t <= b -> 0 < npts (trim a b s).
Proof.
  intros Hd H1 H2. assert (H : sample_at (trim a b s) t v) by (apply trim_samples; [exact Hd|split; assumption]).
  destruct H as (k & Ek & _). apply rd_bounds in Ek. unfold npts. lia.
Qed.

(** ** Traces on the output grid that do not overlap *)
Lemma ordered d m : 0 < d -> sorted_from None m -> ForallOrdPairs (fun a b => after a b \/ after b a) m ->
  Forall (fun s => sg_delta s = d /\ 1 <= npts s /\ (d | sg_start s)) m -> in_order m.
Proof.
  intros Hd. induction m as [|a m IH]; intros S P F; [exact I|]. destruct m as [|b m]; [exact I|].
  destruct S as [_ S]. pose proof S as [Sab _]. inversion P as [|? ? Pa Pm]; subst. split.
  - pose proof (Forall_inv Pa) as H. pose proof (Forall_inv F) as (Da & Na & [x Ex]). pose proof (Forall_inv (Forall_inv_tail F)) as (Db & Nb & [y Ey]).
    unfold after, sg_end, seg_before in *. rewrite Da, Db, Ex, Ey in *. destruct H as [H|H].
    + replace (x * d + (npts a - 1) * d + d - y * d) with ((x + npts a - y) * d) in H by ring. assert (x + npts a - y <= 0) by nia. nia.
    + exfalso. assert (x * d <= y * d) by lia. replace (y * d + (npts b - 1) * d + d - x * d) with (y * d - x * d + npts b * d) in H by ring. nia.
  - apply IH; [apply sorted_weaken in S; exact S|exact Pm|exact (Forall_inv_tail F)].
Qed.
Lemma sort_in_order d st : 0 < d -> overlap_free st -> Forall (fun s => sg_delta s = d /\ 1 <= npts s /\ (d | sg_start s)) st ->
  in_order (sort_segs st).
Proof.
  intros Hd O F. apply (ordered d); [exact Hd|apply sort_sorted| |].
  - unfold overlap_free in O. revert O. apply ord_pairs_perm; [intros x y H; tauto|]. symmetry. apply sort_perm.
  - eapply Permutation_Forall; [symmetry; apply sort_perm|exact F].
Qed.
