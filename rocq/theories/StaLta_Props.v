(** Properties C09-C15 of the STA/LTA onset functions.  The vocabulary ([window_mean], [ratio],
    [exp_average], [rms], [array1]) is in StaLta_Spec.v and Migrate_Spec.v.  A sample is [Some v]
    (a number) or [None] (the result of a division by zero). *)
From Coq Require Import List ZArith Reals Lra Lia Bool.
From Verif Require Import Lib LibFacts Migrate_Spec Migrate_Proofs StaLta_Model StaLta_Spec StaLta_Proofs.
Import ListNotations.
Open Scope Z_scope.

(** C09. C backend: the whole output array. *)
Theorem C09_overlapping_c :
  forall (x : Z -> R) n nsta nlta, 1 <= nsta <= nlta -> nlta <= n ->
  lib_overlapping (array1 n x) nsta nlta
  = Ret (array1 n (fun i =>
      if i <? nlta - 1 then Some 1%R
      else ratio (window_mean x (i - nsta + 1) nsta) (window_mean x (i - nlta + 1) nlta))).
Proof. exact c_overlapping_ok. Qed.
Print Assumptions C09_overlapping_c.

(** C09. Python backend: the same, except that samples whose LTA is below [tiny] are 1. *)
Theorem C09_overlapping_python :
  forall tiny (x : Z -> R) n nsta nlta, (0 < tiny <= 1)%R -> 1 <= nsta <= nlta ->
  overlapping_py tiny (array1 n x) nsta nlta
  = Ret (array1 n (fun i =>
      if i <? nlta - 1 then Some 1%R
      else if Rlt_dec (window_mean x (i - nlta + 1) nlta) tiny then Some 1%R
      else Some (window_mean x (i - nsta + 1) nsta / window_mean x (i - nlta + 1) nlta)%R)).
Proof. exact overlapping_py_ok. Qed.
Print Assumptions C09_overlapping_python.

(** C09. The backends return the same array when no LTA is degenerate. *)
Theorem C09_backends_agree :
  forall tiny (x : Z -> R) n nsta nlta, (0 < tiny <= 1)%R -> 1 <= nsta <= nlta -> nlta <= n ->
  (forall i, nlta - 1 <= i < n -> (tiny <= window_mean x (i - nlta + 1) nlta)%R) ->
  lib_overlapping (array1 n x) nsta nlta = overlapping_py tiny (array1 n x) nsta nlta.
Proof.
  intros tiny x n nsta nlta Ht Hs Hn H.
  rewrite C09_overlapping_c, C09_overlapping_python by assumption. f_equal. apply array1_ext. intros i Hi.
  destruct (Z.ltb_spec i (nlta - 1)); [reflexivity|]. specialize (H i ltac:(lia)).
  unfold ratio. destruct (Req_EM_T _ 0), (Rlt_dec _ tiny); try lra. reflexivity.
Qed.
Print Assumptions C09_backends_agree.

(** A signal of five ones, windows 2 and 3. *)
Example C09_applies :
  lib_overlapping (array1 5 (fun _ => 1%R)) 2 3 = overlapping_py (1 / 2) (array1 5 (fun _ => 1%R)) 2 3.
Proof.
  apply C09_backends_agree; [lra|lia|lia|]. intros i Hi. unfold window_mean.
  change (Z.to_nat 3) with 3%nat. unfold Rsum. cbn [zseq map fold_right]. lra.
Qed.

(** C10. C backend. The first ratio is not guarded, the others are 1 when the LTA is not positive. *)
Theorem C10_centred_c :
  forall (x : Z -> R) n nsta nlta, 1 <= nsta -> 1 <= nlta -> nlta + nsta <= n ->
  lib_centred (array1 n x) nsta nlta
  = Ret (array1 n (fun i =>
      if i <? nlta - 1 then Some 1%R else if n - nsta <=? i then Some 1%R
      else if i =? nlta - 1 then ratio (window_mean x (i + 1) nsta) (window_mean x (i - nlta + 1) nlta)
      else if Rlt_dec 0 (window_mean x (i - nlta + 1) nlta)
           then ratio (window_mean x (i + 1) nsta) (window_mean x (i - nlta + 1) nlta)
           else Some 1%R)).
Proof. exact c_centred_ok. Qed.
Print Assumptions C10_centred_c.

Theorem C10_centred_python :
  forall tiny (x : Z -> R) n nsta nlta, (0 < tiny <= 1)%R -> 1 <= nsta < nlta ->
  centred_py tiny (array1 n x) nsta nlta
  = Ret (array1 n (fun i =>
      if i <? nlta - 1 then Some 1%R else if n - nsta <=? i then Some 1%R
      else if Rlt_dec (window_mean x (i - nlta + 1) nlta) tiny then Some 1%R
      else Some (window_mean x (i + 1) nsta / window_mean x (i - nlta + 1) nlta)%R)).
Proof. exact centred_py_ok. Qed.
Print Assumptions C10_centred_python.

Theorem C10_backends_agree :
  forall tiny (x : Z -> R) n nsta nlta, (0 < tiny <= 1)%R -> 1 <= nsta < nlta -> nlta + nsta <= n ->
  (forall i, nlta - 1 <= i < n - nsta -> (tiny <= window_mean x (i - nlta + 1) nlta)%R) ->
  lib_centred (array1 n x) nsta nlta = centred_py tiny (array1 n x) nsta nlta.
Proof.
  intros tiny x n nsta nlta Ht Hs Hn H.
  rewrite C10_centred_c by lia. rewrite C10_centred_python by assumption. f_equal. apply array1_ext. intros i Hi.
  destruct (Z.ltb_spec i (nlta - 1)); [reflexivity|]. destruct (Z.leb_spec (n - nsta) i); [reflexivity|].
  specialize (H i ltac:(lia)). unfold ratio.
  destruct (Z.eqb_spec i (nlta - 1)); destruct (Req_EM_T _ 0), (Rlt_dec _ tiny); try lra; try reflexivity;
    destruct (Rlt_dec 0 _); try lra; reflexivity.
Qed.
Print Assumptions C10_backends_agree.

Example C10_applies :
  lib_centred (array1 5 (fun _ => 1%R)) 2 3 = centred_py (1 / 2) (array1 5 (fun _ => 1%R)) 2 3.
Proof.
  apply C10_backends_agree; [lra|lia|lia|]. intros i Hi. unfold window_mean.
  change (Z.to_nat 3) with 3%nat. unfold Rsum. cbn [zseq map fold_right]. lra.
Qed.

(** C11. The Python backend never divides by zero, for any signal and any windows. *)
Theorem C11_python_always_numbers :
  forall tiny signal nsta nlta o, (0 < tiny)%R ->
  overlapping_py tiny signal nsta nlta = Ret o \/ centred_py tiny signal nsta nlta = Ret o ->
  Forall is_number o.
Proof.
  intros tiny signal nsta nlta o Ht [H|H].
  - exact (overlapping_py_defined tiny signal nsta nlta o Ht H).
  - exact (centred_py_defined tiny signal nsta nlta o Ht H).
Qed.
Print Assumptions C11_python_always_numbers.

(** C11. C backend: exactly which signals produce only numbers. *)
Theorem C11_c_overlapping_numbers_iff_partial :
  forall x n nsta nlta o, 1 <= nsta <= nlta -> nlta <= n ->
  lib_overlapping (array1 n x) nsta nlta = Ret o ->
  (Forall is_number o <-> forall i, nlta - 1 <= i < n -> window_mean x (i - nlta + 1) nlta <> 0%R).
Proof. exact c_overlapping_numbers. Qed.
Print Assumptions C11_c_overlapping_numbers_iff_partial.

Theorem C11_c_centred_numbers_iff_partial :
  forall x n nsta nlta o, 1 <= nsta -> 1 <= nlta -> nlta + nsta <= n ->
  lib_centred (array1 n x) nsta nlta = Ret o ->
  (Forall is_number o <-> window_mean x 0 nlta <> 0%R).
Proof. exact c_centred_numbers. Qed.
Print Assumptions C11_c_centred_numbers_iff_partial.

(** C11 is false of both C kernels: for all window lengths, an all-zero signal gives a sample
    that is not a number. *)
Theorem C11_c_backend_refuted :
  forall n nsta nlta, 1 <= nsta <= nlta -> nlta + nsta <= n ->
  (exists o, lib_overlapping (array1 n (fun _ => 0%R)) nsta nlta = Ret o /\ ~ Forall is_number o) /\
  (exists o, lib_centred (array1 n (fun _ => 0%R)) nsta nlta = Ret o /\ ~ Forall is_number o).
Proof.
  intros n nsta nlta Hs Hn. split.
  - eexists. split; [apply C09_overlapping_c; lia|].
    rewrite (c_overlapping_numbers (fun _ => 0%R) n nsta nlta) by (try apply C09_overlapping_c; lia).
    intros H. apply (H (nlta - 1)); [lia|]. apply window_mean_zero.
  - eexists. split; [apply C10_centred_c; lia|].
    rewrite (c_centred_numbers (fun _ => 0%R) n nsta nlta) by (try apply C10_centred_c; lia).
    intros H. apply H. apply window_mean_zero.
Qed.
Print Assumptions C11_c_backend_refuted.

Example C11_applies : exists o, overlapping_py (1 / 2) (array1 9 (fun _ => 0%R)) 2 4 = Ret o /\ length o = 9%nat.
Proof. eexists. split; [apply C09_overlapping_python; lra || lia|reflexivity]. Qed.

(** C12. Exact conditions under which the C kernels stay inside their arrays ([Undef] is an
    access outside an array). *)
Theorem C12_overlapping_safe_iff :
  forall x n nsta nlta, 0 <= n -> 1 <= nsta <= nlta ->
  (lib_overlapping (array1 n x) nsta nlta <> Undef <-> nlta <= n).
Proof.
  intros x n nsta nlta Hn Hs. split.
  - intros H. destruct (Z.lt_ge_cases n nlta) as [C|C]; [|lia]. exfalso. apply H.
    exact (c_overlapping_undef x n nsta nlta Hn Hs C).
  - intros H. rewrite C09_overlapping_c by lia. discriminate.
Qed.
Print Assumptions C12_overlapping_safe_iff.

Theorem C12_centred_safe_iff :
  forall x n nsta nlta, 0 <= n -> 1 <= nsta -> 1 <= nlta ->
  (lib_centred (array1 n x) nsta nlta <> Undef <-> nlta + nsta <= n).
Proof.
  intros x n nsta nlta Hn Hs Hl. split.
  - intros H. destruct (Z.lt_ge_cases n (nlta + nsta)) as [C|C]; [|lia]. exfalso. apply H.
    exact (c_centred_undef x n nsta nlta Hn Hs Hl C).
  - intros H. rewrite C10_centred_c by lia. discriminate.
Qed.
Print Assumptions C12_centred_safe_iff.

Theorem C12_recursive_always_safe :
  forall x n nsta nlta, 0 <= n -> lib_recursive (array1 n x) nsta nlta <> Undef.
Proof.
  intros x n nsta nlta Hn. destruct (c_recursive_defined x n nsta nlta Hn) as (o & -> & _). discriminate.
Qed.
Print Assumptions C12_recursive_always_safe.

Example C12_applies : lib_centred (array1 5 (fun i => IZR i)) 2 4 = Undef
  /\ lib_centred (array1 6 (fun i => IZR i)) 2 4 <> Undef.
Proof.
  split.
  - apply c_centred_undef; lia.
  - apply C12_centred_safe_iff; lia.
Qed.

(** As stated for all signals the property is false: lib.py passes the arrays on without a check,
    and both kernels with windows leave the arrays of any shorter signal. *)
Theorem C12_short_signal_refuted :
  ~ (forall x n nsta nlta, 0 <= n -> 1 <= nsta <= nlta ->
       lib_overlapping (array1 n x) nsta nlta <> Undef)
  /\ ~ (forall x n nsta nlta, 0 <= n -> 1 <= nsta <= nlta ->
       lib_centred (array1 n x) nsta nlta <> Undef).
Proof.
  split; intros H.
  - apply (H (fun i => IZR i) 3 2 4); try lia. apply c_overlapping_undef; lia.
  - apply (H (fun i => IZR i) 5 2 4); try lia. apply c_centred_undef; lia.
Qed.
Print Assumptions C12_short_signal_refuted.

(** C13. What the recursive kernel computes: ratios of exponentially weighted averages. *)
Theorem C13_recursive_is_exponential_partial :
  forall x n nsta nlta, 0 <= n -> 0 <= nlta ->
  lib_recursive (array1 n x) nsta nlta
  = Ret (array1 n (fun i =>
      if (nlta <? n) && (i <? nlta) then Some 1%R
      else if i =? 0 then Some 0%R
      else ratio (exp_average (1 / IZR nsta) x (Z.to_nat i)) (exp_average (1 / IZR nlta) x (Z.to_nat i)))).
Proof. exact c_recursive_ok. Qed.
Print Assumptions C13_recursive_is_exponential_partial.

(** C13 is false: signal 1,1,3,1 with windows 1 and 2.  Sample 2, which is past the first nlta
    samples, is 1/2 for the centred kernel and 12/7 for the recursive one. *)
Theorem C13_recursive_equals_centred_refuted :
  exists signal nsta nlta oc orec,
    lib_centred signal nsta nlta = Ret oc /\ lib_recursive signal nsta nlta = Ret orec /\
    rd oc 2 = Some (Some (1 / 2)%R) /\ rd orec 2 = Some (Some (12 / 7)%R) /\ oc <> orec.
Proof.
  set (x := fun i => if i =? 2 then 3%R else 1%R).
  exists (array1 4 x), 1, 2. eexists. eexists.
  split; [apply C10_centred_c; lia|]. split; [apply C13_recursive_is_exponential_partial; lia|].
  assert (A : forall a b c d : option (option R), a = Some (Some (1 / 2)%R) -> b = Some (Some (12 / 7)%R) -> a <> b).
  { intros a b c d -> -> H. injection H. lra. }
  match goal with |- rd ?oc 2 = _ /\ rd ?orr 2 = _ /\ _ =>
    assert (H1 : rd oc 2 = Some (Some (1 / 2)%R)); [|assert (H2 : rd orr 2 = Some (Some (12 / 7)%R))] end.
  - rewrite rd_array1 by lia. change (2 <? 2 - 1) with false. change (4 - 1 <=? 2) with false.
    change (2 =? 2 - 1) with false. cbv iota. unfold window_mean.
    change (2 - 2 + 1) with 1. change (2 + 1) with 3. change (Z.to_nat 2) with 2%nat. change (Z.to_nat 1) with 1%nat.
    unfold Rsum. cbn [zseq map fold_right]. change (x 1) with 1%R. change (x (1 + 1)) with 3%R. change (x 3) with 1%R.
    destruct (Rlt_dec 0 _) as [P|P]; [|exfalso; apply P; lra].
    unfold ratio. destruct (Req_EM_T _ 0) as [E|E]; [exfalso; lra|]. do 2 f_equal. lra.
  - rewrite rd_array1 by lia. change ((2 <? 4) && (2 <? 2)) with false. change (2 =? 0) with false. cbv iota.
    change (Z.to_nat 2) with 2%nat. cbn [exp_average]. change (x (Z.of_nat 2)) with 3%R. change (x (Z.of_nat 1)) with 1%R.
    unfold ratio. destruct (Req_EM_T _ 0) as [E|E]; [exfalso; lra|]. do 2 f_equal. lra.
  - split; [exact H1|]. split; [exact H2|]. intros E. rewrite E in H1. rewrite H1 in H2. injection H2. lra.
Qed.
Print Assumptions C13_recursive_equals_centred_refuted.

(** C14. The combined onset is the floored root-mean-square of the components, with the edges of
    every component set to 1 first when a timespan is given. [fs] are the component onsets. *)
Theorem C14_combined_onset_value :
  forall mov n stw ltw tp (fs : list (Z -> R)), fs <> [] -> 1 <= stw -> 1 <= ltw -> 0 <= tp ->
  let comps := map (fun f => array1 n (fun i => Some (f i))) fs in
  combined_onset mov stw ltw None comps
    = array1 n (fun i => Some (Rmax (rms (map (fun f => f i) fs)) mov)) /\
  combined_onset mov stw ltw (Some tp) comps
    = array1 n (fun i => Some (Rmax (rms (map (fun f : Z -> R =>
        if (i <? tp + ltw - 1) || (n - (stw + tp) <=? i) then 1%R else f i) fs)) mov)).
Proof.
  intros mov n stw ltw tp fs Hne Hs Hl Ht comps. split.
  - exact (combined_onset_ok mov n stw ltw None fs Hne Hs Hl ltac:(discriminate)).
  - refine (combined_onset_ok mov n stw ltw (Some tp) fs Hne Hs Hl _). intros t E. injection E as <-. exact Ht.
Qed.
Print Assumptions C14_combined_onset_value.

(** C14. Bounds of every sample. *)
Theorem C14_combined_onset_bounds :
  forall mov n stw ltw (fs : list (Z -> R)) i v a b,
  fs <> [] -> 1 <= stw -> 1 <= ltw -> 0 <= i < n ->
  (0 <= a)%R -> (forall f, In f fs -> (a <= f i <= b)%R) ->
  rd (combined_onset mov stw ltw None (map (fun f => array1 n (fun i => Some (f i))) fs)) i = Some (Some v) ->
  (mov <= v)%R /\ (a <= v)%R /\ (mov <= b -> v <= b)%R /\
  (check_min_onset mov = Ret mov -> (ln (1 / 100) <= ln v)%R).
Proof.
  intros mov n stw ltw fs i v a b Hne Hs Hl Hi Ha Hf Hv.
  destruct (C14_combined_onset_value mov n stw ltw 0 fs Hne Hs Hl ltac:(lia)) as [E _]. cbn zeta in E.
  rewrite E, rd_array1 in Hv by lia. injection Hv as <-.
  destruct (rms_bounds (map (fun f => f i) fs) a b) as [H1 H2].
  { destruct fs; cbn; congruence. } { exact Ha. }
  { intros w Hw. apply in_map_iff in Hw. destruct Hw as (f & <- & Hin). apply Hf, Hin. }
  pose proof (Rmax_l (rms (map (fun f => f i) fs)) mov). pose proof (Rmax_r (rms (map (fun f => f i) fs)) mov).
  repeat split; try lra.
  - intros Hb. apply Rmax_lub; lra.
  - unfold check_min_onset. destruct (Rlt_dec mov (1 / 100)); [discriminate|]. intros _.
    destruct (Rle_lt_or_eq_dec (1 / 100) (Rmax (rms (map (fun f => f i) fs)) mov)) as [L|L]; [lra| |].
    + left. apply ln_increasing; lra.
    + rewrite <- L. lra.
Qed.
Print Assumptions C14_combined_onset_bounds.

(** C14. Edges are exactly 1 when a timespan is given and the floor does not exceed 1. *)
Theorem C14_edges_are_one :
  forall mov n stw ltw tp (fs : list (Z -> R)) i, fs <> [] -> 1 <= stw -> 1 <= ltw -> 0 <= tp -> (mov <= 1)%R ->
  0 <= i < n -> i < tp + ltw - 1 \/ n - (stw + tp) <= i ->
  rd (combined_onset mov stw ltw (Some tp) (map (fun f => array1 n (fun i => Some (f i))) fs)) i = Some (Some 1%R).
Proof.
  intros mov n stw ltw tp fs i Hne Hs Hl Ht Hm Hi Hedge.
  destruct (C14_combined_onset_value mov n stw ltw tp fs Hne Hs Hl Ht) as [_ E]. cbn zeta in E.
  rewrite E, rd_array1 by lia. rewrite rms_ones.
  - rewrite Rmax_left by lra. reflexivity.
  - destruct fs; cbn; congruence.
  - intros v Hv. apply in_map_iff in Hv. destruct Hv as (f & <- & _).
    destruct (Z.ltb_spec i (tp + ltw - 1)), (Z.leb_spec (n - (stw + tp)) i); cbn; try reflexivity; lia.
Qed.
Print Assumptions C14_edges_are_one.

(** The floor accepted by the constructor. *)
Theorem C14_floor_checked : forall mov, check_min_onset mov = Ret mov <-> (1 / 100 <= mov)%R.
Proof.
  intros mov. unfold check_min_onset. destruct (Rlt_dec mov (1 / 100)); split; intros H; try discriminate; try lra; reflexivity.
Qed.
Print Assumptions C14_floor_checked.

Example C14_applies :
  rd (combined_onset (1 / 100) 1 2 (Some 1) (map (fun f => array1 6 (fun i => Some (f i))) [(fun i => IZR i); (fun _ => 2%R)])) 1
  = Some (Some 1%R).
Proof. apply C14_edges_are_one; try lia; try lra. discriminate. Qed.

(** C15. Units: any positive factor on the transformed signal, whole arrays, including the cases
    where the kernel is undefined. *)
Theorem C15_scale_invariance :
  forall c (x : Z -> R) n nsta nlta, (0 < c)%R -> 0 <= n -> 1 <= nsta <= nlta ->
  lib_overlapping (array1 n (fun i => c * x i)%R) nsta nlta = lib_overlapping (array1 n x) nsta nlta /\
  lib_centred (array1 n (fun i => c * x i)%R) nsta nlta = lib_centred (array1 n x) nsta nlta /\
  lib_recursive (array1 n (fun i => c * x i)%R) nsta nlta = lib_recursive (array1 n x) nsta nlta.
Proof.
  intros c x n nsta nlta Hc Hn Hs. split; [|split].
  - exact (overlapping_scale c x n nsta nlta ltac:(lra) Hn Hs).
  - exact (centred_scale c x n nsta nlta Hc Hn ltac:(lia) ltac:(lia)).
  - exact (recursive_scale c x n nsta nlta ltac:(lra) Hn ltac:(lia)).
Qed.
Print Assumptions C15_scale_invariance.

(** C15. Units of the waveform itself, through the energy and the absolute-value transforms. *)
Theorem C15_waveform_units :
  forall c (d : Z -> R) n nsta nlta transform, c <> 0%R -> 0 <= n -> 1 <= nsta <= nlta ->
  transform = energy \/ transform = absval ->
  lib_overlapping (transform (array1 n (fun i => c * d i)%R)) nsta nlta = lib_overlapping (transform (array1 n d)) nsta nlta /\
  lib_centred (transform (array1 n (fun i => c * d i)%R)) nsta nlta = lib_centred (transform (array1 n d)) nsta nlta.
Proof.
  intros c d n nsta nlta transform Hc Hn Hs [-> | ->].
  - rewrite energy_scale, energy_array.
    assert (0 < c * c)%R by (destruct (Rtotal_order c 0) as [|[|]]; [|contradiction|]; nra).
    destruct (C15_scale_invariance (c * c) (fun i => d i * d i)%R n nsta nlta) as (A & B & _); try assumption. split; assumption.
  - rewrite absval_scale, absval_array.
    destruct (C15_scale_invariance (Rabs c) (fun i => Rabs (d i)) n nsta nlta) as (A & B & _); try assumption.
    + apply Rabs_pos_lt, Hc.
    + split; assumption.
Qed.
Print Assumptions C15_waveform_units.

(** C15. Python backend, for factors that keep every LTA above [tiny]. *)
Theorem C15_python_scale_invariance :
  forall tiny c (x : Z -> R) n nsta nlta, (0 < tiny <= 1)%R -> (0 < c)%R -> 1 <= nsta < nlta ->
  (forall i, nlta - 1 <= i < n -> (tiny <= window_mean x (i - nlta + 1) nlta)%R /\ (tiny <= c * window_mean x (i - nlta + 1) nlta)%R) ->
  overlapping_py tiny (array1 n (fun i => c * x i)%R) nsta nlta = overlapping_py tiny (array1 n x) nsta nlta /\
  centred_py tiny (array1 n (fun i => c * x i)%R) nsta nlta = centred_py tiny (array1 n x) nsta nlta.
Proof.
  intros tiny c x n nsta nlta Ht Hc Hs H. split.
  - rewrite !overlapping_py_ok by lia || lra. f_equal. apply array1_ext. intros i Hi.
    destruct (Z.ltb_spec i (nlta - 1)); [reflexivity|]. rewrite !window_mean_scale.
    destruct (H i ltac:(lia)). apply py_guard_scale; lra.
  - rewrite !centred_py_ok by lia || lra. f_equal. apply array1_ext. intros i Hi.
    destruct (Z.ltb_spec i (nlta - 1)); [reflexivity|]. destruct (Z.leb_spec (n - nsta) i); [reflexivity|].
    rewrite !window_mean_scale. destruct (H i ltac:(lia)). apply py_guard_scale; lra.
Qed.
Print Assumptions C15_python_scale_invariance.

(** C15. Range of the overlapping onset for non-negative signals. *)
Theorem C15_overlapping_range :
  forall (x : Z -> R) n nsta nlta o i v, 1 <= nsta <= nlta -> nlta <= n ->
  (forall j, 0 <= j < n -> (0 <= x j)%R) ->
  lib_overlapping (array1 n x) nsta nlta = Ret o -> rd o i = Some (Some v) ->
  (0 <= v <= IZR nlta / IZR nsta)%R.
Proof.
  intros x n nsta nlta o i v Hs Hn Hx E Hv. rewrite C09_overlapping_c in E by lia. injection E as <-.
  pose proof (rd_bounds _ _ _ _ Hv) as Hb. rewrite array1_length in Hb. rewrite rd_array1 in Hv by lia.
  destruct (Z.ltb_spec i (nlta - 1)) as [H|H].
  - injection Hv as <-. split; [lra|].
    assert (0 < IZR nsta)%R by (apply IZR_lt; lia). assert (IZR nsta <= IZR nlta)%R by (apply IZR_le; lia).
    apply (Rmult_le_reg_r (IZR nsta)); [assumption|]. unfold Rdiv. rewrite Rmult_assoc, Rinv_l by lra. lra.
  - injection Hv as Hv. apply (ovl_value_bounds x nsta nlta i v Hs); [|exact Hv]. intros j Hj. apply Hx. lia.
Qed.
Print Assumptions C15_overlapping_range.

Example C15_applies : lib_centred (array1 8 (fun i => 1000 * IZR i)%R) 2 3 = lib_centred (array1 8 IZR) 2 3.
Proof. apply (C15_scale_invariance 1000 IZR 8 2 3); [lra|lia|lia]. Qed.
