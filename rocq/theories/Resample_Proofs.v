(** Proofs about resampling and gap filling. *)
From Coq Require Import List ZArith Reals Lia Bool Permutation.
From Verif Require Import Lib LibFacts PySlice Migrate_Spec StaLta_Proofs Timeline_Model Timeline_Spec Timeline_Proofs
  Avail_Model Resample_Model Resample_Spec.
Import ListNotations.
Open Scope Z_scope.

(** ** Lists *)
Lemma cdiv_spec a b : 0 < b -> (cdiv a b - 1) * b < a <= cdiv a b * b.
Proof.
  intros Hb. unfold cdiv. pose proof (Z.div_mod (- a) b ltac:(lia)) as H.
  pose proof (Z.mod_pos_bound (- a) b Hb) as M. nia.
Qed.
Lemma cdiv_le_iff a b k : 0 < b -> (cdiv a b <= k <-> a <= k * b).
Proof. intros Hb. pose proof (cdiv_spec a b Hb) as H. split; intros G; nia. Qed.
Lemma div_ge_iff a b k : 0 < b -> (k <= a / b <-> k * b <= a).
Proof.
  intros Hb. pose proof (Z.div_mod a b ltac:(lia)) as H. pose proof (Z.mod_pos_bound a b Hb) as M. split; intros G; nia.
Qed.

Lemma flat_map_single A B (g : A -> list B) (h : A -> B) l : (forall x, In x l -> g x = [h x]) -> flat_map g l = map h l.
Proof.
  induction l as [|x l IH]; intros H; [reflexivity|]. cbn [flat_map map]. rewrite H by (left; reflexivity).
  cbn [app]. f_equal. apply IH. intros y Hy. apply H. right. exact Hy.
Qed.
Lemma every_ok A f (l : list A) : 0 < f ->
  Z.of_nat (length (every f l)) = cdiv (Z.of_nat (length l)) f
  /\ (forall k, rd (every f l) k = rd l (k * f)).
Proof.
  intros Hf. unfold every. set (n := Z.of_nat (length l)). set (m := cdiv n f).
  assert (Hm : 0 <= m) by (pose proof (cdiv_spec n f Hf); subst m; destruct (Z_lt_le_dec (cdiv n f) 0); [nia|lia]).
  destruct l as [|x0 l0].
  { subst m n. cbn [length Z.of_nat]. replace (cdiv 0 f) with 0 by (unfold cdiv; rewrite Z.div_0_l by lia; reflexivity).
    split; [reflexivity|]. intros k. cbn [zrange Z.to_nat zseq flat_map]. rewrite !rd_nil. reflexivity. }
  remember (x0 :: l0) as l eqn:El.
  assert (E : flat_map (fun k => match rd l (k * f) with Some v => [v] | None => [] end) (zrange m)
              = map (fun k => match rd l (k * f) with Some v => v | None => x0 end) (zrange m)).
  { apply flat_map_single. intros k Hk. apply in_zrange in Hk.
    destruct (rd_in_range _ l (k * f)) as [v Ev]; [|rewrite Ev; reflexivity].
    pose proof (cdiv_spec n f Hf). fold n. subst m. nia. }
  rewrite E. split.
  - rewrite map_length, zrange_length. lia.
  - intros k. rewrite rd_map. destruct (Z_lt_le_dec k 0) as [C|C].
    { rewrite (rd_none _ l) by nia. rewrite rd_none by lia. reflexivity. }
    destruct (Z_lt_le_dec k m) as [D|D].
    + rewrite rd_zrange by lia. cbn [option_map].
      destruct (rd_in_range _ l (k * f)) as [v Ev]; [|rewrite Ev; reflexivity].
      pose proof (cdiv_spec n f Hf). fold n. subst m. nia.
    + rewrite (rd_none _ (zrange m)) by (rewrite zrange_length; lia). cbn [option_map]. symmetry. apply rd_none. right.
      fold n. pose proof (cdiv_spec n f Hf). subst m. nia.
Qed.

Lemma rd_firstn A (l : list A) n k : k < Z.of_nat n -> rd (firstn n l) k = rd l k.
Proof.
  intros H. unfold rd. destruct (Z.ltb_spec k 0); [reflexivity|].
  revert n k H H0. induction l as [|x l IH]; intros n k H H0.
  - rewrite firstn_nil. reflexivity.
  - destruct n as [|n]; [lia|]. cbn [firstn]. destruct (Z.to_nat k) as [|j] eqn:E; [reflexivity|]. cbn [nth_error].
    replace j with (Z.to_nat (Z.of_nat j)) by lia. apply IH; lia.
Qed.
Lemma rd_skipn A (l : list A) n k : 0 <= k -> rd (skipn n l) k = rd l (k + Z.of_nat n).
Proof.
  intros H. revert l. induction n as [|n IH]; intros l.
  - cbn [skipn]. f_equal. lia.
  - destruct l as [|x l]; [rewrite skipn_nil, !rd_nil; reflexivity|]. cbn [skipn]. rewrite IH.
    replace (k + Z.of_nat (S n)) with (k + Z.of_nat n + 1) by lia. rewrite rd_S by lia. reflexivity.
Qed.

(** ** Trimming and decimating one trace *)
Lemma trim_id a b s : sg_id (trim a b s) = sg_id s.
Proof. reflexivity. Qed.
Lemma trim_delta a b s : sg_delta (trim a b s) = sg_delta s.
Proof. reflexivity. Qed.

Lemma trim_samples a b s t v : 0 < sg_delta s ->
  (sample_at (trim a b s) t v <-> sample_at s t v /\ a <= t <= b).
Proof.
  intros Hd. unfold sample_at, trim. cbn [sg_data sg_start sg_delta].
  set (d := sg_delta s) in *. set (k0 := Z.max 0 (cdiv (a - sg_start s) d)).
  set (k1 := Z.min (npts s - 1) ((b - sg_start s) / d)).
  assert (A0 : forall k, 0 <= k -> (k0 <= k <-> a <= sg_start s + k * d)).
  { intros k Hk. pose proof (cdiv_le_iff (a - sg_start s) d k Hd). subst k0. lia. }
  assert (A1 : forall k, k < npts s -> (k <= k1 <-> sg_start s + k * d <= b)).
  { intros k Hk. pose proof (div_ge_iff (b - sg_start s) d k Hd). subst k1. lia. }
  assert (K0 : 0 <= k0) by (subst k0; lia). split.
  - intros (k & Ek & ->). pose proof (rd_bounds _ _ _ _ Ek) as Bk.
    rewrite rd_skipn in Ek by lia. pose proof (rd_bounds _ _ _ _ Ek) as Bk2. rewrite firstn_length in Bk2.
    rewrite rd_firstn in Ek by lia. pose proof (rd_bounds _ _ _ _ Ek) as Bk3. fold (npts s) in Bk3.
    split; [exists (k + k0); split; [rewrite Z2Nat.id in Ek by lia; exact Ek|ring]|].
    pose proof (A0 (k + k0)) as X0. pose proof (A1 (k + k0)) as X1.
    replace (sg_start s + k0 * d + k * d) with (sg_start s + (k + k0) * d) by ring. lia.
  - intros [(k & Ek & ->) [Ha Hb]]. pose proof (rd_bounds _ _ _ _ Ek) as Bk. fold (npts s) in Bk.
    apply A0 in Ha; [|lia]. apply A1 in Hb; [|lia]. exists (k - k0). split; [|ring].
    rewrite rd_skipn by lia. rewrite rd_firstn by lia. rewrite Z2Nat.id by lia.
    replace (k - k0 + k0) with k by ring. exact Ek.
Qed.

(** Number of samples and start of a trimmed trace. *)
Lemma trim_exact a b s k0 k1 : 0 < sg_delta s -> 0 <= k0 -> k0 <= k1 -> k1 < npts s ->
  (k0 = 0 \/ sg_start s + (k0 - 1) * sg_delta s < a) -> a <= sg_start s + k0 * sg_delta s ->
  (k1 = npts s - 1 \/ b < sg_start s + (k1 + 1) * sg_delta s) -> sg_start s + k1 * sg_delta s <= b ->
  sg_start (trim a b s) = sg_start s + k0 * sg_delta s /\ npts (trim a b s) = k1 - k0 + 1.
Proof.
  intros Hd H0 H01 H1 La Ua Lb Ub. unfold trim. cbn [sg_start sg_delta].
  assert (E0 : Z.max 0 (cdiv (a - sg_start s) (sg_delta s)) = k0).
  { pose proof (cdiv_le_iff (a - sg_start s) (sg_delta s) k0 Hd).
    pose proof (cdiv_le_iff (a - sg_start s) (sg_delta s) (k0 - 1) Hd). lia. }
  assert (E1 : Z.min (npts s - 1) ((b - sg_start s) / sg_delta s) = k1).
  { pose proof (div_ge_iff (b - sg_start s) (sg_delta s) k1 Hd).
    pose proof (div_ge_iff (b - sg_start s) (sg_delta s) (k1 + 1) Hd). lia. }
  rewrite E0, E1. split; [reflexivity|]. unfold npts at 1. cbn [sg_data].
  rewrite skipn_length, firstn_length. unfold npts in *. lia.
Qed.

Lemma decimate_ok lowpass d s : 0 < sg_delta s -> (sg_delta s | d) -> 0 < d ->
  decimate lowpass d s = Ret (mk_seg (sg_id s) (sg_start s) d (every (d / sg_delta s) (lowpass (sg_delta s) (sg_data s)))).
Proof.
  intros Hd [f E] Hp. unfold decimate. assert (F : d / sg_delta s = f) by (rewrite E; apply Z.div_mul; lia). rewrite F.
  destruct (Z.leb_spec f 0); [nia|]. rewrite <- E. reflexivity.
Qed.
Lemma decimate_samples lowpass d s o t v : 0 < sg_delta s -> (sg_delta s | d) -> 0 < d -> decimate lowpass d s = Ret o ->
  (sample_at o t v <->
   sample_at (mk_seg (sg_id s) (sg_start s) (sg_delta s) (lowpass (sg_delta s) (sg_data s))) t v
   /\ exists k, t = sg_start s + k * d).
Proof.
  intros Hd Hv Hp E. rewrite decimate_ok in E by assumption. injection E as <-.
  destruct Hv as [f Ef]. assert (F : d / sg_delta s = f) by (rewrite Ef; apply Z.div_mul; lia). rewrite F.
  assert (Hf : 0 < f) by nia. unfold sample_at. cbn [sg_data sg_start sg_delta].
  destruct (every_ok _ f (lowpass (sg_delta s) (sg_data s)) Hf) as [_ R]. split.
  - intros (k & Ek & ->). rewrite R in Ek. split; [exists (k * f); split; [exact Ek|rewrite Ef; ring]|exists k; reflexivity].
  - intros [(k & Ek & ->) [k' Ek']]. exists k'. split; [|lia]. rewrite R.
    assert (k = k' * f) by (rewrite Ef in Ek'; nia). subst k. exact Ek.
Qed.

(** ** Upsampling one trace *)
Lemma upsample_shape c start data u starttime endtime : 0 < delta c -> data <> [] -> 1 <= u -> (u | delta c) ->
  let n := Z.of_nat (length data) in
  let tr_end := start + (n - 1) * delta c in
  let a := if (0 <? start - starttime) && (start - starttime <? delta c)
           then rnd_he ((start - starttime) * u) (delta c) else 0 in
  let b := if (0 <? endtime - tr_end) && (endtime - tr_end <? delta c)
           then rnd_he ((endtime - tr_end) * u) (delta c) else 0 in
  exists l, upsample c start data u starttime endtime = Some (start - a * (delta c / u), l)
  /\ (0 <= a -> 0 <= b -> Z.of_nat (length l) = a + ((n - 1) * u + 1) + b).
Proof.
  intros Hd Hn Hu [m Em] n tr_end a b.
  assert (Hn1 : 1 <= n) by (subst n; destruct data; [congruence|cbn [length]; lia]).
  assert (Ed : data = array1 n (fun k => match rd data k with Some v => v | None => 0%R end)).
  { apply rd_ext_opt. intros i. destruct (Z_lt_le_dec i 0) as [C|C]; [rewrite !rd_none by lia; reflexivity|].
    destruct (Z_lt_le_dec i n) as [D|D].
    - rewrite rd_array1 by lia. destruct (rd_in_range _ data i) as [v Ev]; [lia|]. rewrite Ev. reflexivity.
    - rewrite !rd_none; [reflexivity| |fold n; lia]. right. rewrite array1_length. lia. }
  set (f := fun k => match rd data k with Some v => v | None => 0%R end) in Ed.
  unfold upsample. rewrite Ed. rewrite upsample_data_ok by lia. rewrite array1_length, Z.max_r by lia. cbv zeta. fold tr_end.
  rewrite rd_array1 by lia. rewrite pyget_last by lia.
  assert (Q : forall x, x * delta c / u = x * (delta c / u)).
  { intros x. rewrite Em, Z.div_mul by lia. rewrite Z.mul_assoc, Z.div_mul by lia. reflexivity. }
  subst a b.
  destruct ((0 <? start - starttime) && (start - starttime <? delta c));
    destruct ((0 <? endtime - tr_end) && (endtime - tr_end <? delta c)); rewrite ?Q; eexists; (split;
      [try reflexivity; rewrite ?Z.mul_0_l, ?Z.sub_0_r; reflexivity|]); intros Ha Hb;
    rewrite ?app_length, ?repeat_length, ?Nat2Z.inj_add, ?array1_length; nia.
Qed.

(** ** Traces that reach both ends of the window *)
Lemma close_multiples a b d : 0 < d -> (d | a) -> (d | b) -> Z.abs (a - b) < d -> a = b.
Proof. intros Hd [x ->] [y ->] H. assert (x = y) by nia. subst y. reflexivity. Qed.

Lemma ticks_d secs rate : ticks_ok secs rate -> 0 < secs / rate /\ secs = rate * (secs / rate).
Proof.
  intros (Hr & _ & [d ->] & He & H2). rewrite Z.div_mul in * by lia. split; [lia|ring].
Qed.

Lemma cdiv_mul1 M f : 0 < f -> 0 <= M -> cdiv (M * f + 1) f = M + 1.
Proof. intros Hf HM. pose proof (cdiv_spec (M * f + 1) f Hf). nia. Qed.

(** A trace on the output interval, from [starttime] to [endtime] exactly, is left as it is. *)
Lemma trim_all secs rate starttime endtime s : ticks_ok secs rate -> sg_delta s = secs / rate ->
  sg_start s = starttime -> npts s = n_window secs rate starttime endtime -> starttime <= endtime ->
  (secs / rate | endtime - starttime) ->
  let o := trim (starttime - secs / 100000) (endtime + secs / 100000) s in
  sg_start o = starttime /\ npts o = n_window secs rate starttime endtime.
Proof.
  intros T Ed Es En Hle [M EM]. destruct (ticks_d _ _ T) as [Hd _]. destruct T as (_ & _ & _ & He & H2).
  unfold n_window in *. rewrite EM, Z.div_mul in * by lia.
  assert (0 <= M) by nia.
  destruct (trim_exact (starttime - secs / 100000) (endtime + secs / 100000) s 0 M) as [A B]; rewrite ?Ed, ?Es; lia.
Qed.

(** The decimation of such a trace at a finer interval. *)
Lemma decimate_window lowpass secs rate starttime endtime s : ticks_ok secs rate ->
  (forall d l, length (lowpass d l) = length l) ->
  0 < sg_delta s -> (sg_delta s | secs / rate) -> sg_start s = starttime -> starttime <= endtime ->
  (secs / rate | endtime - starttime) -> npts s = (endtime - starttime) / sg_delta s + 1 ->
  exists o, decimate lowpass (secs / rate) s = Ret o /\ sg_id o = sg_id s /\ sg_delta o = secs / rate
    /\ sg_start o = starttime /\ npts o = n_window secs rate starttime endtime.
Proof.
  intros T HL Hd Hv Es Hle [M EM] En. destruct (ticks_d _ _ T) as [HD _].
  rewrite decimate_ok by assumption. eexists. split; [reflexivity|]. cbn [sg_id sg_delta sg_start]. repeat (split; [assumption || reflexivity|]).
  unfold npts, n_window. cbn [sg_data]. destruct Hv as [f Ef]. rewrite EM, Z.div_mul by lia.
  assert (F : secs / rate / sg_delta s = f) by (rewrite Ef; apply Z.div_mul; lia). rewrite F.
  assert (Hf : 0 < f) by nia. destruct (every_ok _ f (lowpass (sg_delta s) (sg_data s)) Hf) as [L _]. rewrite L, HL.
  fold (npts s). rewrite En, EM, Ef. rewrite Z.mul_assoc, Z.div_mul by lia. apply cdiv_mul1; [exact Hf|nia].
Qed.

Lemma upsamples_p secs rate u s : ticks_ok secs rate -> 0 < sg_delta s -> upsamples secs rate u s ->
  exists p, 0 < p /\ sg_delta s = u * p /\ secs * u / sg_delta s = secs / p /\ (p | secs) /\ 0 < secs / p /\ secs / (secs / p) = p
    /\ (p | secs / rate) /\ secs / 100000 < p /\ (rate | secs / p).
Proof.
  intros T Hd (Hu & [p Ep] & [x Ex] & Hr & He). destruct (ticks_d _ _ T) as [HD ED]. pose proof T as (Hrate & _).
  assert (Hp : 0 < p) by nia. exists p.
  assert (Es : secs = x * p) by nia. assert (Hx : 0 < x) by nia.
  assert (E1 : secs / p = x) by (rewrite Es; apply Z.div_mul; lia).
  assert (E2 : secs * u / sg_delta s = x) by (rewrite Ex; apply Z.div_mul; lia).
  rewrite E2 in Hr. rewrite E1, E2. split; [exact Hp|]. split; [lia|]. split; [reflexivity|]. split; [exists x; exact Es|].
  split; [exact Hx|]. split; [rewrite Es, Z.mul_comm; apply Z.div_mul; lia|].
  split; [|split; [nia|exact Hr]]. destruct Hr as [m Em]. exists m. nia.
Qed.

Lemma upsample_window secs rate u starttime endtime s : ticks_ok secs rate -> on_own_grid s -> sg_data s <> [] ->
  upsamples secs rate u s -> (secs / rate | starttime) -> (secs / rate | endtime) -> starttime <= endtime ->
  Z.abs (sg_start s - starttime) < sg_delta s -> Z.abs (sg_end s - endtime) < sg_delta s ->
  exists o, upsample_trace secs u starttime endtime s = Ret o /\ sg_id o = sg_id s /\ sg_delta o = sg_delta s / u
    /\ sg_start o = starttime /\ npts o = (endtime - starttime) / (sg_delta s / u) + 1.
Proof.
  intros T [Hd Hg] Hn U Hs He Hle As Ae. destruct (upsamples_p secs rate u s T Hd U) as (p & Hp & Ed & Er & Hps & Hx & Ep & HpD & Heps & Hrx).
  pose proof U as (Hu & Hud & _).
  assert (Edu : sg_delta s / u = p) by (rewrite Ed, Z.mul_comm; apply Z.div_mul; lia).
  unfold upsample_trace. replace (u * secs) with (secs * u) by ring. rewrite Er.
  destruct (Z.leb_spec (secs / p) 0); [lia|]. cbn [orb].
  replace (secs mod (secs / p) =? 0) with true.
  2:{ symmetry. apply Z.eqb_eq. destruct Hps as [y Ey]. rewrite Ey, Z.div_mul by lia. rewrite Z.mul_comm. apply Z.mod_mul. rewrite Ey, Z.div_mul in Hx by lia. lia. }
  replace (sg_delta s mod u =? 0) with true by (symmetry; apply Z.eqb_eq; rewrite Ed, Z.mul_comm; apply Z.mod_mul; lia).
  cbn [orb negb]. rewrite Ep.
  pose proof (upsample_shape {| sec := secs; delta := sg_delta s |} (sg_start s) (sg_data s) u starttime endtime Hd Hn Hu Hud) as S.
  cbv zeta in S. cbn [delta] in S. fold (npts s) in S. replace (sg_start s + (npts s - 1) * sg_delta s) with (sg_end s) in S by reflexivity.
  rewrite Edu in S.
  assert (G : forall x y, (p | x) -> (p | y) -> rnd_he ((x - y) * u) (sg_delta s) = (x - y) / p).
  { intros x y [a ->] [b ->]. replace ((a * p - b * p) * u) with ((a - b) * sg_delta s) by (rewrite Ed; ring).
    rewrite rnd_he_mul by lia. replace (a * p - b * p) with ((a - b) * p) by ring. rewrite Z.div_mul by lia. reflexivity. }
  assert (Ps : (p | sg_start s)) by (apply Z.divide_trans with (sg_delta s); [exists u; lia|exact Hg]).
  assert (Pd : (p | sg_delta s)) by (exists u; lia).
  assert (Pe : (p | sg_end s)) by (unfold sg_end; apply Z.divide_add_r; [exact Ps|apply Z.divide_mul_r; exact Pd]).
  assert (Pst : (p | starttime)) by (apply Z.divide_trans with (secs / rate); assumption).
  assert (Pet : (p | endtime)) by (apply Z.divide_trans with (secs / rate); assumption).
  rewrite (G _ _ Ps Pst), (G _ _ Pet Pe) in S.
  set (a := if (0 <? sg_start s - starttime) && (sg_start s - starttime <? sg_delta s) then (sg_start s - starttime) / p else 0) in S.
  set (b := if (0 <? endtime - sg_end s) && (endtime - sg_end s <? sg_delta s) then (endtime - sg_end s) / p else 0) in S.
  assert (Ha : 0 <= a /\ a * p = Z.max 0 (sg_start s - starttime)).
  { subst a. destruct Ps as [q1 E1], Pst as [q2 E2]. rewrite E1, E2 in *. replace (q1 * p - q2 * p) with ((q1 - q2) * p) in * by ring.
    rewrite Z.div_mul by lia. destruct (Z.ltb_spec 0 ((q1 - q2) * p)), (Z.ltb_spec ((q1 - q2) * p) (sg_delta s)); cbn [andb]; nia. }
  assert (Hb : 0 <= b /\ b * p = Z.max 0 (endtime - sg_end s)).
  { subst b. destruct Pe as [q1 E1], Pet as [q2 E2]. rewrite E1, E2 in *. replace (q2 * p - q1 * p) with ((q2 - q1) * p) in * by ring.
    rewrite Z.div_mul by lia. destruct (Z.ltb_spec 0 ((q2 - q1) * p)), (Z.ltb_spec ((q2 - q1) * p) (sg_delta s)); cbn [andb]; nia. }
  destruct S as (l & El & Ll). rewrite El. specialize (Ll (proj1 Ha) (proj1 Hb)).
  eexists. split; [reflexivity|]. split; [reflexivity|]. split; [cbn [trim sg_delta]; lia|].
  set (o := mk_seg (sg_id s) (sg_start s - a * p) p l).
  assert (No : npts o = a + ((npts s - 1) * u + 1) + b) by (unfold npts at 1; cbn [o sg_data]; exact Ll).
  assert (Eo : sg_end o = sg_end s + b * p).
  { unfold sg_end at 1. rewrite No. cbn [o sg_start sg_delta]. unfold sg_end. rewrite Ed. ring. }
  assert (So : sg_start o <= starttime) by (cbn [o sg_start]; lia).
  assert (Eo' : endtime <= sg_end o) by lia.
  assert (Q : exists k0, starttime = sg_start o + k0 * p /\ 0 <= k0).
  { destruct Ps as [q1 E1], Pst as [q2 E2]. exists (q2 - (q1 - a)). cbn [o sg_start]. split; [rewrite E2, E1 at 1; ring|].
    cbn [o sg_start] in So. nia. }
  destruct Q as (k0 & Ek0 & Hk0).
  assert (Q : exists M, endtime = starttime + M * p /\ 0 <= M).
  { destruct Pst as [q1 E1], Pet as [q2 E2]. exists (q2 - q1). rewrite E1, E2. split; [ring|nia]. }
  destruct Q as (M & EM & HM).
  assert (Hk1 : k0 + M < npts o).
  { unfold sg_end in Eo'. cbn [o sg_delta] in Eo'. fold o in Eo'. nia. }
  unfold eps. cbn [sec]. assert (E0 : 0 < secs / 100000) by apply T.
  destruct (trim_exact (starttime - secs / 100000) (endtime + secs / 100000) o k0 (k0 + M)) as [A B]; cbn [o sg_delta]; fold o;
    [exact Hp|exact Hk0|lia|exact Hk1|right; nia|nia|right; nia|nia|].
  rewrite A, B. cbn [o sg_delta]. fold o. split; [lia|]. rewrite Edu. replace (endtime - starttime) with (M * p) by lia. rewrite Z.div_mul by lia. lia.
Qed.

Lemma resample_window lowpass secs rate rs uf starttime endtime s : ticks_ok secs rate ->
  (forall d l, length (lowpass d l) = length l) -> on_own_grid s -> sg_data s <> [] ->
  ((sg_delta s | secs / rate) \/ exists u, rs = true /\ uf = Some u /\ upsamples secs rate u s) ->
  (secs / rate | starttime) -> (secs / rate | endtime) -> starttime <= endtime ->
  Z.abs (sg_start s - starttime) < sg_delta s -> Z.abs (sg_end s - endtime) < sg_delta s ->
  exists o, resample_trace lowpass secs rate rs uf starttime endtime s = Ret o /\ sg_id o = sg_id s /\ sg_delta o = secs / rate
    /\ sg_start o = starttime /\ npts o = n_window secs rate starttime endtime.
Proof.
  intros T HL G Hn HU Hs He Hle As Ae. destruct (ticks_d _ _ T) as [HD ED]. pose proof G as [Hd Hg].
  assert (Hse : (secs / rate | endtime - starttime)) by (apply Z.divide_sub_r; assumption).
  unfold resample_trace.
  assert (EX : (sg_delta s | secs / rate) -> sg_start s = starttime /\ npts s = (endtime - starttime) / sg_delta s + 1).
  { intros V. assert (E1 : sg_start s = starttime) by (apply (close_multiples _ _ (sg_delta s)); try assumption; apply Z.divide_trans with (secs / rate); assumption).
    split; [exact E1|].
    assert (E2 : sg_end s = endtime).
    { apply (close_multiples _ _ (sg_delta s)); try assumption; [|apply Z.divide_trans with (secs / rate); assumption].
      unfold sg_end. apply Z.divide_add_r; [exact Hg|exists (npts s - 1); reflexivity]. }
    rewrite <- E1, <- E2. unfold sg_end. replace (sg_start s + (npts s - 1) * sg_delta s - sg_start s) with ((npts s - 1) * sg_delta s) by ring.
    rewrite Z.div_mul by lia. lia. }
  destruct (at_rate secs rate s) eqn:A.
  - unfold at_rate in A. apply Z.eqb_eq in A. destruct EX as [E1 E2]; [exists 1; lia|]. exists s.
    split; [reflexivity|]. split; [reflexivity|]. split; [exact A|]. split; [exact E1|]. unfold n_window. rewrite <- A. exact E2.
  - destruct (decimable secs rate s) eqn:Dc.
    + unfold decimable in Dc. apply Z.eqb_eq in Dc. assert (V : (sg_delta s | secs / rate)) by (apply Z.mod_divide; [lia|exact Dc]).
      destruct (EX V) as [E1 E2]. apply decimate_window; assumption.
    + destruct HU as [V|(u & -> & -> & U)].
      { exfalso. unfold decimable in Dc. apply Z.eqb_neq in Dc. apply Dc. apply Z.mod_divide; [lia|exact V]. }
      destruct (upsamples_p secs rate u s T Hd U) as (p & Hp & Ed & Er & Hps & Hx & Ep & HpD & Heps & Hrx).
      replace ((secs * u / sg_delta s) mod rate =? 0) with true.
      2:{ symmetry. apply Z.eqb_eq. apply Z.mod_divide; [destruct T; lia|]. rewrite Er. exact Hrx. }
      cbn [negb]. destruct (upsample_window secs rate u starttime endtime s T G Hn U Hs He Hle As Ae) as (o & -> & Ei & Eo & Eso & Eno).
      cbn [bind]. assert (Edu : sg_delta s / u = p) by (rewrite Ed, Z.mul_comm; apply Z.div_mul; destruct U; lia). rewrite Edu in *.
      destruct (decimate_window lowpass secs rate starttime endtime o) as (o' & H1 & H2 & H3 & H4 & H5); rewrite ?Eo; try assumption.
      exists o'. rewrite <- Ei. tauto.
Qed.
