(** Proofs about the units of the coalescence. *)
From Coq Require Import List ZArith QArith Qabs Bool Ascii Lia Lqa.
From Verif Require Import Lib LibFacts Timeline_Model Trigger_Model Trigger_Spec Trigger_Proofs Units_Spec Robust_Proofs.
Import ListNotations.
Open Scope Z_scope.

Lemma converted_le k u a a' b b' : (0 < k)%Q -> converted k u a a' -> converted k u b b' -> Qle_bool a' b' = Qle_bool a b.
Proof.
  unfold converted. intros Hk Ha Hb. apply eq_true_iff_eq. rewrite !Qle_bool_iff. rewrite Ha, Hb. split; intros H.
  - apply (Qmult_le_l _ _ k Hk). lra.
  - apply (Qmult_le_l _ _ k Hk) in H. lra.
Qed.
Lemma Forall2_nth {A B} (P : A -> B -> Prop) l m : Forall2 P l m -> forall i a b, (i < length l)%nat -> P (nth i l a) (nth i m b).
Proof. induction 1; intros i a b Hi; [cbn in Hi; lia|]. destruct i; [assumption|]. cbn [nth length] in *. apply IHForall2. lia. Qed.
Lemma Forall2_len {A B} (P : A -> B -> Prop) l m : Forall2 P l m -> length l = length m.
Proof. induction 1; cbn [length]; congruence. Qed.

Section Order.
  Variables (k u : Q). Hypothesis Hk : (0 < k)%Q.
  Lemma insert_converted x x' : converted k u x x' -> forall l l', Forall2 (converted k u) l l' -> Forall2 (converted k u) (insert_q x l) (insert_q x' l').
  Proof. intros Hx. induction 1 as [|y y' l l' Hy F IH]; cbn [insert_q]; [constructor; [exact Hx|constructor]|]. rewrite (converted_le k u x x' y y' Hk Hx Hy). destruct (Qle_bool x y); repeat (constructor; try assumption). Qed.
  Lemma sort_converted l l' : Forall2 (converted k u) l l' -> Forall2 (converted k u) (sort_q l) (sort_q l').
  Proof. induction 1; cbn [sort_q fold_right]; [constructor|]. apply insert_converted; assumption. Qed.
  Lemma median_converted l l' : Forall2 (converted k u) l l' -> l <> [] -> converted k u (median l) (median l').
  Proof.
    intros F Ne. pose proof (sort_converted _ _ F) as S. unfold median. rewrite <- (Forall2_len _ _ _ S). set (n := length (sort_q l)).
    assert (Np : (0 < n)%nat). { unfold n. rewrite (Permutation.Permutation_length (proj1 (sort_q_ok l))). destruct l; [congruence|cbn [length]; lia]. }
    assert (D : (n / 2 < n)%nat) by (apply Nat.div_lt; lia). destruct (Nat.odd n); [apply (Forall2_nth _ _ _ S); exact D|].
    pose proof (Forall2_nth _ _ _ S (n / 2 - 1)%nat 0%Q 0%Q ltac:(fold n; lia)) as E1. pose proof (Forall2_nth _ _ _ S (n / 2)%nat 0%Q 0%Q D) as E2. unfold converted in *. rewrite E1, E2. field.
  Qed.
End Order.
Lemma mad_converted k u l l' : (0 < k)%Q -> Forall2 (converted k u) l l' -> l <> [] -> (calculate_mad l' == k * calculate_mad l)%Q.
Proof.
  intros Hk F Ne. unfold calculate_mad. pose proof (median_converted k u Hk l l' F Ne) as M.
  assert (E : converted k 0 (median (map (fun x => Qabs (x - median l)) l)) (median (map (fun x => Qabs (x - median l')) l'))).
  { apply median_converted; [exact Hk| |destruct l; [congruence|discriminate]]. revert M. generalize (median l) (median l'). intros m m' M. clear Ne. induction F as [|x x' l l' Hx _ IH]; cbn [map]; constructor; [|exact IH].
    unfold converted in *. rewrite M, Hx. setoid_replace (k * x + u - (k * m + u))%Q with (k * (x - m))%Q by ring. rewrite Qabs_Qmult, (Qabs_pos k) by lra. ring. }
  unfold converted in E. rewrite E. ring.
Qed.

(** Thresholds of values in other units. *)
Lemma threshold_converted p k u values values' rate i x : (0 < k)%Q -> follows (threshold_method p) k u -> Forall2 (converted k u) values values' ->
  rd (get_threshold p values rate) i = Some x -> exists x', rd (get_threshold p values' rate) i = Some x' /\ converted k u x x'.
Proof.
  intros Hk Hf F H. pose proof (rd_bounds _ _ _ _ H) as Bi. rewrite threshold_length in Bi. rewrite threshold_at in H by exact Bi. rewrite threshold_at by (rewrite <- (Forall2_len _ _ _ F); exact Bi). eexists. split; [reflexivity|].
  assert (C : forall w, Forall2 (converted k u) (chunk_of w values i) (chunk_of w values' i)) by (intros w; apply Forall2_chunk, F).
  assert (Ne : forall q, chunk_of (chunk_length q) values i <> []) by (intros q; apply chunk_nonempty; [unfold chunk_length; lia|exact Bi]).
  match type of H with Some ?z = _ => assert (x = z) as -> by congruence end. clear H. cbv zeta. unfold follows in Hf. unfold converted. destruct (threshold_method p).
  - destruct Hf as (-> & ->). ring.
  - set (q := (mad_window_length p * rate)%Q). pose proof (median_converted k u Hk _ _ (C _) (Ne q)) as M. unfold converted in M. rewrite M, (mad_converted k u _ _ Hk (C _) (Ne q)). ring.
  - set (q := (median_window_length p * rate)%Q). pose proof (median_converted k u Hk _ _ (C _) (Ne q)) as M. unfold converted in M. rewrite M, Hf. ring.
Qed.

(** Lists that are related by a relation. *)
Lemma Forall2_combine {A B C D} (P : A -> B -> Prop) (Q : C -> D -> Prop) l l' m m' : Forall2 P l l' -> Forall2 Q m m' -> Forall2 (fun x y => P (fst x) (fst y) /\ Q (snd x) (snd y)) (combine l m) (combine l' m').
Proof. intros F. revert m m'. induction F; intros m m' G; [constructor|]. destruct G; [constructor|]. cbn [combine]. constructor; [split; assumption|]. apply IHF. assumption. Qed.
Lemma Forall2_filter {A B} (P : A -> B -> Prop) f g l m : (forall x y, P x y -> f x = g y) -> Forall2 P l m -> Forall2 P (filter f l) (filter g m).
Proof. intros H. induction 1 as [|x y l m Hp _ IH]; cbn [filter]; [constructor|]. rewrite (H _ _ Hp). destruct (g y); [constructor; assumption|exact IH]. Qed.
Lemma Forall2_map2 {A B C D} (P : A -> B -> Prop) (Q : C -> D -> Prop) f g l m : (forall x y, P x y -> Q (f x) (g y)) -> Forall2 P l m -> Forall2 Q (map f l) (map g m).
Proof. intros H. induction 1; cbn [map]; constructor; auto. Qed.
Lemma Forall2_refl_eq {A} (l : list A) : Forall2 eq l l.
Proof. induction l; constructor; auto. Qed.
Lemma Forall2_indexed {A B} (P : A -> B -> Prop) l m : Forall2 P l m -> Forall2 (fun x y => fst x = fst y /\ P (snd x) (snd y)) (indexed l) (indexed m).
Proof. intros F. unfold indexed. rewrite (Forall2_len _ _ _ F). apply Forall2_combine; [apply Forall2_refl_eq|exact F]. Qed.
Lemma Forall2_groupby {A B} (P : A -> B -> Prop) f g l m : (forall x y, P x y -> f x = g y) -> Forall2 P l m -> Forall2 (Forall2 P) (groupby f l) (groupby g m).
Proof.
  intros H F. unfold groupby. assert (E : map f l = map g m) by (induction F as [|x y l m Hp _ IH]; [reflexivity|cbn [map]; rewrite (H _ _ Hp), IH; reflexivity]). rewrite E. generalize (group_keys (map g m)). intros ks.
  induction ks; cbn [map]; constructor; [|assumption]. apply Forall2_filter; [|exact F]. intros x y Hp. rewrite (H _ _ Hp). reflexivity.
Qed.
Lemma Forall2_best {A B} (P : A -> B -> Prop) f g k u : (0 < k)%Q -> (forall x y, P x y -> converted k u (f x) (g y)) -> forall l m, Forall2 P l m -> forall a b, P a b -> P (best_from f a l) (best_from g b m).
Proof.
  intros Hk H. induction 1 as [|x y l m Hp _ IH]; intros a b Hab; cbn [best_from]; [exact Hab|]. apply IH. unfold qlt_bool. rewrite (converted_le k u (f x) (g y) (f a) (g b) Hk (H _ _ Hp) (H _ _ Hab)). destruct (Qle_bool (f x) (f a)); assumption.
Qed.
Lemma Forall2_last {A B} (P : A -> B -> Prop) l m : Forall2 P l m -> forall a b, P a b -> P (last l a) (last m b).
Proof. induction 1 as [|x y l m Hp F IH]; intros a b Hab; [exact Hab|]. cbn [last]. destruct F; [exact Hp|]. apply IH, Hab. Qed.
Lemma Forall2_map_some {A B C D} (P : A -> B -> Prop) (Q : C -> D -> Prop) f g l m : (forall x y, P x y -> match f x, g y with Some a, Some b => Q a b | None, None => True | _, _ => False end) -> Forall2 P l m ->
  match map_some f l, map_some g m with Some a, Some b => Forall2 Q a b | None, None => True | _, _ => False end.
Proof.
  intros H. induction 1 as [|x y l m Hp _ IH]; cbn [map_some]; [constructor|]. specialize (H _ _ Hp). destruct (f x), (g y); try contradiction; [|exact I]. destruct (map_some f l), (map_some g m); try contradiction; [|exact I]. constructor; assumption.
Qed.

Lemma map_same {A B C} (P : A -> B -> Prop) (f : A -> C) (g : B -> C) l m : (forall x y, P x y -> f x = g y) -> Forall2 P l m -> map f l = map g m.
Proof. intros H. induction 1 as [|x y l m Hp _ IH]; [reflexivity|]. cbn [map]. rewrite (H _ _ Hp), IH. reflexivity. Qed.

Section Batch.
  Variables (c : clock) (p : params) (k u kn un : Q).
  Hypothesis Hk : (0 < k)%Q. Hypothesis Hkn : (0 < kn)%Q.
  Let kt := if normalise_coalescence p then kn else k.
  Let ut := if normalise_coalescence p then un else u.
  Hypothesis Hf : follows (threshold_method p) kt ut.

  Lemma Hkt : (0 < kt)%Q.
  Proof. unfold kt. destruct (normalise_coalescence p); assumption. Qed.
  Lemma trigger_on_converted x y : same_row k u kn un x y -> converted kt ut (trigger_on p x) (trigger_on p y).
  Proof. intros [H1 H2 H3 H4 H5 H6]. unfold trigger_on, kt, ut. destruct (normalise_coalescence p); assumption. Qed.

  (** What a candidate has in common with the candidate in other units. *)
  Record same_cand (a b : candidate) : Prop := { sk_num : EventNum b = EventNum a; sk_time : CoaTime b = CoaTime a; sk_min : MinTime b = MinTime a; sk_max : MaxTime b = MaxTime a;
    sk_x : COA_X b = COA_X a; sk_y : COA_Y b = COA_Y a; sk_z : COA_Z b = COA_Z a; sk_trig : converted kt ut (TRIG_COA a) (TRIG_COA b); sk_coa : converted k u (CCOA a) (CCOA b); sk_norm : converted kn un (COA_NORM a) (COA_NORM b) }.

  Variables (data data' : list scanrow).
  Hypothesis F : Forall2 (same_row k u kn un) data data'.
  Variable rate : Q.
  Let th := get_threshold p (map (trigger_on p) data) rate.
  Let th' := get_threshold p (map (trigger_on p) data') rate.

  Lemma thresholds_converted : Forall2 (converted kt ut) th th'.
  Proof.
    assert (V : Forall2 (converted kt ut) (map (trigger_on p) data) (map (trigger_on p) data')) by (eapply Forall2_map2; [exact trigger_on_converted|exact F]).
    assert (L : length th = length th') by (unfold th, th'; apply Nat2Z.inj; rewrite !threshold_length, (Forall2_len _ _ _ V); reflexivity).
    assert (R : forall i x, rd th i = Some x -> exists x', rd th' i = Some x' /\ converted kt ut x x') by (intros i x; apply (threshold_converted p kt ut _ _ rate i x Hkt Hf V)).
    clearbody th th'. revert th' L R. induction th as [|x l IH]; intros [|x' l'] L R; try discriminate; constructor.
    - destruct (R 0 x eq_refl) as (y & E & C). cbn in E. assert (y = x') by congruence. subst y. exact C.
    - apply IH; [cbn [length] in L; lia|]. intros i y Hy. pose proof (rd_bounds _ _ _ _ Hy) as Bi. destruct (R (i + 1) y) as (y' & E & C).
      + unfold rd in *. destruct (Z.ltb_spec i 0); [discriminate|]. destruct (Z.ltb_spec (i + 1) 0); [lia|]. replace (Z.to_nat (i + 1)) with (S (Z.to_nat i)) by lia. exact Hy.
      + exists y'. split; [|exact C]. unfold rd in *. destruct (Z.ltb_spec i 0); [lia|]. destruct (Z.ltb_spec (i + 1) 0); [lia|]. replace (Z.to_nat (i + 1)) with (S (Z.to_nat i)) in E by lia. exact E.
  Qed.
  Lemma rows_converted : Forall2 (Forall2 (same_row k u kn un)) (candidate_rows p data th) (candidate_rows p data' th').
  Proof.
    unfold candidate_rows. set (T := fun x y : Z * (Z * scanrow) => fst x = fst y /\ fst (snd x) = fst (snd y) /\ same_row k u kn un (snd (snd x)) (snd (snd y))).
    apply (Forall2_map2 (Forall2 T)); [intros a b Hab; apply (Forall2_map2 T) with (2 := Hab); intros x y Hxy; exact (proj2 (proj2 Hxy))|].
    apply (Forall2_groupby T); [intros x y (E1 & E2 & _); congruence|]. apply (Forall2_indexed (fun x y : Z * scanrow => fst x = fst y /\ same_row k u kn un (snd x) (snd y))). unfold above.
    apply (Forall2_map2 (fun x y : (Z * scanrow) * Q => (fst (fst x) = fst (fst y) /\ same_row k u kn un (snd (fst x)) (snd (fst y))) /\ converted kt ut (snd x) (snd y))); [intros x y Hxy; exact (proj1 Hxy)|].
    apply Forall2_filter; [|apply (Forall2_combine _ _ _ _ _ _ (Forall2_indexed _ _ _ F) thresholds_converted)].
    intros x y ((_ & Hr) & Ht). symmetry. apply (converted_le kt ut); [exact Hkt|exact Ht|apply trigger_on_converted, Hr].
  Qed.
  Lemma candidate_converted i a b : Forall2 (same_row k u kn un) a b -> match make_candidate p i a, make_candidate p i b with Some x, Some y => same_cand x y | None, None => True | _, _ => False end.
  Proof.
    intros G. unfold make_candidate. destruct G as [|x y l m Hxy G]; [exact I|]. pose proof (Forall2_best (same_row k u kn un) COA COA k u Hk ltac:(intros ? ? [? ? ? ? ? ?]; assumption) l m G x y Hxy) as B. pose proof (Forall2_last _ _ _ G x y Hxy) as La.
    set (b1 := best_from COA x l) in *. set (b2 := best_from COA y m) in *. pose proof (trigger_on_converted _ _ B) as T. destruct B as [B1 B2 B3 B4 B5 B6]. destruct Hxy as [X1 _ _ _ _ _]. destruct La as [L1 _ _ _ _ _].
    rewrite B1, X1, L1. constructor; cbn; assumption || reflexivity.
  Qed.
  Lemma candidates_converted : match identify_candidates p data th, identify_candidates p data' th' with Ret a, Ret b => Forall2 same_cand a b | Raise x, Raise y => x = y | _, _ => False end.
  Proof.
    unfold identify_candidates. rewrite <- (Forall2_len _ _ _ F), <- (Forall2_len _ _ _ thresholds_converted). destruct (negb _); [reflexivity|].
    pose proof (Forall2_map_some (fun x y : Z * list scanrow => fst x = fst y /\ Forall2 (same_row k u kn un) (snd x) (snd y)) same_cand (fun x => make_candidate p (fst x) (snd x)) (fun x => make_candidate p (fst x) (snd x)) _ _
      ltac:(intros x y (E & G); rewrite <- E; apply candidate_converted, G) (Forall2_indexed _ _ _ rows_converted)) as M.
    destruct (map_some _ _), (map_some _ _); try contradiction; [exact M|reflexivity].
  Qed.
  Lemma numbered_converted : forall l m, Forall2 same_cand l m -> forall n, Forall2 same_cand (number_events p n l) (number_events p n m).
  Proof.
    induction 1 as [|x y l m Hp G IH]; intros n; cbn [number_events]; [constructor|]. constructor; [destruct Hp; constructor; cbn [with_num EventNum CoaTime MinTime MaxTime COA_X COA_Y COA_Z TRIG_COA CCOA COA_NORM]; assumption || reflexivity|].
    destruct G as [|x2 y2 l m Hp2 G]; [constructor|]. unfold separate. rewrite (sk_max _ _ Hp), (sk_time _ _ Hp2), (sk_time _ _ Hp), (sk_min _ _ Hp2). apply IH.
  Qed.
  Lemma merged_converted a b : Forall2 same_cand a b -> match merge_candidates c a, merge_candidates c b with Some x, Some y => same_event (normalise_coalescence p) k u kn un x y | None, None => True | _, _ => False end.
  Proof.
    intros G. unfold merge_candidates. destruct G as [|x y l m Hxy G]; [exact I|]. pose proof (Forall2_best same_cand TRIG_COA TRIG_COA kt ut Hkt sk_trig l m G x y Hxy) as B. set (b1 := best_from TRIG_COA x l) in *. set (b2 := best_from TRIG_COA y m) in *.
    assert (E1 : map MinTime m = map MinTime l) by (symmetry; apply (map_same same_cand MinTime MinTime); [intros ? ? H; symmetry; apply (sk_min _ _ H)|exact G]). assert (E2 : map MaxTime m = map MaxTime l) by (symmetry; apply (map_same same_cand MaxTime MaxTime); [intros ? ? H; symmetry; apply (sk_max _ _ H)|exact G]).
    rewrite E1, E2, (sk_min _ _ Hxy), (sk_max _ _ Hxy), (sk_time _ _ B). destruct B as [B1 B2 B3 B4 B5 B6 B7 B8 B9 B10]. constructor; cbn [cand EventID with_window EventNum CoaTime MinTime MaxTime COA_X COA_Y COA_Z TRIG_COA CCOA COA_NORM]; try assumption; try reflexivity. revert B8. unfold kt, ut. case (normalise_coalescence p); intros B8; exact B8.
  Qed.
  Lemma refined_converted a b : Forall2 same_cand a b -> match refine_candidates c p a, refine_candidates c p b with Ret x, Ret y => Forall2 (same_event (normalise_coalescence p) k u kn un) x y | Raise x, Raise y => x = y | _, _ => False end.
  Proof.
    intros G. unfold refine_candidates. pose proof (Forall2_map_some (Forall2 same_cand) (same_event (normalise_coalescence p) k u kn un) (merge_candidates c) (merge_candidates c) _ _ merged_converted
      (Forall2_groupby same_cand EventNum EventNum _ _ ltac:(intros x y H; symmetry; apply (sk_num _ _ H)) (numbered_converted _ _ G 1))) as M.
    destruct (map_some _ _), (map_some _ _); try contradiction; [exact M|reflexivity].
  Qed.
End Batch.
Lemma filter_converted norm k u kn un s e reg l m : Forall2 (same_event norm k u kn un) l m -> Forall2 (same_event norm k u kn un) (filter_events l s e reg) (filter_events m s e reg).
Proof.
  intros G. unfold filter_events. assert (G1 : Forall2 (same_event norm k u kn un) (filter (fun ev => (s <=? CoaTime (cand ev)) && (CoaTime (cand ev) <=? e)) l) (filter (fun ev => (s <=? CoaTime (cand ev)) && (CoaTime (cand ev) <=? e)) m)).
  { apply Forall2_filter; [|exact G]. intros x y H. rewrite (se_time _ _ _ _ _ _ _ H). reflexivity. }
  destruct reg as [g|]; [|exact G1]. apply Forall2_filter; [|exact G1]. intros x y H. rewrite (se_x _ _ _ _ _ _ _ H), (se_y _ _ _ _ _ _ _ H), (se_z _ _ _ _ _ _ _ H). reflexivity.
Qed.
