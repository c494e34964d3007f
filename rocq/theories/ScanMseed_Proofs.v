(** Lemmas about the scan store. *)
From Coq Require Import List ZArith Reals Bool Lia Lra.
From Verif Require Import Lib LibFacts Timeline_Model Timeline_Spec Timeline_Proofs ScanMseed_Model ScanMseed_Spec.
Import ListNotations.
Open Scope Z_scope.

(** * Sublists by integer positions *)
Section Sub.
Context {A : Type}.

Definition cut (i j : Z) (l : list A) : list A := firstn (Z.to_nat (j - i)) (skipn (Z.to_nat i) l).

Lemma cut_length i j l : 0 <= i <= j -> j <= Z.of_nat (length l) -> Z.of_nat (length (cut i j l)) = j - i.
Proof. intros. unfold cut. rewrite firstn_length, skipn_length. lia. Qed.

Lemma cut_app_l i j l m : 0 <= i <= j -> j <= Z.of_nat (length l) -> cut i j (l ++ m) = cut i j l.
Proof.
  intros. unfold cut. rewrite skipn_app, firstn_app, skipn_length.
  replace (Z.to_nat (j - i) - (length l - Z.to_nat i))%nat with 0%nat by lia. cbn. apply app_nil_r.
Qed.

Lemma cut_app_r i l m : 0 <= i <= Z.of_nat (length l) ->
  cut i (Z.of_nat (length l) + Z.of_nat (length m)) (l ++ m) = cut i (Z.of_nat (length l)) l ++ m.
Proof.
  intros. unfold cut. rewrite skipn_app, firstn_app, skipn_length.
  replace (Z.to_nat i - length l)%nat with 0%nat by lia. cbn [skipn]. f_equal.
  - rewrite !firstn_all2; [reflexivity|rewrite skipn_length; lia|rewrite skipn_length; lia].
  - rewrite firstn_all2; [reflexivity|lia].
Qed.

Lemma skipn_skipn' (x y : nat) (l : list A) : skipn x (skipn y l) = skipn (x + y) l.
Proof.
  revert l. induction y as [|y IH]; intros l; [rewrite Nat.add_0_r; reflexivity|].
  rewrite Nat.add_succ_r. destruct l; [rewrite !skipn_nil; reflexivity|]. cbn [skipn]. apply IH.
Qed.
Lemma cut_skipn i j k l : 0 <= i -> 0 <= k -> skipn (Z.to_nat k) (cut i j l) = cut (i + k) j l.
Proof.
  intros. unfold cut. rewrite skipn_firstn_comm, skipn_skipn'.
  replace (Z.to_nat k + Z.to_nat i)%nat with (Z.to_nat (i + k)) by lia.
  replace (Z.to_nat (j - i) - Z.to_nat k)%nat with (Z.to_nat (j - (i + k))) by lia. reflexivity.
Qed.
Lemma cut_firstn i j k l : k <= j - i -> firstn (Z.to_nat k) (cut i j l) = cut i (i + k) l.
Proof.
  intros. unfold cut. rewrite firstn_firstn. f_equal. lia.
Qed.
Lemma cut_full l : cut 0 (Z.of_nat (length l)) l = l.
Proof. unfold cut. cbn [skipn Z.to_nat]. apply firstn_all2. lia. Qed.

Lemma cut_join i j k l : 0 <= i <= j -> j <= k -> k <= Z.of_nat (length l) -> cut i j l ++ cut j k l = cut i k l.
Proof.
  intros. rewrite <- (firstn_skipn (Z.to_nat (j - i)) (cut i k l)).
  rewrite cut_firstn by lia. rewrite cut_skipn by lia.
  replace (i + (j - i)) with j by ring. reflexivity.
Qed.

(** Samples of a sublist. *)
Lemma samples_from_app d t (l m : list A) :
  samples_from d t (l ++ m) = samples_from d t l ++ samples_from d (t + Z.of_nat (length l) * d) m.
Proof.
  revert t. induction l as [|x l IH]; intros t; cbn [app samples_from].
  - cbn. f_equal. lia.
  - cbn [length]. rewrite IH. cbn [app]. do 2 f_equal. f_equal. lia.
Qed.
Lemma samples_from_range d t (l : list A) p :
  In p (samples_from d t l) -> exists k, 0 <= k < Z.of_nat (length l) /\ fst p = t + k * d.
Proof.
  revert t. induction l as [|x l IH]; intros t; cbn [samples_from]; [intros []|].
  intros [<-|H].
  - exists 0. cbn [length fst]. lia.
  - destruct (IH _ H) as (k & Hk & E). exists (k + 1). cbn [length]. lia.
Qed.

Lemma filter_all {B} (f : B -> bool) l : (forall x, In x l -> f x = true) -> filter f l = l.
Proof.
  induction l as [|x l IH]; intros H; [reflexivity|]. cbn. rewrite (H x (or_introl eq_refl)).
  f_equal. apply IH. intros y Hy. apply H. right. exact Hy.
Qed.
Lemma filter_none {B} (f : B -> bool) l : (forall x, In x l -> f x = false) -> filter f l = [].
Proof.
  induction l as [|x l IH]; intros H; [reflexivity|]. cbn. rewrite (H x (or_introl eq_refl)).
  apply IH. intros y Hy. apply H. right. exact Hy.
Qed.

(** A filter on times that accepts exactly the positions [i, j) selects a sublist. *)
Lemma filter_cut d t (l : list A) f i j :
  0 <= i <= j -> j <= Z.of_nat (length l) ->
  (forall k, 0 <= k < Z.of_nat (length l) -> f (t + k * d) = ((i <=? k) && (k <? j))) ->
  filter (fun p => f (fst p)) (samples_from d t l) = samples_from d (t + i * d) (cut i j l).
Proof.
  intros Hi Hj Hf. set (n := Z.of_nat (length l)) in *.
  assert (E : l = cut 0 i l ++ cut i j l ++ cut j n l).
  { rewrite (cut_join i j n) by lia. rewrite cut_join by lia. symmetry. apply cut_full. }
  assert (L1 : Z.of_nat (length (cut 0 i l)) = i) by (rewrite cut_length; lia).
  assert (L2 : Z.of_nat (length (cut i j l)) = j - i) by (apply cut_length; lia).
  assert (L3 : Z.of_nat (length (cut j n l)) = n - j) by (apply cut_length; lia).
  rewrite E at 1. rewrite !samples_from_app, !filter_app.
  rewrite (filter_none _ (samples_from d t (cut 0 i l))).
  - rewrite (filter_none _ (samples_from d _ (cut j n l))).
    + rewrite filter_all; [rewrite app_nil_r, L1; reflexivity|].
      intros p Hp. apply samples_from_range in Hp. destruct Hp as (k & Hk & ->).
      rewrite L1. replace (t + i * d + k * d) with (t + (i + k) * d) by ring. rewrite Hf by lia. lia.
    + intros p Hp. apply samples_from_range in Hp. destruct Hp as (k & Hk & ->).
      rewrite L1, L2. replace (t + i * d + (j - i) * d + k * d) with (t + (j + k) * d) by ring. rewrite Hf by lia. lia.
  - intros p Hp. apply samples_from_range in Hp. destruct Hp as (k & Hk & ->). rewrite Hf by lia. lia.
Qed.
End Sub.

(** * Runs *)
Section Run.
Context {A : Type}.
Variables (c : clock) (D : Z).
Hypothesis Hdelta : 0 < delta c.
Hypothesis HD : 0 < D.
Hypothesis Hday : day c = D * delta c.

(** Samples [a, b) (counted from time 0) of a run whose first sample is number [p]. *)
Definition asub (p : Z) (R : list A) (a b : Z) : seg A := mk_seg (a * delta c) (cut (a - p) (b - p) R).

Lemma asub_len p R a b : p <= a <= b -> b <= p + Z.of_nat (length R) -> seg_len (asub p R a b) = b - a.
Proof. intros. unfold seg_len. cbn [rows asub]. rewrite cut_length; lia. Qed.
Lemma asub_end p R a b : p <= a <= b -> b <= p + Z.of_nat (length R) -> seg_end c (asub p R a b) = (b - 1) * delta c.
Proof. intros. unfold seg_end. rewrite asub_len by assumption. cbn [t0 asub]. ring. Qed.

Lemma asub_t0 p R a b : t0 (asub p R a b) = a * delta c.
Proof. reflexivity. Qed.
Lemma date_mul k : date c (k * delta c) = k / D.
Proof. unfold date. rewrite Hday. apply Z.div_mul_cancel_r; lia. Qed.
Lemma midnight_eq d : midnight c d = d * D * delta c.
Proof. unfold midnight. rewrite Hday. ring. Qed.

Lemma rnd_away_mul k : rnd_away (k * delta c) (delta c) = k.
Proof.
  unfold rnd_away. destruct (Z.leb_spec 0 (k * delta c)).
  - replace (2 * (k * delta c) + delta c) with (delta c + k * (2 * delta c)) by ring.
    rewrite Z.div_add by lia. rewrite Z.div_small by lia. ring.
  - replace (2 * - (k * delta c) + delta c) with (delta c + (- k) * (2 * delta c)) by ring.
    rewrite Z.div_add by lia. rewrite Z.div_small by lia. ring.
Qed.

Lemma trim_left_asub p R a b e : p <= a -> a < e -> e <= p + Z.of_nat (length R) ->
  trim_left c (b * delta c) (asub p R a e)
  = if b <=? a then Some (asub p R a e) else if b <? e then Some (asub p R b e) else None.
Proof.
  intros. unfold trim_left. cbv zeta. rewrite asub_len by lia. cbn [t0 rows asub].
  replace (b * delta c - a * delta c) with ((b - a) * delta c) by ring. rewrite rnd_away_mul.
  destruct (Z.leb_spec b a); [rewrite (proj2 (Z.leb_le (b - a) 0)) by lia; reflexivity|].
  rewrite (proj2 (Z.leb_gt (b - a) 0)) by lia.
  destruct (Z.ltb_spec b e).
  - rewrite (proj2 (Z.ltb_lt (b - a) (e - a))) by lia. rewrite cut_skipn by lia. unfold asub. do 2 f_equal; [ring|].
    f_equal. lia.
  - rewrite (proj2 (Z.ltb_ge (b - a) (e - a))) by lia. reflexivity.
Qed.

Lemma trim_right_asub p R a b e : p <= a -> a < e -> e <= p + Z.of_nat (length R) ->
  trim_right c ((b - 1) * delta c) (asub p R a e)
  = if b <=? a then None else Some (asub p R a (Z.min b e)).
Proof.
  intros. unfold trim_right. cbv zeta. cbn [t0 rows asub].
  replace ((b - 1) * delta c - a * delta c) with ((b - 1 - a) * delta c) by ring. rewrite rnd_away_mul.
  destruct (Z.leb_spec b a); [rewrite (proj2 (Z.ltb_lt (b - 1 - a) 0)) by lia; reflexivity|].
  rewrite (proj2 (Z.ltb_ge (b - 1 - a) 0)) by lia. do 2 f_equal.
  destruct (Z.le_gt_cases b e).
  - rewrite Z.min_l by lia. replace (b - 1 - a + 1) with (b - a) by ring.
    rewrite cut_firstn by lia. replace (a - p + (b - a)) with (b - p) by ring. reflexivity.
  - rewrite Z.min_r by lia. unfold asub, cut. rewrite firstn_firstn. do 2 f_equal. lia.
Qed.

Lemma asub_app p R B a b : p <= a <= b -> b <= p + Z.of_nat (length R) -> asub p (R ++ B) a b = asub p R a b.
Proof. intros. unfold asub. rewrite cut_app_l; [reflexivity|lia|lia]. Qed.

Lemma sort_one (g : seg A) : sort_segs [g] = [g].
Proof. reflexivity. Qed.
Lemma merge_one (g : seg A) : merge c [g] = [g].
Proof. reflexivity. Qed.
Lemma merge_next p R B a : let n := p + Z.of_nat (length R) in
  p <= a < n ->
  merge c ([asub p R a n] ++ [mk_seg (n * delta c) B]) = [asub p (R ++ B) a (n + Z.of_nat (length B))].
Proof.
  intros n Ha. unfold merge, sort_segs. cbn [app fold_left insert_seg t0 asub].
  rewrite (proj2 (Z.ltb_ge (n * delta c) (a * delta c))) by (apply Z.mul_le_mono_nonneg_r; lia).
  cbn [fold_right join_cons t0 rows]. change (mk_seg (a * delta c) (cut (a - p) (n - p) R)) with (asub p R a n).
  rewrite asub_end by lia. replace ((n - 1) * delta c + delta c) with (n * delta c) by ring.
  rewrite Z.eqb_refl. unfold asub. cbn [rows t0]. do 2 f_equal. subst n.
  replace (p + Z.of_nat (length R) + Z.of_nat (length B) - p) with (Z.of_nat (length R) + Z.of_nat (length B)) by ring.
  rewrite cut_app_r by lia. do 2 f_equal. lia.
Qed.
Lemma first_seg p R B : mk_seg ((p + Z.of_nat (length R)) * delta c) B
  = asub p (R ++ B) (p + Z.of_nat (length R)) (p + Z.of_nat (length R) + Z.of_nat (length B)).
Proof.
  unfold asub. f_equal.
  replace (p + Z.of_nat (length R) - p) with (Z.of_nat (length R)) by ring.
  replace (p + Z.of_nat (length R) + Z.of_nat (length B) - p) with (Z.of_nat (length R) + Z.of_nat (length B)) by ring.
  rewrite cut_app_r by lia. unfold cut. rewrite Z.sub_diag. reflexivity.
Qed.

(** Files after the samples [R] have been appended. *)
Definition stored_lo (p d : Z) : Z := Z.max p (d * D).
Definition stored_hi (p : Z) (R : list A) (d : Z) : Z := Z.min (p + Z.of_nat (length R)) ((d + 1) * D).
Definition day_file (p : Z) (R : list A) (d : Z) : option (list (seg A)) :=
  if stored_lo p d <? stored_hi p R d then Some [asub p R (stored_lo p d) (stored_hi p R d)] else None.
Definition after (all : bool) (fs0 : files) (p : Z) (R : list A) : files := fun d =>
  if all || ((d + 1) * D <=? p + Z.of_nat (length R)) then
    match day_file p R d with Some f => Some f | None => fs0 d end
  else fs0 d.
Definition head_of (p : Z) (R : list A) : Z :=
  let n := p + Z.of_nat (length R) in Z.max p (n / D * D).

Definition inv (cw : bool) (fs0 : files) (p : Z) (R : list A) (st : files * scanmseed) : Prop :=
  let n := p + Z.of_nat (length R) in
  let a := head_of p R in
  stream (snd st) = (if a <? n then [asub p R a n] else [])
  /\ (forall d, fst st d = after cw fs0 p R d)
  /\ (R <> [] -> written (snd st) = cw || (a =? n)).

Lemma head_bounds p R : p <= head_of p R <= p + Z.of_nat (length R).
Proof.
  unfold head_of. cbv zeta. set (n := p + _).
  assert (n / D * D <= n) by (rewrite Z.mul_comm; apply Z.mul_div_le; lia). lia.
Qed.
Lemma head_date p R : head_of p R / D = (p + Z.of_nat (length R)) / D.
Proof.
  unfold head_of. cbv zeta. set (n := p + _).
  assert (n / D * D <= n) by (rewrite Z.mul_comm; apply Z.mul_div_le; lia).
  destruct (Z.max_spec p (n / D * D)) as [[_ ->]|[H1 ->]]; [apply Z.div_mul; lia|].
  apply Z.le_antisymm; [apply Z.div_le_mono; lia|]. apply Z.div_le_lower_bound; lia.
Qed.

(** One append. *)
Lemma append_step cw fs0 p R st B :
  inv cw fs0 p R st -> B <> [] -> Z.of_nat (length B) <= D ->
  exists st', append_seg c cw (fst st) (snd st) (mk_seg ((p + Z.of_nat (length R)) * delta c) B) = Ret st'
    /\ inv cw fs0 p (R ++ B) st'.
Proof.
  destruct st as [fs o]. intros (Hs & Hf & Hw) HB HBD. cbn [fst snd] in *.
  assert (HB1 : 1 <= Z.of_nat (length B)) by (destruct B; [contradiction|cbn; lia]).
  pose proof (head_bounds p R) as Ha. pose proof (head_date p R) as Had.
  set (n := p + Z.of_nat (length R)) in *. set (a := head_of p R) in *.
  set (n' := n + Z.of_nat (length B)).
  assert (En' : p + Z.of_nat (length (R ++ B)) = n') by (rewrite app_length; lia).
  assert (Em : merge c (stream o ++ [mk_seg (n * delta c) B]) = [asub p (R ++ B) a n']).
  { rewrite Hs. destruct (Z.ltb_spec a n).
    - apply merge_next. fold n. lia.
    - cbn [app]. rewrite merge_one. assert (a = n) by lia. replace a with n by lia. unfold n', n. f_equal. apply first_seg. }
  unfold append_seg. rewrite Em. set (d := n / D) in *.
  assert (Hd1 : d * D <= n < (d + 1) * D).
  { subst d. pose proof (Z.div_mod n D ltac:(lia)). pose proof (Z.mod_pos_bound n D HD). nia. }
  assert (Hda : d * D <= a).
  { subst a. unfold head_of. cbv zeta. fold n. fold d. lia. }
  assert (Hlo : stored_lo p d = a) by reflexivity.
  rewrite asub_end by lia. rewrite !asub_t0, !date_mul, !midnight_eq, Hday, Had.
  replace (d * D * delta c + D * delta c - delta c) with (((d + 1) * D - 1) * delta c) by ring.
  assert (Hpd : forall d', d' < d -> (d' + 1) * D <= d * D) by (intros; nia).
  assert (Hpd2 : forall d', d < d' -> (d + 1) * D <= d' * D) by (intros; nia).
  destruct (Z.eqb_spec ((n' - 1) * delta c) (((d + 1) * D - 1) * delta c)) as [E|E].
  - (* the block ends with the last sample of the day *)
    assert (E1 : n' = (d + 1) * D) by nia.
    cbn [bind]. unfold write at 1. cbn [t0 asub]. cbn [bind fst snd written].
    rewrite andb_false_r. eexists. split; [reflexivity|].
    assert (Eh : head_of p (R ++ B) = n').
    { unfold head_of. cbv zeta. rewrite En', E1, Z.div_mul by lia. lia. }
    unfold inv. cbn [fst snd stream written]. rewrite En', Eh, Z.ltb_irrefl, Z.eqb_refl.
    split; [reflexivity|]. split; [|intros _; symmetry; apply orb_true_r].
    intros d'. rewrite date_mul, Had. unfold after. rewrite En'. unfold day_file.
    destruct (Z.eqb_spec d' d) as [->|Hne].
    + rewrite (proj2 (Z.leb_le ((d + 1) * D) n')) by lia. rewrite orb_true_r.
      unfold stored_hi. rewrite En', Hlo. rewrite Z.min_l by lia.
      rewrite (proj2 (Z.ltb_lt a n')) by lia. reflexivity.
    + rewrite Hf. unfold after. fold n. unfold day_file, stored_hi. rewrite En'. fold n.
      destruct (Z.lt_ge_cases d' d) as [Hlt|Hge].
      * pose proof (Hpd _ Hlt). rewrite !(proj2 (Z.leb_le _ _)) by lia. rewrite !orb_true_r.
        rewrite !Z.min_r by lia. unfold stored_lo.
        destruct (Z.ltb_spec (Z.max p (d' * D)) ((d' + 1) * D)); [|reflexivity].
        rewrite asub_app; [reflexivity|lia|fold n; lia].
      * pose proof (Hpd2 d' ltac:(lia)). rewrite !Z.min_l by lia. unfold stored_lo.
        rewrite !(proj2 (Z.ltb_ge _ _)) by lia. repeat match goal with |- context [if ?b then fs0 ?x else fs0 ?x] => destruct b end; reflexivity.
  - assert (E1 : n' <> (d + 1) * D) by nia.
    destruct (Z.eqb_spec d ((n' - 1) / D)) as [Ed|Ed]; cbn [negb].
    + (* still the same day *)
      assert (Hn' : n' < (d + 1) * D).
      { pose proof (Z.div_mod (n' - 1) D ltac:(lia)). pose proof (Z.mod_pos_bound (n' - 1) D HD). nia. }
      assert (Eh : head_of p (R ++ B) = a).
      { unfold head_of. cbv zeta. rewrite En'.
        assert (n' / D = d) by (symmetry; apply Z.div_unique with (n' - d * D); lia). rewrite H. reflexivity. }
      cbn [bind fst snd written stream]. rewrite andb_true_r. destruct cw.
      * unfold write. cbn [t0 asub bind]. eexists. split; [reflexivity|].
        unfold inv. cbn [fst snd stream written]. rewrite En', Eh.
        rewrite (proj2 (Z.ltb_lt a n')) by lia. split; [reflexivity|]. split; [|reflexivity].
        intros d'. rewrite date_mul, Had. unfold after. rewrite En'. unfold day_file. cbn [orb].
        destruct (Z.eqb_spec d' d) as [->|Hne].
        -- unfold stored_hi. rewrite En', Hlo, Z.min_l by lia. rewrite (proj2 (Z.ltb_lt a n')) by lia. reflexivity.
        -- rewrite Hf. unfold after. cbn [orb]. unfold day_file, stored_hi. rewrite En'. fold n.
           destruct (Z.lt_ge_cases d' d) as [Hlt|Hge].
           ++ pose proof (Hpd _ Hlt). rewrite !Z.min_r by lia. unfold stored_lo.
              destruct (Z.ltb_spec (Z.max p (d' * D)) ((d' + 1) * D)); [|reflexivity].
              rewrite asub_app; [reflexivity|lia|fold n; lia].
           ++ pose proof (Hpd2 d' ltac:(lia)). rewrite !Z.min_l by lia. unfold stored_lo.
              rewrite !(proj2 (Z.ltb_ge _ _)) by lia. reflexivity.
      * eexists. split; [reflexivity|].
        unfold inv. cbn [fst snd stream written]. rewrite En', Eh.
        rewrite (proj2 (Z.ltb_lt a n')) by lia. rewrite (proj2 (Z.eqb_neq a n')) by lia.
        split; [reflexivity|]. split; [|reflexivity].
        intros d'. rewrite Hf. unfold after. rewrite En'. fold n. cbn [orb].
        destruct (Z.lt_ge_cases d' d) as [Hlt|Hge].
        -- pose proof (Hpd _ Hlt). rewrite !(proj2 (Z.leb_le _ _)) by lia.
           unfold day_file, stored_hi. rewrite En'. fold n. rewrite !Z.min_r by lia. unfold stored_lo.
           destruct (Z.ltb_spec (Z.max p (d' * D)) ((d' + 1) * D)); [|reflexivity].
           rewrite asub_app; [reflexivity|lia|fold n; lia].
        -- assert ((d + 1) * D <= (d' + 1) * D) by nia. rewrite !(proj2 (Z.leb_gt _ _)) by lia. reflexivity.
    + (* midnight passed inside the block *)
      assert (Hn' : (d + 1) * D < n' < (d + 2) * D).
      { split; [|lia]. destruct (Z.lt_trichotomy n' ((d + 1) * D)) as [H1|[H1|H1]]; try lia.
        exfalso. apply Ed. apply Z.div_unique with (n' - 1 - d * D); lia. }
      assert (Ed1 : (n' - 1) / D = d + 1) by (symmetry; apply Z.div_unique with (n' - 1 - (d + 1) * D); lia).
      rewrite Ed1. set (m := (d + 1) * D) in *.
      unfold slice. replace (m * delta c - delta c) with ((m - 1) * delta c) by ring.
      replace ((m - 1) * delta c + delta c) with (m * delta c) by ring.
      rewrite (proj2 (Z.ltb_ge ((m - 1) * delta c) (a * delta c))) by (apply Z.mul_le_mono_nonneg_r; lia).
      cbn [bind keep_some flat_map app]. unfold trim_both.
      change (mk_seg (a * delta c) (cut (a - p) (n' - p) (R ++ B))) with (asub p (R ++ B) a n').
      rewrite !trim_left_asub by lia. rewrite Z.leb_refl.
      rewrite trim_right_asub by lia. rewrite (proj2 (Z.leb_gt m a)) by lia. rewrite Z.min_l by lia.
      rewrite (proj2 (Z.ltb_lt m n')) by lia. cbn [app].
      unfold write at 1. cbn [t0 asub bind fst snd written stream].
      change (mk_seg (a * delta c) (cut (a - p) (m - p) (R ++ B))) with (asub p (R ++ B) a m).
      change (mk_seg (m * delta c) (cut (m - p) (n' - p) (R ++ B))) with (asub p (R ++ B) m n').
      assert (Eh : head_of p (R ++ B) = m).
      { unfold head_of. cbv zeta. rewrite En'.
        assert (n' / D = d + 1) by (symmetry; apply Z.div_unique with (n' - (d + 1) * D); lia).
        rewrite H. fold m. lia. }
      assert (Hcl : forall d', d' <> d -> d' <> d + 1 -> fs d' = after cw fs0 p (R ++ B) d').
      { intros d' H1 H2. rewrite Hf. unfold after. rewrite En'. fold n.
        unfold day_file, stored_hi. rewrite En'. fold n. unfold stored_lo.
        destruct (Z.lt_ge_cases d' d) as [Hlt|Hge].
        - pose proof (Hpd _ Hlt). rewrite !(proj2 (Z.leb_le _ _)) by lia. rewrite !orb_true_r. rewrite !Z.min_r by lia.
          destruct (Z.ltb_spec (Z.max p (d' * D)) ((d' + 1) * D)); [|reflexivity].
          rewrite asub_app; [reflexivity|lia|fold n; lia].
        - assert (m + D <= d' * D) by (subst m; nia). rewrite !Z.min_l by lia.
          rewrite !(proj2 (Z.ltb_ge _ _)) by lia. repeat match goal with |- context [if ?b then fs0 ?x else fs0 ?x] => destruct b end; reflexivity. }
      assert (Hcd : Some [asub p (R ++ B) a m] = after cw fs0 p (R ++ B) d).
      { unfold after. rewrite En'. fold m. rewrite (proj2 (Z.leb_le m n')) by lia. rewrite orb_true_r.
        unfold day_file, stored_hi. rewrite En', Hlo. fold m. rewrite Z.min_r by lia.
        rewrite (proj2 (Z.ltb_lt a m)) by lia. reflexivity. }
      assert (Hlo1 : stored_lo p (d + 1) = m) by (unfold stored_lo; fold m; lia).
      assert (Hhi1 : stored_hi p (R ++ B) (d + 1) = n') by (unfold stored_hi; rewrite En'; lia).
      rewrite andb_true_r. destruct cw.
      * unfold write. cbn [t0 asub bind]. eexists. split; [reflexivity|].
        unfold inv. cbn [fst snd stream written]. rewrite En', Eh.
        rewrite (proj2 (Z.ltb_lt m n')) by lia. split; [reflexivity|]. split; [|reflexivity].
        intros d'. rewrite !date_mul, Had. replace (m / D) with (d + 1) by (subst m; symmetry; apply Z.div_mul; lia).
        destruct (Z.eqb_spec d' (d + 1)) as [->|H1].
        -- unfold after. cbn [orb]. unfold day_file. rewrite Hlo1, Hhi1, (proj2 (Z.ltb_lt m n')) by lia. reflexivity.
        -- destruct (Z.eqb_spec d' d) as [->|H2]; [exact Hcd|apply Hcl; assumption].
      * eexists. split; [reflexivity|].
        unfold inv. cbn [fst snd stream written]. rewrite En', Eh.
        rewrite (proj2 (Z.ltb_lt m n')), (proj2 (Z.eqb_neq m n')) by lia. split; [reflexivity|]. split; [|reflexivity].
        intros d'. rewrite !date_mul, Had.
        destruct (Z.eqb_spec d' d) as [->|H2]; [exact Hcd|].
        destruct (Z.eqb_spec d' (d + 1)) as [->|H1]; [|apply Hcl; assumption].
        rewrite Hf. unfold after. rewrite En'. fold n. cbn [orb].
        rewrite !(proj2 (Z.leb_gt _ _)) by lia. reflexivity.
Qed.

Lemma appends_ok cw fs0 p : forall l R st,
  inv cw fs0 p R st -> consecutive c ((p + Z.of_nat (length R)) * delta c) l ->
  exists st', appends c cw (fst st) (snd st) l = Ret st' /\ inv cw fs0 p (R ++ flat_map rows l) st'.
Proof.
  induction l as [|g l IH]; intros R st Hi Hc.
  - exists st. cbn. rewrite app_nil_r. split; [destruct st; reflexivity|assumption].
  - destruct g as [tg B]. cbn [consecutive t0 rows] in Hc. destruct Hc as (-> & HB & HBD & Hc).
    assert (HBD' : Z.of_nat (length B) <= D).
    { unfold day in Hday. rewrite Hday in HBD. apply Z.mul_le_mono_pos_r in HBD; assumption. }
    destruct (append_step cw fs0 p R st B Hi HB HBD') as (st1 & E1 & I1).
    cbn [appends]. rewrite E1. cbn [bind flat_map rows]. rewrite app_assoc. apply IH; [assumption|].
    rewrite app_length. replace (p + Z.of_nat (length R + length B)) with (p + Z.of_nat (length R) + Z.of_nat (length B)) by lia.
    rewrite Z.mul_add_distr_r. exact Hc.
Qed.

Lemma inv_new cw fs0 p : inv cw fs0 p [] (fs0, new_scanmseed).
Proof.
  unfold inv. cbn [fst snd new_scanmseed stream written length]. cbv zeta.
  assert (E : head_of p [] = p + Z.of_nat 0).
  { pose proof (head_bounds p []). cbn [length] in *. lia. }
  rewrite E, Z.ltb_irrefl. split; [reflexivity|]. split; [|intros H; contradiction].
  intros d. unfold after, day_file, stored_hi, stored_lo. cbn [length].
  rewrite (proj2 (Z.ltb_ge _ _)) by lia. destruct (_ || _); reflexivity.
Qed.

Lemma detect_run_ok cw fs0 p l : l <> [] -> consecutive c (p * delta c) l ->
  exists fs', detect_run c cw fs0 l = Ret fs' /\ forall d, fs' d = after true fs0 p (flat_map rows l) d.
Proof.
  intros Hl Hc.
  destruct (appends_ok cw fs0 p l [] (fs0, new_scanmseed) (inv_new cw fs0 p)) as ([fs o] & E & Hs & Hf & Hw).
  { cbn [length]. rewrite Z.add_0_r. exact Hc. }
  cbn [fst snd app] in *. set (R := flat_map rows l) in *.
  assert (HR : R <> []).
  { subst R. destruct l as [|g l]; [contradiction|]. cbn in Hc |- *. destruct Hc as (_ & HB & _).
    destruct (rows g); [contradiction|discriminate]. }
  specialize (Hw HR). unfold detect_run. rewrite E. cbn [bind fst snd].
  pose proof (head_bounds p R) as Ha. pose proof (head_date p R) as Had.
  assert (HR1 : 1 <= Z.of_nat (length R)) by (destruct R; [contradiction|cbn; lia]).
  set (n := p + Z.of_nat (length R)) in *. set (a := head_of p R) in *. cbv zeta in Hs, Hw. fold n a in Hs, Hw.
  assert (Hd1 : n / D * D <= n < (n / D + 1) * D).
  { pose proof (Z.div_mod n D ltac:(lia)). pose proof (Z.mod_pos_bound n D HD). nia. }
  assert (Hda : n / D * D <= a) by (subst a; unfold head_of; cbv zeta; fold n; lia).
  set (d0 := n / D) in *.
  assert (Hlow : forall d, d <> d0 \/ a = n -> after cw fs0 p R d = after true fs0 p R d).
  { intros d Hd. unfold after. fold n. cbn [orb]. destruct (Z.leb_spec ((d + 1) * D) n) as [H|H]; [rewrite orb_true_r; reflexivity|].
    unfold day_file, stored_lo, stored_hi. fold n.
    destruct (Z.lt_trichotomy d d0) as [H1|[H1|H1]].
    - assert ((d + 1) * D <= d0 * D) by nia. lia.
    - subst d. rewrite Z.min_l by lia. destruct Hd as [Hd|Hd]; [congruence|].
      rewrite (proj2 (Z.ltb_ge _ _)) by (subst a; unfold head_of in Hd; cbv zeta in Hd; fold n in Hd; fold d0 in Hd; lia).
      destruct cw; reflexivity.
    - assert ((d0 + 1) * D <= d * D) by nia. rewrite Z.min_l by lia.
      rewrite (proj2 (Z.ltb_ge _ _)) by lia. destruct cw; reflexivity. }
  destruct (written o) eqn:Ew.
  - exists fs. split; [reflexivity|]. intros d. rewrite Hf. destruct cw; [reflexivity|]. apply Hlow. cbn [orb] in Hw.
    symmetry in Hw. apply Z.eqb_eq in Hw. right. exact Hw.
  - symmetry in Hw. apply orb_false_iff in Hw. destruct Hw as [-> Hw]. apply Z.eqb_neq in Hw.
    rewrite Hs. rewrite (proj2 (Z.ltb_lt a n)) by lia. unfold write. rewrite asub_t0. eexists. split; [reflexivity|].
    intros d. cbn beta. rewrite date_mul, Had. destruct (Z.eqb_spec d d0) as [->|Hne].
    + unfold after. cbn [orb]. unfold day_file, stored_lo, stored_hi. fold n. rewrite Z.min_l by lia.
      change (Z.max p (d0 * D)) with a. rewrite (proj2 (Z.ltb_lt a n)) by lia. reflexivity.
    + rewrite Hf. apply Hlow. left. exact Hne.
Qed.

(** * In terms of samples *)
Lemma run_samples_eq : forall (l : list (seg A)) t, consecutive c t l -> run_samples c l = samples_from (delta c) t (flat_map rows l).
Proof.
  induction l as [|g l IH]; intros t Hc; [reflexivity|]. cbn [consecutive] in Hc. destruct Hc as (Et & _ & _ & Hc).
  unfold run_samples in *. cbn [flat_map]. rewrite samples_from_app. unfold samples at 1. rewrite Et. f_equal.
  apply IH. exact Hc.
Qed.

Lemma on_date_eq p (R : list A) d :
  on_date c d (samples_from (delta c) (p * delta c) R) = file_samples c (day_file p R d).
Proof.
  unfold on_date. unfold day in Hday. rewrite Hday.
  assert (Hk : forall k, ((p * delta c + k * delta c) / (D * delta c) =? d) = ((d * D <=? p + k) && (p + k <? (d + 1) * D))).
  { intros k. rewrite <- Z.mul_add_distr_r, Z.div_mul_cancel_r by lia.
    pose proof (Z.div_mod (p + k) D ltac:(lia)). pose proof (Z.mod_pos_bound (p + k) D HD).
    set (q := (p + k) / D) in *. set (r := (p + k) mod D) in *.
    destruct (Z.eqb_spec q d) as [->|Hne].
    - rewrite (proj2 (Z.leb_le _ _)), (proj2 (Z.ltb_lt _ _)) by lia. reflexivity.
    - symmetry. apply andb_false_iff. destruct (Z.lt_ge_cases q d).
      + left. apply Z.leb_gt. assert ((q + 1) * D <= d * D) by nia. lia.
      + right. apply Z.ltb_ge. assert ((d + 1) * D <= q * D) by nia. lia. }
  unfold day_file. set (lo := stored_lo p d). set (hi := stored_hi p R d).
  destruct (Z.ltb_spec lo hi) as [H|H].
  - rewrite (filter_cut (delta c) (p * delta c) R (fun t => t / (D * delta c) =? d) (lo - p) (hi - p)).
    + cbn [file_samples flat_map]. rewrite app_nil_r. unfold samples, asub. cbn [t0 rows]. f_equal. ring.
    + unfold lo, hi, stored_lo, stored_hi in *. lia.
    + unfold lo, hi, stored_lo, stored_hi in *. lia.
    + intros k Hkr. rewrite Hk. unfold lo, hi, stored_lo, stored_hi in *.
      destruct (Z.leb_spec (d * D) (p + k)), (Z.ltb_spec (p + k) ((d + 1) * D)); cbn [andb]; lia.
  - cbn [file_samples]. apply filter_none. intros x Hx. apply samples_from_range in Hx. destruct Hx as (k & Hkr & ->).
    rewrite Hk. unfold lo, hi, stored_lo, stored_hi in H.
    destruct (Z.leb_spec (d * D) (p + k)), (Z.ltb_spec (p + k) ((d + 1) * D)); cbn [andb]; lia.
Qed.

Lemma file_samples_day_file_nonempty p R d f : day_file p R d = Some f -> file_samples c (Some f) <> [].
Proof.
  unfold day_file. destruct (Z.ltb_spec (stored_lo p d) (stored_hi p R d)) as [H|H]; [|discriminate].
  intros [= <-]. cbn [file_samples flat_map]. rewrite app_nil_r. unfold samples.
  pose proof (asub_len p R (stored_lo p d) (stored_hi p R d)) as L. unfold seg_len in L.
  unfold stored_lo, stored_hi in *. specialize (L ltac:(lia) ltac:(lia)).
  destruct (rows (asub p R _ _)) eqn:E; [cbn in L; lia|discriminate].
Qed.

(** [after] says: the file of a date holds the run's samples of that date, or is untouched. *)
Lemma after_spec fs0 p l d : consecutive c (p * delta c) l ->
  let all := run_samples c l in
  (on_date c d all <> [] -> file_samples c (after true fs0 p (flat_map rows l) d) = on_date c d all)
  /\ (on_date c d all = [] -> after true fs0 p (flat_map rows l) d = fs0 d).
Proof.
  intros Hc all. subst all. rewrite (run_samples_eq _ _ Hc), on_date_eq. unfold after. cbn [orb].
  destruct (day_file p (flat_map rows l) d) eqn:E.
  - split; [reflexivity|]. intros H. exfalso. eapply file_samples_day_file_nonempty; eassumption.
  - split; [intros H; contradiction|reflexivity].
Qed.

(** * Reading back *)
Definition piece (p : Z) (R : list A) (b e d : Z) : list (seg A) :=
  let lo := Z.max b (stored_lo p d) in let hi := Z.min e (stored_hi p R d) in
  if lo <? hi then [asub p R lo hi] else [].

Lemma trim_day_file p R b e d :
  match day_file p R d with
  | Some st => keep_some (trim_both c (b * delta c) ((e - 1) * delta c)) st
  | None => []
  end = piece p R b e d.
Proof.
  unfold day_file, piece. cbv zeta. set (lo := stored_lo p d). set (hi := stored_hi p R d).
  assert (Hlo : p <= lo) by (subst lo; unfold stored_lo; lia).
  assert (Hhi : hi <= p + Z.of_nat (length R)) by (subst hi; unfold stored_hi; lia).
  destruct (Z.ltb_spec lo hi) as [H|H].
  - cbn [keep_some flat_map]. unfold trim_both. rewrite app_nil_r, trim_left_asub by lia.
    destruct (Z.leb_spec b lo).
    + rewrite trim_right_asub by lia. rewrite Z.max_r by lia.
      destruct (Z.leb_spec e lo).
      * rewrite (proj2 (Z.ltb_ge _ _)) by lia. reflexivity.
      * rewrite (proj2 (Z.ltb_lt _ _)) by lia. reflexivity.
    + destruct (Z.ltb_spec b hi).
      * rewrite trim_right_asub by lia. rewrite Z.max_l by lia.
        destruct (Z.leb_spec e b).
        -- rewrite (proj2 (Z.ltb_ge _ _)) by lia. reflexivity.
        -- rewrite (proj2 (Z.ltb_lt _ _)) by lia. reflexivity.
      * rewrite (proj2 (Z.ltb_ge _ _)) by lia. reflexivity.
  - rewrite (proj2 (Z.ltb_ge _ _)) by lia. reflexivity.
Qed.

Lemma insert_last (s : seg A) l : Forall (fun g => t0 g <= t0 s) l -> insert_seg s l = l ++ [s].
Proof.
  induction 1 as [|g l Hg _ IH]; [reflexivity|]. cbn. rewrite (proj2 (Z.ltb_ge _ _)) by lia. rewrite IH. reflexivity.
Qed.
Lemma sort_sorted (l : list (seg A)) : ForallOrdPairs (fun g h => t0 g <= t0 h) l -> sort_segs l = l.
Proof.
  unfold sort_segs. intros H.
  enough (G : forall l acc : list (seg A), ForallOrdPairs (fun g h => t0 g <= t0 h) l ->
            Forall (fun g => Forall (fun h => t0 g <= t0 h) l) acc ->
            fold_left (fun acc s => insert_seg s acc) l acc = acc ++ l).
  { apply (G l []); [assumption|constructor]. }
  clear. induction l as [|s l IH]; intros acc Hl Ha; cbn [fold_left]; [symmetry; apply app_nil_r|].
  inversion Hl; subst. rewrite insert_last.
  - rewrite IH; [rewrite <- app_assoc; reflexivity|assumption|].
    apply Forall_app. split; [|constructor; [assumption|constructor]].
    eapply Forall_impl; [|exact Ha]. cbn. intros g Hg. inversion Hg; assumption.
  - eapply Forall_impl; [|exact Ha]. cbn. intros g Hg. inversion Hg; assumption.
Qed.

Lemma pieces_sorted p R b e : forall n d,
  ForallOrdPairs (fun g h : seg A => t0 g <= t0 h) (flat_map (piece p R b e) (zseq d n))
  /\ Forall (fun g => Z.max p (Z.max b (d * D)) * delta c <= t0 g) (flat_map (piece p R b e) (zseq d n)).
Proof.
  induction n as [|n IH]; intros d; [split; constructor|]. cbn [zseq flat_map].
  destruct (IH (d + 1)) as [I1 I2].
  assert (I3 : Forall (fun g => Z.max p (Z.max b (d * D)) * delta c <= t0 g) (flat_map (piece p R b e) (zseq (d + 1) n))).
  { eapply Forall_impl; [|exact I2]. cbn. intros g Hg.
    assert (Z.max p (Z.max b (d * D)) * delta c <= Z.max p (Z.max b ((d + 1) * D)) * delta c)
      by (apply Z.mul_le_mono_nonneg_r; nia). lia. }
  unfold piece at 1 3. cbv zeta. destruct (Z.ltb_spec (Z.max b (stored_lo p d)) (Z.min e (stored_hi p R d))) as [H|H]; cbn [app].
  - assert (E : Z.max b (stored_lo p d) = Z.max p (Z.max b (d * D))) by (unfold stored_lo; lia).
    split; [|constructor; [rewrite asub_t0, E; lia|exact I3]].
    constructor; [|exact I1]. eapply Forall_impl; [|exact I3]. cbn beta. intros g Hg. rewrite asub_t0, E. exact Hg.
  - split; assumption.
Qed.

Lemma pieces_join p R b e : forall n d,
  fold_right (join_cons c) [] (flat_map (piece p R b e) (zseq d n))
  = let lo := Z.max b (Z.max p (d * D)) in
    let hi := Z.min e (Z.min (p + Z.of_nat (length R)) ((d + Z.of_nat n) * D)) in
    if lo <? hi then [asub p R lo hi] else [].
Proof.
  induction n as [|n IH]; intros d; cbn [zseq flat_map].
  - cbv zeta. rewrite (proj2 (Z.ltb_ge _ _)) by lia. reflexivity.
  - rewrite fold_right_app, IH. clear IH. cbv zeta.
    replace (d + 1 + Z.of_nat n) with (d + Z.of_nat (S n)) by lia.
    unfold piece, stored_lo, stored_hi. cbv zeta.
    assert (Hm1 : d * D < (d + 1) * D) by nia.
    assert (Hm2 : (d + 1) * D <= (d + Z.of_nat (S n)) * D) by nia.
    set (N := p + Z.of_nat (length R)) in *. set (m0 := d * D) in *. set (m1 := (d + 1) * D) in *. set (m2 := (d + Z.of_nat (S n)) * D) in *.
    destruct (Z.ltb_spec (Z.max b (Z.max p m0)) (Z.min e (Z.min N m1))) as [H|H]; cbn [fold_right].
    + destruct (Z.ltb_spec (Z.max b (Z.max p m1)) (Z.min e (Z.min N m2))) as [H1|H1]; cbn [join_cons].
      * rewrite !asub_t0. rewrite asub_end by (fold N; lia).
        replace ((Z.min e (Z.min N m1) - 1) * delta c + delta c) with (Z.min e (Z.min N m1) * delta c) by ring.
        replace (Z.max b (Z.max p m1)) with m1 by lia. replace (Z.min e (Z.min N m1)) with m1 by lia.
        rewrite Z.eqb_refl. rewrite (proj2 (Z.ltb_lt _ _)) by lia.
        unfold asub. cbn [rows]. rewrite cut_join; [reflexivity|lia|lia|lia].
      * rewrite (proj2 (Z.ltb_lt _ _)) by lia. do 2 f_equal. lia.
    + destruct (Z.ltb_spec (Z.max b (Z.max p m1)) (Z.min e (Z.min N m2))) as [H1|H1].
      * replace (Z.max b (Z.max p m0)) with (Z.max b (Z.max p m1)) by lia.
        rewrite (proj2 (Z.ltb_lt _ _)) by lia. reflexivity.
      * rewrite (proj2 (Z.ltb_ge _ _)) by lia. reflexivity.
Qed.

Lemma flat_map_ext_in {X Y} (f g : X -> list Y) l : (forall x, In x l -> f x = g x) -> flat_map f l = flat_map g l.
Proof.
  induction l as [|x l IH]; intros H; [reflexivity|]. cbn. rewrite (H x (or_introl eq_refl)). f_equal.
  apply IH. intros y Hy. apply H. right. exact Hy.
Qed.
Lemma flat_map_zseq_shift {Y} (f : Z -> list Y) d : forall n i,
  flat_map (fun k => f (d + k)) (zseq i n) = flat_map f (zseq (d + i) n).
Proof.
  induction n as [|n IH]; intros i; [reflexivity|]. cbn [zseq flat_map]. rewrite IH. do 2 f_equal. f_equal. lia.
Qed.
Lemma in_zseq' x : forall n i, In x (zseq i n) -> i <= x < i + Z.of_nat n.
Proof.
  induction n as [|n IH]; intros i; cbn [zseq]; [intros []|]. intros [<-|H]; [lia|]. apply IH in H. lia.
Qed.

Lemma between_eq p (R : list A) b e :
  between (b * delta c) ((e - 1) * delta c) (samples_from (delta c) (p * delta c) R)
  = let lo := Z.max b p in let hi := Z.min e (p + Z.of_nat (length R)) in
    if lo <? hi then samples c (asub p R lo hi) else [].
Proof.
  cbv zeta. unfold between.
  assert (Hk : forall k, ((b * delta c <=? p * delta c + k * delta c) && (p * delta c + k * delta c <=? (e - 1) * delta c))
             = ((b <=? p + k) && (p + k <? e))).
  { intros k. rewrite <- Z.mul_add_distr_r. f_equal.
    - destruct (Z.leb_spec b (p + k)) as [H|H].
      + apply Z.leb_le. apply Z.mul_le_mono_nonneg_r; lia.
      + apply Z.leb_gt. apply Z.mul_lt_mono_pos_r; lia.
    - destruct (Z.ltb_spec (p + k) e) as [H|H].
      + apply Z.leb_le. apply Z.mul_le_mono_nonneg_r; lia.
      + apply Z.leb_gt. apply Z.mul_lt_mono_pos_r; lia. }
  destruct (Z.ltb_spec (Z.max b p) (Z.min e (p + Z.of_nat (length R)))) as [H|H].
  - rewrite (filter_cut (delta c) (p * delta c) R (fun t => (b * delta c <=? t) && (t <=? (e - 1) * delta c))
              (Z.max b p - p) (Z.min e (p + Z.of_nat (length R)) - p)).
    + unfold samples, asub. cbn [t0 rows]. f_equal. ring.
    + lia.
    + lia.
    + intros k Hkr. rewrite Hk. destruct (Z.leb_spec b (p + k)), (Z.ltb_spec (p + k) e); cbn [andb]; lia.
  - apply filter_none. intros x Hx. apply samples_from_range in Hx. destruct Hx as (k & Hkr & ->).
    rewrite Hk. destruct (Z.leb_spec b (p + k)), (Z.ltb_spec (p + k) e); cbn [andb]; lia.
Qed.

Lemma read_back fs0 p R fs b e starttime endtime pad :
  (forall d, fs d = after true fs0 p R d) ->
  starttime - pad = b * delta c -> endtime + pad = (e - 1) * delta c ->
  (forall d, date c (starttime - pad) <= d <= date c (endtime + pad) -> day_file p R d = None -> fs0 d = None) ->
  let all := samples_from (delta c) (p * delta c) R in
  let wanted := between (starttime - pad) (endtime + pad) all in
  match read_scanmseed c fs starttime endtime pad with
  | Ret g => samples c g = wanted /\ wanted <> []
  | Raise x => x = NoScanMseedData /\ wanted = []
  | Undef => False
  end.
Proof.
  intros Hfs Es Ee Hnone. cbv zeta. rewrite Es, Ee in *. rewrite !date_mul in Hnone. rewrite between_eq. cbv zeta.
  set (d0 := b / D) in *.
  set (n := Z.to_nat ((e - 1) / D - d0 + 1)).
  assert (E1 : read_files c fs (b * delta c) ((e - 1) * delta c) = flat_map (piece p R b e) (zseq d0 n)).
  { unfold read_files, zrange, days_read. rewrite date_mul, midnight_eq. fold d0.
    replace (((e - 1) * delta c - d0 * D * delta c) / day c) with ((e - 1) / D - d0).
    2:{ rewrite Hday. rewrite <- Z.mul_sub_distr_r, Z.div_mul_cancel_r by lia.
        replace (e - 1 - d0 * D) with (e - 1 + (- d0) * D) by ring. rewrite Z.div_add by lia. ring. }
    fold n. rewrite <- (Z.add_0_r d0) at 1. rewrite <- (flat_map_zseq_shift (piece p R b e) d0 n 0).
    apply flat_map_ext_in. intros k Hk. apply in_zseq' in Hk.
    replace (b * delta c + k * day c) with ((b + k * D) * delta c) by (rewrite Hday; ring).
    rewrite date_mul, Z.div_add by lia. fold d0. rewrite Hfs. rewrite <- trim_day_file. unfold after. cbn [orb].
    destruct (day_file p R (d0 + k)) eqn:Edf; [reflexivity|]. rewrite Hnone; [reflexivity|subst n; lia|assumption]. }
  assert (E2 : merge c (read_files c fs (b * delta c) ((e - 1) * delta c))
             = if Z.max b p <? Z.min e (p + Z.of_nat (length R)) then [asub p R (Z.max b p) (Z.min e (p + Z.of_nat (length R)))] else []).
  { rewrite E1. unfold merge. rewrite sort_sorted by apply pieces_sorted. rewrite pieces_join. cbv zeta.
    assert (Hb : d0 * D <= b) by (subst d0; rewrite Z.mul_comm; apply Z.mul_div_le; lia).
    assert (He : Z.max b p < Z.min e (p + Z.of_nat (length R)) -> e <= (d0 + Z.of_nat n) * D).
    { intros H. assert (d0 <= (e - 1) / D) by (subst d0; apply Z.div_le_mono; lia).
      replace (d0 + Z.of_nat n) with ((e - 1) / D + 1) by lia.
      pose proof (Z.div_mod (e - 1) D ltac:(lia)). pose proof (Z.mod_pos_bound (e - 1) D HD). nia. }
    replace (Z.max b (Z.max p (d0 * D))) with (Z.max b p) by lia.
    destruct (Z.ltb_spec (Z.max b p) (Z.min e (p + Z.of_nat (length R)))) as [H|H].
    - specialize (He H). replace (Z.min e (Z.min (p + Z.of_nat (length R)) ((d0 + Z.of_nat n) * D))) with (Z.min e (p + Z.of_nat (length R))) by lia.
      rewrite (proj2 (Z.ltb_lt _ _)) by lia. reflexivity.
    - rewrite (proj2 (Z.ltb_ge _ _)) by lia. reflexivity. }
  unfold read_scanmseed. rewrite Es, Ee.
  destruct (Z.ltb_spec (Z.max b p) (Z.min e (p + Z.of_nat (length R)))) as [H|H].
  - destruct (read_files c fs (b * delta c) ((e - 1) * delta c)) eqn:E3; [discriminate E2|].
    rewrite E2. split; [reflexivity|].
    pose proof (asub_len p R (Z.max b p) (Z.min e (p + Z.of_nat (length R))) ltac:(lia) ltac:(lia)) as L.
    unfold seg_len in L. unfold samples. destruct (rows (asub p R _ _)); [cbn in L; lia|discriminate].
  - destruct (read_files c fs (b * delta c) ((e - 1) * delta c)) eqn:E3; [split; reflexivity|].
    exfalso. clear - E1 H.
    assert (G : forall k d, flat_map (piece p R b e) (zseq d k) = []).
    { induction k as [|k IH]; intros d; [reflexivity|]. cbn [zseq flat_map]. rewrite IH, app_nil_r.
      unfold piece. cbv zeta. rewrite (proj2 (Z.ltb_ge _ _)); [reflexivity|]. unfold stored_lo, stored_hi. lia. }
    rewrite G in E1. discriminate.
Qed.
End Run.

(** * Encoding *)
Open Scope R_scope.
Lemma Rabs_le_inv x a : Rabs x <= a -> - a <= x <= a.
Proof. unfold Rabs. destruct (Rcase_abs x); lra. Qed.
Lemma np_round_near x : Rabs (IZR (np_round x) - x) <= 1 / 2.
Proof.
  unfold np_round. pose proof (base_Int_part x) as [H1 H2].
  set (f := Int_part x) in *.
  destruct (Rlt_dec (x - IZR f) (1 / 2)); [apply Rabs_le; lra|].
  destruct (Rlt_dec (1 / 2) (x - IZR f)); [rewrite plus_IZR; apply Rabs_le; lra|].
  destruct (Z.even f); [|rewrite plus_IZR]; apply Rabs_le; lra.
Qed.
Lemma np_round_mono x y : x <= y -> (np_round x <= np_round y)%Z.
Proof.
  intros H. pose proof (np_round_near x) as Hx. pose proof (np_round_near y) as Hy.
  destruct (Z.le_gt_cases (np_round x) (np_round y)) as [|G]; [assumption|]. exfalso.
  assert (G' : IZR (np_round y) + 1 <= IZR (np_round x)).
  { rewrite <- plus_IZR. apply IZR_le. lia. }
  apply Rabs_le_inv in Hx. apply Rabs_le_inv in Hy.
  (* both values are the same half-integer *)
  assert (E : x = y) by lra. subst y. lra.
Qed.
Lemma np_round_IZR z : np_round (IZR z) = z.
Proof.
  pose proof (np_round_near (IZR z)) as H. apply Rabs_le_inv in H.
  assert (H1 : IZR (np_round (IZR z)) < IZR (z + 1)) by (rewrite plus_IZR; lra).
  assert (H2 : IZR (z - 1) < IZR (np_round (IZR z))) by (rewrite minus_IZR; lra).
  apply lt_IZR in H1. apply lt_IZR in H2. lia.
Qed.
Lemma data2int_ok x factor : -2147483648 <= x * factor <= 2147483647 ->
  data2int x factor = Some (np_round (x * factor)).
Proof.
  intros [H1 H2]. unfold data2int, int32. set (v := x * factor) in *.
  apply np_round_mono in H1. apply np_round_mono in H2. rewrite np_round_IZR in H1, H2.
  rewrite (proj2 (Z.leb_le _ _)), (proj2 (Z.leb_le _ _)) by assumption. reflexivity.
Qed.
Lemma decode_near x factor : 0 < factor -> Rabs (IZR (np_round (x * factor)) / factor - x) <= 1 / (2 * factor).
Proof.
  intros H. pose proof (np_round_near (x * factor)) as Hn. apply Rabs_le_inv in Hn.
  assert (E : IZR (np_round (x * factor)) / factor - x = (IZR (np_round (x * factor)) - x * factor) / factor) by (field; lra).
  rewrite E. replace (1 / (2 * factor)) with ((1 / 2) / factor) by (field; lra).
  unfold Rdiv at 1. rewrite Rabs_mult, (Rabs_right (/ factor)) by (apply Rle_ge, Rlt_le, Rinv_0_lt_compat; assumption).
  apply Rmult_le_compat_r; [apply Rlt_le, Rinv_0_lt_compat; assumption|]. apply Rabs_le. lra.
Qed.
Lemma clip_coa_range x : 0 <= x -> 0 <= clip_coa x <= 21474.
Proof. intros. unfold clip_coa. destruct (Rlt_dec 21474 x); lra. Qed.
Lemma clip_coa_mono x y : x <= y -> clip_coa x <= clip_coa y.
Proof. intros. unfold clip_coa. destruct (Rlt_dec 21474 x), (Rlt_dec 21474 y); lra. Qed.
