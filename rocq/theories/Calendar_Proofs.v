(** Correctness of the calendar and injectivity of the written forms. *)
From Coq Require Import List ZArith Bool Ascii Lia.
From Verif Require Import Lib LibFacts Calendar_Model Calendar_Spec.
Import ListNotations.
Open Scope Z_scope.

(** * The calendar *)
Definition ymd2n (x : Z * Z * Z) : Z :=
  let '(y, m, d) := x in
  days_before_year y + days_before_month m + (if (2 <? m) && leap y then 1 else 0) + d - 1.

(** The month and day of day [r] of a year, for both kinds of year. *)
Definition month_of (lp : bool) (n : Z) : Z * Z :=
  let month := (n + 50) / 32 in
  let preceding := days_before_month month + (if (2 <? month) && lp then 1 else 0) in
  if n <? preceding then
    let month := month - 1 in
    let preceding := preceding - (days_in_month0 month + (if (month =? 2) && lp then 1 else 0)) in
    (month, n - preceding + 1)
  else (month, n - preceding + 1).
Definition mdays (lp : bool) (m : Z) : Z :=
  if m =? 2 then (if lp then 29 else 28)
  else if (m =? 4) || (m =? 6) || (m =? 9) || (m =? 11) then 30 else 31.
Definition month_ok (lp : bool) (r : Z) : bool :=
  let '(m, d) := month_of lp r in
  (1 <=? m) && (m <=? 12) && (1 <=? d) && (d <=? mdays lp m)
  && (days_before_month m + (if (2 <? m) && lp then 1 else 0) + d - 1 =? r).
Lemma months : forallb (fun r => month_ok true r && month_ok false r) (zrange 365) = true.
Proof. vm_compute. reflexivity. Qed.
Lemma month_of_ok lp r : 0 <= r < 365 -> exists m d, month_of lp r = (m, d) /\
  1 <= m <= 12 /\ 1 <= d <= mdays lp m /\
  days_before_month m + (if (2 <? m) && lp then 1 else 0) + d - 1 = r.
Proof.
  intros Hr. pose proof months as M. rewrite forallb_forall in M.
  specialize (M r (proj2 (in_zrange _ _) Hr)). apply andb_true_iff in M as [M1 M2].
  assert (M : month_ok lp r = true) by (destruct lp; assumption). unfold month_ok in M.
  destruct (month_of lp r) as [m d]. rewrite !andb_true_iff, !Z.leb_le, Z.eqb_eq in M.
  exists m, d. repeat split; lia.
Qed.

(** A year counted in cycles of 400, 100, 4 and 1 years. *)
Section Year.
Variables q a b k : Z.
Hypothesis Ha : 0 <= a <= 3.
Hypothesis Hb : 0 <= b <= 24.
Hypothesis Hk : 0 <= k <= 3.
Lemma dby_split : days_before_year (400 * q + 100 * a + 4 * b + k + 1)
  = 146097 * q + 36524 * a + 1461 * b + 365 * k.
Proof.
  unfold days_before_year. cbv zeta. replace (400 * q + 100 * a + 4 * b + k + 1 - 1) with (400 * q + 100 * a + 4 * b + k) by lia.
  rewrite <- (Z.div_unique (400 * q + 100 * a + 4 * b + k) 4 (100 * q + 25 * a + b) k) by lia.
  rewrite <- (Z.div_unique (400 * q + 100 * a + 4 * b + k) 100 (4 * q + a) (4 * b + k)) by lia.
  rewrite <- (Z.div_unique (400 * q + 100 * a + 4 * b + k) 400 q (100 * a + 4 * b + k)) by lia. lia.
Qed.
Lemma leap_split : leap (400 * q + 100 * a + 4 * b + k + 1)
  = (k =? 3) && (negb (b =? 24) || (a =? 3)).
Proof.
  unfold leap. destruct (Z.eqb_spec k 3) as [->|Hn].
  - rewrite <- (Z.mod_unique (400 * q + 100 * a + 4 * b + 3 + 1) 4 (100 * q + 25 * a + b + 1) 0) by lia.
    destruct (Z.eqb_spec b 24) as [->|Hb'].
    + rewrite <- (Z.mod_unique (400 * q + 100 * a + 4 * 24 + 3 + 1) 100 (4 * q + a + 1) 0) by lia.
      destruct (Z.eqb_spec a 3) as [->|].
      * rewrite <- (Z.mod_unique (400 * q + 100 * 3 + 4 * 24 + 3 + 1) 400 (q + 1) 0) by lia. reflexivity.
      * rewrite <- (Z.mod_unique (400 * q + 100 * a + 4 * 24 + 3 + 1) 400 q (100 * a + 100)) by lia.
        destruct (Z.eqb_spec (100 * a + 100) 0); [lia|reflexivity].
    + rewrite <- (Z.mod_unique (400 * q + 100 * a + 4 * b + 3 + 1) 100 (4 * q + a) (4 * b + 4)) by lia.
      destruct (Z.eqb_spec (4 * b + 4) 0); [lia|reflexivity].
  - rewrite <- (Z.mod_unique (400 * q + 100 * a + 4 * b + k + 1) 4 (100 * q + 25 * a + b) (k + 1)) by lia.
    destruct (Z.eqb_spec (k + 1) 0); [lia|]. reflexivity.
Qed.
End Year.

Lemma month_days_mdays y m : month_days y m = mdays (leap y) m.
Proof. reflexivity. Qed.

Lemma ord2ymd_ok n0 : valid_date (ord2ymd n0) /\ ymd2n (ord2ymd n0) = n0.
Proof.
  unfold ord2ymd. cbv zeta.
  set (q := n0 / 146097). set (r0 := n0 mod 146097).
  set (a := r0 / 36524). set (r1 := r0 mod 36524).
  set (b := r1 / 1461). set (r2 := r1 mod 1461). set (k := r2 / 365). set (r := r2 mod 365).
  assert (E0 : n0 = 146097 * q + r0) by (apply Z.div_mod; lia).
  assert (E1 : r0 = 36524 * a + r1) by (apply Z.div_mod; lia).
  assert (E2 : r1 = 1461 * b + r2) by (apply Z.div_mod; lia).
  assert (E3 : r2 = 365 * k + r) by (apply Z.div_mod; lia).
  assert (B0 : 0 <= r0 < 146097) by (apply Z.mod_pos_bound; lia).
  assert (B1 : 0 <= r1 < 36524) by (apply Z.mod_pos_bound; lia).
  assert (B2 : 0 <= r2 < 1461) by (apply Z.mod_pos_bound; lia).
  assert (B3 : 0 <= r < 365) by (apply Z.mod_pos_bound; lia).
  clearbody q r0 a r1 b r2 k r.
  destruct ((k =? 4) || (a =? 4)) eqn:Esp.
  - apply orb_true_iff in Esp. rewrite !Z.eqb_eq in Esp.
    assert (X : exists a' b', q * 400 + 1 + a * 100 + b * 4 + k - 1 = 400 * q + 100 * a' + 4 * b' + 3 + 1
              /\ 0 <= a' <= 3 /\ 0 <= b' <= 24 /\ (b' = 24 -> a' = 3)
              /\ n0 = 146097 * q + 36524 * a' + 1461 * b' + 365 * 3 + 365).
    { destruct (Z.eq_dec a 4) as [->|Hne].
      - exists 3, 24. lia.
      - destruct Esp as [->|]; [|lia]. exists a, b. lia. }
    destruct X as (a' & b' & Ey & Ba & Bb & Hl & En). rewrite Ey.
    assert (L : leap (400 * q + 100 * a' + 4 * b' + 3 + 1) = true).
    { rewrite leap_split by lia. change (3 =? 3) with true.
      destruct (Z.eqb_spec b' 24) as [Eb|]; [|reflexivity]. rewrite (Hl Eb). reflexivity. }
    unfold valid_date, ymd2n, month_days. rewrite L, dby_split by lia.
    change (12 =? 2) with false. change ((12 =? 4) || (12 =? 6) || (12 =? 9) || (12 =? 11)) with false.
    change (days_before_month 12) with 334. change ((2 <? 12) && true) with true. cbv iota. lia.
  - apply orb_false_iff in Esp as [Ek Ea]. apply Z.eqb_neq in Ek, Ea.
    assert (Ba : 0 <= a <= 3) by lia. assert (Bb : 0 <= b <= 24) by lia. assert (Bk : 0 <= k <= 3) by lia.
    destruct (month_of_ok ((k =? 3) && (negb (b =? 24) || (a =? 3))) r B3) as (m & d & Em & Hm & Hd & Es).
    unfold month_of in Em. cbv zeta in Em.
    assert (Hg : forall v : Z, (if r <? days_before_month ((r + 50) / 32)
        + (if (2 <? (r + 50) / 32) && ((k =? 3) && (negb (b =? 24) || (a =? 3))) then 1 else 0)
      then (v, (r + 50) / 32 - 1, r - (days_before_month ((r + 50) / 32)
        + (if (2 <? (r + 50) / 32) && ((k =? 3) && (negb (b =? 24) || (a =? 3))) then 1 else 0)
        - (days_in_month0 ((r + 50) / 32 - 1)
        + (if ((r + 50) / 32 - 1 =? 2) && ((k =? 3) && (negb (b =? 24) || (a =? 3))) then 1 else 0))) + 1)
      else (v, (r + 50) / 32, r - (days_before_month ((r + 50) / 32)
        + (if (2 <? (r + 50) / 32) && ((k =? 3) && (negb (b =? 24) || (a =? 3))) then 1 else 0)) + 1))
      = (v, m, d)).
    { intros v. destruct (r <? _); congruence. }
    rewrite Hg. clear Hg.
    replace (q * 400 + 1 + a * 100 + b * 4 + k) with (400 * q + 100 * a + 4 * b + k + 1) by lia.
    unfold valid_date, ymd2n. rewrite month_days_mdays, leap_split, dby_split by lia. lia.
Qed.

Lemma twelve m : 1 <= m <= 12 -> m = 1 \/ m = 2 \/ m = 3 \/ m = 4 \/ m = 5 \/ m = 6 \/ m = 7
  \/ m = 8 \/ m = 9 \/ m = 10 \/ m = 11 \/ m = 12.
Proof. lia. Qed.
Lemma year_step y : days_before_year (y + 1) = days_before_year y + (if leap y then 366 else 365).
Proof.
  pose proof (Z.div_mod (y - 1) 400 ltac:(lia)) as E0. pose proof (Z.mod_pos_bound (y - 1) 400 ltac:(lia)) as B0.
  set (q := (y - 1) / 400) in *. set (r0 := (y - 1) mod 400) in *.
  pose proof (Z.div_mod r0 100 ltac:(lia)) as E1. pose proof (Z.mod_pos_bound r0 100 ltac:(lia)) as B1.
  set (a := r0 / 100) in *. set (r1 := r0 mod 100) in *.
  pose proof (Z.div_mod r1 4 ltac:(lia)) as E2. pose proof (Z.mod_pos_bound r1 4 ltac:(lia)) as B2.
  set (b := r1 / 4) in *. set (k := r1 mod 4) in *. clearbody q r0 a r1 b k.
  replace y with (400 * q + 100 * a + 4 * b + k + 1) by lia.
  rewrite leap_split by lia. rewrite (dby_split q a b k) by lia.
  destruct (Z.eqb_spec k 3) as [->|].
  - destruct (Z.eqb_spec b 24) as [->|].
    + destruct (Z.eqb_spec a 3) as [->|].
      * replace (400 * q + 100 * 3 + 4 * 24 + 3 + 1 + 1) with (400 * (q + 1) + 100 * 0 + 4 * 0 + 0 + 1) by lia.
        rewrite dby_split by lia. cbn [andb orb negb]. lia.
      * replace (400 * q + 100 * a + 4 * 24 + 3 + 1 + 1) with (400 * q + 100 * (a + 1) + 4 * 0 + 0 + 1) by lia.
        rewrite dby_split by lia. cbn [andb orb negb]. lia.
    + replace (400 * q + 100 * a + 4 * b + 3 + 1 + 1) with (400 * q + 100 * a + 4 * (b + 1) + 0 + 1) by lia.
      rewrite dby_split by lia. cbn [andb orb negb]. lia.
  - replace (400 * q + 100 * a + 4 * b + k + 1 + 1) with (400 * q + 100 * a + 4 * b + (k + 1) + 1) by lia.
    rewrite dby_split by lia. cbn [andb orb negb]. lia.
Qed.
Definition yday (lp : bool) (m d : Z) : Z := days_before_month m + (if (2 <? m) && lp then 1 else 0) + d - 1.
Lemma ymd2n_yday y m d : ymd2n (y, m, d) = days_before_year y + yday (leap y) m d.
Proof. unfold ymd2n, yday. lia. Qed.
Lemma yday_next lp m : 1 <= m < 12 ->
  yday lp (m + 1) 1 = yday lp m (mdays lp m) + 1 /\ 1 <= mdays lp (m + 1).
Proof.
  intros Hm. destruct (twelve m ltac:(lia)) as [->|[->|[->|[->|[->|[->|[->|[->|[->|[->|[->| ->]]]]]]]]]]]; try lia;
    destruct lp; vm_compute; split; congruence.
Qed.
Lemma yday_step lp m d : yday lp m (d + 1) = yday lp m d + 1.
Proof. unfold yday. lia. Qed.
Lemma ymd2n_next x : valid_date x -> ymd2n (next_date x) = ymd2n x + 1 /\ valid_date (next_date x).
Proof.
  destruct x as [[y m] d]. unfold valid_date at 1. intros [Hm Hd]. unfold next_date.
  rewrite month_days_mdays in *.
  destruct (Z.ltb_spec d (mdays (leap y) m)).
  - rewrite !ymd2n_yday, yday_step. unfold valid_date. rewrite month_days_mdays. lia.
  - assert (d = mdays (leap y) m) by lia. subst d. destruct (Z.ltb_spec m 12).
    + destruct (yday_next (leap y) m ltac:(lia)). rewrite !ymd2n_yday. unfold valid_date. rewrite month_days_mdays. lia.
    + assert (m = 12) by lia. subst m. rewrite !ymd2n_yday, year_step.
      assert (E : yday (leap (y + 1)) 1 1 = 0) by (destruct (leap (y + 1)); reflexivity). rewrite E.
      assert (E' : yday (leap y) 12 (mdays (leap y) 12) = if leap y then 365 else 364) by (destruct (leap y); reflexivity).
      rewrite E'. split; [destruct (leap y); lia|]. unfold valid_date. change (month_days (y + 1) 1) with 31. lia.
Qed.
Lemma dby_mono y y' : y < y' -> days_before_year y + (if leap y then 366 else 365) <= days_before_year y'.
Proof.
  intros H. rewrite <- year_step.
  assert (G : forall n y, days_before_year y <= days_before_year (y + Z.of_nat n)).
  { clear. induction n; intros y; [rewrite Z.add_0_r; lia|].
    rewrite Nat2Z.inj_succ. replace (y + Z.succ (Z.of_nat n)) with (y + Z.of_nat n + 1) by lia.
    rewrite year_step. specialize (IHn y). destruct (leap _); lia. }
  specialize (G (Z.to_nat (y' - (y + 1))) (y + 1)). rewrite Z2Nat.id in G by lia.
  replace (y + 1 + (y' - (y + 1))) with y' in G by lia. exact G.
Qed.
Lemma yday_range lp m d : 1 <= m <= 12 -> 1 <= d <= mdays lp m -> 0 <= yday lp m d < (if lp then 366 else 365).
Proof.
  intros Hm Hd. destruct (twelve m Hm) as [->|[->|[->|[->|[->|[->|[->|[->|[->|[->|[->| ->]]]]]]]]]]];
    destruct lp; cbv -[Z.add Z.sub Z.le Z.lt] in *; lia.
Qed.
Lemma yday_inj lp m d m' d' : 1 <= m <= 12 -> 1 <= d <= mdays lp m -> 1 <= m' <= 12 -> 1 <= d' <= mdays lp m' ->
  yday lp m d = yday lp m' d' -> m = m' /\ d = d'.
Proof.
  intros Hm Hd Hm' Hd' E.
  destruct (twelve m Hm) as [->|[->|[->|[->|[->|[->|[->|[->|[->|[->|[->| ->]]]]]]]]]]];
  destruct (twelve m' Hm') as [->|[->|[->|[->|[->|[->|[->|[->|[->|[->|[->| ->]]]]]]]]]]];
    destruct lp; cbv -[Z.add Z.sub Z.le Z.lt] in *; lia.
Qed.
Lemma ymd2n_inj x x' : valid_date x -> valid_date x' -> ymd2n x = ymd2n x' -> x = x'.
Proof.
  destruct x as [[y m] d], x' as [[y' m'] d']. unfold valid_date. rewrite !month_days_mdays. intros [Hm Hd] [Hm' Hd'] E.
  assert (E' : days_before_year y + yday (leap y) m d = days_before_year y' + yday (leap y') m' d')
    by (unfold ymd2n in E; unfold yday; lia).
  pose proof (yday_range _ _ _ Hm Hd). pose proof (yday_range _ _ _ Hm' Hd').
  assert (y = y').
  { destruct (Z.lt_trichotomy y y') as [L|[L|L]]; [|exact L|]; apply dby_mono in L; lia. }
  subst y'. destruct (yday_inj (leap y) m d m' d') as [-> ->]; try assumption; [lia|reflexivity].
Qed.

Lemma ord2ymd_facts n :
  ord2ymd (n + 1) = next_date (ord2ymd n) /\ valid_date (ord2ymd n) /\ ymd2n (ord2ymd n) = n.
Proof.
  destruct (ord2ymd_ok n) as [V E]. destruct (ord2ymd_ok (n + 1)) as [V' E'].
  destruct (ymd2n_next _ V) as [N NV]. split; [|split]; [|assumption..].
  apply ymd2n_inj; [assumption..|lia].
Qed.

Lemma civil_next d : civil (d + 1) = next_date (civil d).
Proof. unfold civil. replace (d + 1 + 719162) with (d + 719162 + 1) by lia. apply ord2ymd_facts. Qed.
Lemma civil_valid d : valid_date (civil d).
Proof. apply ord2ymd_facts. Qed.
Lemma civil_inj d d' : civil d = civil d' -> d = d'.
Proof.
  unfold civil. intros H. pose proof (proj2 (proj2 (ord2ymd_facts (d + 719162)))).
  pose proof (proj2 (proj2 (ord2ymd_facts (d' + 719162)))). rewrite H in *. lia.
Qed.
Lemma civil_split d : civil d = (year d, month d, mday d).
Proof. unfold year, month, mday. destruct (civil d) as [[? ?] ?]. reflexivity. Qed.

Lemma julday_inj d d' : year d = year d' -> julday d = julday d' -> d = d'.
Proof. unfold julday. intros -> H. lia. Qed.
Lemma julday_range d : 1 <= julday d <= 366.
Proof.
  unfold julday. pose proof (proj2 (proj2 (ord2ymd_facts (d + 719162)))) as E.
  pose proof (civil_valid d) as V. unfold civil in V. unfold year, civil.
  destruct (ord2ymd (d + 719162)) as [[y m] k]. cbn [fst snd].
  unfold ymd2n in E. unfold valid_date in V. destruct V as [Vm Vd].
  assert (Em : m = 1 \/ m = 2 \/ m = 3 \/ m = 4 \/ m = 5 \/ m = 6 \/ m = 7 \/ m = 8 \/ m = 9
                 \/ m = 10 \/ m = 11 \/ m = 12) by lia.
  unfold month_days in Vd.
  repeat (destruct Em as [->|Em]; [destruct (leap y); cbv -[Z.add Z.sub Z.le Z.lt days_before_year] in E, Vd; lia|]).
  subst m. destruct (leap y); cbv -[Z.add Z.sub Z.le Z.lt days_before_year] in E, Vd; lia.
Qed.

(** * Decimal digits *)
Lemma digits_length w : forall n, length (digits w n) = w.
Proof. induction w; intros n; cbn; [reflexivity|]. rewrite app_length, IHw. cbn. lia. Qed.
Lemma ten_cases d : 0 <= d < 10 ->
  d = 0 \/ d = 1 \/ d = 2 \/ d = 3 \/ d = 4 \/ d = 5 \/ d = 6 \/ d = 7 \/ d = 8 \/ d = 9.
Proof. lia. Qed.
Lemma digit_inj a b : 0 <= a < 10 -> 0 <= b < 10 -> digit a = digit b -> a = b.
Proof.
  intros Ha Hb E. apply (f_equal nat_of_ascii) in E. unfold digit in E.
  rewrite !nat_ascii_embedding in E by lia. lia.
Qed.
Lemma digits_inj w : forall a b, 0 <= a < 10 ^ Z.of_nat w -> 0 <= b < 10 ^ Z.of_nat w ->
  digits w a = digits w b -> a = b.
Proof.
  induction w; intros a b Ha Hb E; [cbn in *; lia|].
  rewrite Nat2Z.inj_succ, Z.pow_succ_r in Ha, Hb by lia. cbn [digits] in E.
  apply app_inj_tail in E as [E1 E2].
  apply digit_inj in E2; try (apply Z.mod_pos_bound; lia).
  apply IHw in E1.
  - rewrite (Z.div_mod a 10), (Z.div_mod b 10) by lia. lia.
  - split; [apply Z.div_pos; lia|apply Z.div_lt_upper_bound; lia].
  - split; [apply Z.div_pos; lia|apply Z.div_lt_upper_bound; lia].
Qed.
Lemma app_inj_length {A} (a a' b b' : list A) : length a = length a' -> a ++ b = a' ++ b' -> a = a' /\ b = b'.
Proof.
  revert a'. induction a; destruct a'; cbn; intros L E; try lia; [auto|].
  injection E as -> E. destruct (IHa a' ltac:(lia) E) as [-> ->]. auto.
Qed.

(** Names of daily files are different for different dates. *)
Lemma fstem_inj d d' : 0 <= year d <= 9999 -> 0 <= year d' <= 9999 -> fstem d = fstem d' -> d = d'.
Proof.
  unfold fstem. intros H H' E. apply app_inj_length in E as [E1 E]; [|rewrite !digits_length; reflexivity].
  apply app_inj_length in E as [_ E2]; [|reflexivity].
  apply digits_inj in E1; [|change (10 ^ Z.of_nat 4) with 10000; lia..].
  pose proof (julday_range d). pose proof (julday_range d').
  apply digits_inj in E2; [|change (10 ^ Z.of_nat 3) with 1000; lia..].
  apply julday_inj; assumption.
Qed.
