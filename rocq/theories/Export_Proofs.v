(** Lemmas about exported files. *)
From Coq Require Import String Ascii.
From Coq Require Import List ZArith QArith Bool Reals Lia Lqa Permutation Sorted.
From Verif Require Import Lib PyDict Calendar_Model Calendar_Spec Calendar_Proofs Export_Model Export_Spec.
Import ListNotations.
Open Scope Z_scope.

(** * Digits *)

Notation all_digits l := (Forall (fun c => is_digit c = true) l).
Lemma digit_ok d : 0 <= d < 10 -> is_digit (digit d) = true /\ digit_value (digit d) = d.
Proof. intros H. destruct (ten_cases d H) as [->|[->|[->|[->|[->|[->|[->|[->|[->| ->]]]]]]]]]; split; reflexivity. Qed.
Lemma digits_all w : forall n, all_digits (digits w n).
Proof.
  induction w as [|w IH]; intros n; cbn [digits]; [constructor|]. apply Forall_app. split; [apply IH|].
  constructor; [|constructor]. apply digit_ok. apply Z.mod_pos_bound. lia.
Qed.
Lemma number_app a b : number (a ++ b) = number a * 10 ^ Z.of_nat (length b) + number b.
Proof.
  unfold number. rewrite fold_left_app.
  assert (G : forall b x, fold_left (fun a c => 10 * a + digit_value c) b x
              = x * 10 ^ Z.of_nat (length b) + fold_left (fun a c => 10 * a + digit_value c) b 0).
  { intros b'. induction b' as [|c r IH]; intros x; cbn [fold_left length]; [cbn; lia|].
    rewrite IH. rewrite (IH (10 * 0 + digit_value c)). rewrite Nat2Z.inj_succ, Z.pow_succ_r by lia. ring. }
  apply G.
Qed.
Lemma number_digits w : forall n, 0 <= n < 10 ^ Z.of_nat w -> number (digits w n) = n.
Proof.
  induction w as [|w IH]; intros n H; [cbn in *; lia|].
  rewrite Nat2Z.inj_succ, Z.pow_succ_r in H by lia. cbn [digits]. rewrite number_app.
  assert (D : 0 <= n / 10 < 10 ^ Z.of_nat w) by (split; [apply Z.div_pos; lia|apply Z.div_lt_upper_bound; lia]).
  rewrite (IH _ D). cbn [length]. change (10 ^ Z.of_nat 1) with 10.
  unfold number. cbn [fold_left]. destruct (digit_ok (n mod 10)) as [_ E]; [apply Z.mod_pos_bound; lia|]. rewrite E.
  pose proof (Z.div_mod n 10). lia.
Qed.
Lemma width_ok fuel : forall n, 0 <= n < 10 ^ (Z.of_nat fuel + 1) ->
  (1 <= width_from fuel n)%nat /\ n < 10 ^ Z.of_nat (width_from fuel n) /\ (width_from fuel n = 1%nat \/ 10 ^ (Z.of_nat (width_from fuel n) - 1) <= n).
Proof.
  induction fuel as [|f IH]; intros n H; cbn [width_from].
  - change (Z.of_nat 0 + 1) with 1 in H. change (Z.of_nat 1) with 1. lia.
  - destruct (n <? 10) eqn:E; [apply Z.ltb_lt in E; change (Z.of_nat 1) with 1; lia|]. apply Z.ltb_ge in E.
    rewrite Nat2Z.inj_succ in H. replace (Z.succ (Z.of_nat f) + 1) with (Z.succ (Z.of_nat f + 1)) in H by lia. rewrite Z.pow_succ_r in H by lia.
    assert (D : 0 <= n / 10 < 10 ^ (Z.of_nat f + 1)) by (split; [apply Z.div_pos; lia|apply Z.div_lt_upper_bound; lia]).
    destruct (IH _ D) as (A & B & C). set (w := width_from f (n / 10)) in *.
    split; [lia|]. rewrite Nat2Z.inj_succ. split.
    + rewrite Z.pow_succ_r by lia. pose proof (Z.mod_pos_bound n 10). pose proof (Z.div_mod n 10). lia.
    + right. replace (Z.succ (Z.of_nat w) - 1) with (Z.succ (Z.of_nat w - 1)) by lia. rewrite Z.pow_succ_r by lia.
      pose proof (Z.mul_div_le n 10). destruct C as [C|C]; [|lia].
      rewrite C in *. change (Z.of_nat 1 - 1) with 0. change (10 ^ 0) with 1. lia.
Qed.
Lemma str_int_ok n : 0 <= n -> exists w, str_int n = digits w n /\ (1 <= w)%nat /\ n < 10 ^ Z.of_nat w /\ (w = 1%nat \/ 10 ^ (Z.of_nat w - 1) <= n).
Proof.
  intros H. unfold str_int. cbv zeta. set (f := Z.to_nat (Z.log2 n + 1)). exists (width_from f n). split; [reflexivity|].
  apply width_ok. split; [exact H|]. unfold f. pose proof (Z.log2_nonneg n). rewrite Z2Nat.id by lia.
  destruct (Z.eq_dec n 0) as [->|N]; [cbn; lia|]. pose proof (Z.log2_spec n) as [_ L]; [lia|].
  apply Z.lt_le_trans with (2 ^ Z.succ (Z.log2 n)); [exact L|].
  apply Z.le_trans with (10 ^ Z.succ (Z.log2 n)); [apply Z.pow_le_mono_l; lia|]. apply Z.pow_le_mono_r; lia.
Qed.
Lemma str_int_two n : 0 <= n < 100 -> zfill 2 (str_int n) = digits 2 n.
Proof.
  intros H. destruct (str_int_ok n) as (w & E & W & U & L); [lia|]. unfold zfill. rewrite E, digits_length.
  destruct w as [|[|[|w]]]; [lia| | |].
  - cbn [digits repeat Nat.sub app]. rewrite Z.mod_small by (change (Z.of_nat 1) with 1 in U; lia).
    change (Z.of_nat 1) with 1 in U. rewrite (Z.div_small n 10) by lia. reflexivity.
  - reflexivity.
  - exfalso. destruct L as [L|L]; [lia|]. assert (10 ^ 2 <= 10 ^ (Z.of_nat (S (S (S w))) - 1)) by (apply Z.pow_le_mono_r; lia). lia.
Qed.
Lemma str_int_four n : 1000 <= n <= 9999 -> str_int n = digits 4 n.
Proof.
  intros H. destruct (str_int_ok n) as (w & E & W & U & L); [lia|]. rewrite E. f_equal.
  destruct (Z_le_gt_dec (Z.of_nat w) 3) as [A|A].
  - assert (10 ^ Z.of_nat w <= 10 ^ 3) by (apply Z.pow_le_mono_r; lia). lia.
  - destruct (Z_le_gt_dec (Z.of_nat w) 4) as [B|B]; [lia|]. exfalso. destruct L as [->|L]; [lia|].
    assert (10 ^ 4 <= 10 ^ (Z.of_nat w - 1)) by (apply Z.pow_le_mono_r; lia). lia.
Qed.

(** * Reading *)

Lemma span_app ds c r : all_digits ds -> is_digit c = false -> span_digits (ds ++ c :: r) = (ds, c :: r).
Proof.
  intros H C. induction H as [|d l D H IH]; cbn [span_digits app]; [rewrite C; reflexivity|]. rewrite D, IH. reflexivity.
Qed.
Lemma span_end ds : all_digits ds -> span_digits ds = (ds, []).
Proof. intros H. induction H as [|d l D H IH]; cbn [span_digits]; [reflexivity|]. rewrite D, IH. reflexivity. Qed.
Lemma read_nat_app ds c r : all_digits ds -> ds <> [] -> is_digit c = false -> read_nat (ds ++ c :: r) = Some (ds, c :: r).
Proof. intros H N C. unfold read_nat. rewrite span_app by assumption. destruct ds; [congruence|reflexivity]. Qed.
Lemma read_nat_end ds : all_digits ds -> ds <> [] -> read_nat ds = Some (ds, []).
Proof. intros H N. unfold read_nat. rewrite span_end by assumption. destruct ds; [congruence|reflexivity]. Qed.
Lemma read_char_same c r : read_char c (c :: r) = Some r.
Proof. cbn. rewrite Ascii.eqb_refl. reflexivity. Qed.
Lemma read_decimal_ok i f : all_digits i -> i <> [] -> all_digits f -> f <> [] ->
  read_decimal (i ++ "."%char :: f) = Some (inject_Z (number i) + inject_Z (number f) / inject_Z (10 ^ Z.of_nat (length f)))%Q.
Proof.
  intros I NI F NF. unfold read_decimal. rewrite read_nat_app by (assumption || reflexivity). rewrite read_char_same.
  rewrite read_nat_end by assumption. reflexivity.
Qed.
Lemma read_stamp_ok y mo d h mi s f :
  all_digits y -> y <> [] -> all_digits mo -> mo <> [] -> all_digits d -> d <> [] -> all_digits h -> h <> [] -> all_digits mi -> mi <> [] ->
  all_digits s -> s <> [] -> all_digits f -> f <> [] ->
  read_stamp (y ++ "-"%char :: mo ++ "-"%char :: d ++ " "%char :: h ++ ":"%char :: mi ++ ":"%char :: s ++ "."%char :: f)
  = Some ((number y, number mo, number d), number h, number mi,
          (inject_Z (number s) + inject_Z (number f) / inject_Z (10 ^ Z.of_nat (length f)))%Q).
Proof.
  intros. unfold read_stamp.
  repeat (rewrite read_nat_app by (assumption || reflexivity); cbn [fst snd]; rewrite read_char_same).
  rewrite read_decimal_ok by assumption. reflexivity.
Qed.
Lemma digits_cons w n : (1 <= w)%nat -> digits w n <> [].
Proof. intros H E. pose proof (digits_length w n) as L. rewrite E in L. cbn in L. lia. Qed.

(** * Times *)

Lemma time_parts us : day_of us * 86400 + hour us * 3600 + minute us * 60 + second us = us / 1000000
  /\ us = 1000000 * (us / 1000000) + microsecond us
  /\ 0 <= hour us < 24 /\ 0 <= minute us < 60 /\ 0 <= second us < 60 /\ 0 <= microsecond us < 1000000.
Proof.
  unfold day_of, hour, minute, second, microsecond. set (s := us mod 86400000000).
  assert (S : 0 <= s < 86400000000) by (apply Z.mod_pos_bound; lia).
  pose proof (Z.div_mod us 86400000000) as E. fold s in E.
  pose proof (Z.div_mod us 1000000). pose proof (Z.mod_pos_bound us 1000000).
  pose proof (Z.mod_pos_bound (s / 60000000) 60). pose proof (Z.mod_pos_bound (s / 1000000) 60).
  assert (0 <= s / 3600000000 < 24) by (split; [apply Z.div_pos; lia|apply Z.div_lt_upper_bound; lia]).
  repeat split; try lia.
  assert (E1 : us / 1000000 = us / 86400000000 * 86400 + s / 1000000).
  { rewrite E at 1; [|lia]. replace (86400000000 * (us / 86400000000) + s) with (s + (us / 86400000000 * 86400) * 1000000) by ring.
    rewrite Z.div_add by lia. lia. }
  rewrite E1. pose proof (Z.div_mod (s / 1000000) 60). pose proof (Z.div_mod (s / 60000000) 60).
  assert (D1 : s / 1000000 / 60 = s / 60000000) by (rewrite Z.div_div by lia; reflexivity).
  assert (D2 : s / 60000000 / 60 = s / 3600000000) by (rewrite Z.div_div by lia; reflexivity). lia.
Qed.
(** The date of the calendar has two-digit months and days. *)
Lemma date_range d : 0 <= month d < 100 /\ 0 <= mday d < 100.
Proof.
  pose proof (civil_valid d) as H. rewrite civil_split in H. destruct H as [M D]. unfold month_days in D.
  destruct (month d =? 2); [destruct (leap (year d))|destruct (_ || _)]; lia.
Qed.
Lemma stamp_read us : 0 <= year (day_of us) -> exists w, (1 <= w)%nat
  /\ read_stamp (snuffler_stamp us)
     = Some ((year (day_of us), month (day_of us), mday (day_of us)), hour us, minute us,
             (inject_Z (second us) + inject_Z (microsecond us) / inject_Z (10 ^ Z.of_nat w))%Q)
  /\ microsecond us < 10 ^ Z.of_nat w /\ (w = 1%nat \/ 10 ^ (Z.of_nat w - 1) <= microsecond us).
Proof.
  intros Y. destruct (time_parts us) as (_ & _ & H & M & S & U). destruct (date_range (day_of us)) as [MO D].
  destruct (str_int_ok (year (day_of us)) Y) as (wy & EY & WY & UY & _).
  destruct (str_int_ok (microsecond us)) as (w & EU & W & UU & LU); [lia|]. exists w. split; [exact W|]. split; [|split; assumption].
  unfold snuffler_stamp. cbv zeta. rewrite EY, EU, !str_int_two by lia.
  change ([c_dash] ++ ?l) with ("-"%char :: l). cbn [app].
  etransitivity; [apply (read_stamp_ok (digits wy (year (day_of us))) (digits 2 (month (day_of us))) (digits 2 (mday (day_of us)))
    (digits 2 (hour us)) (digits 2 (minute us)) (digits 2 (second us)) (digits w (microsecond us))); try apply digits_all; apply digits_cons; lia|].
  rewrite !digits_length, !number_digits by (change (10 ^ Z.of_nat 2) with 100; lia). reflexivity.
Qed.
Lemma is_time_unique t t' date h mi s : is_time t date h mi s -> is_time t' date h mi s -> (t == t')%Q.
Proof.
  intros (d & C & E) (d' & C' & E'). assert (d = d') by (apply civil_inj; congruence). subst d'. rewrite E, E'. reflexivity.
Qed.
Lemma stamp_unique l t t' : stamp_denotes l t -> stamp_denotes l t' -> (t == t')%Q.
Proof.
  intros (da & h & mi & s & R & T) (da' & h' & mi' & s' & R' & T'). rewrite R in R'. injection R' as <- <- <- <-. eapply is_time_unique; eassumption.
Qed.
(** What the stamp of a time denotes. *)
Lemma stamp_value us : 0 <= year (day_of us) -> exists w, (1 <= w)%nat
  /\ stamp_denotes (snuffler_stamp us) (inject_Z (us - microsecond us) + inject_Z (microsecond us * 1000000) / inject_Z (10 ^ Z.of_nat w))%Q
  /\ microsecond us < 10 ^ Z.of_nat w /\ (w = 1%nat \/ 10 ^ (Z.of_nat w - 1) <= microsecond us).
Proof.
  intros Y. destruct (stamp_read us Y) as (w & W & R & U). exists w. split; [exact W|]. split; [|exact U].
  do 4 eexists. split; [exact R|]. exists (day_of us). split; [apply civil_split|].
  destruct (time_parts us) as (E & E' & _).
  assert (P : ~ (inject_Z (10 ^ Z.of_nat w) == 0)%Q).
  { intros Q. assert (10 ^ Z.of_nat w = 0) by (unfold inject_Z, Qeq in Q; cbn in Q; lia). pose proof (Z.pow_pos_nonneg 10 (Z.of_nat w)). lia. }
  assert (A : us - microsecond us = (day_of us * 86400 + hour us * 3600 + minute us * 60 + second us) * 1000000) by lia.
  rewrite A. rewrite !inject_Z_mult, !inject_Z_plus. field. exact P.
Qed.

(** * Words *)

Lemma words_from_word w : forall acc r, blank_free w -> words_from acc (w ++ r) = words_from (rev w ++ acc) r.
Proof.
  induction w as [|c l IH]; intros acc r H; [reflexivity|]. inversion H as [|? ? C H']; subst. cbn [app words_from].
  destruct (Ascii.eqb_spec c " "%char) as [E|_]; [congruence|]. rewrite IH by assumption. cbn [rev]. rewrite <- app_assoc. reflexivity.
Qed.
Lemma words_cons w r : blank_free w -> w <> [] -> words (w ++ c_space :: r) = w :: words r.
Proof.
  intros H N. unfold words. rewrite words_from_word by assumption. rewrite app_nil_r. cbn [words_from]. rewrite Ascii.eqb_refl.
  destruct (rev w) eqn:E; [|rewrite <- E, rev_involutive; reflexivity].
  exfalso. apply N. rewrite <- (rev_involutive w), E. reflexivity.
Qed.
Lemma words_end w : blank_free w -> w <> [] -> words w = [w].
Proof.
  intros H N. unfold words. rewrite <- (app_nil_r w) at 1. rewrite words_from_word by assumption. rewrite app_nil_r. cbn [words_from].
  destruct (rev w) eqn:E; [|rewrite <- E, rev_involutive; reflexivity].
  exfalso. apply N. rewrite <- (rev_involutive w), E. reflexivity.
Qed.
Lemma words_blanks k r : words (repeat c_space k ++ r) = words r.
Proof. induction k as [|k IH]; [reflexivity|]. cbn [repeat app]. unfold words in *. cbn [words_from]. exact IH. Qed.
Lemma words_ljust n w r : blank_free w -> w <> [] -> words (ljust n w ++ [c_space] ++ r) = w :: words r.
Proof.
  intros H N. unfold ljust. rewrite <- app_assoc.
  assert (E : repeat c_space (n - length w) ++ [c_space] ++ r = c_space :: repeat c_space (n - length w) ++ r).
  { induction (n - length w)%nat as [|k IH]; [reflexivity|]. cbn [repeat app]. rewrite <- IH. reflexivity. }
  rewrite E, words_cons, words_blanks by assumption. reflexivity.
Qed.
Lemma words_rjust n w r : blank_free w -> w <> [] -> words (rjust n w ++ [c_space] ++ r) = w :: words r.
Proof. intros H N. unfold rjust. rewrite <- app_assoc, words_blanks. apply words_cons; assumption. Qed.
Lemma words_rjust_end n w : blank_free w -> w <> [] -> words (rjust n w) = [w].
Proof. intros H N. unfold rjust. rewrite words_blanks. apply words_end; assumption. Qed.
Lemma words_sp w r : blank_free w -> w <> [] -> words (w ++ [c_space] ++ r) = w :: words r.
Proof. apply words_cons. Qed.

Lemma digits_blank_free l : all_digits l -> blank_free l.
Proof. intros H. eapply Forall_impl; [|exact H]. intros c C E. subst c. discriminate C. Qed.
Lemma blank_free_app a b : blank_free a -> blank_free b -> blank_free (a ++ b).
Proof. intros. apply Forall_app. split; assumption. Qed.
Ltac blank_free_txt := unfold blank_free, txt; repeat constructor; discriminate.
Lemma look_up_word d k : Forall (fun kv => blank_free (txt (snd kv)) /\ txt (snd kv) <> []) d -> blank_free (look_up d k) /\ look_up d k <> [].
Proof.
  intros H. unfold look_up. destruct (dget d k) as [v|] eqn:E; [|split; [blank_free_txt|discriminate]].
  induction H as [|[k' v'] d' A H IH]; cbn [dget] in E; [discriminate|]. destruct (String.eqb k' k); [injection E as <-; exact A|exact (IH E)].
Qed.
Lemma component_word ch : blank_free (component ch) /\ component ch <> [].
Proof.
  unfold component. destruct (rev (txt ch)) as [|c l]; [split; [blank_free_txt|discriminate]|].
  cbv zeta. set (u := upper_ascii c). destruct (existsb (Ascii.eqb u) (txt "ZNEH")) eqn:E; [|split; [blank_free_txt|discriminate]].
  split; [|discriminate]. constructor; [|constructor]. intros C. rewrite C in E. discriminate E.
Qed.
Lemma or_unknown_word s : blank_free (txt s) -> blank_free (or_unknown s) /\ or_unknown s <> [].
Proof. destruct s as [|c s]; intros H; [split; [blank_free_txt|discriminate]|]. split; [exact H|discriminate]. Qed.

(** * Phase files *)

Lemma round_hundredths_near n : 100 * round_hundredths n - 50 <= n <= 100 * round_hundredths n + 50.
Proof.
  unfold round_hundredths. pose proof (Z.div_mod n 100). pose proof (Z.mod_pos_bound n 100). cbv zeta.
  destruct (n mod 100 <? 50) eqn:A; [apply Z.ltb_lt in A; lia|]. apply Z.ltb_ge in A.
  destruct (50 <? n mod 100) eqn:B; [apply Z.ltb_lt in B; lia|]. apply Z.ltb_ge in B. destruct (Z.even _); lia.
Qed.
Definition seconds_word (us : Z) : text := let n := round_hundredths us in str_int (n / 10000) ++ [c_dot] ++ digits 4 (n mod 10000).
Lemma seconds_read us : 0 <= us -> exists q, read_decimal (seconds_word us) = Some q /\ (q == inject_Z (round_hundredths us) / inject_Z 10000)%Q.
Proof.
  intros H. unfold seconds_word. cbv zeta. pose proof (round_hundredths_near us) as N. set (n := round_hundredths us) in *.
  assert (0 <= n) by lia. assert (0 <= n / 10000) by (apply Z.div_pos; lia). pose proof (Z.mod_pos_bound n 10000).
  destruct (str_int_ok (n / 10000)) as (w & E & W & U & _); [lia|]. rewrite E. cbn [app].
  eexists. split; [apply read_decimal_ok; try apply digits_all; apply digits_cons; lia|].
  rewrite digits_length, !number_digits by (change (10 ^ Z.of_nat 4) with 10000; lia). change (10 ^ Z.of_nat 4) with 10000.
  rewrite (Z.div_mod n 10000) at 3 by lia. rewrite inject_Z_plus, inject_Z_mult. field.
Qed.
Lemma seconds_is_word us : 0 <= us -> blank_free (seconds_word us) /\ seconds_word us <> [].
Proof.
  intros H. unfold seconds_word. cbv zeta. pose proof (round_hundredths_near us) as N. set (n := round_hundredths us) in *.
  assert (0 <= n / 10000) by (apply Z.div_pos; lia).
  destruct (str_int_ok (n / 10000)) as (w & E & W & U & _); [lia|]. rewrite E. split.
  - apply blank_free_app; [apply digits_blank_free, digits_all|]. apply blank_free_app; [repeat constructor; discriminate|apply digits_blank_free, digits_all].
  - intros C. apply (f_equal (@length _)) in C. rewrite !app_length in C. cbn in C. lia.
Qed.

Section Nlloc.
Variable fmt_e : R -> text.
Hypothesis fmt_word : forall x, blank_free (fmt_e x) /\ fmt_e x <> [].
Lemma nlloc_words p : blank_free (txt (pk_station p)) -> blank_free (txt (pk_phase p)) ->
  words (nlloc_line fmt_e p)
  = [or_unknown (pk_station p); txt "?"; component (pk_channel p); look_up onsets_reverse (pk_onset p); or_unknown (pk_phase p);
     look_up polarities_reverse (pk_polarity p); date_text (pk_time p); hourminute_text (pk_time p);
     seconds_word (second (pk_time p) * 1000000 + microsecond (pk_time p)); txt "GAU"; fmt_e (time_error p); fmt_e (-1); fmt_e (-1); fmt_e (-1); fmt_e 1].
Proof.
  intros S P. destruct (time_parts (pk_time p)) as (_ & _ & _ & _ & SE & U). unfold nlloc_line. cbv zeta.
  destruct (or_unknown_word _ S) as [S1 S2]. destruct (or_unknown_word _ P) as [P1 P2].
  destruct (component_word (pk_channel p)) as [C1 C2].
  destruct (look_up_word onsets_reverse (pk_onset p)) as [O1 O2]; [repeat (constructor; [split; [blank_free_txt|discriminate]|]); constructor|].
  destruct (look_up_word polarities_reverse (pk_polarity p)) as [L1 L2]; [repeat (constructor; [split; [blank_free_txt|discriminate]|]); constructor|].
  rewrite words_ljust by assumption. rewrite words_ljust by (blank_free_txt || discriminate). rewrite !words_ljust by assumption.
  assert (D : blank_free (date_text (pk_time p)) /\ date_text (pk_time p) <> []).
  { unfold date_text. cbv zeta. split; [apply digits_blank_free, Forall_app; split; [apply digits_all|apply Forall_app; split; apply digits_all]|].
    intros E. apply (f_equal (@length _)) in E. rewrite !app_length, !digits_length in E. discriminate E. }
  assert (M : blank_free (hourminute_text (pk_time p)) /\ hourminute_text (pk_time p) <> []).
  { unfold hourminute_text. split; [apply digits_blank_free, Forall_app; split; apply digits_all|].
    intros E. apply (f_equal (@length _)) in E. rewrite !app_length, !digits_length in E. discriminate E. }
  destruct D as [D1 D2], M as [M1 M2]. rewrite (words_sp (date_text _)), (words_sp (hourminute_text _)) by assumption.
  assert (Q : 0 <= second (pk_time p) * 1000000 + microsecond (pk_time p)) by lia.
  destruct (seconds_is_word _ Q) as [Q1 Q2].
  assert (E : forall l, txt " GAU " ++ l = [c_space] ++ txt "GAU" ++ [c_space] ++ l) by reflexivity. rewrite E.
  unfold fmt_7_4f. cbv zeta. fold (seconds_word (second (pk_time p) * 1000000 + microsecond (pk_time p))).
  rewrite words_rjust by assumption. rewrite words_sp by (blank_free_txt || discriminate).
  unfold fmt_9_2e. rewrite !words_rjust by apply fmt_word. rewrite words_rjust_end by apply fmt_word. reflexivity.
Qed.
End Nlloc.
Lemma nlloc_time us : 0 <= year (day_of us) <= 9999 -> exists t,
  nlloc_denotes (date_text us) (hourminute_text us) (seconds_word (second us * 1000000 + microsecond us)) t
  /\ (inject_Z (us - 50) <= t)%Q /\ (t <= inject_Z (us + 50))%Q.
Proof.
  intros Y. destruct (time_parts us) as (E & E' & H & M & S & U). destruct (date_range (day_of us)) as [MO D].
  set (x := second us * 1000000 + microsecond us). destruct (seconds_read x) as (q & R & Q); [unfold x; lia|].
  pose proof (round_hundredths_near x) as N. set (n := round_hundredths x) in *.
  exists (inject_Z ((day_of us * 86400 + hour us * 3600 + minute us * 60) * 1000000 + n * 100)). split; [|rewrite <- !Zle_Qle; unfold x in N; lia].
  exists (digits 4 (year (day_of us))), (digits 2 (month (day_of us))), (digits 2 (mday (day_of us))), (digits 2 (hour us)), (digits 2 (minute us)), q.
  rewrite !digits_length. do 5 (split; [reflexivity|]). split.
  { rewrite !Forall_app. repeat split; apply digits_all. }
  do 2 (split; [reflexivity|]). split; [exact R|].
  rewrite !number_digits by (change (10 ^ Z.of_nat 2) with 100; change (10 ^ Z.of_nat 4) with 10000; lia).
  exists (day_of us). split; [apply civil_split|]. rewrite Q, !inject_Z_plus, !inject_Z_mult, !inject_Z_plus, !inject_Z_mult.
  assert (H100 : (inject_Z 100 == inject_Z 1000000 / inject_Z 10000)%Q) by reflexivity. rewrite H100. field.
Qed.

(** * Sorting *)

Lemma text_leb_le a : forall b, text_leb a b = true <-> text_le a b.
Proof.
  induction a as [|x a IH]; intros [|y b]; cbn [text_leb].
  - split; [intros _; constructor|reflexivity].
  - split; [intros _; constructor|reflexivity].
  - split; [discriminate|intros H; inversion H].
  - cbv zeta. destruct (nat_of_ascii x <? nat_of_ascii y)%nat eqn:L; [apply Nat.ltb_lt in L; split; [intros _; constructor; exact L|reflexivity]|].
    apply Nat.ltb_ge in L. destruct (nat_of_ascii y <? nat_of_ascii x)%nat eqn:G.
    + apply Nat.ltb_lt in G. split; [discriminate|]. intros H. inversion H; subst; lia.
    + apply Nat.ltb_ge in G. assert (EQ : x = y).
      { rewrite <- (ascii_nat_embedding x), <- (ascii_nat_embedding y). f_equal. lia. }
      subst y. rewrite IH. split; [apply le_cons|]. intros H. inversion H; subst; [lia|assumption].
Qed.
Lemma text_le_total a : forall b, text_le a b \/ text_le b a.
Proof.
  induction a as [|x a IH]; intros [|y b]; try (left; constructor; fail); [right; constructor|].
  destruct (lt_eq_lt_dec (nat_of_ascii x) (nat_of_ascii y)) as [[L|E]|L]; [left; constructor; exact L| |right; constructor; exact L].
  assert (EQ : x = y) by (rewrite <- (ascii_nat_embedding x), <- (ascii_nat_embedding y); f_equal; exact E).
  subst y. destruct (IH b); [left|right]; constructor; assumption.
Qed.
Lemma text_le_trans a : forall b c, text_le a b -> text_le b c -> text_le a c.
Proof.
  induction a as [|x a IH]; intros b c H K; [constructor|].
  inversion H as [|x1 y a1 b1 L|x1 a1 b1 L]; subst; inversion K as [|x2 z a2 c2 L2|x2 a2 c2 L2]; subst;
    [apply le_lt; lia|apply le_lt; lia|apply le_lt; lia|apply le_cons; eapply IH; eassumption].
Qed.
Lemma insert_perm x l : Permutation (insert x l) (x :: l).
Proof.
  induction l as [|y r IH]; cbn [insert]; [apply Permutation_refl|]. destruct (text_leb x y); [apply Permutation_refl|].
  etransitivity; [apply perm_skip, IH|apply perm_swap].
Qed.
Lemma sorted_perm l : Permutation (sorted l) l.
Proof. unfold sorted. induction l as [|x r IH]; cbn [fold_right]; [constructor|]. etransitivity; [apply insert_perm|apply perm_skip, IH]. Qed.
Lemma insert_sorted x l : StronglySorted text_le l -> StronglySorted text_le (insert x l).
Proof.
  intros H. induction H as [|y r H IH F]; cbn [insert]; [constructor; constructor|].
  destruct (text_leb x y) eqn:L.
  - apply text_leb_le in L. constructor; [constructor; assumption|]. constructor; [exact L|].
    eapply Forall_impl; [|exact F]. intros z Z. eapply text_le_trans; eassumption.
  - assert (G : text_le y x). { destruct (text_le_total x y) as [T|T]; [|exact T]. apply text_leb_le in T. congruence. }
    constructor; [exact IH|]. eapply Permutation_Forall; [apply Permutation_sym, insert_perm|]. constructor; assumption.
Qed.
Lemma sorted_sorted l : StronglySorted text_le (sorted l).
Proof. unfold sorted. induction l as [|x r IH]; cbn [fold_right]; [constructor|apply insert_sorted, IH]. Qed.
Lemma perm_map_inv {A B} (f : A -> B) l : forall m, Permutation m (map f l) -> exists l', Permutation l' l /\ m = map f l'.
Proof.
  induction l as [|x l IH]; intros m H.
  - apply Permutation_sym, Permutation_nil in H. subst m. exists []. split; [constructor|reflexivity].
  - cbn [map] in H. destruct (in_split (f x) m) as (m1 & m2 & ->); [eapply Permutation_in; [apply Permutation_sym, H|left; reflexivity]|].
    assert (P : Permutation (m1 ++ m2) (map f l)).
    { apply Permutation_cons_inv with (f x). etransitivity; [apply Permutation_middle|exact H]. }
    destruct (IH _ P) as (l' & Q & E). symmetry in E.
    destruct (map_eq_app _ _ _ _ E) as (a & b & -> & <- & <-).
    exists (a ++ x :: b). split; [etransitivity; [apply Permutation_sym, Permutation_middle|apply perm_skip, Q]|].
    rewrite map_app. reflexivity.
Qed.

(** * Markers *)

Lemma marker_lines_ok picks : forall comp, Forall (fun p => pk_phase p = "P"%string \/ pk_phase p = "S"%string) picks ->
  marker_lines comp picks = Ret (map (fun p => marker_line p (if String.eqb (pk_phase p) "P" then "BHZ" else "BHN")) picks).
Proof.
  induction picks as [|p r IH]; intros comp H; [reflexivity|]. inversion H as [|? ? P H']; subst. cbn [marker_lines map].
  unfold marker_comp. destruct P as [P|P]; rewrite P; cbn [String.eqb Ascii.eqb Bool.eqb]; rewrite IH by assumption; reflexivity.
Qed.
Lemma stamp_split us : 0 <= year (day_of us) -> exists d t, snuffler_stamp us = d ++ [c_space] ++ t /\ (blank_free d /\ d <> []) /\ (blank_free t /\ t <> []).
Proof.
  intros Y. destruct (time_parts us) as (_ & _ & H & M & S & U). destruct (date_range (day_of us)) as [MO D].
  destruct (str_int_ok (year (day_of us)) Y) as (wy & EY & WY & UY & _).
  destruct (str_int_ok (microsecond us)) as (w & EU & W & UU & LU); [lia|].
  unfold snuffler_stamp. cbv zeta. rewrite EY, EU, !str_int_two by lia.
  exists (digits wy (year (day_of us)) ++ [c_dash] ++ digits 2 (month (day_of us)) ++ [c_dash] ++ digits 2 (mday (day_of us))).
  exists (digits 2 (hour us) ++ [c_colon] ++ digits 2 (minute us) ++ [c_colon] ++ digits 2 (second us) ++ [c_dot] ++ digits w (microsecond us)).
  split; [rewrite <- !app_assoc; reflexivity|].
  assert (B : forall k n, blank_free (digits k n)) by (intros; apply digits_blank_free, digits_all).
  assert (B1 : forall c, c <> c_space -> blank_free [c]) by (intros c C; repeat constructor; exact C).
  split; (split; [repeat (apply blank_free_app; [first [apply B | apply B1; discriminate]|]); apply B|]).
  - intros E. apply (f_equal (@length _)) in E. rewrite !app_length in E. cbn in E. lia.
  - intros E. apply (f_equal (@length _)) in E. rewrite !app_length in E. cbn in E. lia.
Qed.
Lemma marker_words p comp : 0 <= year (day_of (pk_time p)) -> blank_free (txt (pk_network p)) -> blank_free (txt (pk_station p)) ->
  blank_free (txt (pk_phase p)) -> txt (pk_phase p) <> [] -> blank_free (txt comp) -> exists d t, snuffler_stamp (pk_time p) = d ++ [c_space] ++ t
  /\ words (marker_line p comp)
     = [txt "phase:"; d; t; txt "5"; txt (pk_network p) ++ txt "." ++ txt (pk_station p) ++ txt ".." ++ txt comp; txt "None"; txt "None"; txt "None";
        txt (pk_phase p); txt "None"; txt "False"].
Proof.
  intros Y N S P NP C. destruct (stamp_split _ Y) as (d & t & E & [D1 D2] & [T1 T2]). exists d, t. split; [exact E|].
  unfold marker_line. rewrite E.
  assert (A1 : forall l, txt "phase: " ++ l = txt "phase:" ++ [c_space] ++ l) by reflexivity.
  assert (A2 : forall l, txt " 5 " ++ l = [c_space] ++ txt "5" ++ [c_space] ++ l) by reflexivity.
  assert (A3 : forall l, txt " None None None " ++ l = [c_space] ++ txt "None" ++ [c_space] ++ txt "None" ++ [c_space] ++ txt "None" ++ [c_space] ++ l) by reflexivity.
  assert (A4 : txt " None False" = [c_space] ++ txt "None" ++ [c_space] ++ txt "False") by reflexivity.
  rewrite A1, A2, A3, A4. rewrite <- !(app_assoc d). rewrite <- !(app_assoc [c_space]).
  rewrite (words_sp (txt "phase:")) by (blank_free_txt || discriminate).
  rewrite (words_sp d), (words_sp t) by assumption. rewrite (words_sp (txt "5")) by (blank_free_txt || discriminate).
  set (id := txt (pk_network p) ++ txt "." ++ txt (pk_station p) ++ txt ".." ++ txt comp).
  assert (I : blank_free id /\ id <> []).
  { split; [repeat (apply blank_free_app; [first [assumption|blank_free_txt]|]); assumption|].
    intros Z. apply (f_equal (@length _)) in Z. unfold id in Z. rewrite !app_length in Z. cbn in Z. lia. }
  match goal with |- words ?l = _ :: _ => idtac | _ => idtac end.
  assert (G : forall r, txt (pk_network p) ++ [c_dot] ++ txt (pk_station p) ++ txt ".." ++ txt comp ++ r = id ++ r).
  { intros r. unfold id. rewrite <- !app_assoc. reflexivity. }
  rewrite G. rewrite (words_sp id) by apply I. rewrite !(words_sp (txt "None")) by (blank_free_txt || discriminate).
  rewrite (words_sp (txt (pk_phase p))) by assumption. rewrite (words_sp (txt "None")) by (blank_free_txt || discriminate).
  rewrite words_end by (blank_free_txt || discriminate). reflexivity.
Qed.
Lemma event_words ot eventid : 0 <= year (day_of ot) -> blank_free (txt eventid) -> txt eventid <> [] -> exists d t, snuffler_stamp ot = d ++ [c_space] ++ t
  /\ words (event_line ot eventid)
     = [txt "event:"; d; t; txt "0"; txt eventid; txt "0.0"; txt "0.0"; txt "None"; txt "None"; txt "None"; txt "Event"; txt "None"].
Proof.
  intros Y N P. destruct (stamp_split _ Y) as (d & t & E & [D1 D2] & [T1 T2]). exists d, t. split; [exact E|].
  unfold event_line. rewrite E.
  assert (A1 : forall l, txt "event: " ++ l = txt "event:" ++ [c_space] ++ l) by reflexivity.
  assert (A2 : forall l, txt " 0 " ++ l = [c_space] ++ txt "0" ++ [c_space] ++ l) by reflexivity.
  assert (A4 : txt " 0.0 0.0 None None None Event None"
    = [c_space] ++ txt "0.0" ++ [c_space] ++ txt "0.0" ++ [c_space] ++ txt "None" ++ [c_space] ++ txt "None" ++ [c_space] ++ txt "None" ++ [c_space] ++ txt "Event" ++ [c_space] ++ txt "None")
    by reflexivity.
  rewrite A1, A2, A4. rewrite <- !(app_assoc d). rewrite <- !(app_assoc [c_space]).
  rewrite (words_sp (txt "event:")) by (blank_free_txt || discriminate).
  rewrite (words_sp d), (words_sp t) by assumption. rewrite (words_sp (txt "0")) by (blank_free_txt || discriminate).
  rewrite (words_sp (txt eventid)) by assumption.
  rewrite !words_sp by (blank_free_txt || discriminate). rewrite words_end by (blank_free_txt || discriminate). reflexivity.
Qed.
