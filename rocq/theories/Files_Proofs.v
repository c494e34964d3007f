(** Proofs about the files of a run. *)
From Coq Require Import String Ascii.
From Coq Require Import List ZArith Bool Lia.
From Verif Require Import Lib Calendar_Model Calendar_Proofs Files_Model Files_Spec.
Import ListNotations.
Open Scope Z_scope.

Lemma split_nonempty s : split_slash s <> [].
Proof.
  destruct s as [|c r]; cbn [split_slash]; [discriminate|].
  destruct (ascii_dec c c_slash); [discriminate|]. destruct (split_slash r); discriminate.
Qed.
Lemma split_app a b : split_slash (a ++ c_slash :: b) = split_slash a ++ split_slash b.
Proof.
  induction a as [|c r IH]; cbn [app split_slash].
  - destruct (ascii_dec c_slash c_slash); [reflexivity|congruence].
  - destruct (ascii_dec c c_slash); [rewrite IH; reflexivity|].
    rewrite IH. pose proof (split_nonempty r). destruct (split_slash r); [congruence|reflexivity].
Qed.
Lemma parts_app a b : parts (a ++ c_slash :: b) = parts a ++ parts b.
Proof. unfold parts. rewrite split_app. apply filter_app. Qed.
Lemma split_none s : ~ In c_slash s -> split_slash s = [s].
Proof.
  induction s as [|c r IH]; intros H; cbn [split_slash]; [reflexivity|].
  destruct (ascii_dec c c_slash) as [->|]; [cbn in H; tauto|].
  rewrite IH by (cbn in H; tauto). reflexivity.
Qed.
Lemma real_part_plain s : plain s -> real_part s = true.
Proof.
  intros (Hn & _ & Hd). destruct s as [|c [|]]; [congruence| |reflexivity]. cbn.
  destruct (ascii_dec c c_dot) as [->|]; [|reflexivity]. destruct Hd. left. reflexivity.
Qed.
Lemma parts_plain s : plain s -> parts s = [s].
Proof.
  intros H. unfold parts. rewrite split_none by (apply H). cbn [filter]. rewrite real_part_plain by exact H. reflexivity.
Qed.
(** The component of a name that may be empty. *)
Definition opt_part (s : name) : list name := match s with [] => [] | _ => [s] end.
Lemma parts_free s : free s -> parts s = opt_part s.
Proof.
  intros H. destruct s as [|c r] eqn:E; [reflexivity|]. apply parts_plain. split; [discriminate|exact H].
Qed.
Lemma join_free p s : free s -> join p s = p ++ opt_part s.
Proof.
  intros H. destruct s as [|c r] eqn:E; [symmetry; apply app_nil_r|]. unfold join.
  destruct (ascii_dec c c_slash) as [->|]; [destruct H as (H & _); cbn in H; tauto|].
  rewrite parts_free by exact H. reflexivity.
Qed.
Lemma join_plain p s : plain s -> join p s = p ++ [s].
Proof. intros (Hn & H). rewrite join_free by exact H. destruct s; [congruence|reflexivity]. Qed.

Lemma rsplit_none s : ~ In c_dot s -> rsplit_dot s = None.
Proof.
  induction s as [|c r IH]; intros H; cbn [rsplit_dot]; [reflexivity|].
  rewrite IH by (cbn in H; tauto). destruct (ascii_dec c c_dot) as [->|]; [cbn in H; tauto|reflexivity].
Qed.
Lemma with_suffix_plain p s suf : plain s -> with_suffix (p ++ [s]) suf = Ret (p ++ [s ++ suf]).
Proof.
  intros (Hn & Hs & Hd). unfold with_suffix. rewrite rev_unit.
  destruct (list_eq_dec ascii_dec s [c_slash]) as [->|]; [destruct Hs; left; reflexivity|].
  unfold replace_suffix. rewrite rsplit_none by exact Hd. cbn [rev]. rewrite rev_involutive. reflexivity.
Qed.

(** ** Names without separators *)
Lemma free_app a b : free a -> free b -> free (a ++ b).
Proof. intros (A & B) (C & D). split; intros H; apply in_app_or in H; tauto. Qed.
Lemma plain_app_r a b : free a -> plain b -> plain (a ++ b).
Proof.
  intros A (N & B). split; [|apply free_app; assumption]. intros H. apply app_eq_nil in H. tauto.
Qed.
Lemma plain_app_l a b : plain a -> free b -> plain (a ++ b).
Proof.
  intros (N & A) B. split; [|apply free_app; assumption]. intros H. apply app_eq_nil in H. tauto.
Qed.
Lemma free_nil : free [].
Proof. split; intros []. Qed.
Lemma digit_free c : is_digit c -> c <> "/"%char /\ c <> "."%char.
Proof. unfold is_digit. intros H. split; intros ->; cbn in H; lia. Qed.
Lemma uid_plain u : digit_uid u -> plain u.
Proof.
  intros (N & H). split; [exact N|]. rewrite Forall_forall in H.
  split; intros I; apply H, digit_free in I; tauto.
Qed.
Lemma digit_is_digit d : 0 <= d < 10 -> is_digit (digit d).
Proof. intros H. unfold is_digit, digit. rewrite nat_ascii_embedding; lia. Qed.
Lemma digits_digit w : forall n, Forall is_digit (digits w n).
Proof.
  induction w as [|w IH]; intros n; cbn [digits]; [constructor|].
  apply Forall_app. split; [apply IH|]. constructor; [|constructor]. apply digit_is_digit.
  pose proof (Z.mod_pos_bound n 10 ltac:(lia)). lia.
Qed.
Lemma digits_free w n : free (digits w n).
Proof.
  pose proof (digits_digit w n) as H. rewrite Forall_forall in H. split; intros I; apply H, digit_free in I; tauto.
Qed.
Ltac concrete := split; cbn; intuition discriminate.
Lemma us_free : free [c_us].
Proof. concrete. Qed.
Lemma fstem_plain d : plain (fstem d).
Proof.
  unfold fstem. split.
  - intros H. apply (f_equal (@length _)) in H. rewrite !app_length, !digits_length in H. cbn in H. lia.
  - apply free_app; [apply digits_free|]. apply free_app; [apply us_free|apply digits_free].
Qed.
Lemma uid_not_kind u k : digit_uid u -> (exists c, In c k /\ ~ is_digit c) -> u <> k.
Proof. intros (_ & H) (c & I & N) ->. rewrite Forall_forall in H. auto. Qed.

(** ** The run *)
Definition usual_run (r : run) : Prop := plain (r_name r) /\ free (r_sub r).
Lemma has_dot_free s : ~ In "."%char s -> has_dot s = false.
Proof.
  intros H. unfold has_dot. destruct (existsb _ s) eqn:E; [|reflexivity].
  apply existsb_exists in E. destruct E as (c & I & E). destruct (ascii_dec c c_dot) as [->|]; [destruct (H I)|discriminate].
Qed.
Lemma make_run_plain p nm sub : plain nm -> free sub -> make_run p nm sub = mk_run (p ++ [nm]) nm sub.
Proof.
  intros Hn Hs. unfold make_run. rewrite !has_dot_free by (apply Hn || apply Hs). cbn [orb].
  rewrite join_plain by exact Hn. reflexivity.
Qed.
Lemma full_name_plain r : usual_run r -> plain (full_name r).
Proof.
  intros (Hn & Hs). unfold full_name. destruct (r_sub r) eqn:E; [exact Hn|]. rewrite <- E in *. clear E.
  apply plain_app_l; [exact Hn|]. apply free_app; [apply us_free|exact Hs].
Qed.
Lemma stem_plain r o : usual_run r -> usual_output o -> plain (fst (stem r o)).
Proof.
  intros Hr Ho. pose proof (full_name_plain r Hr) as Hf.
  assert (F : forall u s, plain u -> free s -> plain (full_name r ++ [c_us] ++ u ++ s)).
  { intros u s Hu Hs. apply plain_app_l; [exact Hf|]. apply free_app; [apply us_free|].
    apply free_app; [apply Hu|exact Hs]. }
  destruct o; cbn [stem fst]; cbn [usual_output] in Ho;
    try (apply F; [apply fstem_plain || (apply uid_plain; exact Ho)|concrete]);
    try (apply uid_plain; exact Ho); try apply fstem_plain.
  - apply plain_app_l; [apply fstem_plain|concrete].
  - apply plain_app_l; [apply uid_plain, Ho|]. apply free_app; [apply us_free|apply Ho].
  - apply uid_plain, Ho.
Qed.

(** Components below the run directory. *)
Definition below (r : run) (o : output) : path :=
  match o with
  | OScan _ => [str "detect"; str "scanmseed"]
  | OAvail _ => [str "detect"; str "availability"]
  | OTrig _ => str "trigger" :: opt_part (r_sub r) ++ [str "events"]
  | OTrigPlot _ => str "trigger" :: opt_part (r_sub r) ++ [str "summaries"]
  | OEvent _ => str "locate" :: opt_part (r_sub r) ++ [str "events"]
  | OPicks _ => str "locate" :: opt_part (r_sub r) ++ [str "picks"]
  | OPickPlot uid _ => str "locate" :: (opt_part (r_sub r) ++ [str "pick_plots"]) ++ [uid]
  | OAmps _ => str "locate" :: opt_part (r_sub r) ++ [str "amplitudes"]
  | OAmpPlot _ => str "locate" :: opt_part (r_sub r) ++ [str "amplitude_plots"]
  | OSummary _ => str "locate" :: opt_part (r_sub r) ++ [str "summaries"]
  | OMap true _ => str "locate" :: opt_part (r_sub r) ++ [str "marginalised_coalescence_maps"]
  | OMap false _ => str "locate" :: opt_part (r_sub r) ++ [str "coalescence_maps"]
  | OCut k _ _ => str "locate" :: opt_part (r_sub r) ++ [k ++ str "_cut_waveforms"]
  end.
Lemma stage_dir_below r stage kind : free (r_sub r) -> plain (str stage) -> plain (str kind) ->
  stage_dir r stage kind = r_path r ++ str stage :: opt_part (r_sub r) ++ [str kind].
Proof.
  intros Hs Ha Hk. unfold stage_dir. rewrite (join_plain _ _ Hk), (join_free _ _ Hs), (join_plain _ _ Ha).
  rewrite <- !app_assoc. reflexivity.
Qed.
Lemma directory_below r o : usual_run r -> usual_output o -> directory r o = r_path r ++ below r o.
Proof.
  intros (Hn & Hs) Ho. destruct o; cbn [directory below];
    try (apply stage_dir_below; [exact Hs|split; [discriminate|concrete]|split; [discriminate|concrete]]).
  - rewrite !join_plain by (split; [discriminate|concrete]). rewrite <- app_assoc. reflexivity.
  - rewrite !join_plain by (split; [discriminate|concrete]). rewrite <- app_assoc. reflexivity.
  - cbn [usual_output] in Ho. destruct Ho as (Hu & _).
    unfold join. change (str "locate/" ++ r_sub r ++ str "/pick_plots/" ++ uid)
      with ("l"%char :: (str "ocate" ++ c_slash :: r_sub r ++ c_slash :: str "pick_plots" ++ c_slash :: uid)).
    cbv iota. destruct (ascii_dec "l" c_slash) as [E|_]; [discriminate|].
    change ("l"%char :: str "ocate" ++ c_slash :: r_sub r ++ c_slash :: str "pick_plots" ++ c_slash :: uid)
      with (str "locate" ++ c_slash :: r_sub r ++ c_slash :: str "pick_plots" ++ c_slash :: uid).
    rewrite !parts_app, (parts_plain uid (uid_plain _ Hu)), (parts_free _ Hs).
    rewrite <- !app_assoc. reflexivity.
  - destruct marginalised; apply stage_dir_below; try exact Hs; (split; [discriminate|concrete]).
  - destruct Ho as (_ & Hk & _).
    assert (K : plain (waveform_type ++ str "_cut_waveforms")).
    { cbn in Hk. destruct Hk as [<-|[<-|[<-|[]]]]; (split; [discriminate|concrete]). }
    rewrite (join_plain _ _ K), (join_free _ _ Hs), (join_plain _ (str "locate")) by (split; [discriminate|concrete]).
    rewrite <- !app_assoc. reflexivity.
Qed.
Lemma file_of_usual r o : usual_run r -> usual_output o ->
  file_of r o = Ret ((r_path r ++ below r o) ++ [fst (stem r o) ++ snd (stem r o)]).
Proof.
  intros Hr Ho. unfold file_of. rewrite join_plain by (apply stem_plain; assumption).
  rewrite with_suffix_plain by (apply stem_plain; assumption). rewrite directory_below by assumption. reflexivity.
Qed.

Lemma opt_part_inj s t : opt_part s = opt_part t -> s = t.
Proof. destruct s, t; cbn; congruence. Qed.
Lemma full_name_eq r r' : r_name r = r_name r' -> r_sub r = r_sub r' -> full_name r = full_name r'.
Proof. intros A B. unfold full_name. rewrite A, B. reflexivity. Qed.
Lemma kinds_nodigit : Forall (fun k => exists c, In c k /\ ~ is_digit c)
  [str "events"; str "picks"; str "amplitudes"; str "amplitude_plots"; str "summaries";
   str "marginalised_coalescence_maps"; str "coalescence_maps"].
Proof.
  repeat constructor; (eexists; split; [left; reflexivity|unfold is_digit; cbn; lia]).
Qed.
Lemma cut_nodigit k : exists c, In c (k ++ str "_cut_waveforms") /\ ~ is_digit c.
Proof.
  exists c_us. split; [|unfold is_digit; cbn; lia]. apply in_or_app. right. left. reflexivity.
Qed.

Lemma cons_inv {A} (x y : A) l k : x :: l = y :: k -> x = y /\ l = k.
Proof. intros H. injection H as H1 H2. split; assumption. Qed.
Lemma cut_kind_inj k k' : In k [str "raw"; str "real"; str "wa"] -> In k' [str "raw"; str "real"; str "wa"] ->
  k ++ str "_cut_waveforms" = k' ++ str "_cut_waveforms" -> k = k'.
Proof. intros _ _ H. apply app_inv_tail in H. exact H. Qed.
Lemma cut_not_kind k s : In k [str "raw"; str "real"; str "wa"] ->
  In s [str "events"; str "picks"; str "amplitudes"; str "amplitude_plots"; str "summaries";
        str "marginalised_coalescence_maps"; str "coalescence_maps"] -> k ++ str "_cut_waveforms" <> s.
Proof.
  intros [<-|[<-|[<-|[]]]] H E; rewrite <- E in H; cbn in H; intuition discriminate.
Qed.
Lemma uid_not_cut u k : digit_uid u -> u <> k ++ str "_cut_waveforms".
Proof. intros H. apply uid_not_kind; [exact H|]. apply cut_nodigit. Qed.
Lemma uid_not_dir u s : digit_uid u ->
  In s [str "events"; str "picks"; str "amplitudes"; str "amplitude_plots"; str "summaries";
        str "marginalised_coalescence_maps"; str "coalescence_maps"] -> u <> s.
Proof.
  intros H I. apply uid_not_kind; [exact H|]. pose proof kinds_nodigit as K. rewrite Forall_forall in K. apply K, I.
Qed.
Lemma suffix_inj u u' f f' : digit_uid u -> digit_uid u' ->
  In f [str "MSEED"; str "SAC"; str "SEGY"; str "GSE2"] -> In f' [str "MSEED"; str "SAC"; str "SEGY"; str "GSE2"] ->
  u ++ format_suffix f = u' ++ format_suffix f' -> u = u' /\ f = f'.
Proof.
  intros Hu Hu' Hf Hf' H.
  assert (D : forall a b x y, ~ In c_dot a -> ~ In c_dot b -> a ++ c_dot :: x = b ++ c_dot :: y -> a = b /\ x = y).
  { clear. induction a as [|c a IH]; intros [|c' b] x y Ha Hb E; cbn [app] in E.
    - split; congruence.
    - exfalso. apply Hb. left. congruence.
    - exfalso. apply Ha. left. congruence.
    - assert (c = c') by congruence. assert (E' : a ++ c_dot :: x = b ++ c_dot :: y) by congruence.
      apply IH in E'; [|cbn in Ha; tauto|cbn in Hb; tauto]. destruct E'. split; congruence. }
  pose proof (proj2 (proj2 (uid_plain _ Hu))) as Nu. pose proof (proj2 (proj2 (uid_plain _ Hu'))) as Nu'.
  assert (S : forall g, In g [str "MSEED"; str "SAC"; str "SEGY"; str "GSE2"] ->
    exists x, format_suffix g = c_dot :: x /\ (x = str "m" /\ g = str "MSEED" \/ x = str "sac" /\ g = str "SAC"
      \/ x = str "segy" /\ g = str "SEGY" \/ x = str "gse2" /\ g = str "GSE2")).
  { intros g [<-|[<-|[<-|[<-|[]]]]]; (eexists; split; [reflexivity|tauto]). }
  destruct (S f Hf) as (x & Ex & Cx). destruct (S f' Hf') as (y & Ey & Cy). rewrite Ex, Ey in H.
  apply D in H; [|exact Nu|exact Nu']. destruct H as (-> & ->). split; [reflexivity|].
  destruct Cx as [(A & ->)|[(A & ->)|[(A & ->)|(A & ->)]]]; subst y;
    destruct Cy as [(B & ->)|[(B & ->)|[(B & ->)|(B & ->)]]]; (reflexivity || discriminate B).
Qed.
Lemma pre_post_inj (a u u' s : name) : a ++ [c_us] ++ u ++ s = a ++ [c_us] ++ u' ++ s -> u = u'.
Proof. intros H. apply app_inv_head, app_inv_head, app_inv_tail in H. exact H. Qed.
Ltac clash :=
  match goal with
  | E : str _ = str _ |- _ => discriminate E
  | E : _ ++ str "_cut_waveforms" = str _ |- _ => exfalso; revert E; apply cut_not_kind; [tauto|cbn; tauto]
  | E : str _ = _ ++ str "_cut_waveforms" |- _ => symmetry in E; exfalso; revert E; apply cut_not_kind; [tauto|cbn; tauto]
  | E : ?u = _ ++ str "_cut_waveforms" |- _ => exfalso; revert E; apply uid_not_cut; tauto
  | E : _ ++ str "_cut_waveforms" = ?u |- _ => symmetry in E; exfalso; revert E; apply uid_not_cut; tauto
  | E : str _ = ?u |- _ => symmetry in E; exfalso; revert E; apply uid_not_dir; [tauto|cbn; tauto]
  | E : ?u = str _ |- _ => exfalso; revert E; apply uid_not_dir; [tauto|cbn; tauto]
  end.
Lemma below_inj r r' o o' : usual_output o -> usual_output o' -> r_name r = r_name r' ->
  below r o = below r' o' -> fst (stem r o) ++ snd (stem r o) = fst (stem r' o') ++ snd (stem r' o') ->
  o = o' /\ (of_detect o \/ r_sub r = r_sub r').
Proof.
  intros Ho Ho' Hn Hb Hl.
  destruct o as [d|d|d|d|u|u|u s|u|u|u|[|] u|k u f]; destruct o' as [d'|d'|d'|d'|u'|u'|u' s'|u'|u'|u'|[|] u'|k' u' f'];
    cbn [below usual_output] in Hb, Ho, Ho';
    apply cons_inv in Hb; destruct Hb as (E & Hb); try discriminate E; clear E;
    try (apply cons_inv in Hb; destruct Hb as (E & _); discriminate E);
    try (apply app_inj_tail in Hb; destruct Hb as (Hb & E)); try clash.
  all: cbn [stem fst snd] in Hl.
  all: try (rewrite <- !app_assoc in Hl).
  - apply app_inv_tail, fstem_inj in Hl; [|exact Ho|exact Ho']. subst. split; [reflexivity|left; exact I].
  - apply app_inv_tail, fstem_inj in Hl; [|exact Ho|exact Ho']. subst. split; [reflexivity|left; exact I].
  - apply opt_part_inj in Hb. rewrite (full_name_eq r r' Hn Hb) in Hl.
    apply app_inv_head, app_inv_head, app_inv_tail, fstem_inj in Hl; [|exact Ho|exact Ho']. subst. tauto.
  - apply opt_part_inj in Hb. rewrite (full_name_eq r r' Hn Hb) in Hl.
    apply app_inv_head, app_inv_head, app_inv_tail, fstem_inj in Hl; [|exact Ho|exact Ho']. subst. tauto.
  - apply opt_part_inj in Hb. apply app_inv_tail in Hl. subst. tauto.
  - apply opt_part_inj in Hb. apply app_inv_tail in Hl. subst. tauto.
  - apply app_inj_tail in Hb. destruct Hb as (Hb & _). apply opt_part_inj in Hb. subst u'.
    apply app_inv_head, app_inv_head, app_inv_tail in Hl. subst. tauto.
  - apply opt_part_inj in Hb. apply app_inv_tail in Hl. subst. tauto.
  - apply opt_part_inj in Hb. rewrite (full_name_eq r r' Hn Hb) in Hl. apply pre_post_inj in Hl. subst. tauto.
  - apply opt_part_inj in Hb. rewrite (full_name_eq r r' Hn Hb) in Hl. apply pre_post_inj in Hl. subst. tauto.
  - apply opt_part_inj in Hb. apply app_inv_tail in Hl. subst. tauto.
  - apply opt_part_inj in Hb. apply app_inv_tail in Hl. subst. tauto.
  - apply opt_part_inj in Hb. apply app_inv_tail in E. apply suffix_inj in Hl; try tauto.
    destruct Hl. subst. tauto.
Qed.
Lemma distinct_files p n1 s1 n2 s2 o1 o2 f : plain n1 -> free s1 -> plain n2 -> free s2 ->
  usual_output o1 -> usual_output o2 ->
  file_of (make_run p n1 s1) o1 = Ret f -> file_of (make_run p n2 s2) o2 = Ret f ->
  n1 = n2 /\ o1 = o2 /\ (of_detect o1 \/ s1 = s2).
Proof.
  intros Hn1 Hs1 Hn2 Hs2 Ho1 Ho2 E1 E2.
  rewrite make_run_plain in E1 by assumption. rewrite make_run_plain in E2 by assumption.
  rewrite file_of_usual in E1 by (try split; assumption). rewrite file_of_usual in E2 by (try split; assumption).
  rewrite <- E2 in E1. clear E2 f.
  assert (H := f_equal (fun x => match x with Ret y => y | _ => [] end) E1). cbv beta iota in H. clear E1.
  apply app_inj_tail in H. destruct H as (Hd & Hl). cbn [r_path] in Hd.
  rewrite <- !app_assoc in Hd. apply app_inv_head in Hd. cbn [app] in Hd. apply cons_inv in Hd.
  destruct Hd as (-> & Hd).
  split; [reflexivity|]. exact (below_inj (mk_run (p ++ [n2]) n2 s1) (mk_run (p ++ [n2]) n2 s2) o1 o2 Ho1 Ho2 eq_refl Hd Hl).
Qed.
