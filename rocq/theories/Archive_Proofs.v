(** Proofs about the waveform archive. *)
From Coq Require Import String Ascii.
From Coq Require Import List ZArith Bool Reals Lia Lra.
From Verif Require Import Lib LibFacts Calendar_Model Calendar_Proofs Timeline_Model Archive_Model Archive_Spec.
Import ListNotations.
Open Scope Z_scope.

(* ------------------------------------------------------------------ *)
(** * Patterns *)

Lemma fits_nil_inv s : fits [] s -> s = [].
Proof. intros H. inversion H. reflexivity. Qed.

Lemma fits_app g1 : forall g2 s, fits (g1 ++ g2) s <-> exists a b, s = a ++ b /\ fits g1 a /\ fits g2 b.
Proof.
  induction g1 as [|t g1 IH]; intros g2 s.
  - cbn [app]. split.
    + intros H. exists [], s. split; [reflexivity|]. split; [constructor|exact H].
    + intros (a & b & -> & Ha & Hb). apply fits_nil_inv in Ha as ->. exact Hb.
  - cbn [app]. split.
    + intros H. inversion H; subst; match goal with K : fits (g1 ++ g2) _ |- _ => apply IH in K; destruct K as (a & b & -> & Ha & Hb) end.
      * exists (c :: a), b. split; [reflexivity|]. split; [constructor; exact Ha|exact Hb].
      * exists (c :: a), b. split; [reflexivity|]. split; [constructor; exact Ha|exact Hb].
      * exists (c :: a), b. split; [reflexivity|]. split; [constructor; assumption|exact Hb].
      * exists (c :: a), b. split; [reflexivity|]. split; [constructor; assumption|exact Hb].
      * exists (u ++ a), b. split; [apply app_assoc|]. split; [constructor; exact Ha|exact Hb].
    + intros (a & b & -> & Ha & Hb). inversion Ha; subst; cbn [app]; try rewrite <- app_assoc;
        constructor; try assumption; apply IH; eexists; eexists; (split; [reflexivity|]); split; assumption.
Qed.

Lemma fits_chars u s : fits (chars u) s <-> s = u.
Proof.
  revert s. induction u as [|x u IH]; intros s; cbn.
  - split; [apply fits_nil_inv|intros ->; constructor].
  - split.
    + intros H. inversion H; subst. f_equal. apply IH. assumption.
    + intros ->. constructor. apply IH. reflexivity.
Qed.

Lemma fits_star1 s : fits [GStar] s.
Proof. rewrite <- (app_nil_r s). constructor. constructor. Qed.

Lemma fnmatch_fits g : forall s, fnmatch g s = true <-> fits g s.
Proof.
  induction g as [|t g IH]; intros s.
  - cbn. destruct s; split; intros H; try constructor; try discriminate; inversion H.
  - destruct t as [c| | |neg cs].
    + cbn. destruct s as [|x s]; [split; intros H; [discriminate|inversion H]|].
      rewrite andb_true_iff, Ascii.eqb_eq, IH. split.
      * intros [-> H]. constructor. exact H.
      * intros H. inversion H; subst. split; [reflexivity|assumption].
    + cbn. destruct s as [|x s]; [split; intros H; [discriminate|inversion H]|].
      rewrite IH. split; [intros H; constructor; exact H|intros H; inversion H; subst; assumption].
    + split.
      * induction s as [|x s IHs]; cbn; intros H.
        -- rewrite orb_false_r in H. apply (fits_star []). apply IH. exact H.
        -- apply orb_true_iff in H. destruct H as [H|H].
           ++ apply (fits_star []). apply IH. exact H.
           ++ specialize (IHs H). inversion IHs; subst. apply (fits_star (x :: u)). assumption.
      * intros H. inversion H as [| | | | |u g' s' Hs E1 E2]; subst.
        induction u as [|x u IHu].
        -- cbn [app]. apply IH in Hs. destruct s'; cbn; rewrite Hs; reflexivity.
        -- cbn. apply orb_true_iff. right. apply IHu. constructor. exact Hs.
    + cbn. destruct s as [|x s]; [split; intros H; [discriminate|inversion H]|].
      rewrite andb_true_iff, IH.
      assert (Hin : existsb (Ascii.eqb x) cs = true <-> In x cs).
      { rewrite existsb_exists. split.
        - intros (y & Hy & E). apply Ascii.eqb_eq in E as ->. exact Hy.
        - intros Hx. exists x. split; [exact Hx|apply Ascii.eqb_refl]. }
      destruct neg; cbn [xorb]; (split; [intros [H1 H2]|intros H; inversion H; subst; (split; [|assumption])]).
      * constructor; [|exact H2]. intros Hx. apply Hin in Hx. rewrite Hx in H1. discriminate.
      * destruct (existsb (Ascii.eqb x) cs) eqn:E; [|reflexivity]. exfalso. match goal with K : ~ In x cs |- _ => apply K end. apply Hin. reflexivity.
      * constructor; [|exact H2]. apply Hin. destruct (existsb (Ascii.eqb x) cs); [reflexivity|discriminate].
      * match goal with K : In x cs |- _ => apply Hin in K; rewrite K end. reflexivity.
Qed.

Lemma fits_star_star g s : fits (GStar :: GStar :: g) s <-> fits (GStar :: g) s.
Proof.
  split; intros H.
  - inversion H as [| | | | |u g' s' Hs E1 E2]; subst. inversion Hs as [| | | | |u' g' s'' Hs' E1 E2]; subst.
    rewrite app_assoc. constructor. exact Hs'.
  - apply (fits_star []). exact H.
Qed.

Lemma fits_cons t g1 g2 s : (forall s, fits g1 s <-> fits g2 s) -> fits (t :: g1) s <-> fits (t :: g2) s.
Proof.
  intros H. rewrite (fits_app [t] g1 s), (fits_app [t] g2 s).
  split; intros (a & b & E & Ha & Hb); exists a, b; (split; [exact E|]; split; [exact Ha|apply H; exact Hb]).
Qed.

Lemma collapse_fits g : forall s, fits (collapse g) s <-> fits g s.
Proof.
  induction g as [g IH] using (well_founded_induction (Wf_nat.well_founded_ltof _ (@length gtok))).
  unfold Wf_nat.ltof in IH. intros s.
  destruct g as [|x [|y r]].
  - reflexivity.
  - destruct x; reflexivity.
  - assert (H1 : forall s, fits (collapse (y :: r)) s <-> fits (y :: r) s) by (apply IH; cbn; lia).
    assert (H2 : forall s, fits (collapse r) s <-> fits r s) by (apply IH; cbn; lia).
    destruct x; try (change (collapse (?a :: y :: r)) with (a :: collapse (y :: r)); apply fits_cons; exact H1).
    destruct y; try (apply fits_cons; exact H1).
    change (collapse (GStar :: GStar :: r)) with (GStar :: collapse r). rewrite fits_star_star.
    apply fits_cons. exact H2.
Qed.

(** Paths. *)
Lemma path_match_fits pat : forall p, path_match pat p = true <-> Forall2 fits pat p.
Proof.
  induction pat as [|g pat IH]; intros [|x p]; cbn; split; intros H; try discriminate; try constructor; try (inversion H; fail).
  - apply andb_true_iff in H. apply fnmatch_fits. apply H.
  - apply andb_true_iff in H. apply IH. apply H.
  - inversion H; subst. apply andb_true_iff. split; [apply fnmatch_fits|apply IH]; assumption.
Qed.

Lemma in_glob a pat p : In p (glob a pat) <-> In p a /\ Forall2 fits pat p.
Proof. unfold glob. rewrite filter_In, path_match_fits. reflexivity. Qed.

Lemma Forall2_collapse pat : forall p, Forall2 fits (map collapse pat) p <-> Forall2 fits pat p.
Proof.
  induction pat as [|g pat IH]; intros p; cbn.
  - split; intros H; inversion H; constructor.
  - split; intros H; inversion H; subst; constructor; try (apply IH; assumption); apply collapse_fits; assumption.
Qed.

(* ------------------------------------------------------------------ *)
(** * Rendered formats *)

Lemma render_name_app G d f1 : forall f2, render_name G d (f1 ++ f2)
  = bind (render_name G d f1) (fun a => bind (render_name G d f2) (fun b => Ret (a ++ b))).
Proof.
  induction f1 as [|f f1 IH]; intros f2; cbn [app render_name bind].
  - destruct (render_name G d f2); reflexivity.
  - destruct (render_tok G d f) as [a| |]; cbn [bind]; [|reflexivity|reflexivity].
    rewrite IH. destruct (render_name G d f1) as [b| |]; cbn [bind]; [|reflexivity|reflexivity].
    destruct (render_name G d f2) as [e| |]; cbn [bind]; [|reflexivity|reflexivity]. rewrite app_assoc. reflexivity.
Qed.

Lemma render_name_pat G d gs : render_name G d (map FPat gs) = Ret gs.
Proof. induction gs as [|g gs IH]; cbn; [reflexivity|]. rewrite IH. reflexivity. Qed.

Lemma render_lit G d s : render_name G d (lit s) = Ret (chars (txt s)).
Proof.
  unfold lit, txt, chars. rewrite <- (map_map GChar FPat). apply render_name_pat.
Qed.

Lemma render_star G d : render_name G d fstar = Ret [GStar].
Proof. reflexivity. Qed.
Lemma render_station G d : render_name G d [FStation] = Ret G.
Proof. cbn. rewrite app_nil_r. reflexivity. Qed.
Lemma render_year G d : render_name G d [FYear] = Ret (chars (Y d)).
Proof. cbn. rewrite ?app_nil_r. reflexivity. Qed.
Lemma render_jday G d : render_name G d [FJday] = Ret (chars (J d)).
Proof. cbn. rewrite ?app_nil_r. reflexivity. Qed.
Lemma render_ymd G d : render_name G d [FYear; FMonth; FDay] = Ret (chars (Y d) ++ chars (MD d)).
Proof. unfold MD, chars. rewrite map_app. cbn. reflexivity. Qed.

Ltac rend := repeat first [rewrite render_lit | rewrite render_star | rewrite render_station
  | rewrite render_year | rewrite render_jday | rewrite render_ymd | rewrite render_name_pat
  | progress cbn [bind render] | rewrite render_name_app].

Lemma Forall2_nil_inv p : Forall2 fits [] p <-> p = [].
Proof. split; [intros H; inversion H; reflexivity|intros ->; constructor]. Qed.
Lemma Forall2_cons_inv g pat p : Forall2 fits (g :: pat) p <-> exists x p', p = x :: p' /\ fits g x /\ Forall2 fits pat p'.
Proof.
  split; [intros H; inversion H; subst; eexists; eexists; split; [reflexivity|]; split; assumption|].
  intros (x & p' & -> & H1 & H2). constructor; assumption.
Qed.

(** Splits hypotheses about patterns into equations. *)
Ltac split_fits := repeat match goal with
  | H : exists _, _ |- _ => destruct H
  | H : _ /\ _ |- _ => destruct H
  | H : Forall2 fits [] _ |- _ => apply Forall2_nil_inv in H
  | H : Forall2 fits (_ :: _) _ |- _ => apply Forall2_cons_inv in H
  | H : fits (chars _) _ |- _ => apply fits_chars in H
  | H : fits (_ ++ _) _ |- _ => apply fits_app in H
  end.

Lemma Ret_inj {A} (a b : A) : Ret a = Ret b -> a = b.
Proof. intros H. injection H as H. exact H. Qed.

(** The pattern of a format with the pattern [G] in the place of the station. *)
Lemma render_layout fmt ch f G d : path_structure fmt ch = Ret f ->
  exists pat, render G d f = Ret pat
    /\ forall p, Forall2 fits pat p <-> exists s s', fits G s /\ fits G s' /\ layout fmt ch s s' d p.
Proof.
  unfold path_structure. intros E.
  repeat match type of E with (if String.eqb fmt ?x then _ else _) = _ =>
    destruct (String.eqb_spec fmt x) as [->|?] end; try discriminate; apply Ret_inj in E; subst f; rend; eexists; (split; [reflexivity|]);
  intros p; (split; [intros H; split_fits; subst|intros (s & s' & Hs & Hs' & HL); unfold layout in HL]).
  - eexists; eexists. split; cycle 1. split; cycle 1.
    left. split; [reflexivity|]. do 5 eexists. split; [reflexivity|]. assumption. assumption. assumption.
  - destruct HL as [(_ & net & c & u & v & w & -> & Hc)|HL];
      [|exfalso; repeat (destruct HL as [HL|HL]; [destruct HL; discriminate|]); destruct HL; discriminate].
    repeat constructor; try (apply fits_chars; reflexivity); try apply fits_star1; try assumption.
    repeat (apply fits_app; eexists; eexists; split; [reflexivity|]; split;
      try (apply fits_chars; reflexivity); try apply fits_star1; try assumption).
  - eexists; eexists. split; [eassumption|]. split; [eassumption|]. right; left. split; [reflexivity|]. split; [reflexivity|].
    do 2 eexists. reflexivity.
  - assert (HL' : s = s' /\ exists u v, p = [Y d; J d; u ++ txt "_" ++ s ++ txt "_" ++ v]).
    { repeat (destruct HL as [HL|HL]; [destruct HL as (E & HL); try discriminate; exact HL|]).
      destruct HL; discriminate. }
    destruct HL' as (<- & u & v & ->).
    repeat constructor; try (apply fits_chars; reflexivity); try apply fits_star1; try assumption.
    repeat (apply fits_app; eexists; eexists; split; [reflexivity|]; split;
      try (apply fits_chars; reflexivity); try apply fits_star1; try assumption).
  - eexists; eexists. split; [eassumption|]. split; [eassumption|]. do 2 right; left. split; [reflexivity|]. split; [reflexivity|].
    eexists. reflexivity.
  - assert (HL' : s = s' /\ exists v, p = [Y d; J d; s ++ v]).
    { repeat (destruct HL as [HL|HL]; [destruct HL as (E & HL); try discriminate; exact HL|]).
      destruct HL; discriminate. }
    destruct HL' as (<- & v & ->).
    repeat constructor; try (apply fits_chars; reflexivity); try apply fits_star1; try assumption.
    repeat (apply fits_app; eexists; eexists; split; [reflexivity|]; split;
      try (apply fits_chars; reflexivity); try apply fits_star1; try assumption).
  - eexists; eexists. split; [eassumption|]. split; [eassumption|]. do 3 right; left. split; [reflexivity|]. split; [reflexivity|].
    do 2 eexists. reflexivity.
  - assert (HL' : s = s' /\ exists u v, p = [u ++ s ++ txt "." ++ v ++ txt "." ++ Y d ++ txt "." ++ J d]).
    { repeat (destruct HL as [HL|HL]; [destruct HL as (E & HL); try discriminate; exact HL|]).
      destruct HL; discriminate. }
    destruct HL' as (<- & u & v & ->).
    repeat constructor; try (apply fits_chars; reflexivity); try apply fits_star1; try assumption.
    repeat (apply fits_app; eexists; eexists; split; [reflexivity|]; split;
      try (apply fits_chars; reflexivity); try apply fits_star1; try assumption).
  - eexists; eexists. split; cycle 1. split; cycle 1.
    do 4 right; left. split; [reflexivity|]. reflexivity. assumption. assumption.
  - assert (HL' : p = [s; s' ++ txt "." ++ Y d ++ MD d]).
    { repeat (destruct HL as [HL|HL]; [destruct HL as (E & HL); try discriminate; exact HL|]).
      destruct HL; discriminate. }
    subst p.
    repeat constructor; try (apply fits_chars; reflexivity); try apply fits_star1; try assumption.
    repeat (apply fits_app; eexists; eexists; split; [reflexivity|]; split;
      try (apply fits_chars; reflexivity); try apply fits_star1; try assumption).
  - eexists; eexists. split; [eassumption|]. split; [eassumption|]. do 5 right; left. split; [reflexivity|]. split; [reflexivity|].
    eexists. reflexivity.
  - assert (HL' : s = s' /\ exists v, p = [Y d ++ txt "_" ++ J d; s ++ v]).
    { repeat (destruct HL as [HL|HL]; [destruct HL as (E & HL); try discriminate; exact HL|]).
      destruct HL; discriminate. }
    destruct HL' as (<- & v & ->).
    repeat constructor; try (apply fits_chars; reflexivity); try apply fits_star1; try assumption.
    all: repeat (apply fits_app; eexists; eexists; split; [reflexivity|]; split;
      try (apply fits_chars; reflexivity); try apply fits_star1; try assumption).
  - eexists; eexists. split; [eassumption|]. split; [eassumption|]. do 6 right. split; [reflexivity|]. split; [reflexivity|].
    eexists. reflexivity.
  - assert (HL' : s = s' /\ exists v, p = [Y d ++ txt "_" ++ J d; s ++ txt "_" ++ v]).
    { repeat (destruct HL as [HL|HL]; [destruct HL as (E & HL); try discriminate; exact HL|]).
      destruct HL as (_ & HL). exact HL. }
    destruct HL' as (<- & v & ->).
    repeat constructor; try (apply fits_chars; reflexivity); try apply fits_star1; try assumption.
    all: repeat (apply fits_app; eexists; eexists; split; [reflexivity|]; split;
      try (apply fits_chars; reflexivity); try apply fits_star1; try assumption).
Qed.

(* ------------------------------------------------------------------ *)
(** * The files of a period *)

Lemma station_files_in fmt ch f a d stations : path_structure fmt ch = Ret f ->
  exists fs, station_files a f d stations = Ret fs
    /\ forall p, In p fs <-> In p a /\ exists s, In s stations /\ layout fmt ch s s d p.
Proof.
  intros E. induction stations as [|s ss (r & Er & IH)]; cbn [station_files].
  - exists []. split; [reflexivity|]. intros p. split; [intros []|]. intros (_ & s & [] & _).
  - destruct (render_layout fmt ch f (chars s) d E) as (pat & Ep & Hp). rewrite Ep. cbn [bind]. rewrite Er. cbn [bind].
    exists (glob a pat ++ r). split; [reflexivity|]. intros p. rewrite in_app_iff, in_glob, IH, Hp. split.
    + intros [(Ha & s1 & s2 & H1 & H2 & HL)|(Ha & s1 & H1 & HL)]; (split; [exact Ha|]).
      * apply fits_chars in H1 as ->. apply fits_chars in H2 as ->. exists s. split; [left; reflexivity|exact HL].
      * exists s1. split; [right; exact H1|exact HL].
    + intros (Ha & s1 & [<-|H1] & HL).
      * left. split; [exact Ha|]. exists s, s. split; [apply fits_chars; reflexivity|].
        split; [apply fits_chars; reflexivity|exact HL].
      * right. split; [exact Ha|]. exists s1. split; assumption.
Qed.

Lemma day_files_in fmt ch f a read_all stations d : path_structure fmt ch = Ret f ->
  exists fs, day_files a f read_all stations d = Ret fs
    /\ forall p, In p fs <-> In p a /\ exists s s', (read_all = true \/ (s = s' /\ In s stations)) /\ layout fmt ch s s' d p.
Proof.
  intros E. unfold day_files. destruct read_all.
  - destruct (render_layout fmt ch f [GStar] d E) as (pat & Ep & Hp). rewrite Ep. cbn [bind].
    exists (glob a (map collapse pat)). split; [reflexivity|]. intros p. rewrite in_glob, Forall2_collapse, Hp.
    split; intros (Ha & s & s' & H); (split; [exact Ha|]); exists s, s'.
    + split; [left; reflexivity|apply H].
    + split; [apply fits_star1|]. split; [apply fits_star1|apply H].
  - destruct (station_files_in fmt ch f a d stations E) as (fs & Ef & H). exists fs. split; [exact Ef|].
    intros p. rewrite H. split.
    + intros (Ha & s & Hs & HL). split; [exact Ha|]. exists s, s. split; [right; split; [reflexivity|exact Hs]|exact HL].
    + intros (Ha & s & s' & [H1|[-> H1]] & HL); [discriminate|]. split; [exact Ha|]. exists s'. split; assumption.
Qed.

Lemma day_pos c : 0 < sec c -> 0 < day c.
Proof. unfold day. lia. Qed.

Lemma load_days_in fmt ch f c a read_all stations endtime : 0 < sec c -> path_structure fmt ch = Ret f ->
  forall fuel m r, load_days fuel c a f read_all stations (m * day c) endtime = Some r ->
  exists fs, r = Ret fs /\ forall p, In p fs <-> In p a /\ exists d s s', m <= d /\ d * day c <= endtime
      /\ (read_all = true \/ (s = s' /\ In s stations)) /\ layout fmt ch s s' d p.
Proof.
  intros Hc E. pose proof (day_pos c Hc) as Hd. induction fuel as [|fuel IH]; intros m r H; cbn [load_days] in H;
    destruct (Z.leb_spec (m * day c) endtime) as [Hle|Hgt]; try discriminate;
    try (injection H as <-; exists []; split; [reflexivity|]; intros p; split; [intros []|];
         intros (_ & d & _ & _ & H1 & H2 & _); nia).
  rewrite Z.div_mul in H by lia.
  destruct (day_files_in fmt ch f a read_all stations m E) as (fs & Ef & Hfs). rewrite Ef in H.
  replace (m * day c + day c) with ((m + 1) * day c) in H by ring.
  destruct (load_days fuel c a f read_all stations ((m + 1) * day c) endtime) as [r'|] eqn:Er; [|discriminate].
  destruct (IH (m + 1) r' Er) as (fs' & -> & Hfs'). injection H as <-. exists (fs ++ fs'). split; [reflexivity|].
  intros p. rewrite in_app_iff, Hfs, Hfs'. split.
  - intros [(Ha & s & s' & H1 & H2)|(Ha & d & s & s' & H1 & H2 & H3 & H4)]; (split; [exact Ha|]).
    + exists m, s, s'. split; [lia|]. split; [exact Hle|]. split; assumption.
    + exists d, s, s'. split; [lia|]. split; [exact H2|]. split; assumption.
  - intros (Ha & d & s & s' & H1 & H2 & H3 & H4). destruct (Z.eq_dec d m) as [->|Hne].
    + left. split; [exact Ha|]. exists s, s'. split; assumption.
    + right. split; [exact Ha|]. exists d, s, s'. split; [lia|]. split; [exact H2|]. split; assumption.
Qed.

Lemma load_from_path_in fmt ch f fuel c a read_all stations starttime endtime r : 0 < sec c -> starttime <= endtime ->
  path_structure fmt ch = Ret f ->
  load_from_path fuel c a (Some f) read_all stations starttime endtime = Some r ->
  exists fs, r = Ret fs /\ forall p, In p fs <-> In p a /\ exists d s s', day_in c starttime endtime d
      /\ (read_all = true \/ (s = s' /\ In s stations)) /\ layout fmt ch s s' d p.
Proof.
  intros Hc Hse E H. pose proof (day_pos c Hc) as Hd. unfold load_from_path in H.
  pose proof (Z.div_mod starttime (day c) ltac:(lia)) as Hdm. pose proof (Z.mod_pos_bound starttime (day c) Hd) as Hmb.
  replace (starttime - starttime mod day c) with (starttime / day c * day c) in H by lia.
  destruct (load_days_in fmt ch f c a read_all stations endtime Hc E fuel (starttime / day c) r H) as (fs & Er & Hfs).
  exists fs. split; [exact Er|]. intros p. rewrite Hfs. split.
  - intros (Ha & d & s & s' & H1 & H2 & H3). split; [exact Ha|]. exists d, s, s'. split; [|exact H3].
    exists (Z.max starttime (d * day c)). split; [lia|]. split; [lia|].
    destruct (Z.eq_dec d (starttime / day c)) as [->|Hne]; nia.
  - intros (Ha & d & s & s' & (t & Ht & Ht') & H3). split; [exact Ha|]. exists d, s, s'. split; [nia|]. split; [lia|exact H3].
Qed.

Lemma load_days_total c a f read_all stations endtime : 0 < sec c ->
  forall fuel m, endtime < (m + Z.of_nat fuel) * day c ->
  exists r, load_days fuel c a f read_all stations (m * day c) endtime = Some r.
Proof.
  intros Hc. pose proof (day_pos c Hc) as Hd. induction fuel as [|fuel IH]; intros m H; cbn [load_days];
    destruct (Z.leb_spec (m * day c) endtime) as [Hle|Hgt]; try (eexists; reflexivity).
  - exfalso. nia.
  - destruct (day_files a f read_all stations (m * day c / day c)); [|eexists; reflexivity|eexists; reflexivity].
    destruct (IH (m + 1)) as (r & Er); [lia|]. replace (m * day c + day c) with ((m + 1) * day c) by ring.
    rewrite Er. destruct r; eexists; reflexivity.
Qed.

(* ------------------------------------------------------------------ *)
(** * Which station and day a file belongs to *)

Lemma Y_len d : length (Y d) = 4%nat. Proof. apply digits_length. Qed.
Lemma J_len d : length (J d) = 3%nat. Proof. apply digits_length. Qed.
Lemma MD_len d : length (MD d) = 4%nat.
Proof. unfold MD. rewrite app_length, !digits_length. reflexivity. Qed.

Definition year_ok (d : Z) : Prop := 0 <= year d <= 9999.

Lemma YJ_inj d d' : year_ok d -> year_ok d' -> Y d = Y d' -> J d = J d' -> d = d'.
Proof.
  intros H H' HY HJ. apply fstem_inj; try assumption. unfold fstem, Y, J in *. rewrite HY, HJ. reflexivity.
Qed.

Lemma YMD_inj d d' : year_ok d -> year_ok d' -> Y d ++ MD d = Y d' ++ MD d' -> d = d'.
Proof.
  intros H H' E. apply app_inj_length in E; [|rewrite !Y_len; reflexivity]. destruct E as [EY EM].
  unfold MD in EM. apply app_inj_length in EM; [|rewrite !digits_length; reflexivity]. destruct EM as [Em Ed].
  apply civil_inj. rewrite !civil_split.
  pose proof (civil_valid d) as V. pose proof (civil_valid d') as V'. rewrite civil_split in V, V'. 
  unfold Calendar_Spec.valid_date in V, V'.
  assert (B : forall y m, Calendar_Spec.month_days y m <= 31).
  { intros y m. unfold Calendar_Spec.month_days. repeat match goal with |- context [if ?b then _ else _] => destruct b end; lia. }
  pose proof (B (year d) (month d)). pose proof (B (year d') (month d')).
  unfold Y in EY. unfold year_ok in *.
  apply digits_inj in EY; [|lia|lia]. apply digits_inj in Em; [|lia|lia]. apply digits_inj in Ed; [|lia|lia].
  rewrite EY, Em, Ed. reflexivity.
Qed.

Lemma app_inj_tail_len {A} (a a' b b' : list A) : length b = length b' -> a ++ b = a' ++ b' -> a = a' /\ b = b'.
Proof.
  intros L E. apply app_inj_length; [|exact E]. apply (f_equal (@length A)) in E. rewrite !app_length in E. lia.
Qed.

(** Text before the first separator. *)
Lemma before_sep (x : ascii) u v u' v' : ~ In x u -> ~ In x u' -> u ++ x :: v = u' ++ x :: v' -> u = u' /\ v = v'.
Proof.
  revert u'. induction u as [|y u IH]; intros [|y' u'] Hu Hu' E; cbn in E.
  - injection E as ->. split; reflexivity.
  - injection E as -> _. exfalso. apply Hu'. left. reflexivity.
  - injection E as -> _. exfalso. apply Hu. left. reflexivity.
  - injection E as -> E. destruct (IH u') as [-> ->]; try assumption.
    + intros K. apply Hu. right. exact K.
    + intros K. apply Hu'. right. exact K.
    + split; reflexivity.
Qed.

Lemma prefix_total (u v w z : name) : u ++ w = v ++ z -> prefix_of u v \/ prefix_of v u.
Proof.
  revert v. induction u as [|x u IH]; intros [|y v] E.
  - left. exists []. reflexivity.
  - left. exists (y :: v). reflexivity.
  - right. exists (x :: u). reflexivity.
  - cbn in E. injection E as -> E. destruct (IH v E) as [(q & ->)|(q & ->)].
    + left. exists q. reflexivity.
    + right. exists q. reflexivity.
Qed.

Lemma list3 {A} (a b c a' b' c' : A) : [a; b; c] = [a'; b'; c'] -> a = a' /\ b = b' /\ c = c'.
Proof. intros H. injection H as -> -> ->. repeat split. Qed.
Lemma list2 {A} (a b a' b' : A) : [a; b] = [a'; b'] -> a = a' /\ b = b'.
Proof. intros H. injection H as -> ->. repeat split. Qed.
Lemma list1 {A} (a a' : A) : [a] = [a'] -> a = a'.
Proof. intros H. injection H as ->. reflexivity. Qed.
Lemma list5 {A} (a b c d e a' b' c' d' e' : A) : [a; b; c; d; e] = [a'; b'; c'; d'; e'] -> a = a' /\ c = c' /\ e = e'.
Proof. intros H. injection H as -> _ -> _ ->. repeat split. Qed.

Lemma YuJ d d' : Y d ++ txt "_" ++ J d = Y d' ++ txt "_" ++ J d' -> Y d = Y d' /\ J d = J d'.
Proof.
  intros E. apply app_inj_length in E; [|rewrite !Y_len; reflexivity]. destruct E as [EY E]. split; [exact EY|].
  apply app_inv_head in E. exact E.
Qed.

(** No two days share a file, whatever the stations. *)
Lemma layout_day fmt ch s s' t t' d d' p : year_ok d -> year_ok d' ->
  layout fmt ch s s' d p -> layout fmt ch t t' d' p -> d = d'.
Proof.
  intros Hy Hy' H H'. unfold layout in H, H'.
  destruct H as [(F & H)|[(F & H)|[(F & H)|[(F & H)|[(F & H)|[(F & H)|(F & H)]]]]]];
  (destruct H' as [(F' & H')|[(F' & H')|[(F' & H')|[(F' & H')|[(F' & H')|[(F' & H')|(F' & H')]]]]]]); subst fmt; try discriminate; clear F'.
  - destruct H as (n1 & c1 & u1 & v1 & w1 & -> & _). destruct H' as (n2 & c2 & u2 & v2 & w2 & E & _).
    apply list5 in E. destruct E as (EY & _ & E). rewrite !app_assoc in E.
    apply app_inj_tail_len in E; [|rewrite !J_len; reflexivity]. apply YJ_inj; [exact Hy|exact Hy'|exact EY|apply E].
  - destruct H as (_ & u1 & v1 & ->). destruct H' as (_ & u2 & v2 & E). apply list3 in E. apply YJ_inj; [exact Hy|exact Hy'|apply E|apply E].
  - destruct H as (_ & v1 & ->). destruct H' as (_ & v2 & E). apply list3 in E. apply YJ_inj; [exact Hy|exact Hy'|apply E|apply E].
  - destruct H as (_ & u1 & v1 & ->). destruct H' as (_ & u2 & v2 & E). apply list1 in E. rewrite !app_assoc in E.
    apply app_inj_tail_len in E; [|rewrite !J_len; reflexivity]. destruct E as [E EJ].
    apply app_inj_tail_len in E; [|reflexivity]. destruct E as [E _].
    apply app_inj_tail_len in E; [|rewrite !Y_len; reflexivity]. apply YJ_inj; [exact Hy|exact Hy'|apply E|exact EJ].
  - subst p. apply list2 in H'. destruct H' as [_ E]. rewrite !app_assoc in E. rewrite <- !(app_assoc _ (Y _) (MD _)) in E.
    apply app_inj_tail_len in E; [|rewrite !app_length, !Y_len, !MD_len; reflexivity]. apply YMD_inj; [exact Hy|exact Hy'|apply E].
  - destruct H as (_ & v1 & ->). destruct H' as (_ & v2 & E). apply list2 in E. destruct E as [E _]. apply YuJ in E.
    apply YJ_inj; [exact Hy|exact Hy'|apply E|apply E].
  - destruct H as (_ & v1 & ->). destruct H' as (_ & v2 & E). apply list2 in E. destruct E as [E _]. apply YuJ in E.
    apply YJ_inj; [exact Hy|exact Hy'|apply E|apply E].
Qed.

(** The stations a file can be read for. *)
Lemma layout_station_dir fmt ch s t d d' p :
  fmt = "SeisComp3"%string \/ fmt = "/STATION/STATION.YearMonthDay"%string ->
  layout fmt ch s s d p -> layout fmt ch t t d' p -> s = t.
Proof.
  intros F H H'. unfold layout in H, H'.
  destruct F as [-> | ->].
  - destruct H as [(_ & n1 & c1 & u1 & v1 & w1 & -> & _)|H];
      [|exfalso; repeat (destruct H as [H|H]; [destruct H; discriminate|]); destruct H; discriminate].
    destruct H' as [(_ & n2 & c2 & u2 & v2 & w2 & E & _)|H];
      [|exfalso; repeat (destruct H as [H|H]; [destruct H; discriminate|]); destruct H; discriminate].
    apply list5 in E. apply E.
  - do 4 (destruct H as [H|H]; [destruct H; discriminate|]). do 4 (destruct H' as [H'|H']; [destruct H'; discriminate|]).
    destruct H as [(_ & ->)|H]; [|exfalso; destruct H as [H|H]; destruct H; discriminate].
    destruct H' as [(_ & E)|H]; [|exfalso; destruct H as [H|H]; destruct H; discriminate].
    apply list2 in E. apply E.
Qed.

Lemma layout_station_underscore ch s t d d' p :
  ~ In "_"%char s -> ~ In "_"%char t ->
  layout "YEAR_JD/STATION_*" ch s s d p -> layout "YEAR_JD/STATION_*" ch t t d' p -> s = t.
Proof.
  intros Hs Ht H H'. unfold layout in H, H'.
  do 6 (destruct H as [H|H]; [destruct H; discriminate|]). do 6 (destruct H' as [H'|H']; [destruct H'; discriminate|]).
  destruct H as (_ & _ & v & ->). destruct H' as (_ & _ & v' & E). apply list2 in E. destruct E as [_ E].
  cbn in E. apply before_sep in E; [apply E|exact Hs|exact Ht].
Qed.

Lemma layout_station_prefix fmt ch s t d d' p :
  fmt = "YEAR/JD/STATION"%string \/ fmt = "YEAR_JD/STATION*"%string ->
  layout fmt ch s s d p -> layout fmt ch t t d' p -> prefix_of s t \/ prefix_of t s.
Proof.
  intros F H H'. unfold layout in H, H'. destruct F as [-> | ->].
  - do 2 (destruct H as [H|H]; [destruct H; discriminate|]). do 2 (destruct H' as [H'|H']; [destruct H'; discriminate|]).
    destruct H as [(_ & _ & v & ->)|H]; [|exfalso; repeat (destruct H as [H|H]; [destruct H; discriminate|]); destruct H; discriminate].
    destruct H' as [(_ & _ & v' & E)|H]; [|exfalso; repeat (destruct H as [H|H]; [destruct H; discriminate|]); destruct H; discriminate].
    apply list3 in E. destruct E as (_ & _ & E). exact (prefix_total _ _ _ _ E).
  - do 5 (destruct H as [H|H]; [destruct H; discriminate|]). do 5 (destruct H' as [H'|H']; [destruct H'; discriminate|]).
    destruct H as [(_ & _ & v & ->)|H]; [|destruct H; discriminate].
    destruct H' as [(_ & _ & v' & E)|H]; [|destruct H; discriminate].
    apply list2 in E. destruct E as (_ & E). exact (prefix_total _ _ _ _ E).
Qed.

(* ------------------------------------------------------------------ *)
(** * Every file once *)

Lemma NoDup_glob a pat : NoDup a -> NoDup (glob a pat).
Proof. apply NoDup_filter. Qed.

Lemma NoDup_app_intro {A} (l l' : list A) : NoDup l -> NoDup l' -> (forall x, In x l -> In x l' -> False) -> NoDup (l ++ l').
Proof.
  intros H H' D. induction l as [|x l IH]; cbn; [exact H'|]. inversion H; subst. constructor.
  - rewrite in_app_iff. intros [K|K]; [contradiction|]. apply (D x); [left; reflexivity|exact K].
  - apply IH; [assumption|]. intros y Hy. apply D. right. exact Hy.
Qed.

Lemma station_files_nodup fmt ch f a d stations : path_structure fmt ch = Ret f -> NoDup a -> NoDup stations ->
  (forall s t p, In s stations -> In t stations -> layout fmt ch s s d p -> layout fmt ch t t d p -> s = t) ->
  forall fs, station_files a f d stations = Ret fs -> NoDup fs.
Proof.
  intros E Ha. induction stations as [|s ss IH]; intros Hnd Hex fs Ef; cbn [station_files] in Ef.
  - injection Ef as <-. constructor.
  - destruct (render_layout fmt ch f (chars s) d E) as (pat & Ep & Hp). rewrite Ep in Ef. cbn [bind] in Ef.
    destruct (station_files_in fmt ch f a d ss E) as (r & Er & Hr). rewrite Er in Ef. cbn [bind] in Ef. injection Ef as <-.
    inversion Hnd; subst. apply NoDup_app_intro.
    + apply NoDup_glob. exact Ha.
    + apply IH; try assumption. intros x y p Hx Hy. apply Hex; right; assumption.
    + intros p Hp1 Hp2. apply in_glob in Hp1. apply Hr in Hp2. destruct Hp1 as (_ & Hp1). apply Hp in Hp1.
      destruct Hp1 as (s1 & s2 & K1 & K2 & HL). apply fits_chars in K1 as ->. apply fits_chars in K2 as ->.
      destruct Hp2 as (_ & t & Ht & HL'). 
      assert (s = t) as -> by (apply (Hex s t p); [left; reflexivity|right; exact Ht|exact HL|exact HL']).
      contradiction.
Qed.

Lemma load_days_nodup fmt ch f c a stations endtime : 0 < sec c -> path_structure fmt ch = Ret f -> NoDup a -> NoDup stations ->
  (forall s t d p, In s stations -> In t stations -> layout fmt ch s s d p -> layout fmt ch t t d p -> s = t) ->
  forall fuel m, (forall d, m <= d -> d * day c <= endtime -> year_ok d) ->
  forall fs, load_days fuel c a f false stations (m * day c) endtime = Some (Ret fs) -> NoDup fs.
Proof.
  intros Hc E Ha Hst Hex. pose proof (day_pos c Hc) as Hd.
  induction fuel as [|fuel IH]; intros m Hyr fs H; cbn [load_days] in H;
    destruct (Z.leb_spec (m * day c) endtime) as [Hle|Hgt]; try discriminate; try (injection H as <-; constructor).
  rewrite Z.div_mul in H by lia. unfold day_files in H.
  destruct (station_files_in fmt ch f a m stations E) as (fs1 & Ef & Hfs). rewrite Ef in H.
  replace (m * day c + day c) with ((m + 1) * day c) in H by ring.
  destruct (load_days fuel c a f false stations ((m + 1) * day c) endtime) as [r'|] eqn:Er; [|discriminate].
  destruct (load_days_in fmt ch f c a false stations endtime Hc E fuel (m + 1) r' Er) as (fs2 & -> & Hfs2).
  injection H as <-. apply NoDup_app_intro.
  - apply (station_files_nodup fmt ch f a m stations E Ha Hst); [|exact Ef]. intros s t p. apply Hex.
  - apply (IH (m + 1)); [intros d H1 H2; apply Hyr; lia|exact Er].
  - intros p Hp1 Hp2. apply Hfs in Hp1. apply Hfs2 in Hp2. destruct Hp1 as (_ & s & _ & HL).
    destruct Hp2 as (_ & d & t & t' & K1 & K2 & _ & HL').
    pose proof (layout_day fmt ch s s t t' m d p (Hyr m ltac:(lia) Hle) (Hyr d ltac:(lia) K2) HL HL'). lia.
Qed.

(* ------------------------------------------------------------------ *)
(** * Cutting traces *)

Lemma round_away_bounds a b : 0 < b -> 2 * a - b <= 2 * b * round_away a b <= 2 * a + b.
Proof.
  intros Hb. unfold round_away. destruct (Z.leb_spec 0 a) as [H|H].
  - pose proof (Z.div_mod (2 * a + b) (2 * b) ltac:(lia)). pose proof (Z.mod_pos_bound (2 * a + b) (2 * b) ltac:(lia)). lia.
  - pose proof (Z.div_mod (2 * - a + b) (2 * b) ltac:(lia)). pose proof (Z.mod_pos_bound (2 * - a + b) (2 * b) ltac:(lia)). lia.
Qed.

Lemma nth_error_skipn' {A} k : forall (l : list A) i, nth_error (skipn k l) i = nth_error l (i + k).
Proof.
  induction k as [|k IH]; intros l i; [rewrite Nat.add_0_r; reflexivity|].
  destruct l as [|x l]; cbn [skipn].
  - rewrite Nat.add_succ_r. destruct i; reflexivity.
  - rewrite Nat.add_succ_r. cbn [nth_error]. apply IH.
Qed.

Lemma nth_error_firstn' {A} k : forall (l : list A) i, (i < k)%nat -> nth_error (firstn k l) i = nth_error l i.
Proof.
  induction k as [|k IH]; intros l i Hi; [lia|].
  destruct l as [|x l]; [destruct i; reflexivity|]. destruct i as [|i]; cbn; [reflexivity|]. apply IH. lia.
Qed.

Lemma rd_skipn' {A} (l : list A) k i : 0 <= k -> 0 <= i -> rd (skipn (Z.to_nat k) l) i = rd l (i + k).
Proof.
  intros Hk Hi. unfold rd. destruct (Z.ltb_spec i 0); [lia|]. destruct (Z.ltb_spec (i + k) 0); [lia|].
  rewrite Z2Nat.inj_add by lia. apply nth_error_skipn'.
Qed.

Lemma rd_firstn' {A} (l : list A) k i : i < k -> rd (firstn (Z.to_nat k) l) i = rd l i.
Proof.
  intros H. unfold rd. destruct (Z.ltb_spec i 0); [reflexivity|]. apply nth_error_firstn'. lia.
Qed.

Lemma rd_firstn_lt {A} (l : list A) k i v : 0 <= k -> rd (firstn (Z.to_nat k) l) i = Some v -> 0 <= i < k /\ rd l i = Some v.
Proof.
  intros Hk H. assert (Hi : 0 <= i < k).
  { unfold rd in H. destruct (Z.ltb_spec i 0); [discriminate|].
    assert (Z.to_nat i < length (firstn (Z.to_nat k) l))%nat by (apply nth_error_Some; rewrite H; discriminate).
    rewrite firstn_length in *. lia. }
  split; [exact Hi|]. rewrite rd_firstn' in H by lia. exact H.
Qed.

Lemma ltrim_meta t w : w_station (ltrim t w) = w_station t /\ w_chan (ltrim t w) = w_chan t /\ w_delta (ltrim t w) = w_delta t.
Proof. unfold ltrim. cbv zeta. destruct (_ <=? 0); repeat split. Qed.
Lemma rtrim_meta t w : w_station (rtrim t w) = w_station t /\ w_chan (rtrim t w) = w_chan t /\ w_delta (rtrim t w) = w_delta t.
Proof. unfold rtrim. cbv zeta. destruct (0 <=? _); [repeat split|]. destruct (_ <? _); repeat split. Qed.
Lemma trim_meta t a b : w_station (trim t a b) = w_station t /\ w_chan (trim t a b) = w_chan t /\ w_delta (trim t a b) = w_delta t.
Proof.
  unfold trim. destruct (ltrim_meta t a) as (H1 & H2 & H3). destruct (rtrim_meta (ltrim t a) b) as (K1 & K2 & K3).
  repeat split; congruence.
Qed.

Lemma rd_lt {A} (l : list A) i v : rd l i = Some v -> 0 <= i < Z.of_nat (length l).
Proof.
  unfold rd. destruct (Z.ltb_spec i 0); [discriminate|]. intros K.
  assert (Z.to_nat i < length l)%nat by (apply nth_error_Some; rewrite K; discriminate). lia.
Qed.

Lemma ltrim_keeps t w tau v : 0 < w_delta t -> has_sample t tau v -> w <= tau -> has_sample (ltrim t w) tau v.
Proof.
  intros Hd (i & Hi & ->) Hw. unfold ltrim. cbv zeta.
  pose proof (round_away_bounds (w - w_start t) (w_delta t) Hd) as Hb.
  set (r := round_away (w - w_start t) (w_delta t)) in *.
  destruct (Z.leb_spec r 0); [exists i; split; [exact Hi|reflexivity]|].
  assert (r <= i) by nia.
  exists (i - r). cbn [w_data w_start w_delta]. split; [|ring].
  rewrite rd_skipn' by lia. replace (i - r + r) with i by ring. exact Hi.
Qed.

Lemma ltrim_only t w tau v : 0 < w_delta t -> has_sample (ltrim t w) tau v ->
  has_sample t tau v /\ 2 * w - w_delta t <= 2 * tau.
Proof.
  intros Hd (i & Hi & ->). pose proof (rd_lt _ _ _ Hi) as Hr. revert Hi Hr. unfold ltrim. cbv zeta.
  pose proof (round_away_bounds (w - w_start t) (w_delta t) Hd) as Hb.
  set (r := round_away (w - w_start t) (w_delta t)) in *.
  destruct (Z.leb_spec r 0); cbn [w_data w_start w_delta]; intros Hi Hr.
  - split; [exists i; split; [exact Hi|reflexivity]|]. nia.
  - rewrite rd_skipn' in Hi by lia. split; [exists (i + r); split; [exact Hi|ring]|]. nia.
Qed.

Lemma rtrim_keeps t w tau v : 0 < w_delta t -> has_sample t tau v -> tau <= w -> has_sample (rtrim t w) tau v.
Proof.
  intros Hd (i & Hi & ->) Hw. pose proof (rd_lt _ _ _ Hi) as Hr. fold (w_n t) in Hr. unfold rtrim. cbv zeta.
  pose proof (round_away_bounds (w - w_start t - (w_n t - 1) * w_delta t) (w_delta t) Hd) as Hb.
  set (r := round_away _ _) in *.
  destruct (Z.leb_spec 0 r); [exists i; split; [exact Hi|reflexivity]|].
  destruct (Z.ltb_spec w (w_start t)); [nia|].
  exists i. cbn [w_data w_start w_delta]. split; [|reflexivity].
  destruct (Z.eqb_spec w (w_start t)) as [->|Hne].
  - assert (i = 0) as -> by nia. rewrite rd_firstn' by lia. exact Hi.
  - assert (i < w_n t + r) by nia. rewrite rd_firstn' by lia. exact Hi.
Qed.

Lemma rtrim_only t w tau v : 0 < w_delta t -> has_sample (rtrim t w) tau v ->
  has_sample t tau v /\ 2 * tau <= 2 * w + w_delta t.
Proof.
  intros Hd (i & Hi & ->). pose proof (rd_lt _ _ _ Hi) as Hr. revert Hi Hr. unfold rtrim. cbv zeta.
  pose proof (round_away_bounds (w - w_start t - (w_n t - 1) * w_delta t) (w_delta t) Hd) as Hb.
  set (r := round_away _ _) in *.
  destruct (Z.leb_spec 0 r); [|destruct (Z.ltb_spec w (w_start t))]; cbn [w_data w_start w_delta]; intros Hi Hr.
  - split; [exists i; split; [exact Hi|reflexivity]|]. fold (w_n t) in Hr. nia.
  - cbn in Hr. lia.
  - destruct (Z.eqb_spec w (w_start t)) as [->|Hne].
    + apply rd_firstn_lt in Hi; [|lia]. destruct Hi as [Hi1 Hi].
      split; [exists i; split; [exact Hi|reflexivity]|]. nia.
    + assert (Hp : 0 <= w_n t + r) by nia.
      apply rd_firstn_lt in Hi; [|exact Hp]. destruct Hi as [Hi1 Hi].
      split; [exists i; split; [exact Hi|reflexivity]|]. nia.
Qed.

Lemma trim_keeps t a b tau v : 0 < w_delta t -> has_sample t tau v -> a <= tau <= b -> has_sample (trim t a b) tau v.
Proof.
  intros Hd H Ht. unfold trim. apply rtrim_keeps; [rewrite (proj2 (proj2 (ltrim_meta t a))); exact Hd| |lia].
  apply ltrim_keeps; [exact Hd|exact H|lia].
Qed.

Lemma trim_only t a b tau v : 0 < w_delta t -> has_sample (trim t a b) tau v ->
  has_sample t tau v /\ 2 * a - w_delta t <= 2 * tau <= 2 * b + w_delta t.
Proof.
  intros Hd H. unfold trim in H. pose proof (proj2 (proj2 (ltrim_meta t a))) as Em.
  apply rtrim_only in H; [|rewrite Em; exact Hd]. destruct H as [H H1]. rewrite Em in H1.
  apply ltrim_only in H; [|exact Hd]. destruct H as [H H2]. split; [exact H|lia].
Qed.

Lemma has_sample_nonempty t tau v : has_sample t tau v -> nonempty t = true.
Proof. intros (i & Hi & _). apply rd_lt in Hi. unfold nonempty, w_n. apply Z.ltb_lt. lia. Qed.

(* ------------------------------------------------------------------ *)
(** * Reading *)

Lemma select_in read_all stations raw tr : In tr (select_stations read_all stations raw) <->
  In tr raw /\ (read_all = true -> In (w_station tr) stations).
Proof.
  unfold select_stations. destruct read_all; [|split; [intros H; split; [exact H|discriminate]|intros [H _]; exact H]].
  rewrite in_flat_map. split.
  - intros (s & Hs & H). apply filter_In in H. destruct H as [H1 H2].
    destruct (list_eq_dec ascii_dec (w_station tr) s) as [->|]; [|discriminate]. split; [exact H1|intros _; exact Hs].
  - intros [H Hs]. exists (w_station tr). split; [apply Hs; reflexivity|]. apply filter_In. split; [exact H|].
    destruct (list_eq_dec ascii_dec (w_station tr) (w_station tr)); [reflexivity|contradiction].
Qed.
Section Reading.
Variables (fmt : string) (ch : list gtok) (f : format) (fuel : nat) (c : clock) (a : list path)
  (fd : path -> option (list wtrace)) (read_all : bool) (stations : list name) (t0 t1 pre post : Z).
Hypothesis Hc : 0 < sec c.
Hypothesis Hse : t0 <= t1.
Hypothesis E : path_structure fmt ch = Ret f.
Let rawf (files : list path) := flat_map (read_file fd (t0 - Z.max 0 pre) (t1 + Z.max 0 post)) files.
Let stf (files : list path) := cut_padding t0 t1 (Z.max 0 pre) (Z.max 0 post) (select_stations read_all stations (rawf files)).

Lemma read_split o : read_waveform_data fuel c a fd (Some f) read_all stations t0 t1 pre post = Some o ->
  exists files,
    (forall p, In p files <-> In p a /\ exists d s s', day_in c (t0 - Z.max 0 pre) (t1 + Z.max 0 post) d
      /\ (read_all = true \/ (s = s' /\ In s stations)) /\ layout fmt ch s s' d p)
    /\ ((files = [] /\ o = Raise ArchiveEmpty) \/ (stf files = [] /\ o = Raise DataGapException)
       \/ o = Ret (rawf files, stf files)).
Proof.
  unfold read_waveform_data. cbv zeta. intros H.
  destruct (load_from_path fuel c a (Some f) read_all stations (t0 - Z.max 0 pre) (t1 + Z.max 0 post)) as [r|] eqn:El; [|discriminate].
  assert (Hse' : t0 - Z.max 0 pre <= t1 + Z.max 0 post) by lia.
  destruct (load_from_path_in fmt ch f fuel c a read_all stations _ _ r Hc Hse' E El) as (files & -> & Hfl).
  exists files. split; [exact Hfl|].
  destruct files as [|f0 fl0]; [left; split; [reflexivity|congruence]|]. right.
  fold (rawf (f0 :: fl0)) in H. fold (stf (f0 :: fl0)) in H. 
  destruct (stf (f0 :: fl0)) as [|x l] eqn:Es; [left; split; [reflexivity|congruence]|right]. congruence.
Qed.

Lemma raw_in files tr : In tr (rawf files) <->
  exists p ts t, In p files /\ fd p = Some ts /\ In t ts /\ tr = trim t (t0 - Z.max 0 pre) (t1 + Z.max 0 post) /\ nonempty tr = true.
Proof.
  unfold rawf. rewrite in_flat_map. split.
  - intros (p & Hp & H). unfold read_file in H. destruct (fd p) as [ts|] eqn:Efd; [|contradiction].
    apply filter_In in H. destruct H as [H Hn]. apply in_map_iff in H. destruct H as (t & <- & Ht).
    exists p, ts, t. repeat split; assumption.
  - intros (p & ts & t & Hp & Efd & Ht & -> & Hn). exists p. split; [exact Hp|]. unfold read_file. rewrite Efd.
    apply filter_In. split; [|exact Hn]. apply (in_map (fun t => trim t (t0 - Z.max 0 pre) (t1 + Z.max 0 post))). exact Ht.
Qed.

End Reading.
