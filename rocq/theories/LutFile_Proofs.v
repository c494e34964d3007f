(** Proofs about lookup table files. *)
From Coq Require Import String Ascii.
From Coq Require Import List ZArith Reals Bool Lia Lra.
From Verif Require Import Lib LibFacts PyDict Lut_Model Lut_Spec Lut_Proofs LutFile_Model LutFile_Spec.
Import ListNotations.
Open Scope Z_scope.

(** * Keys *)

Lemma time_plain : plain_name "TIME".
Proof. unfold plain_name, underscore. cbn. intuition discriminate. Qed.

Lemma time_inj p q : ("TIME_" ++ p = "TIME_" ++ q)%string -> p = q.
Proof. cbn. intros H. injection H as ->. reflexivity. Qed.

Lemma time_not_plain p : ~ plain_name ("TIME_" ++ p)%string.
Proof. intros H. apply H. unfold underscore. cbn. tauto. Qed.

Lemma split_time p : plain_name p -> split_on underscore ("TIME_" ++ p)%string = ["TIME"%string; p].
Proof. intros H. exact (split_key "TIME" p time_plain H). Qed.

Lemma dget_In A (d : dict A) k v : dget d k = Some v -> In (k, v) d.
Proof.
  induction d as [|(a, x) r IH]; cbn; [discriminate|]. destruct (String.eqb_spec a k) as [->|].
  - intros H. injection H as ->. tauto.
  - intros H. right. apply IH. exact H.
Qed.

Lemma dupdate_nil A (e : dict A) : NoDup (keys e) -> dupdate [] e = e.
Proof.
  unfold dupdate. intros H.
  cut (forall acc : dict A, (forall k, In k (keys e) -> dget acc k = None) ->
         fold_left (fun acc kv => dset acc (fst kv) (snd kv)) e acc = acc ++ e).
  { intros C. rewrite C by reflexivity. reflexivity. }
  induction e as [|(a, x) r IH]; cbn [fold_left fst snd]; intros acc Hacc.
  - symmetry. apply app_nil_r.
  - inversion H as [|? ? Hn Hr]; subst. rewrite (dset_new _ acc a x) by (apply Hacc; left; reflexivity).
    rewrite IH.
    + rewrite <- app_assoc. reflexivity.
    + exact Hr.
    + intros k Hk. rewrite <- (dset_new _ acc a x) by (apply Hacc; left; reflexivity). rewrite dget_dset.
      destruct (String.eqb_spec a k) as [->|]; [contradiction|]. apply Hacc. right. exact Hk.
Qed.

(** * Conversion of the tables *)

Definition val (tts : dict (dict table)) (st p : string) : option table :=
  match dget tts st with Some m => dget m p | None => None end.

Definition old_keys (m : dict table) : Prop :=
  NoDup (keys m) /\ forall k t, In (k, t) m -> exists p, plain_name p /\ k = ("TIME_" ++ p)%string.

Lemma convert_station_ok st : forall m tts, old_keys m ->
  exists tts', convert_station st tts m = Ret tts'
    /\ forall st' p, val tts' st' p =
         if String.eqb st st'
         then match dget m ("TIME_" ++ p)%string with Some t => Some t | None => val tts st' p end
         else val tts st' p.
Proof.
  induction m as [|(k, t) r IH]; intros tts (Hnd & Hk).
  - exists tts. split; [reflexivity|]. intros st' p. cbn [dget]. destruct (String.eqb st st'); reflexivity.
  - inversion Hnd as [|? ? Hn Hr]; subst. destruct (Hk k t (or_introl eq_refl)) as (p0 & Hp0 & ->).
    cbn [convert_station]. unfold convert_table. cbn [fst snd]. rewrite (split_time p0 Hp0). cbn [bind].
    match goal with |- context [convert_station st ?x r] => destruct (IH x) as (tts' & E & H) end.
    { split; [exact Hr|]. intros k' t' Hin. apply (Hk k' t'). right. exact Hin. }
    exists tts'. split; [exact E|]. intros st' p. rewrite H.
    destruct (String.eqb_spec st st') as [<-|Hne].
    + cbn [dget]. destruct (String.eqb_spec ("TIME_" ++ p0) ("TIME_" ++ p)) as [Eq|Neq].
      * apply time_inj in Eq. subst p0. apply dget_none in Hn. rewrite Hn.
        unfold val. rewrite dget_dset, String.eqb_refl, dget_dset, String.eqb_refl. reflexivity.
      * destruct (dget r ("TIME_" ++ p)%string); [reflexivity|].
        unfold val. rewrite dget_dset, String.eqb_refl, dget_dset.
        destruct (String.eqb_spec p0 p) as [->|]; [contradiction|].
        destruct (dget tts st); reflexivity.
    + unfold val. rewrite dget_dset. destruct (String.eqb_spec st st'); [contradiction|]. reflexivity.
Qed.

Lemma convert_maps_ok : forall maps tts, NoDup (keys maps) -> (forall st m, In (st, m) maps -> old_keys m) ->
  exists tts', convert_maps tts maps = Ret tts'
    /\ forall st p, val tts' st p =
         match dget maps st with
         | Some m => match dget m ("TIME_" ++ p)%string with Some t => Some t | None => val tts st p end
         | None => val tts st p
         end.
Proof.
  induction maps as [|(st0, m) r IH]; intros tts Hnd Hk.
  - exists tts. split; [reflexivity|]. intros. reflexivity.
  - inversion Hnd as [|? ? Hn Hr]; subst. cbn [convert_maps].
    destruct (convert_station_ok st0 m tts (Hk _ _ (or_introl eq_refl))) as (t1 & E1 & H1). rewrite E1. cbn [bind].
    destruct (IH t1 Hr) as (t2 & E2 & H2). { intros st m' Hin. apply (Hk st m'). right. exact Hin. }
    exists t2. split; [exact E2|]. intros st p. rewrite H2, H1. cbn [dget].
    destruct (String.eqb_spec st0 st) as [<-|]; [|reflexivity].
    apply dget_none in Hn. rewrite Hn. reflexivity.
Qed.

Lemma convert_maps_plain maps tts : NoDup (keys maps) -> (forall st m, In (st, m) maps -> old_keys m) ->
  convert_maps [] maps = Ret tts -> forall st p, val tts st p <> None -> plain_name p.
Proof.
  intros Hnd Hk E st p H. destruct (convert_maps_ok maps [] Hnd Hk) as (t' & E' & V). rewrite E in E'.
  injection E' as <-. rewrite V in H. change (val [] st p) with (@None table) in H.
  destruct (dget maps st) as [m|] eqn:Em; [|congruence].
  destruct (dget m ("TIME_" ++ p)%string) as [t|] eqn:Et; [|congruence].
  apply dget_In in Em, Et. destruct (Hk _ _ Em) as (_ & Hm). destruct (Hm _ _ Et) as (q & Hq & Eq).
  apply time_inj in Eq. subst q. exact Hq.
Qed.

(** Looking a table up in an old file and in the converted one. *)
Lemma find_old f maps st p : a_tt f = None -> a_maps f = Some maps ->
  (forall st m, In (st, m) maps -> old_keys m) -> plain_name p ->
  find_table f st p =
    match dget maps st with
    | Some m => match dget m ("TIME_" ++ p)%string with Some t => Ret t | None => Raise KeyError end
    | None => Raise KeyError
    end.
Proof.
  intros Ht Hm Hk Hp. unfold find_table, get_table, get_station. rewrite Ht, Hm.
  destruct (dget maps st) as [m|] eqn:Em; [|reflexivity]. cbn [bind].
  destruct (dget m p) as [t|] eqn:E; [|reflexivity].
  apply dget_In in Em, E. destruct (Hk _ _ Em) as (_ & H). destruct (H _ _ E) as (q & Hq & ->).
  exfalso. exact (time_not_plain q Hp).
Qed.

Lemma find_new g tts st p : a_tt g = Some tts -> (forall st p, val tts st p <> None -> plain_name p) ->
  forall t, find_table g st p = Ret t <-> val tts st p = Some t.
Proof.
  intros Ht Hk t. unfold find_table, get_table, get_station, val. rewrite Ht. cbn [bind].
  destruct (dget tts st) as [m|] eqn:Em; [|split; discriminate].
  destruct (dget m p) as [t'|] eqn:E.
  - split; intros H; injection H as ->; reflexivity.
  - destruct (dget m ("TIME_" ++ p)%string) as [t'|] eqn:E2; [|split; discriminate].
    exfalso. apply (time_not_plain p). apply (Hk st). unfold val. rewrite Em. congruence.
Qed.

(** * The grid *)

Lemma set_spacing_ok s : valid_spacing s -> let '(x, y, z) := s in set_spacing [x; y; z] = Ret s.
Proof.
  destruct s as ((x, y), z). intros (H1 & H2 & H3). unfold set_spacing.
  destruct (Rlt_dec 0 x); [|contradiction]. destruct (Rlt_dec 0 y); [|contradiction].
  destruct (Rlt_dec 0 z); [reflexivity|contradiction].
Qed.

Lemma int32_ok z : 0 < z < 2147483648 -> int32 z = Some z.
Proof.
  intros H. unfold int32. destruct (Z.leb_spec (-2147483648) z); [|lia]. destruct (Z.leb_spec z 2147483647); [reflexivity|lia].
Qed.

Lemma set_count_ok n : valid_count n -> set_count n = Ret n.
Proof.
  destruct n as ((a, b), c). intros (H1 & H2 & H3). unfold set_count. rewrite !int32_ok by assumption.
  destruct (Z.ltb_spec 0 a); [|lia]. destruct (Z.ltb_spec 0 b); [|lia]. destruct (Z.ltb_spec 0 c); [reflexivity|lia].
Qed.

(** * Reading back *)

Lemma first_of_default A (a : option A) d : a <> None -> first_of a d = a.
Proof. destruct a; [reflexivity|congruence]. Qed.

Lemma first_of_none A (a : option A) : first_of a None = a.
Proof. destruct a; reflexivity. Qed.

Lemma read_back d : complete d -> read_lut (save d) = d.
Proof.
  intros (H1 & H2 & H3 & H4). unfold save, read_lut, update_attrs, new_lut, set_stations, bare.
  cbn [a_fraction a_phases a_stations a_tt a_maps a_nc a_ns a_cc a_cs a_other].
  rewrite !first_of_none, !first_of_default, dupdate_nil by assumption. destruct d; reflexivity.
Qed.

Lemma read_fields f : NoDup (keys (a_other f)) ->
  a_tt (read_lut f) = a_tt f /\ a_maps (read_lut f) = a_maps f /\ a_nc (read_lut f) = a_nc f
  /\ a_ns (read_lut f) = a_ns f /\ a_cc (read_lut f) = a_cc f /\ a_cs (read_lut f) = a_cs f
  /\ a_other (read_lut f) = a_other f /\ complete (read_lut f).
Proof.
  intros H. unfold read_lut, update_attrs, new_lut, set_stations, bare, complete.
  cbn [a_fraction a_phases a_stations a_tt a_maps a_nc a_ns a_cc a_cs a_other].
  rewrite !first_of_none, dupdate_nil by assumption. repeat split; try assumption;
    [destruct (a_fraction f)|destruct (a_phases f)|destruct (a_stations f)]; discriminate.
Qed.

(** * update_lut *)

Lemma update_old f maps n sp : old_style f maps n sp ->
  exists g tts, update_lut f = Ret g /\ new_style g tts n sp /\ complete g
    /\ a_phases g = Some ["P"; "S"]%string /\ a_fraction g = Some (1 / 10)%R
    /\ same_rest (read_lut f) g
    /\ convert_maps [] maps = Ret tts.
Proof.
  intros (Hm & Ht & Hnc & Hns & Hcc & Hcs & Hn & Hs & Ho & Hnd & Hk).
  destruct (convert_maps_ok maps [] Hnd Hk) as (tts & E & _).
  destruct (read_fields f Ho) as (Rt & Rm & Rnc & Rns & Rcc & Rcs & Ro & (C1 & C2 & C3 & C4)).
  pose proof (set_spacing_ok sp Hs) as Es. pose proof (set_count_ok n Hn) as En.
  destruct sp as ((x, y), z).
  unfold update_lut, update_tables. rewrite Rm, Hm, E. cbn [bind].
  unfold update_grid, update_phases, get_ns.
  cbn [a_fraction a_phases a_stations a_tt a_maps a_nc a_ns a_cc a_cs a_other].
  rewrite Rns, Hns, Rcs, Hcs, Es. cbn [bind]. unfold get_nc, put_ns.
  cbn [a_fraction a_phases a_stations a_tt a_maps a_nc a_ns a_cc a_cs a_other].
  rewrite Rnc, Hnc, Rcc, Hcc, En. cbn [bind]. unfold put_nc, del_cells.
  cbn [a_fraction a_phases a_stations a_tt a_maps a_nc a_ns a_cc a_cs a_other].
  eexists. exists tts. split; [reflexivity|]. unfold new_style, complete, same_rest, save.
  cbn [a_fraction a_phases a_stations a_tt a_maps a_nc a_ns a_cc a_cs a_other].
  repeat split; try assumption; try discriminate; try apply Hn; try apply Hs.
Qed.

Lemma update_old_tables f maps n sp g : old_style f maps n sp -> update_lut f = Ret g ->
  forall st p t, plain_name p -> (find_table (read_lut g) st p = Ret t <-> find_table (read_lut f) st p = Ret t).
Proof.
  intros Hold Eg st p t Hp. destruct (update_old f maps n sp Hold) as (g' & tts & Eg' & Hnew & Hc & _ & _ & _ & Ec).
  rewrite Eg in Eg'. injection Eg' as <-.
  destruct Hold as (Hm & Ht & _ & _ & _ & _ & _ & _ & Ho & Hnd & Hk).
  destruct (read_fields f Ho) as (Rt & Rm & _).
  change (read_lut g) with (read_lut (save g)). rewrite (read_back g Hc).
  rewrite (find_old (read_lut f) maps st p) by (rewrite ?Rt, ?Rm; assumption).
  destruct Hnew as (_ & Hgt & _).
  rewrite (find_new g tts st p Hgt (convert_maps_plain maps tts Hnd Hk Ec)).
  destruct (convert_maps_ok maps [] Hnd Hk) as (t' & E' & V). rewrite Ec in E'. injection E' as <-.
  rewrite V. change (val [] st p) with (@None table).
  destruct (dget maps st) as [m|]; [|split; discriminate].
  destruct (dget m ("TIME_" ++ p)%string); [|split; discriminate].
  split; intros H; injection H as ->; reflexivity.
Qed.

Lemma update_old_stored f maps n sp g : old_style f maps n sp -> update_lut f = Ret g ->
  exists tts, a_tt g = Some tts /\ forall st p t,
    (exists m, dget tts st = Some m /\ dget m p = Some t)
    <-> (exists m, dget maps st = Some m /\ dget m ("TIME_" ++ p)%string = Some t).
Proof.
  intros Hold Eg. destruct (update_old f maps n sp Hold) as (g' & tts & Eg' & Hnew & _ & _ & _ & _ & Ec).
  rewrite Eg in Eg'. injection Eg' as <-. exists tts. split; [apply Hnew|]. intros st p t.
  destruct Hold as (_ & _ & _ & _ & _ & _ & _ & _ & _ & Hnd & Hk).
  destruct (convert_maps_ok maps [] Hnd Hk) as (t' & E' & V). rewrite Ec in E'. injection E' as <-.
  specialize (V st p). change (val [] st p) with (@None table) in V. unfold val in V. split.
  - intros (m & E1 & E2). rewrite E1, E2 in V. destruct (dget maps st) as [m'|]; [|discriminate].
    exists m'. split; [reflexivity|]. destruct (dget m' ("TIME_" ++ p)%string); congruence.
  - intros (m & E1 & E2). rewrite E1, E2 in V. destruct (dget tts st) as [m'|]; [|discriminate].
    exists m'. tauto.
Qed.

Lemma update_new f tts n sp : new_style f tts n sp -> complete f ->
  update_lut f = Ret (update_phases f).
Proof.
  intros (Hm & Ht & Hnc & Hns & Hcc & Hcs & Hn & Hs) Hc. unfold update_lut. change f with (save f) at 1.
  rewrite (read_back f Hc). unfold update_tables. rewrite Hm. cbn [bind].
  pose proof (set_spacing_ok sp Hs) as Es. pose proof (set_count_ok n Hn) as En. destruct sp as ((x, y), z).
  unfold update_grid, update_phases, get_ns.
  cbn [a_fraction a_phases a_stations a_tt a_maps a_nc a_ns a_cc a_cs a_other].
  rewrite Hns, Es. cbn [bind]. unfold get_nc, put_ns.
  cbn [a_fraction a_phases a_stations a_tt a_maps a_nc a_ns a_cc a_cs a_other].
  rewrite Hnc, En. cbn [bind]. unfold put_nc, del_cells.
  cbn [a_fraction a_phases a_stations a_tt a_maps a_nc a_ns a_cc a_cs a_other].
  rewrite Hcs. unfold save. try rewrite Hnc; try rewrite Hns; try rewrite Hcs. reflexivity.
Qed.

(** * Serving *)

Lemma outcomes_iff A B (f g : B -> outcome A) l : (forall b, In b l -> forall t, f b = Ret t <-> g b = Ret t) ->
  forall ts, outcomes (map f l) = Ret ts <-> outcomes (map g l) = Ret ts.
Proof.
  induction l as [|b r IH]; intros H ts; [tauto|]. cbn [map outcomes].
  assert (Hb := H b (or_introl eq_refl)). assert (Hr : forall ts, outcomes (map f r) = Ret ts <-> outcomes (map g r) = Ret ts).
  { apply IH. intros b' Hin. apply H. right. exact Hin. }
  destruct (f b) as [t|e|] eqn:Ef.
  - rewrite (proj1 (Hb t) eq_refl). cbn [bind]. destruct (outcomes (map f r)) as [s|e|] eqn:Er.
    + rewrite (proj1 (Hr s) eq_refl). tauto.
    + destruct (outcomes (map g r)) as [s|e'|] eqn:Er'; cbn [bind]; [|split; discriminate|split; discriminate].
      discriminate (proj2 (Hr s) eq_refl).
    + destruct (outcomes (map g r)) as [s|e'|] eqn:Er'; cbn [bind]; [|split; discriminate|split; discriminate].
      discriminate (proj2 (Hr s) eq_refl).
  - destruct (g b) as [t|e'|] eqn:Eg; cbn [bind]; [|split; discriminate|split; discriminate].
    discriminate (proj2 (Hb t) eq_refl).
  - destruct (g b) as [t|e'|] eqn:Eg; cbn [bind]; [|split; discriminate|split; discriminate].
    discriminate (proj2 (Hb t) eq_refl).
Qed.

Lemma pairs_map A B C (f : A -> B -> C) (l : list A) (m : list B) :
  flat_map (fun a => map (fun b => f a b) m) l = map (fun ab => f (fst ab) (snd ab)) (list_prod l m).
Proof.
  induction l as [|a r IH]; [reflexivity|]. cbn [flat_map list_prod]. rewrite map_app, IH. f_equal.
  rewrite map_map. reflexivity.
Qed.

Lemma update_old_served f maps n sp g : old_style f maps n sp -> update_lut f = Ret g ->
  a_phases f = None \/ a_phases f = Some ["P"; "S"]%string ->
  forall ts, served_tables (read_lut g) = Ret ts <-> served_tables (read_lut f) = Ret ts.
Proof.
  intros Hold Eg Hph ts. pose proof (update_old_tables f maps n sp g Hold Eg) as Ht.
  destruct (update_old f maps n sp Hold) as (g' & tts & Eg' & Hnew & Hc & Hgp & _ & (Hst & _) & _).
  rewrite Eg in Eg'. injection Eg' as <-. change (read_lut g) with (read_lut (save g)) in *.
  rewrite (read_back g Hc) in *. unfold served_tables. rewrite Hgp, Hst.
  assert (a_phases (read_lut f) = Some ["P"; "S"]%string) as ->.
  { unfold read_lut, update_attrs. cbn [a_phases]. destruct Hph as [->| ->]; reflexivity. }
  destruct (a_stations (read_lut f)) as [[rows|]|]; [|tauto|tauto].
  rewrite !pairs_map. apply outcomes_iff. intros (p, st) Hin t. cbn [fst snd]. apply Ht.
  apply in_prod_iff in Hin. destruct Hin as (Hin & _). unfold plain_name, underscore. cbn in Hin.
  destruct Hin as [<-|[<-|[]]]; cbn; intuition discriminate.
Qed.
