(** Exported files: C53 and C78-C80. *)
From Coq Require Import String Ascii.
From Coq Require Import List ZArith QArith Bool Reals Lia Lqa Lra Permutation Sorted.
From Verif Require Import Lib PyDict Calendar_Model Calendar_Spec Calendar_Proofs Export_Model Export_Spec Export_Proofs.
Import ListNotations.
Open Scope Z_scope.

(** ** C53: exported times *)

(** The words of date, hour and minute, and seconds in a NonLinLoc phase file denote the time of the
    pick to the nearest tenth of a millisecond. *)
Theorem C53_nlloc :
  forall fmt_e p, (forall x, blank_free (fmt_e x) /\ fmt_e x <> []) -> blank_free (txt (pk_station p)) -> blank_free (txt (pk_phase p)) ->
  0 <= year (day_of (pk_time p)) <= 9999 ->
  exists date hm sec t, nth_error (words (nlloc_line fmt_e p)) 6 = Some date /\ nth_error (words (nlloc_line fmt_e p)) 7 = Some hm
  /\ nth_error (words (nlloc_line fmt_e p)) 8 = Some sec
  /\ nlloc_denotes date hm sec t /\ (inject_Z (pk_time p - 50) <= t <= inject_Z (pk_time p + 50))%Q.
Proof.
  intros fmt_e p F S P Y. destruct (nlloc_time (pk_time p) Y) as (t & D & A & B). rewrite (nlloc_words fmt_e F p S P).
  do 3 eexists. exists t. do 3 (split; [reflexivity|]). split; [exact D|split; assumption].
Qed.
Print Assumptions C53_nlloc.

(** The stamp of a time in a Snuffler marker file denotes that time if its fraction of a second is zero
    or at least a tenth. *)
Theorem C53_snuffler_partial :
  forall us, 0 <= year (day_of us) -> tenths us -> stamp_denotes (snuffler_stamp us) (inject_Z us).
Proof.
  intros us Y H. destruct (stamp_value us Y) as (w & W & (da & h & mi & s & R & T) & U & L).
  exists da, h, mi, s. split; [exact R|]. destruct T as (d & C & E). exists d. split; [exact C|]. rewrite <- E.
  destruct (time_parts us) as (_ & E' & _ & _ & _ & M). fold (microsecond us) in *. unfold tenths in H. fold (microsecond us) in H.
  destruct H as [H|H].
  - rewrite H, Z.sub_0_r, Z.mul_0_l. unfold Qdiv. rewrite Qmult_0_l, Qplus_0_r. reflexivity.
  - assert (w = 6%nat).
    { destruct (Z_le_gt_dec (Z.of_nat w) 5) as [A|A].
      - assert (10 ^ Z.of_nat w <= 10 ^ 5) by (apply Z.pow_le_mono_r; lia). lia.
      - destruct (Z_le_gt_dec (Z.of_nat w) 6) as [B|B]; [lia|]. destruct L as [->|L]; [lia|].
        assert (10 ^ 6 <= 10 ^ (Z.of_nat w - 1)) by (apply Z.pow_le_mono_r; lia). lia. }
    subst w. change (10 ^ Z.of_nat 6) with 1000000. rewrite inject_Z_mult.
    setoid_replace (inject_Z (microsecond us) * inject_Z 1000000 / inject_Z 1000000)%Q with (inject_Z (microsecond us)) by (field).
    rewrite <- inject_Z_plus. replace (us - microsecond us + microsecond us) with us by lia. reflexivity.
Qed.
Print Assumptions C53_snuffler_partial.

(** FINDING: the microseconds are written without leading zeros, so that every other time is read as
    a later one: the fraction is at least ten times too large. *)
Theorem C53_snuffler_fraction_refuted :
  forall us, 0 <= year (day_of us) -> 0 < us mod 1000000 < 100000 ->
  (exists t, stamp_denotes (snuffler_stamp us) t /\ (inject_Z (us + 9 * (us mod 1000000)) <= t)%Q)
  /\ ~ stamp_denotes (snuffler_stamp us) (inject_Z us).
Proof.
  intros us Y H. destruct (stamp_value us Y) as (w & W & D & U & L). fold (microsecond us) in H. fold (microsecond us).
  assert (V : (inject_Z (us + 9 * microsecond us) <= inject_Z (us - microsecond us) + inject_Z (microsecond us * 1000000) / inject_Z (10 ^ Z.of_nat w))%Q).
  { assert (P : 0 < 10 ^ Z.of_nat w <= 100000).
    { split; [apply Z.pow_pos_nonneg; lia|]. destruct (Z_le_gt_dec (Z.of_nat w) 5) as [B|B].
      - change 100000 with (10 ^ 5). apply Z.pow_le_mono_r; lia.
      - exfalso. destruct L as [->|L]; [lia|]. assert (10 ^ 5 <= 10 ^ (Z.of_nat w - 1)) by (apply Z.pow_le_mono_r; lia). lia. }
    set (p := 10 ^ Z.of_nat w) in *. assert (Q : (inject_Z 10 * inject_Z (microsecond us) <= inject_Z (microsecond us * 1000000) / inject_Z p)%Q).
    { apply Qle_shift_div_l; [change 0%Q with (inject_Z 0); rewrite <- Zlt_Qlt; lia|]. rewrite <- !inject_Z_mult, <- Zle_Qle.
      replace (microsecond us * 1000000) with (microsecond us * 10 * 100000) by ring. replace (10 * microsecond us * p) with (microsecond us * 10 * p) by ring.
      apply Z.mul_le_mono_nonneg_l; lia. }
    apply Qle_trans with (inject_Z (us - microsecond us) + inject_Z 10 * inject_Z (microsecond us))%Q.
    - rewrite <- inject_Z_mult, <- inject_Z_plus, <- Zle_Qle. lia.
    - apply Qplus_le_r. exact Q. }
  split; [eexists; split; [exact D|exact V]|].
  intros N. pose proof (stamp_unique _ _ _ D N) as E. rewrite E in V. rewrite <- Zle_Qle in V. lia.
Qed.
Print Assumptions C53_snuffler_fraction_refuted.

(** A pick at 2014-06-29 18:42:10.055: Snuffler is told .55000. *)
Example C53_ex :
  let us := 1404067330055000 in
  let p := mk_pick "autopick" "IS" "SKR01" "" "" "" "S" us (Some (1 / 8)%R) None None in
  snuffler_stamp us = txt "2014-06-29 18:42:10.55000"
  /\ ~ stamp_denotes (snuffler_stamp us) (inject_Z us)
  /\ stamp_denotes (snuffler_stamp (us + 95000)) (inject_Z (us + 95000))
  /\ nlloc_line (fun _ => txt "1.25e-01") p
     = txt "SKR01  ?    ?    ? S      ? 20140629 1842 10.0550 GAU  1.25e-01  1.25e-01  1.25e-01  1.25e-01  1.25e-01".
Proof.
  intros us p. split; [vm_compute; reflexivity|]. split; [|split].
  - apply C53_snuffler_fraction_refuted; [vm_compute; discriminate|vm_compute; split; reflexivity].
  - apply C53_snuffler_partial; [vm_compute; discriminate|]. right. vm_compute. discriminate.
  - vm_compute. reflexivity.
Qed.

(** ** C78: phase files *)

(** A line of a phase file describes a pick. *)
Definition describes (fmt_e : R -> text) (p : pick) (l : text) : Prop :=
  exists comp onset pol date hm sec err t,
    words l = [txt (pk_station p); txt "?"; comp; onset; txt (pk_phase p); pol; date; hm; sec; txt "GAU"; fmt_e err; fmt_e (-1)%R; fmt_e (-1)%R; fmt_e (-1)%R; fmt_e 1%R]
    /\ nlloc_denotes date hm sec t /\ (inject_Z (pk_time p - 50) <= t <= inject_Z (pk_time p + 50))%Q
    /\ (forall e, has_uncertainty (pk_unc p) (pk_upper p) (pk_lower p) e -> e <> 0%R -> err = e)
    /\ (pk_unc p = None -> pk_upper p = None \/ pk_lower p = None -> err = (-1)%R)
    /\ (forall pre c, txt (pk_channel p) = pre ++ [c] -> In c (txt "ZNEH") -> comp = [c])
    /\ (pk_onset p = "impulsive"%string -> onset = txt "i") /\ (pk_onset p = "emergent"%string -> onset = txt "e")
    /\ (pk_polarity p = "positive"%string -> pol = txt "u") /\ (pk_polarity p = "negative"%string -> pol = txt "d").

(** The phase file has one line for every pick of the chosen kind and no other, in the order of a
    dictionary. The station and the phase are words, and an uncertainty of minus one is excluded:
    it is how the code marks an unknown uncertainty. *)
Theorem C78_phase_file_partial :
  forall fmt_e picks (autopick : bool), (forall x, blank_free (fmt_e x) /\ fmt_e x <> []) ->
  (forall p, In p picks -> blank_free (txt (pk_station p)) /\ pk_station p <> ""%string /\ blank_free (txt (pk_phase p)) /\ pk_phase p <> ""%string
     /\ pk_unc p <> Some (-1)%R /\ (pk_unc p = Some 0%R -> False) /\ 0 <= year (day_of (pk_time p)) <= 9999) ->
  exists ps, Permutation ps (filter (fun p => String.eqb (pk_method p) (if autopick then "autopick"%string else "modelled"%string)) picks)
  /\ Forall2 (describes fmt_e) ps (nlloc_obs fmt_e picks autopick) /\ StronglySorted text_le (nlloc_obs fmt_e picks autopick).
Proof.
  intros fmt_e picks autopick F H. unfold nlloc_obs. cbv zeta.
  set (ks := filter _ picks). destruct (perm_map_inv (nlloc_line fmt_e) ks (sorted (map (nlloc_line fmt_e) ks)) (sorted_perm _)) as (ps & P & E).
  exists ps. split; [exact P|]. split; [|apply sorted_sorted]. rewrite E.
  assert (I : forall p, In p ps -> In p picks) by (intros p Q; apply (Permutation_in _ P) in Q; apply filter_In in Q; apply Q).
  clear P E. induction ps as [|p r IH]; [constructor|]. cbn [map]. constructor; [|apply IH; intros q Q; apply I; right; exact Q].
  destruct (H p (I p (or_introl eq_refl))) as (S & NS & PH & NP & M1 & Z0 & Y).
  destruct (nlloc_time (pk_time p) Y) as (t & D & A & B). unfold describes. rewrite (nlloc_words fmt_e F p S PH).
  assert (ES : or_unknown (pk_station p) = txt (pk_station p)) by (destruct (pk_station p); [congruence|reflexivity]).
  assert (EP : or_unknown (pk_phase p) = txt (pk_phase p)) by (destruct (pk_phase p); [congruence|reflexivity]).
  rewrite ES, EP. do 7 eexists. exists t. split; [reflexivity|]. split; [exact D|]. split; [split; assumption|].
  split; [|split; [|split; [|repeat split; intros ->; reflexivity]]].
  - intros e U N. unfold time_error. cbv zeta. destruct U as [U|(U & a & b & U1 & U2 & ->)].
    + rewrite U. unfold real_eqb. destruct (Req_EM_T e 0) as [C|_]; [congruence|]. destruct (Req_EM_T e (-1)) as [C|_]; [congruence|reflexivity].
    + rewrite U, U1, U2. unfold real_eqb. destruct (Req_EM_T (-1) (-1)) as [_|C]; [reflexivity|congruence].
  - intros U V. unfold time_error. cbv zeta. rewrite U. unfold real_eqb. destruct (Req_EM_T (-1) (-1)) as [_|C]; [|congruence].
    destruct V as [-> | ->]; [reflexivity|destruct (pk_upper p); reflexivity].
  - intros pre c EC I'. unfold component. rewrite EC, rev_app_distr. cbn [rev app].
    destruct I' as [<-|[<-|[<-|[<-|[]]]]]; reflexivity.
Qed.
Print Assumptions C78_phase_file_partial.

(** FINDING: an uncertainty of zero is written as if it were unknown. *)
Theorem C78_zero_uncertainty_refuted :
  forall fmt_e p, (forall x, blank_free (fmt_e x) /\ fmt_e x <> []) -> blank_free (txt (pk_station p)) -> blank_free (txt (pk_phase p)) ->
  pk_unc p = Some 0%R -> pk_upper p = None -> nth_error (words (nlloc_line fmt_e p)) 10 = Some (fmt_e (-1)%R).
Proof.
  intros fmt_e p F S P U V. rewrite (nlloc_words fmt_e F p S P). cbn [nth_error]. unfold time_error. cbv zeta. rewrite U, V.
  unfold real_eqb. destruct (Req_EM_T 0 0) as [_|C]; [|congruence]. destruct (Req_EM_T (-1) (-1)); reflexivity.
Qed.
Print Assumptions C78_zero_uncertainty_refuted.

(** The component is the last letter of the channel, in upper case, if it is Z, N, E or H in either case; "?" for every other channel. *)
Theorem C78_component :
  forall channel, (txt channel = [] -> component channel = txt "?")
  /\ forall pre c, txt channel = pre ++ [c] ->
     (In c (txt "zZ") -> component channel = txt "Z") /\ (In c (txt "nN") -> component channel = txt "N") /\ (In c (txt "eE") -> component channel = txt "E") /\ (In c (txt "hH") -> component channel = txt "H")
     /\ (~ In c (txt "zZnNeEhH") -> component channel = txt "?").
Proof.
  intros ch. split; [intros E; unfold component; rewrite E; reflexivity|]. intros pre c E. unfold component. rewrite E, rev_app_distr. cbn [rev app].
  repeat split; try (intros [<-|[<-|[]]]; reflexivity). intros N. destruct c as [[] [] [] [] [] [] [] []]; try reflexivity; exfalso; apply N; cbn; tauto.
Qed.
Print Assumptions C78_component.
Example C78_component_example : component "BHz" = txt "Z" /\ component "BH1" = txt "?".
Proof. split; reflexivity. Qed.

Example C78_ex :
  let fmt_e := fun _ => txt "1.25e-01" in
  let pick m s ph t := mk_pick m "" s "" "" "" ph t (Some (1 / 8)%R) None None in
  let picks := [pick "modelled" "SKR02" "P" 1404067330055000; pick "autopick" "SKR02" "P" 1404067330055001; pick "autopick" "SKR01" "S" 1404067379999960]%string in
  nlloc_obs fmt_e picks true
  = [txt "SKR01  ?    ?    ? S      ? 20140629 1842 60.0000 GAU  1.25e-01  1.25e-01  1.25e-01  1.25e-01  1.25e-01";
     txt "SKR02  ?    ?    ? P      ? 20140629 1842 10.0550 GAU  1.25e-01  1.25e-01  1.25e-01  1.25e-01  1.25e-01"]
  /\ exists ps, Permutation ps (filter (fun p => String.eqb (pk_method p) "autopick") picks) /\ Forall2 (describes fmt_e) ps (nlloc_obs fmt_e picks true).
Proof.
  intros fmt_e pick picks. split; [vm_compute; reflexivity|].
  destruct (C78_phase_file_partial fmt_e picks true) as (ps & A & B & _); [| |exists ps; split; assumption].
  - intros x. split; [unfold fmt_e; blank_free_txt|discriminate].
  - intros p I. assert (E : forall s, In s ["SKR01"; "SKR02"; "P"; "S"]%string -> blank_free (txt s) /\ s <> ""%string).
    { intros s [<-|[<-|[<-|[<-|[]]]]]; (split; [blank_free_txt|discriminate]). }
    assert (Q : pk_unc p = Some (1 / 8)%R -> pk_unc p <> Some (-1)%R /\ (pk_unc p = Some 0%R -> False)).
    { intros ->. split; intros C; injection C as C; lra. }
    destruct I as [<-|[<-|[<-|[]]]]; cbn [pk_station pk_phase pk_time]; (destruct (Q eq_refl) as [Q1 Q2]);
      (split; [apply E; cbn; tauto|]); (split; [discriminate|]); (split; [apply E; cbn; tauto|]); (split; [discriminate|]); (split; [exact Q1|]);
      (split; [exact Q2|]); vm_compute; split; discriminate.
Qed.

(** ** C79: marker files *)

(** A line of a marker file describes a pick. *)
Definition marks (p : pick) (l : text) : Prop :=
  exists d t id v, words l = [txt "phase:"; d; t; txt "5"; id; txt "None"; txt "None"; txt "None"; txt (pk_phase p); txt "None"; txt "False"]
  /\ id = txt (pk_network p) ++ txt "." ++ txt (pk_station p) ++ txt ".." ++ txt (if String.eqb (pk_phase p) "P" then "BHZ" else "BHN")
  /\ stamp_denotes (d ++ txt " " ++ t) v /\ (tenths (pk_time p) -> (v == inject_Z (pk_time p))%Q).
(** A line of a marker file describes the event. *)
Definition marks_event (eventid : string) (ot : Z) (l : text) : Prop :=
  exists d t v, words l = [txt "event:"; d; t; txt "0"; txt eventid; txt "0.0"; txt "0.0"; txt "None"; txt "None"; txt "None"; txt "Event"; txt "None"]
  /\ stamp_denotes (d ++ txt " " ++ t) v /\ (tenths ot -> (v == inject_Z ot)%Q).

(** If all phases are P and S, the marker file has a line for the first origin and one for each pick,
    in their order. *)
Theorem C79_markers_partial :
  forall eventid ot ots picks, blank_free (txt eventid) -> eventid <> ""%string -> 0 <= year (day_of ot) ->
  (forall p, In p picks -> (pk_phase p = "P"%string \/ pk_phase p = "S"%string) /\ blank_free (txt (pk_network p)) /\ blank_free (txt (pk_station p))
     /\ 0 <= year (day_of (pk_time p))) ->
  exists ev lines, snuffler_markers eventid (ot :: ots) picks = Ret (txt "# Snuffler Markers File Version 0.2" :: ev :: lines)
  /\ marks_event eventid ot ev /\ Forall2 marks picks lines.
Proof.
  intros eventid ot ots picks BE NE YO H. cbn [snuffler_markers]. rewrite marker_lines_ok by (apply Forall_forall; intros p I; apply H; exact I).
  cbn [bind]. do 2 eexists. split; [reflexivity|]. split.
  { assert (N : txt eventid <> []) by (destruct eventid; [congruence|discriminate]). destruct (event_words ot eventid YO BE N) as (d & t & E & W).
    destruct (stamp_value _ YO) as (w & _ & D & _). do 3 eexists. split; [exact W|]. change (txt " ") with [c_space]. rewrite <- E. split; [exact D|].
    intros T. eapply stamp_unique; [exact D|]. apply C53_snuffler_partial; assumption. }
  induction picks as [|p r IH]; [constructor|]. cbn [map]. constructor; [|apply IH; intros q Q; apply H; right; exact Q].
  destruct (H p (or_introl eq_refl)) as (P & N & S & Y).
  set (comp := (if String.eqb (pk_phase p) "P" then "BHZ" else "BHN")%string).
  assert (B : blank_free (txt (pk_phase p)) /\ txt (pk_phase p) <> []) by (destruct P as [-> | ->]; (split; [blank_free_txt|discriminate])).
  assert (C : blank_free (txt comp)) by (unfold comp; destruct (String.eqb (pk_phase p) "P"); blank_free_txt).
  destruct (marker_words p comp Y N S (proj1 B) (proj2 B) C) as (d & t & E & W).
  destruct (stamp_value _ Y) as (w & _ & D & _). do 3 eexists. eexists. split; [exact W|]. split; [reflexivity|].
  change (txt " ") with [c_space]. rewrite <- E. split; [exact D|]. intros T. eapply stamp_unique; [exact D|]. apply C53_snuffler_partial; assumption.
Qed.
Print Assumptions C79_markers_partial.

(** FINDING: a pick of another phase is given the component of the pick before it, and the export fails
    if there is none. *)
Theorem C79_other_phase_refuted :
  forall eventid ot ots p picks, pk_phase p <> "P"%string -> pk_phase p <> "S"%string ->
  snuffler_markers eventid (ot :: ots) (p :: picks) = Raise NameError
  /\ (forall q l, pk_phase q = "P"%string -> snuffler_markers eventid (ot :: ots) [q; p] = Ret l -> nth_error l 3 = Some (marker_line p "BHZ")).
Proof.
  intros eventid ot ots p picks NP NS.
  assert (M : forall c, marker_comp c (pk_phase p) = c).
  { intros c. unfold marker_comp. destruct (String.eqb_spec (pk_phase p) "P"); [congruence|]. destruct (String.eqb_spec (pk_phase p) "S"); [congruence|reflexivity]. }
  split; [cbn [snuffler_markers marker_lines]; rewrite M; reflexivity|].
  intros q l Q E. cbn [snuffler_markers marker_lines] in E. unfold marker_comp in E at 1. rewrite Q in E. cbn [String.eqb Ascii.eqb Bool.eqb] in E.
  rewrite M in E. cbn [bind] in E. injection E as <-. reflexivity.
Qed.
Print Assumptions C79_other_phase_refuted.

(** FINDING: the marker of a modelled arrival cannot be told from that of a measured one. *)
Theorem C79_modelled_and_measured_refuted :
  forall p comp, marker_line p comp
  = marker_line (mk_pick (if String.eqb (pk_method p) "modelled" then "autopick" else "modelled") (pk_network p) (pk_station p) (pk_channel p) (pk_onset p)
                   (pk_polarity p) (pk_phase p) (pk_time p) (pk_unc p) (pk_upper p) (pk_lower p)) comp.
Proof. reflexivity. Qed.
Print Assumptions C79_modelled_and_measured_refuted.

Example C79_ex :
  let pick m s ph t := mk_pick m "" s "" "" "" ph t None None None in
  let picks := [pick "modelled" "SKR02" "P" 1404067330500000; pick "autopick" "SKR02" "S" 1404067331000000]%string in
  snuffler_markers "20140629184210330" [1404067330330000] picks
  = Ret [txt "# Snuffler Markers File Version 0.2"; txt "event: 2014-06-29 18:42:10.330000 0 20140629184210330 0.0 0.0 None None None Event None";
         txt "phase: 2014-06-29 18:42:10.500000 5 .SKR02..BHZ None None None P None False";
         txt "phase: 2014-06-29 18:42:11.0 5 .SKR02..BHN None None None S None False"]
  /\ forall p, In p picks -> (pk_phase p = "P"%string \/ pk_phase p = "S"%string) /\ blank_free (txt (pk_network p)) /\ blank_free (txt (pk_station p))
     /\ 0 <= year (day_of (pk_time p)) /\ tenths (pk_time p).
Proof.
  intros pick picks. split; [vm_compute; reflexivity|]. intros p [<-|[<-|[]]]; cbn [pk_phase pk_network pk_station pk_time];
    (split; [tauto|]); (split; [blank_free_txt|]); (split; [blank_free_txt|]); (split; [vm_compute; discriminate|]).
  - right. vm_compute. discriminate.
  - left. reflexivity.
Qed.

(** ** C80: Snuffler station files *)

(** The line of a station. *)
Definition places (nw : station -> string) (s : station) (l : station_line) : Prop :=
  sl_network l = nw s /\ sl_station l = st_name s /\ sl_lat l = st_lat s /\ sl_lon l = st_lon s.
Lemma stations_named n ss : Forall2 (places (fun _ => n)) ss (snuffler_stations (Some n) ss).
Proof. induction ss as [|s r IH]; cbn [snuffler_stations]; constructor; [repeat split|exact IH]. Qed.

(** Each station has one line with its name and coordinates, and with the network code given, or with
    its own code if all stations belong to one network. *)
Theorem C80_stations_partial :
  forall ss, (forall n, Forall2 (places (fun _ => n)) ss (snuffler_stations (Some n) ss))
  /\ (forall n, Forall (fun s => st_network s = Some n) ss ->
      Forall2 (places (fun s => match st_network s with Some m => m | None => ""%string end)) ss (snuffler_stations None ss)).
Proof.
  intros ss. split; [intros n; apply stations_named|]. intros n H. destruct ss as [|s r]; [constructor|].
  inversion H as [|? ? E H']; subst. cbn [snuffler_stations]. rewrite E. constructor; [repeat split; cbn; rewrite E; reflexivity|].
  pose proof (stations_named n r) as G. revert H' G. generalize (snuffler_stations (Some n) r). clear. induction r as [|s r IH]; intros l H G; inversion G; subst; constructor.
  - inversion H; subst. match goal with X : places _ _ _ |- _ => destruct X as (A & B & C & D) end. repeat split; try assumption. rewrite A.
    match goal with X : st_network s = _ |- _ => rewrite X end. reflexivity.
  - inversion H; subst. apply IH; assumption.
Qed.
Print Assumptions C80_stations_partial.

(** FINDING: the network code of the first station is written for all stations. *)
Theorem C80_networks_refuted :
  forall s r n m, st_network s = Some n -> In m r -> exists l, In l (snuffler_stations None (s :: r)) /\ sl_station l = st_name m /\ sl_network l = n.
Proof.
  intros s r n m E I. cbn [snuffler_stations]. rewrite E. pose proof (stations_named n r) as G. revert I G. generalize (snuffler_stations (Some n) r). clear.
  induction r as [|x r IH]; intros l I G; [destruct I|]. inversion G as [|? y ? l' P G']; subst. destruct I as [->|I].
  - exists y. destruct P as (A & B & _). split; [right; left; reflexivity|]. split; assumption.
  - destruct (IH l' I G') as (z & [Z|Z] & A & B); [exists z; split; [left; exact Z|split; assumption]|]. exists z. split; [right; right; exact Z|split; assumption].
Qed.
Print Assumptions C80_networks_refuted.

(** FINDING: for a station table read with read_stations, the elevation is written with the sign
    reversed. *)
Theorem C80_elevation_refuted :
  forall n ss, map sl_elev (snuffler_stations n (map read_station ss)) = map (fun s => (- st_elev s)%R) ss.
Proof.
  intros n ss. revert n. induction ss as [|s r IH]; intros n; [reflexivity|]. cbn [map snuffler_stations sl_elev]. rewrite IH. f_equal. cbn. lra.
Qed.
Print Assumptions C80_elevation_refuted.

Example C80_ex :
  let ss := [mk_station "SKR01" (Some "IS") 65 (-17) 1.5; mk_station "ASK" (Some "IMO") 65.1 (-16.7) 1]%string%R in
  map (fun l => (sl_network l, sl_station l)) (snuffler_stations None (map read_station ss)) = [("IS", "SKR01"); ("IS", "ASK")]%string
  /\ map sl_elev (snuffler_stations None (map read_station ss)) = [-1.5; -1]%R.
Proof. intros ss. split; [reflexivity|]. unfold ss. rewrite C80_elevation_refuted. cbn. repeat f_equal; lra. Qed.
