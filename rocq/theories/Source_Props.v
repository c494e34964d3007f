(** C96: finding a source by stacking. Composes the two compiled kernels: [lib_migrate]
    (quakemigrate/core/lib.py:53-125, core/src/migratelib.c:40-65) and [lib_find_max_coa]
    (core/lib.py:132-170, core/src/migratelib.c:85-111), as [QuakeScan._compute] does
    (signal/scan.py:635-638). *)
From Coq Require Import List ZArith Reals Lia Lra.
From Verif Require Import Lib LibFacts Migrate_Model Migrate_Spec Migrate_Proofs Source_Spec Source_Proofs.
Import ListNotations.
Open Scope Z_scope.

(** C96, the general condition: at the arrivals of the source every station's onset is at
    least what it is at the arrivals of any other node and time, and for every other node and
    time some station's onset is strictly smaller (and the one at the source above the
    floor 0.01). *)
Theorem C96_source_found :
  forall r0 r1 (on : Z -> Z -> R) (tt : Z -> Z -> Z) n t n_nodes first last m o node s0,
  1 <= n -> 0 <= first -> 0 <= last -> first + last <= t -> n * t < 2147483648 ->
  (forall node k, 0 <= node < n_nodes -> 0 <= k < n -> tt node k <= last) ->
  0 <= node < n_nodes -> 0 <= s0 < t - first - last ->
  lib_migrate r0 (array2 n t on) n t (array2 n_nodes n tt) n_nodes n first last n = Ret m ->
  lib_find_max_coa r1 m n_nodes (t - first - last) = Ret o ->
  (forall node' s k, 0 <= node' < n_nodes -> 0 <= s < t - first - last -> 0 <= k < n ->
     (on k (arrival tt first node' s k) <= on k (arrival tt first node s0 k))%R) ->
  (forall node' s, 0 <= node' < n_nodes -> 0 <= s < t - first - last -> (node', s) <> (node, s0) ->
     exists k, 0 <= k < n /\ (on k (arrival tt first node' s k) < on k (arrival tt first node s0 k))%R
       /\ (1 / 100 < on k (arrival tt first node s0 k))%R) ->
  source_found (o_max o) (o_idx o) (t - first - last) node s0.
Proof.
  intros r0 r1 on tt n t n_nodes f l m o node s0 Hn Hf Hl Ht Hsz Htt Hnode Hs0 E1 E2 Hle Hlt.
  eapply found_of_unique_max; try eassumption.
  intros node' s Hnode' Hs Hne. destruct (Hlt node' s Hnode' Hs Hne) as (k0 & Hk0 & H1 & H2).
  apply coalescence_lt with (k0 := k0); [exact Hk0| |apply clip01_strict; assumption].
  intros k Hk. apply clip01_mono. apply Hle; assumption.
Qed.
Print Assumptions C96_source_found.

(** C96, onsets with a single peak each, at the arrival from the source: the source is found
    whenever no other node and time has the same arrivals at all stations. *)
Theorem C96_single_peaks_found :
  forall r0 r1 (on : Z -> Z -> R) (tt : Z -> Z -> Z) n t n_nodes first last m o node s0,
  1 <= n -> 0 <= first -> 0 <= last -> first + last <= t -> n * t < 2147483648 ->
  (forall node k, 0 <= node < n_nodes -> 0 <= k < n -> tt node k <= last) ->
  0 <= node < n_nodes -> 0 <= s0 < t - first - last ->
  lib_migrate r0 (array2 n t on) n t (array2 n_nodes n tt) n_nodes n first last n = Ret m ->
  lib_find_max_coa r1 m n_nodes (t - first - last) = Ret o ->
  (forall k, 0 <= k < n -> (1 / 100 < on k (first + s0 + Z.max 0 (tt node k))%Z)%R) ->
  (forall k j, 0 <= k < n -> 0 <= j < t -> j <> first + s0 + Z.max 0 (tt node k) ->
     (on k j < on k (first + s0 + Z.max 0 (tt node k))%Z)%R) ->
  (forall node' s, 0 <= node' < n_nodes -> 0 <= s < t - first - last ->
     (forall k, 0 <= k < n -> s + Z.max 0 (tt node' k) = s0 + Z.max 0 (tt node k)) -> node' = node /\ s = s0) ->
  source_found (o_max o) (o_idx o) (t - first - last) node s0.
Proof.
  intros r0 r1 on tt n t n_nodes f l m o node s0 Hn Hf Hl Ht Hsz Htt Hnode Hs0 E1 E2 Hfloor Hpk Hsep.
  assert (Hin : forall node' s k, 0 <= node' < n_nodes -> 0 <= s < t - f - l -> 0 <= k < n ->
    0 <= arrival tt f node' s k < t).
  { intros node' s k H1 H2 H3. unfold arrival. pose proof (Htt node' k H1 H3). lia. }
  eapply C96_source_found; try eassumption.
  - intros node' s k H1 H2 H3. destruct (Z.eq_dec (arrival tt f node' s k) (arrival tt f node s0 k)) as [->|Hne]; [lra|].
    left. apply Hpk; [exact H3|apply Hin; assumption|exact Hne].
  - intros node' s H1 H2 Hne.
    assert (Hex : (forall k, 0 <= k < n -> arrival tt f node' s k = arrival tt f node s0 k)
      \/ exists k, 0 <= k < n /\ arrival tt f node' s k <> arrival tt f node s0 k).
    { clear - n. assert (Hall : forall j : nat, (forall k, 0 <= k < Z.of_nat j -> arrival tt f node' s k = arrival tt f node s0 k)
        \/ exists k, 0 <= k < Z.of_nat j /\ arrival tt f node' s k <> arrival tt f node s0 k).
      { induction j as [|j IH]; [left; intros k Hk; lia|].
        destruct IH as [IH|(k & Hk & Hd)]; [|right; exists k; split; [lia|exact Hd]].
        destruct (Z.eq_dec (arrival tt f node' s (Z.of_nat j)) (arrival tt f node s0 (Z.of_nat j))) as [He|Hd].
        - left. intros k Hk. destruct (Z.eq_dec k (Z.of_nat j)) as [->|Hk']; [exact He|apply IH; lia].
        - right. exists (Z.of_nat j). split; [lia|exact Hd]. }
      destruct (Hall (Z.to_nat n)) as [H|(k & Hk & Hd)].
      - left. intros k Hk. apply H. lia.
      - right. exists k. split; [lia|exact Hd]. }
    destruct Hex as [Hall|(k & Hk & Hd)].
    + exfalso. apply Hne. destruct (Hsep node' s H1 H2) as [-> ->]; [|reflexivity].
      intros k Hk. specialize (Hall k Hk). unfold arrival in Hall. lia.
    + exists k. split; [exact Hk|]. split; [apply Hpk; [exact Hk|apply Hin; assumption|exact Hd]|apply Hfloor; exact Hk].
Qed.
Print Assumptions C96_single_peaks_found.

(** C96, noise: onsets changed everywhere by at most a factor [q] (after the floor) leave the
    node and the time that are found unchanged, when the coalescence of the source exceeds all
    others by more than [q * q]. *)
Theorem C96_found_despite_noise :
  forall r0 r1 (on on' : Z -> Z -> R) (tt : Z -> Z -> Z) n t n_nodes first last m o node s0 q,
  1 <= n -> 0 <= first -> 0 <= last -> first + last <= t -> n * t < 2147483648 ->
  (forall node k, 0 <= node < n_nodes -> 0 <= k < n -> tt node k <= last) ->
  0 <= node < n_nodes -> 0 <= s0 < t - first - last ->
  (0 < q)%R ->
  (forall k j, 0 <= k < n -> 0 <= j < t -> (Rmax (on' k j) (1 / 100) <= q * Rmax (on k j) (1 / 100))%R) ->
  (forall k j, 0 <= k < n -> 0 <= j < t -> (Rmax (on k j) (1 / 100) <= q * Rmax (on' k j) (1 / 100))%R) ->
  (forall node' s, 0 <= node' < n_nodes -> 0 <= s < t - first - last -> (node', s) <> (node, s0) ->
     (q * q * geometric_mean (map (fun k => Rmax (on k (arrival tt first node' s k)) (1 / 100)) (zrange n))
      < geometric_mean (map (fun k => Rmax (on k (arrival tt first node s0 k)) (1 / 100)) (zrange n)))%R) ->
  lib_migrate r0 (array2 n t on') n t (array2 n_nodes n tt) n_nodes n first last n = Ret m ->
  lib_find_max_coa r1 m n_nodes (t - first - last) = Ret o ->
  source_found (o_max o) (o_idx o) (t - first - last) node s0.
Proof.
  intros r0 r1 on on' tt n t n_nodes f l m o node s0 q Hn Hf Hl Ht Hsz Htt Hnode Hs0 Hq Hup Hlo Hmargin E1 E2.
  assert (Hin : forall node' s k, 0 <= node' < n_nodes -> 0 <= s < t - f - l -> 0 <= k < n ->
    0 <= arrival tt f node' s k < t).
  { intros node' s k H1 H2 H3. unfold arrival. pose proof (Htt node' k H1 H3). lia. }
  eapply (found_of_unique_max r0 r1 on'); try eassumption.
  intros node' s Hnode' Hs Hne. specialize (Hmargin node' s Hnode' Hs Hne).
  change (q * q * coalescence n on tt f node' s < coalescence n on tt f node s0)%R in Hmargin.
  pose proof (coalescence_factor n on' on tt f node' s q Hn Hq
    (fun k Hk => Hup k _ Hk (Hin node' s k Hnode' Hs Hk))) as H1.
  pose proof (coalescence_factor n on on' tt f node s0 q Hn Hq
    (fun k Hk => Hlo k _ Hk (Hin node s0 k Hnode Hs0 Hk))) as H2.
  apply Rmult_lt_reg_l with q; [exact Hq|].
  assert (q * coalescence n on' tt f node' s <= q * (q * coalescence n on tt f node' s))%R
    by (apply Rmult_le_compat_l; lra).
  lra.
Qed.
Print Assumptions C96_found_despite_noise.

(** C96, the limit of the method: a node whose traveltimes all differ from the source's by the
    same number of samples has, that many samples earlier or later, the same coalescence
    whatever the data. *)
Theorem C96_equal_moveout_not_separated :
  forall r0 (on : Z -> Z -> R) (tt : Z -> Z -> Z) n t n_nodes first last m node node' c s,
  1 <= n -> 0 <= first -> 0 <= last -> first + last <= t -> n * t < 2147483648 ->
  (forall node k, 0 <= node < n_nodes -> 0 <= k < n -> 0 <= tt node k <= last) ->
  0 <= node < n_nodes -> 0 <= node' < n_nodes ->
  (forall k, 0 <= k < n -> tt node' k = tt node k + c) ->
  0 <= s < t - first - last -> 0 <= s - c < t - first - last ->
  lib_migrate r0 (array2 n t on) n t (array2 n_nodes n tt) n_nodes n first last n = Ret m ->
  rd m (node' * (t - first - last) + (s - c)) = rd m (node * (t - first - last) + s).
Proof.
  intros r0 on tt n t n_nodes f l m node node' c s Hn Hf Hl Ht Hsz Htt Hnode Hnode' Hc Hs Hs' E.
  assert (Htt' : forall node k, 0 <= node < n_nodes -> 0 <= k < n -> tt node k <= l)
    by (intros a k Ha Hk; apply Htt; assumption).
  rewrite (lib_migrate_value r0 on n t tt n_nodes f l m node' (s - c) Hn Hf Hl Ht Hsz Htt' E Hnode' Hs').
  rewrite (lib_migrate_value r0 on n t tt n_nodes f l m node s Hn Hf Hl Ht Hsz Htt' E Hnode Hs).
  f_equal. apply coalescence_shift. intros k Hk. unfold arrival.
  pose proof (Htt node k Hnode Hk). pose proof (Htt node' k Hnode' Hk). specialize (Hc k Hk). lia.
Qed.
Print Assumptions C96_equal_moveout_not_separated.

(** Two stations, three nodes on a line between them, a source at the middle one at sample 1:
    onsets with one peak each. *)
Definition c96_tt (node k : Z) : Z := if k =? 0 then node else 2 - node.
Definition c96_on (k j : Z) : R := if j =? 2 then 5 else (1 / 2).
Example C96_applies :
  exists m o, lib_migrate {| traveltime := 0; acc := 0 |} (array2 2 6 c96_on) 2 6 (array2 3 2 c96_tt) 3 2 0 2 2 = Ret m
  /\ lib_find_max_coa {| fcur := 0; fmax := 0; fsum := 0; fidx := 0 |} m 3 4 = Ret o
  /\ source_found (o_max o) (o_idx o) 4 1 1.
Proof.
  assert (Htt : forall node k, 0 <= node < 3 -> 0 <= k < 2 -> c96_tt node k <= 2).
  { intros node k Hn Hk. unfold c96_tt. destruct (Z.eqb_spec k 0); lia. }
  assert (E : lib_migrate {| traveltime := 0; acc := 0 |} (array2 2 6 c96_on) 2 6 (array2 3 2 c96_tt) 3 2 0 2 2
    = Ret (array2 3 4 (coalescence 2 c96_on c96_tt 0))) by (apply lib_migrate_ok; try lia; exact Htt).
  destruct (find_max_ok {| fcur := 0; fmax := 0; fsum := 0; fidx := 0 |} (coalescence 2 c96_on c96_tt 0) 3 4)
    as (o & E2 & _); [lia|lia|].
  exists (array2 3 4 (coalescence 2 c96_on c96_tt 0)), o. split; [exact E|]. split; [exact E2|].
  apply (C96_single_peaks_found _ _ c96_on c96_tt 2 6 3 0 2 _ o 1 1 ltac:(lia) ltac:(lia) ltac:(lia) ltac:(lia)
    ltac:(lia) Htt ltac:(lia) ltac:(lia) E E2).
  - intros k Hk. unfold c96_on, c96_tt. destruct (Z.eqb_spec k 0); cbn; lra.
  - intros k j Hk Hj Hne. unfold c96_on, c96_tt in *.
    assert (Hm : (if k =? 0 then 1 else 2 - 1) = 1) by (destruct (k =? 0); reflexivity).
    rewrite Hm in Hne |- *. change (0 + 1 + Z.max 0 1) with 2 in *. rewrite Z.eqb_refl.
    destruct (Z.eqb_spec j 2); [lia|lra].
  - intros node' s H1 H2 H. pose proof (H 0 ltac:(lia)) as Ha. pose proof (H 1 ltac:(lia)) as Hb.
    unfold c96_tt in Ha, Hb. change (0 =? 0) with true in Ha. change (1 =? 0) with false in Hb. cbv iota in Ha, Hb. lia.
Qed.
