(** Properties C01-C08 of the migration kernel.  Every theorem is closed by a lemma of
    Migrate_Proofs.v; the vocabulary is in Migrate_Spec.v. *)
From Coq Require Import List ZArith Reals Lra Lia Permutation.
From Verif Require Import Lib LibFacts Migrate_Model Migrate_Spec Threads_Proofs Migrate_Proofs.
Import ListNotations.
Open Scope Z_scope.

(** C01. The whole output array of [migrate] is the array of geometric means, for every
    number of stations, nodes and samples, every pair of pads and every traveltime table
    whose entries do not exceed the trailing pad. *)
Theorem C01_migrate_geometric_mean :
  forall r0 (on : Z -> Z -> R) (tt : Z -> Z -> Z) n t n_nodes first last,
  1 <= n -> 0 <= n_nodes -> 0 <= first -> 0 <= last -> first + last <= t -> n * t < 2147483648 ->
  (forall node k, 0 <= node < n_nodes -> 0 <= k < n -> tt node k <= last) ->
  lib_migrate r0 (array2 n t on) n t (array2 n_nodes n tt) n_nodes n first last n
  = Ret (array2 n_nodes (t - first - last) (fun node s =>
      geometric_mean (map (fun k => Rmax (on k (first + s + Z.max 0 (tt node k))) (1 / 100)) (zrange n)))).
Proof. intros r0 on tt n t n_nodes first last. exact (lib_migrate_ok r0 on n t tt n_nodes first last). Qed.
Print Assumptions C01_migrate_geometric_mean.

(** Two stations, three nodes, four samples with one leading and two trailing pad samples,
    one negative traveltime. *)
Example C01_applies :
  exists m, lib_migrate {| traveltime := 0; acc := 0 |}
    (array2 2 4 (fun k j => IZR (k + j))) 2 4 (array2 3 2 (fun node k => node - k)) 3 2 1 2 2 = Ret m
  /\ length m = 3%nat.
Proof.
  eexists. split.
  - apply C01_migrate_geometric_mean; lia.
  - reflexivity.
Qed.

(** C02. *)
Theorem C02_coalescence_within_onsets :
  forall r0 (on : Z -> Z -> R) (tt : Z -> Z -> Z) n t n_nodes first last m node s a b v,
  1 <= n -> 0 <= first -> 0 <= last -> first + last <= t -> n * t < 2147483648 ->
  (forall node k, 0 <= node < n_nodes -> 0 <= k < n -> tt node k <= last) ->
  lib_migrate r0 (array2 n t on) n t (array2 n_nodes n tt) n_nodes n first last n = Ret m ->
  0 <= node < n_nodes -> 0 <= s < t - first - last ->
  rd m (node * (t - first - last) + s) = Some v ->
  (forall k, 0 <= k < n -> (a <= Rmax (on k (first + s + Z.max 0 (tt node k))%Z) (1 / 100) <= b)%R) ->
  (a <= v <= b)%R.
Proof.
  intros r0 on tt n t n_nodes first last m node s a b v Hn Hf Hl Ht Hsz Htt E Hnode Hs Hv Hab.
  rewrite (lib_migrate_value r0 on n t tt n_nodes first last m node s Hn Hf Hl Ht Hsz Htt E Hnode Hs) in Hv.
  injection Hv as <-. exact (coalescence_bounds n on tt first node s a b Hn Hab).
Qed.
Print Assumptions C02_coalescence_within_onsets.

(** C02, absolute bounds: at least 0.01 always, at most b if every onset is. *)
Theorem C02_coalescence_floor_and_ceiling :
  forall r0 (on : Z -> Z -> R) (tt : Z -> Z -> Z) n t n_nodes first last m node s b v,
  1 <= n -> 0 <= first -> 0 <= last -> first + last <= t -> n * t < 2147483648 ->
  (forall node k, 0 <= node < n_nodes -> 0 <= k < n -> tt node k <= last) ->
  lib_migrate r0 (array2 n t on) n t (array2 n_nodes n tt) n_nodes n first last n = Ret m ->
  0 <= node < n_nodes -> 0 <= s < t - first - last ->
  rd m (node * (t - first - last) + s) = Some v ->
  (1 / 100 <= b)%R -> (forall k j, 0 <= k < n -> 0 <= j < t -> (on k j <= b)%R) ->
  (1 / 100 <= v <= b)%R.
Proof.
  intros r0 on tt n t n_nodes first last m node s b v Hn Hf Hl Ht Hsz Htt E Hnode Hs Hv Hb Hon.
  apply (C02_coalescence_within_onsets r0 on tt n t n_nodes first last m node s (1/100) b v); try assumption.
  intros k Hk. split; [apply Rmax_r|]. apply Rmax_lub; [|exact Hb]. apply Hon; [exact Hk|].
  specialize (Htt node k Hnode Hk). lia.
Qed.
Print Assumptions C02_coalescence_floor_and_ceiling.

(** Three stations with onsets k + j, so every onset is at most 7. *)
Example C02_applies :
  exists m v, lib_migrate {| traveltime := 0; acc := 0 |}
    (array2 3 6 (fun k j => IZR (k + j))) 3 6 (array2 4 3 (fun node k => node - k)) 4 3 1 3 3 = Ret m
  /\ rd m (2 * (6 - 1 - 3) + 1) = Some v /\ (1 / 100 <= v <= 7)%R.
Proof.
  eexists _, _.
  match goal with |- ?P /\ ?Q /\ ?R => assert (HP : P) by (apply C01_migrate_geometric_mean; lia);
    split; [exact HP|]; assert (HQ : Q) by (apply rd_array2; lia); split; [exact HQ|] end.
  eapply (C02_coalescence_floor_and_ceiling _ _ (fun node k => node - k) 3 6 4 1 3 _ 2 1); try exact HP;
    try lia; [apply rd_array2; lia|lra|].
  intros k j Hk Hj. apply IZR_le. lia.
Qed.

(** C03. In every reachable state of every execution, with any number of threads, the next
    onset element to be read is inside the row of the station being stacked, and the 32-bit
    index does not overflow. *)
Theorem C03_reads_stay_in_station_row :
  forall (on : Z -> Z -> R) (tt : Z -> Z -> Z) n t n_nodes first last assign m0 c r k s p,
  let e := migrate_env (array2 n t on) n t (array2 n_nodes n tt) first last n in
  1 <= n -> 0 <= first -> 0 <= last -> first + last <= t -> n * t < 2147483648 ->
  (forall node k, 0 <= node < n_nodes -> 0 <= k < n -> tt node k <= last) ->
  Permutation (concat (map snd assign)) (zrange n_nodes) ->
  tsteps (mexec e) (m0, migrate_threads e assign) c ->
  In (r, IAdd k s :: p) (snd c) ->
  exists i, onset_index e (traveltime r) k s = Some i /\ k * t <= i < (k + 1) * t.
Proof.
  intros on tt n t n_nodes first last assign m0 c r k s p e.
  exact (reads_in_row_pads on n t tt n_nodes first last assign m0 c r k s p).
Qed.
Print Assumptions C03_reads_stay_in_station_row.

(** C03, raw API: a call accepted by the checks of [migrate] that reads outside the onset
    array. One station, three samples, no pads, traveltime 5. *)
Theorem C03_raw_api_out_of_bounds_refuted :
  exists r0 os n t tts n_nodes first last,
    Z.of_nat (length os) = n * t /\ Z.of_nat (length tts) = n_nodes * n /\
    lib_migrate r0 os n t tts n_nodes n first last n = Undef.
Proof.
  exists {| traveltime := 0; acc := 0 |}, [1; 1; 1]%R, 1, 3, [5], 1, 0, 0.
  split; [reflexivity|]. split; [reflexivity|]. reflexivity.
Qed.
Print Assumptions C03_raw_api_out_of_bounds_refuted.

(** C03, raw API: an accepted call that silently reads the next station's row. *)
Theorem C03_raw_api_wrong_row_refuted :
  exists os n t tts n_nodes first last node k s tt i,
    Z.of_nat (length os) = n * t /\ 0 <= node < n_nodes /\ 0 <= k < n /\ 0 <= s < t - first - last /\
    rd tts (node * n + k) = Some tt /\
    onset_index (migrate_env os n t tts first last n) (Z.max 0 tt) k s = Some i /\
    (k + 1) * t <= i < Z.of_nat (length os).
Proof.
  exists [1; 1; 2; 2]%R, 2, 2, [1; 0], 1, 0, 0, 0, 0, 1, 1, 2.
  repeat split; try reflexivity; cbn; lia.
Qed.
Print Assumptions C03_raw_api_wrong_row_refuted.

(** C03: from 2^31 elements on, the 32-bit index of a valid element overflows. *)
Theorem C03_index_overflow_refuted :
  exists e k s, 0 <= k < n_stations e /\ 0 <= s < n_samples e /\ fsmp e = 0 /\ lsmp e = 0 /\
    onset_index e 0 k s = None.
Proof.
  exists {| onsets := []; lookup_tables := []; fsmp := 0; lsmp := 0; n_samples := 1073741824;
            n_stations := 3; available := 3 |}, 2, 0.
  repeat split; try reflexivity; cbn; lia.
Qed.
Print Assumptions C03_index_overflow_refuted.

(** C04, [migrate]. [assign] gives each thread its (uninitialised) private variables and the
    nodes it processes, in any order; [c] is any state reached by any interleaving. *)
Theorem C04_migrate_any_interleaving :
  forall r0 (on : Z -> Z -> R) (tt : Z -> Z -> Z) n t n_nodes first last assign c,
  let e := migrate_env (array2 n t on) n t (array2 n_nodes n tt) first last n in
  1 <= n -> 0 <= n_nodes -> 0 <= first -> 0 <= last -> first + last <= t -> n * t < 2147483648 ->
  (forall node k, 0 <= node < n_nodes -> 0 <= k < n -> tt node k <= last) ->
  Permutation (concat (map snd assign)) (zrange n_nodes) ->
  tsteps (mexec e) (repeat 0%R (Z.to_nat (n_nodes * (t - first - last))), migrate_threads e assign) c ->
  ~ crashing (mexec e) c
  /\ (finished c ->
      lib_migrate r0 (array2 n t on) n t (array2 n_nodes n tt) n_nodes n first last n = Ret (fst c))
  /\ (finished c \/ exists c', tstep (mexec e) c c').
Proof.
  intros r0 on tt n t n_nodes first last assign c e.
  exact (migrate_interleavings r0 on n t tt n_nodes first last assign c).
Qed.
Print Assumptions C04_migrate_any_interleaving.

(** C04, [find_max_coa]. *)
Theorem C04_find_max_any_interleaving :
  forall r0 (f : Z -> Z -> R) n ns assign c,
  let e := {| fmap := array2 n ns f; f_samples := ns; f_nodes := n |} in
  1 <= n -> 0 <= ns -> Permutation (concat (map snd assign)) (zrange ns) ->
  tsteps (fexec e) (fout0 ns, find_max_threads e assign) c ->
  ~ crashing (fexec e) c
  /\ (finished c -> lib_find_max_coa r0 (array2 n ns f) n ns = Ret (fst c))
  /\ (finished c \/ exists c', tstep (fexec e) c c').
Proof.
  intros r0 f n ns assign c e. exact (find_max_interleavings r0 f n ns assign c).
Qed.
Print Assumptions C04_find_max_any_interleaving.

(** C04: each step uses up one step of one thread, so every execution ends. *)
Theorem C04_executions_are_finite :
  forall (Mem Reg Instr : Type) (ex : Instr -> Mem * Reg -> option (Mem * Reg)) c c',
  tstep ex c c' -> work (snd c) = S (work (snd c')).
Proof. intros Mem Reg Instr ex. exact (tstep_work ex). Qed.
Print Assumptions C04_executions_are_finite.

(** C04: no output element is changed by steps of two different threads. *)
Theorem C04_one_writer_per_element :
  forall e n_nodes assign j k rj rk pj pk ij ik m1 m1' m2 m2' r1 r1' r2 r2' a,
  Permutation (concat (map snd assign)) (zrange n_nodes) ->
  nth_error (migrate_threads e assign) j = Some (rj, pj) ->
  nth_error (migrate_threads e assign) k = Some (rk, pk) -> j <> k ->
  In ij pj -> In ik pk ->
  mexec e ij (m1, r1) = Some (m1', r1') -> mexec e ik (m2, r2) = Some (m2', r2') ->
  rd m1' a <> rd m1 a -> rd m2' a = rd m2 a.
Proof. exact migrate_one_writer. Qed.
Print Assumptions C04_one_writer_per_element.

(** Two threads, nodes dealt out of order. *)
Example C04_applies :
  let assign := [({| traveltime := 7; acc := 1 |}, [2; 0]); ({| traveltime := -3; acc := 5 |}, [1])] in
  Permutation (concat (map snd assign)) (zrange 3).
Proof. cbn. apply (Permutation_trans (l' := [0; 2; 1])); [apply perm_swap|]. apply perm_skip, perm_swap. Qed.

(** C05. Stations are pairs of an onset function and a traveltime table. *)
Theorem C05_station_order_irrelevant :
  forall r0 (sts sts' : list ((Z -> R) * (Z -> Z))) t n_nodes first last,
  Permutation sts sts' ->
  let n := Z.of_nat (length sts) in
  1 <= n -> 0 <= n_nodes -> 0 <= first -> 0 <= last -> first + last <= t -> n * t < 2147483648 ->
  (forall st node, In st sts -> 0 <= node < n_nodes -> snd st node <= last) ->
  lib_migrate r0 (station_onsets t sts') n t (station_tables n_nodes sts') n_nodes n first last n
  = lib_migrate r0 (station_onsets t sts) n t (station_tables n_nodes sts) n_nodes n first last n.
Proof. intros r0 sts sts' t n_nodes first last. exact (migrate_perm r0 sts sts' t n_nodes first last). Qed.
Print Assumptions C05_station_order_irrelevant.

Example C05_applies :
  let a := ((fun j : Z => IZR j), (fun node : Z => node)) in
  let b := ((fun j : Z => IZR (2 * j)), (fun node : Z => 1)) in
  Permutation [a; b] [b; a] /\ 1 <= Z.of_nat (length [a; b]) /\
  (forall st node, In st [a; b] -> 0 <= node < 3 -> snd st node <= 2).
Proof. cbn. split; [apply perm_swap|]. split; [lia|]. intros st node [<-|[<-|[]]] H; cbn; lia. Qed.

(** C06. *)
Theorem C06_find_max_first_maximum :
  forall r0 (f : Z -> Z -> R) n ns, 1 <= n -> 0 <= ns ->
  exists o, lib_find_max_coa r0 (array2 n ns f) n ns = Ret o
    /\ Z.of_nat (length (o_max o)) = ns /\ Z.of_nat (length (o_norm o)) = ns /\ Z.of_nat (length (o_idx o)) = ns
    /\ forall s, 0 <= s < ns -> exists k,
         (0 <= k < n /\ (forall j, 0 <= j < n -> (f j s <= f k s)%R) /\ (forall j, 0 <= j < k -> (f j s < f k s)%R))
         /\ rd (o_max o) s = Some (f k s) /\ rd (o_idx o) s = Some k.
Proof.
  intros r0 f n ns Hn Hns. destruct (find_max_ok r0 f n ns Hn Hns) as (o & E & L1 & L2 & L3 & H).
  exists o. repeat (split; [assumption|]). intros s Hs. destruct (H s Hs) as (k & Hk & H1 & H2 & _).
  exists k. exact (conj Hk (conj H1 H2)).
Qed.
Print Assumptions C06_find_max_first_maximum.

Example C06_applies : exists o,
  lib_find_max_coa {| fcur := 0; fmax := 0; fsum := 0; fidx := 0 |}
    (array2 3 2 (fun i s => IZR (i * (2 - i) + s))) 3 2 = Ret o.
Proof. destruct (C06_find_max_first_maximum {| fcur := 0; fmax := 0; fsum := 0; fidx := 0 |}
  (fun i s => IZR (i * (2 - i) + s)) 3 2 ltac:(lia) ltac:(lia)) as (o & E & _). exists o. exact E. Qed.

(** C07. *)
Theorem C07_normalised_is_max_over_mean :
  forall r0 (f : Z -> Z -> R) n ns o s, 1 <= n -> 0 <= ns ->
  lib_find_max_coa r0 (array2 n ns f) n ns = Ret o -> 0 <= s < ns ->
  (forall i, 0 <= i < n -> (0 < f i s)%R) ->
  exists v M, rd (o_norm o) s = Some (Some v) /\ rd (o_max o) s = Some M
    /\ v = (M / arithmetic_mean (map (fun i => f i s) (zrange n)))%R
    /\ (1 <= v <= IZR n)%R
    /\ (v = 1%R <-> forall i j, 0 <= i < n -> 0 <= j < n -> f i s = f j s).
Proof. exact find_max_norm. Qed.
Print Assumptions C07_normalised_is_max_over_mean.

(** C07, rescaling the values of a sample. *)
Theorem C07_normalised_scale_invariant :
  forall r0 (f g : Z -> Z -> R) n ns o o' s c, 1 <= n -> 0 <= ns ->
  lib_find_max_coa r0 (array2 n ns f) n ns = Ret o ->
  lib_find_max_coa r0 (array2 n ns g) n ns = Ret o' ->
  0 <= s < ns -> (0 < c)%R -> (forall i, 0 <= i < n -> g i s = (c * f i s)%R) ->
  rd (o_norm o') s = rd (o_norm o) s /\ rd (o_idx o') s = rd (o_idx o) s.
Proof. exact find_max_norm_scale. Qed.
Print Assumptions C07_normalised_scale_invariant.

Example C07_applies : forall i, 0 <= i < 3 -> (0 < (fun i s => IZR (i + s + 1)) i 4%Z)%R.
Proof. intros i Hi. cbn. apply IZR_lt. lia. Qed.

(** C08. [x k] is the onset of station [k] as a function of the absolute sample number; the
    two calls see the windows [w1, w1 + t1) and [w2, w2 + t2). *)
Theorem C08_window_independent :
  forall r0 (x : Z -> Z -> R) n (tt : Z -> Z -> Z) n_nodes w1 t1 f1 l1 w2 t2 f2 l2 m1 m2 node s1 s2,
  1 <= n -> n * t1 < 2147483648 -> n * t2 < 2147483648 ->
  0 <= f1 -> 0 <= l1 -> f1 + l1 <= t1 -> 0 <= f2 -> 0 <= l2 -> f2 + l2 <= t2 ->
  (forall node k, 0 <= node < n_nodes -> 0 <= k < n -> tt node k <= l1 /\ tt node k <= l2) ->
  lib_migrate r0 (array2 n t1 (fun k j => x k (w1 + j))) n t1 (array2 n_nodes n tt) n_nodes n f1 l1 n = Ret m1 ->
  lib_migrate r0 (array2 n t2 (fun k j => x k (w2 + j))) n t2 (array2 n_nodes n tt) n_nodes n f2 l2 n = Ret m2 ->
  0 <= node < n_nodes -> 0 <= s1 < t1 - f1 - l1 -> 0 <= s2 < t2 - f2 - l2 ->
  w1 + f1 + s1 = w2 + f2 + s2 ->
  exists v, rd m1 (node * (t1 - f1 - l1) + s1) = Some v /\ rd m2 (node * (t2 - f2 - l2) + s2) = Some v.
Proof. exact window_independent. Qed.
Print Assumptions C08_window_independent.

(** Windows [0, 10) with pads 2 and 3, and [4, 12) with pads 1 and 3, meet at sample 5. *)
Example C08_applies :
  let r0 := {| traveltime := 0; acc := 0 |} in
  let x := fun k j => IZR (k + j * j) in
  let tt := fun node k => node + k in
  exists m1 m2,
  lib_migrate r0 (array2 2 10 (fun k j => x k (0 + j))) 2 10 (array2 3 2 tt) 3 2 2 3 2 = Ret m1 /\
  lib_migrate r0 (array2 2 8 (fun k j => x k (4 + j))) 2 8 (array2 3 2 tt) 3 2 1 3 2 = Ret m2 /\
  0 + 2 + 3 = 4 + 1 + 0.
Proof.
  cbn zeta. eexists _, _. split; [apply C01_migrate_geometric_mean; lia|].
  split; [apply C01_migrate_geometric_mean; lia|]. reflexivity.
Qed.
