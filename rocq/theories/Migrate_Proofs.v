(** Proofs about the migration kernel. *)
From Coq Require Import List ZArith Reals Lra Lia Bool Permutation.
From Verif Require Import Lib LibFacts Migrate_Model Migrate_Spec Threads_Proofs.
Import ListNotations.
Open Scope Z_scope.

(* ------------------------------------------------------------------ *)
(** * Flat arrays *)

Lemma flat_map_len A B (f : A -> list B) c l :
  (forall x, In x l -> length (f x) = c) -> length (flat_map f l) = (length l * c)%nat.
Proof.
  induction l as [|x l IH]; intros H; [reflexivity|].
  cbn [flat_map length]. rewrite app_length, IH by (intros y Hy; apply H; right; exact Hy).
  rewrite (H x) by (left; reflexivity). lia.
Qed.

Lemma array2_length A n c (f : Z -> Z -> A) :
  0 <= n -> 0 <= c -> Z.of_nat (length (array2 n c f)) = n * c.
Proof.
  intros Hn Hc. unfold array2. rewrite (flat_map_len _ _ _ (Z.to_nat c)).
  - rewrite zrange_length. rewrite Nat2Z.inj_mul, !Z2Nat.id by lia. reflexivity.
  - intros x _. rewrite map_length, zrange_length. reflexivity.
Qed.

Lemma rd_flat_map A B (f : A -> list B) c l : 0 < c ->
  (forall x, In x l -> Z.of_nat (length (f x)) = c) ->
  forall i j x, 0 <= j < c -> rd l i = Some x -> rd (flat_map f l) (i * c + j) = rd (f x) j.
Proof.
  intros Hc. induction l as [|y l IH]; intros Hl i j x Hj Hi.
  - rewrite rd_nil in Hi. discriminate.
  - cbn [flat_map]. rewrite rd_cons in Hi.
    destruct (Z.eqb_spec i 0) as [->|Hne].
    + injection Hi as ->. rewrite Z.mul_0_l, Z.add_0_l, rd_app1; [reflexivity|].
      rewrite Hl by (left; reflexivity). lia.
    + assert (0 <= i - 1) by (apply rd_bounds in Hi; lia).
      rewrite rd_app2 by (rewrite Hl by (left; reflexivity); nia).
      rewrite Hl by (left; reflexivity).
      replace (i * c + j - c) with ((i - 1) * c + j) by ring.
      apply IH; try assumption. intros z Hz. apply Hl. right. exact Hz.
Qed.

Lemma rd_array2 A n c (f : Z -> Z -> A) i j :
  0 <= i < n -> 0 <= j < c -> rd (array2 n c f) (i * c + j) = Some (f i j).
Proof.
  intros Hi Hj. unfold array2. rewrite (rd_flat_map _ _ _ c _ ltac:(lia)) with (x := i); [| |exact Hj|].
  - rewrite rd_map, rd_zrange by lia. reflexivity.
  - intros x _. rewrite map_length, zrange_length. lia.
  - apply rd_zrange. exact Hi.
Qed.

Lemma array2_nonpos A n c (f : Z -> Z -> A) : n <= 0 \/ c <= 0 -> array2 n c f = [].
Proof.
  intros [H|H]; unfold array2, zrange.
  - replace (Z.to_nat n) with 0%nat by lia. reflexivity.
  - replace (Z.to_nat c) with 0%nat by lia. cbn [zseq map]. induction (zseq 0 (Z.to_nat n)); cbn; auto.
Qed.

Lemma array2_decomp c a n : 0 < c -> 0 <= a < n * c -> exists i j, 0 <= i < n /\ 0 <= j < c /\ a = i * c + j.
Proof.
  intros Hc Ha. exists (a / c), (a mod c).
  pose proof (Z.div_mod a c ltac:(lia)). pose proof (Z.mod_pos_bound a c Hc).
  split; [|split]; try lia. split; [apply Z.div_pos; lia|]. apply Z.div_lt_upper_bound; nia.
Qed.

Lemma list_eq_array2 A n c (f : Z -> Z -> A) l :
  0 <= n -> 0 <= c -> Z.of_nat (length l) = n * c ->
  (forall i j, 0 <= i < n -> 0 <= j < c -> rd l (i * c + j) = Some (f i j)) -> l = array2 n c f.
Proof.
  intros Hn Hc Hlen H. apply rd_ext_opt. intros a.
  destruct (Z.lt_ge_cases a 0) as [Ha|Ha]; [rewrite !rd_none by lia; reflexivity|].
  destruct (Z.lt_ge_cases a (n * c)) as [Hb|Hb].
  - assert (0 < c) by nia. destruct (array2_decomp c a n) as (i & j & Hi & Hj & ->); [lia|lia|].
    rewrite H, rd_array2 by assumption. reflexivity.
  - rewrite !rd_none; [reflexivity| |]; right; rewrite ?array2_length; lia.
Qed.

Lemma cell_inj c i j i' j' : 0 < c -> 0 <= j < c -> 0 <= j' < c -> i * c + j = i' * c + j' -> i = i' /\ j = j'.
Proof. intros. assert (i = i') by nia. subst. lia. Qed.

(* ------------------------------------------------------------------ *)
(** * One node of [migrate] *)

Lemma mrun_run e p st : mrun e p st = run (mexec e) p st.
Proof. revert st. induction p as [|i p IH]; intros st; cbn; [reflexivity|]. destruct (mexec e i st); auto. Qed.

Lemma run_app {Mem Reg Instr} (ex : Instr -> Mem * Reg -> option (Mem * Reg)) p q st :
  run ex (p ++ q) st = match run ex p st with Some st' => run ex q st' | None => None end.
Proof. revert st. induction p as [|i p IH]; intros st; cbn; [reflexivity|]. destruct (ex i st); auto. Qed.

(** Row [node] of the output holds [v]. *)
Definition rowis (ns : Z) (m : list R) (node : Z) (v : Z -> R) : Prop :=
  forall s, 0 <= s < ns -> rd m (node * ns + s) = Some (v s).
Definition in_row (ns node a : Z) : Prop := node * ns <= a < node * ns + ns.
Definition outside (ns : Z) (m m' : list R) (node : Z) : Prop :=
  forall a, ~ in_row ns node a -> rd m' a = rd m a.

Lemma run_samples e node op g T :
  0 <= node ->
  (forall m x s, 0 <= s < n_samples e ->
     mexec e (op s) (m, {| traveltime := T; acc := x |}) = Some (m, {| traveltime := T; acc := g s x |})) ->
  forall m r v, traveltime r = T -> rowis (n_samples e) m node v ->
  exists m' r', run (mexec e) (flat_map (fun s => [ILoad node s; op s; IStore node s]) (zrange (n_samples e))) (m, r)
                = Some (m', r')
    /\ traveltime r' = T /\ rowis (n_samples e) m' node (fun s => g s (v s))
    /\ outside (n_samples e) m m' node /\ length m' = length m.
Proof.
  intros Hnode Hop m r v HT Hrow. set (ns := n_samples e) in *.
  assert (G : forall k lo m r v, 0 <= lo -> lo + Z.of_nat k = Z.max 0 ns -> traveltime r = T ->
    (forall s, lo <= s < ns -> rd m (node * ns + s) = Some (v s)) ->
    exists m' r', run (mexec e) (flat_map (fun s => [ILoad node s; op s; IStore node s]) (zseq lo k)) (m, r)
                = Some (m', r') /\ traveltime r' = T
      /\ (forall s, lo <= s < ns -> rd m' (node * ns + s) = Some (g s (v s)))
      /\ (forall a, ~ (node * ns + lo <= a < node * ns + ns) -> rd m' a = rd m a) /\ length m' = length m).
  { clear m r v HT Hrow. induction k as [|k IH]; intros lo m r v Hlo Hk HT Hrow.
    - exists m, r. cbn. repeat split; try assumption; intros; try lia; reflexivity.
    - assert (Hs : lo < ns) by lia. cbn [zseq flat_map].
      rewrite run_app.
      pose proof (Hrow lo ltac:(lia)) as Hrd.
      destruct (wr_some _ m (node * ns + lo) (g lo (v lo)) (rd_bounds _ _ _ _ Hrd)) as [m1 Hw].
      assert (E : run (mexec e) [ILoad node lo; op lo; IStore node lo] (m, r)
                  = Some (m1, {| traveltime := T; acc := g lo (v lo) |})).
      { cbn [run]. cbn [mexec]. fold ns. rewrite Hrd, HT. rewrite Hop by (fold ns; lia).
        cbn [mexec acc]. fold ns. rewrite Hw. reflexivity. }
      rewrite E.
      destruct (IH (lo + 1) m1 {| traveltime := T; acc := g lo (v lo) |} v)
        as (m' & r' & Erun & HT' & Hrow' & Hout & Hlen); try lia; try reflexivity.
      + intros s Hs1. rewrite (wr_other _ _ _ _ _ _ Hw) by lia. apply Hrow. lia.
      + exists m', r'. split; [exact Erun|]. split; [exact HT'|]. split; [|split].
        * intros s Hs1. destruct (Z.eq_dec s lo) as [->|Hne].
          -- rewrite Hout by lia. rewrite (wr_same _ _ _ _ _ Hw). reflexivity.
          -- apply Hrow'. lia.
        * intros a Ha. rewrite Hout by lia. apply (wr_other _ _ _ _ _ _ Hw). lia.
        * rewrite Hlen. apply (wr_length _ _ _ _ _ Hw). }
  destruct (G (Z.to_nat ns) 0 m r v) as (m' & r' & E & HT' & Hrow' & Hout & Hlen); try lia; try assumption.
  exists m', r'. split; [exact E|]. split; [exact HT'|]. split; [exact Hrow'|]. split; [|exact Hlen].
  intros a Ha. apply Hout. unfold in_row in Ha. lia.
Qed.

(** The environments for which the kernel's reads are inside the arrays. *)
Record menv_ok (e : menv) (x : Z -> Z -> R) (tt : Z -> Z -> Z) (n_nodes : Z) : Prop := {
  ok_f : 0 <= fsmp e; ok_l : 0 <= lsmp e; ok_n : 0 <= n_samples e; ok_st : 1 <= n_stations e;
  ok_avail : available e = n_stations e;
  ok_size : n_stations e * (fsmp e + lsmp e + n_samples e) < 2147483648;
  ok_on : forall k j, 0 <= k < n_stations e -> 0 <= j < fsmp e + lsmp e + n_samples e ->
    rd (onsets e) (k * (fsmp e + lsmp e + n_samples e) + j) = Some (x k j);
  ok_tt : forall node k, 0 <= node < n_nodes -> 0 <= k < n_stations e ->
    rd (lookup_tables e) (node * n_stations e + k) = Some (tt node k);
  ok_last : forall node k, 0 <= node < n_nodes -> 0 <= k < n_stations e -> tt node k <= lsmp e }.

Lemma onset_index_ok e tt k s :
  0 <= fsmp e -> 0 <= lsmp e -> 0 <= k < n_stations e -> 0 <= s < n_samples e -> 0 <= tt <= lsmp e ->
  n_stations e * (fsmp e + lsmp e + n_samples e) < 2147483648 ->
  onset_index e tt k s = Some (k * (fsmp e + lsmp e + n_samples e) + (fsmp e + s + tt)).
Proof.
  intros Hf Hl Hk Hs Ht Hsz. unfold onset_index.
  assert (Hb : k * (fsmp e + lsmp e + n_samples e) + (fsmp e + lsmp e + n_samples e) < 2147483648) by nia.
  assert (H0 : 0 <= k * (fsmp e + lsmp e + n_samples e)) by nia.
  rewrite (int32_some (fsmp e + lsmp e)) by lia.
  rewrite (int32_some (fsmp e + lsmp e + n_samples e)) by lia.
  set (kt := k * (fsmp e + lsmp e + n_samples e)) in *.
  rewrite (int32_some kt) by lia. rewrite (int32_some (kt + tt)) by lia.
  rewrite (int32_some (kt + tt + fsmp e)) by lia. rewrite int32_some by lia. f_equal. lia.
Qed.

(** Sum over the first [k] stations at one node and sample. *)
Definition stack_upto (x : Z -> Z -> R) (tt : Z -> Z -> Z) (f node s : Z) (k : nat) : R :=
  Rsum (map (fun j => x j (f + s + Z.max 0 (tt node j))) (zseq 0 k)).

Lemma Rsum_app l1 l2 : Rsum (l1 ++ l2) = (Rsum l1 + Rsum l2)%R.
Proof. unfold Rsum. induction l1 as [|a l IH]; cbn [app fold_right]; [lra|]. rewrite IH. lra. Qed.

Lemma stack_upto_S x tt f node s k :
  stack_upto x tt f node s (S k) =
  (stack_upto x tt f node s k + x (Z.of_nat k) (f + s + Z.max 0 (tt node (Z.of_nat k)))%Z)%R.
Proof.
  unfold stack_upto. replace (S k) with (k + 1)%nat by lia. rewrite zseq_app, map_app, Rsum_app.
  cbn [zseq map Rsum fold_right]. rewrite Z.add_0_l. lra.
Qed.

Definition node_value (e : menv) (x : Z -> Z -> R) (tt : Z -> Z -> Z) (node s : Z) : R :=
  exp (Rsum (map (fun j => x j (fsmp e + s + Z.max 0 (tt node j))) (zrange (n_stations e)))
       / IZR (n_stations e)).

Lemma run_node e x tt n_nodes node : menv_ok e x tt n_nodes -> 0 <= node < n_nodes ->
  forall m r, rowis (n_samples e) m node (fun _ => 0%R) ->
  exists m' r', run (mexec e) (node_prog e node) (m, r) = Some (m', r')
    /\ rowis (n_samples e) m' node (node_value e x tt node)
    /\ outside (n_samples e) m m' node /\ length m' = length m.
Proof.
  intros Hok Hnode m r Hrow. unfold node_prog. rewrite run_app.
  assert (G : forall k j, (j + k = Z.to_nat (n_stations e))%nat ->
    forall m r, rowis (n_samples e) m node (fun s => stack_upto x tt (fsmp e) node s j) ->
    exists m' r', run (mexec e) (flat_map (station_prog e node) (zseq (Z.of_nat j) k)) (m, r) = Some (m', r')
      /\ rowis (n_samples e) m' node (fun s => stack_upto x tt (fsmp e) node s (Z.to_nat (n_stations e)))
      /\ outside (n_samples e) m m' node /\ length m' = length m).
  { clear m r Hrow. induction k as [|k IH]; intros j Hj m r Hrow.
    - exists m, r. replace j with (Z.to_nat (n_stations e)) in Hrow by lia.
      cbn. repeat split; try assumption; reflexivity.
    - cbn [zseq flat_map]. rewrite run_app.
      unfold station_prog at 1. cbn [run]. cbn [mexec].
      assert (Hjb : 0 <= Z.of_nat j < n_stations e) by lia.
      rewrite (ok_tt _ _ _ _ Hok) by assumption.
      set (T := Z.max 0 (tt node (Z.of_nat j))).
      assert (HT : 0 <= T <= lsmp e).
      { pose proof (ok_last _ _ _ _ Hok node (Z.of_nat j) Hnode Hjb). pose proof (ok_l _ _ _ _ Hok). lia. }
      destruct (run_samples e node (fun s => IAdd (Z.of_nat j) s)
                  (fun s a => (a + x (Z.of_nat j) (fsmp e + s + T)%Z)%R) T) with
        (m := m) (r := {| traveltime := T; acc := acc r |})
        (v := fun s => stack_upto x tt (fsmp e) node s j)
        as (m1 & r1 & E1 & _ & Hrow1 & Hout1 & Hlen1); try lia; try reflexivity; try assumption.
      { intros m1 a s Hs. cbn [mexec traveltime acc].
        rewrite onset_index_ok; try apply Hok; try lia; try assumption.
        rewrite (ok_on _ _ _ _ Hok); [reflexivity|lia|].
        pose proof (ok_f _ _ _ _ Hok). lia. }
      rewrite E1.
      replace (Z.of_nat j + 1) with (Z.of_nat (S j)) by lia.
      destruct (IH (S j) ltac:(lia) m1 r1) as (m2 & r2 & E2 & Hrow2 & Hout2 & Hlen2).
      { intros s Hs. rewrite stack_upto_S. apply Hrow1. exact Hs. }
      exists m2, r2. split; [exact E2|]. split; [exact Hrow2|]. split.
      + intros a Ha. rewrite Hout2, Hout1 by assumption. reflexivity.
      + congruence. }
  destruct (G (Z.to_nat (n_stations e)) 0%nat ltac:(lia) m r) as (m1 & r1 & E1 & Hrow1 & Hout1 & Hlen1).
  { intros s Hs. rewrite (Hrow s Hs). reflexivity. }
  unfold zrange at 1. change 0 with (Z.of_nat 0) at 1. rewrite E1.
  assert (Hav : available e =? 0 = false).
  { rewrite (ok_avail _ _ _ _ Hok). pose proof (ok_st _ _ _ _ Hok). lia. }
  destruct (run_samples e node (fun _ => IExp) (fun s a => exp (a / IZR (available e))) (traveltime r1)) with
    (m := m1) (r := r1) (v := fun s => stack_upto x tt (fsmp e) node s (Z.to_nat (n_stations e)))
    as (m2 & r2 & E2 & _ & Hrow2 & Hout2 & Hlen2); try lia; try reflexivity; try assumption.
  { intros m2 a s Hs. cbn [mexec]. rewrite Hav. reflexivity. }
  exists m2, r2. split; [exact E2|]. split; [|split].
  - intros s Hs. rewrite (Hrow2 s Hs), (ok_avail _ _ _ _ Hok). reflexivity.
  - intros a Ha. rewrite Hout2, Hout1 by assumption. reflexivity.
  - congruence.
Qed.

Definition in_rows (ns : Z) (nodes : list Z) (a : Z) : Prop := exists node, In node nodes /\ in_row ns node a.

Lemma in_row_disjoint ns i j a : in_row ns i a -> in_row ns j a -> i = j.
Proof. unfold in_row. intros. nia. Qed.

Lemma run_nodes e x tt n_nodes nodes : menv_ok e x tt n_nodes -> NoDup nodes ->
  (forall node, In node nodes -> 0 <= node < n_nodes) ->
  forall m r, (forall node, In node nodes -> rowis (n_samples e) m node (fun _ => 0%R)) ->
  exists m' r', run (mexec e) (flat_map (node_prog e) nodes) (m, r) = Some (m', r')
    /\ (forall node, In node nodes -> rowis (n_samples e) m' node (node_value e x tt node))
    /\ (forall a, ~ in_rows (n_samples e) nodes a -> rd m' a = rd m a) /\ length m' = length m.
Proof.
  intros Hok Hnd. induction Hnd as [|node nodes Hnin Hnd IH]; intros Hin m r Hrows.
  - exists m, r. cbn. repeat split; try reflexivity. intros node [].
  - cbn [flat_map]. rewrite run_app.
    destruct (run_node e x tt n_nodes node Hok) with (m := m) (r := r)
      as (m1 & r1 & E1 & Hrow1 & Hout1 & Hlen1).
    { apply Hin. left. reflexivity. }
    { apply Hrows. left. reflexivity. }
    rewrite E1.
    assert (Hne : forall k s, In k nodes -> 0 <= s < n_samples e ->
                  ~ in_row (n_samples e) node (k * n_samples e + s)).
    { intros k s Hk Hs Hr. assert (k = node); [|subst; contradiction].
      eapply in_row_disjoint; [|exact Hr]. unfold in_row. lia. }
    destruct (IH ltac:(intros k Hk; apply Hin; right; exact Hk) m1 r1) as (m2 & r2 & E2 & Hrow2 & Hout2 & Hlen2).
    { intros k Hk s Hs. rewrite Hout1 by (apply Hne; assumption). apply (Hrows k); [right; exact Hk|exact Hs]. }
    exists m2, r2. split; [exact E2|]. split; [|split].
    + intros k [<-|Hk]; [|exact (Hrow2 k Hk)].
      intros s Hs. rewrite Hout2; [apply Hrow1; exact Hs|].
      intros (k & Hk & Hr). assert (k = node); [|subst; contradiction].
      eapply in_row_disjoint; [exact Hr|]. unfold in_row. lia.
    + intros a Ha. rewrite Hout2, Hout1; [reflexivity| |].
      * intros Hr. apply Ha. exists node. split; [left; reflexivity|exact Hr].
      * intros (k & Hk & Hr). apply Ha. exists k. split; [right; exact Hk|exact Hr].
    + congruence.
Qed.

Lemma zeros_rows ns n_nodes node : 0 <= ns -> 0 <= node < n_nodes ->
  rowis ns (repeat 0%R (Z.to_nat (n_nodes * ns))) node (fun _ => 0%R).
Proof. intros Hns Hn s Hs. apply rd_repeat. nia. Qed.

(** The output of the kernel. *)
Definition kernel_map (e : menv) (x : Z -> Z -> R) (tt : Z -> Z -> Z) (n_nodes : Z) : list R :=
  array2 n_nodes (n_samples e) (node_value e x tt).

Lemma c_migrate_ok e x tt n_nodes r0 : menv_ok e x tt n_nodes -> 0 <= n_nodes ->
  c_migrate e n_nodes r0 (repeat 0%R (Z.to_nat (n_nodes * n_samples e))) = Some (kernel_map e x tt n_nodes).
Proof.
  intros Hok Hn. unfold c_migrate. rewrite mrun_run.
  pose proof (ok_n _ _ _ _ Hok) as Hns.
  destruct (run_nodes e x tt n_nodes (zrange n_nodes) Hok (zrange_nodup _)) with
    (m := repeat 0%R (Z.to_nat (n_nodes * n_samples e))) (r := r0) as (m & r & E & Hrow & _ & Hlen).
  { intros node Hin. apply in_zrange in Hin. exact Hin. }
  { intros node Hin. apply in_zrange in Hin. apply zeros_rows; assumption. }
  rewrite E. cbn [option_map fst]. f_equal. apply list_eq_array2; try assumption.
  - rewrite Hlen, repeat_length. nia.
  - intros i j Hi Hj. apply Hrow; [apply in_zrange; exact Hi|exact Hj].
Qed.

(* ------------------------------------------------------------------ *)
(** * Interleavings of [migrate] *)

Lemma minstr_local e nodes i : 
  (forall node s, i = ILoad node s \/ i = IStore node s -> In node nodes /\ 0 <= s < n_samples e) ->
  local (mexec e) (@rd R) (in_rows (n_samples e) nodes) i.
Proof.
  intros Hi. split.
  - intros m r m' r' E a Ha. destruct i as [n k|n s|k s| |n s]; cbn [mexec] in E.
    + destruct (rd (lookup_tables e) (n * n_stations e + k)); [|discriminate]. injection E as <- _. reflexivity.
    + destruct (rd m (n * n_samples e + s)); [|discriminate]. injection E as <- _. reflexivity.
    + destruct (onset_index e (traveltime r) k s); [|discriminate].
      destruct (rd (onsets e) z); [|discriminate]. injection E as <- _. reflexivity.
    + destruct (available e =? 0); [discriminate|]. injection E as <- _. reflexivity.
    + destruct (wr m (n * n_samples e + s) (acc r)) as [m1|] eqn:W; [|discriminate]. injection E as <- _.
      apply (wr_other _ _ _ _ _ _ W). intros ->. apply Ha.
      destruct (Hi n s) as [H1 H2]; [auto|]. exists n. split; [exact H1|]. unfold in_row. lia.
  - intros m1 m2 r m1' r' Hag E. destruct i as [n k|n s|k s| |n s]; cbn [mexec] in *.
    + destruct (rd (lookup_tables e) (n * n_stations e + k)); [|discriminate].
      injection E as <- <-. eauto.
    + destruct (Hi n s) as [H1 H2]; [auto|].
      rewrite <- (Hag (n * n_samples e + s)).
      * destruct (rd m1 (n * n_samples e + s)); [|discriminate]. injection E as <- <-. eauto.
      * exists n. split; [exact H1|]. unfold in_row. lia.
    + destruct (onset_index e (traveltime r) k s); [|discriminate].
      destruct (rd (onsets e) z); [|discriminate]. injection E as <- <-. eauto.
    + destruct (available e =? 0); [discriminate|]. injection E as <- <-. eauto.
    + destruct (Hi n s) as [H1 H2]; [auto|].
      destruct (wr m1 (n * n_samples e + s) (acc r)) as [w|] eqn:W; [|discriminate]. injection E as <- <-.
      assert (Hd : in_rows (n_samples e) nodes (n * n_samples e + s)).
      { exists n. split; [exact H1|]. unfold in_row. lia. }
      assert (Hb : 0 <= n * n_samples e + s < Z.of_nat (length m2)).
      { apply rd_some_iff. rewrite <- (Hag _ Hd). apply rd_some_iff. exact (wr_bounds _ _ _ _ _ W). }
      destruct (wr_some _ m2 _ (acc r) Hb) as [w2 W2]. rewrite W2. exists w2. split; [reflexivity|].
      intros a Ha. rewrite (wr_rd _ _ _ _ _ a W), (wr_rd _ _ _ _ _ a W2).
      destruct (a =? n * n_samples e + s); [reflexivity|]. apply Hag, Ha.
Qed.

Lemma node_prog_local e nodes :
  Forall (local (mexec e) (@rd R) (in_rows (n_samples e) nodes)) (flat_map (node_prog e) nodes).
Proof.
  apply Forall_forall. intros i Hin. apply minstr_local. intros node s Hi.
  apply in_flat_map in Hin. destruct Hin as (n & Hn & Hin). unfold node_prog in Hin.
  apply in_app_or in Hin. destruct Hin as [Hin|Hin].
  - apply in_flat_map in Hin. destruct Hin as (k & _ & Hin). unfold station_prog in Hin.
    destruct Hin as [<-|Hin]; [destruct Hi; discriminate|].
    apply in_flat_map in Hin. destruct Hin as (s' & Hs' & Hin). apply in_zrange in Hs'.
    destruct Hin as [<-|[<-|[<-|[]]]]; destruct Hi as [Hi|Hi]; try discriminate; injection Hi as <- <-; auto.
  - apply in_flat_map in Hin. destruct Hin as (s' & Hs' & Hin). apply in_zrange in Hs'.
    destruct Hin as [<-|[<-|[<-|[]]]]; destruct Hi as [Hi|Hi]; try discriminate; injection Hi as <- <-; auto.
Qed.

Lemma NoDup_app_l A (l1 l2 : list A) : NoDup (l1 ++ l2) -> NoDup l1.
Proof.
  induction l1 as [|x l IH]; intros H; [constructor|]. cbn in H. inversion H as [|? ? Hn Hd]; subst.
  constructor; [|auto]. intros Hin. apply Hn. apply in_or_app. auto.
Qed.
Lemma NoDup_app_r A (l1 l2 : list A) : NoDup (l1 ++ l2) -> NoDup l2.
Proof. induction l1 as [|x l IH]; intros H; [exact H|]. cbn in H. inversion H. auto. Qed.
Lemma NoDup_app_disj A (l1 l2 : list A) x : NoDup (l1 ++ l2) -> In x l1 -> In x l2 -> False.
Proof.
  induction l1 as [|y l IH]; intros H H1 H2; [destruct H1|]. cbn in H. inversion H as [|? ? Hn Hd]; subst.
  destruct H1 as [->|H1]; [|eauto]. apply Hn. apply in_or_app. auto.
Qed.

Lemma NoDup_concat_nth A (ls : list (list A)) j k l1 l2 x :
  NoDup (concat ls) -> nth_error ls j = Some l1 -> nth_error ls k = Some l2 ->
  In x l1 -> In x l2 -> j = k.
Proof.
  revert j k. induction ls as [|l ls IH]; intros j k Hnd Hj Hk H1 H2.
  - destruct j; discriminate.
  - cbn in Hnd. destruct j as [|j], k as [|k]; cbn in Hj, Hk.
    + reflexivity.
    + injection Hj as ->. exfalso. apply (NoDup_app_disj _ _ _ x Hnd); [exact H1|].
      apply in_concat. exists l2. split; [eapply nth_error_In; exact Hk|exact H2].
    + injection Hk as ->. exfalso. apply (NoDup_app_disj _ _ _ x Hnd); [exact H2|].
      apply in_concat. exists l1. split; [eapply nth_error_In; exact Hj|exact H1].
    + f_equal. apply (IH j k); try assumption. exact (NoDup_app_r _ _ _ Hnd).
Qed.

Lemma NoDup_concat_in A (ls : list (list A)) l : NoDup (concat ls) -> In l ls -> NoDup l.
Proof.
  induction ls as [|l' ls IH]; intros Hnd Hin; [destruct Hin|]. cbn in Hnd.
  destruct Hin as [->|Hin]; [exact (NoDup_app_l _ _ _ Hnd)|]. exact (IH (NoDup_app_r _ _ _ Hnd) Hin).
Qed.

Lemma migrate_tinv e x tt n_nodes assign :
  menv_ok e x tt n_nodes -> 0 <= n_nodes -> Permutation (concat (map snd assign)) (zrange n_nodes) ->
  let m0 := repeat 0%R (Z.to_nat (n_nodes * n_samples e)) in
  let os := map (fun rn => (in_rows (n_samples e) (snd rn), kernel_map e x tt n_nodes)) assign in
  disjoint_owners os /\ tinv (mexec e) (@rd R) m0 os (m0, migrate_threads e assign).
Proof.
  intros Hok Hn Hperm m0 os.
  assert (Hnd : NoDup (concat (map snd assign))).
  { apply (Permutation_NoDup (Permutation_sym Hperm)). apply zrange_nodup. }
  assert (Hrange : forall nodes node, In nodes (map snd assign) -> In node nodes -> 0 <= node < n_nodes).
  { intros nodes node H1 H2. apply in_zrange. apply (Permutation_in _ Hperm).
    apply in_concat. eauto. }
  pose proof (ok_n _ _ _ _ Hok) as Hns.
  split.
  - intros j k D E m n Hj Hk Hne a Da Ea. unfold os in Hj, Hk.
    rewrite nth_error_map in Hj, Hk.
    destruct (nth_error assign j) as [[r1 l1]|] eqn:Ej; [|discriminate].
    destruct (nth_error assign k) as [[r2 l2]|] eqn:Ek; [|discriminate].
    cbn in Hj, Hk. injection Hj as <- _. injection Hk as <- _.
    destruct Da as (n1 & H1 & R1). destruct Ea as (n2 & H2 & R2).
    assert (n1 = n2) by (eapply in_row_disjoint; eassumption). subst n2.
    apply Hne. apply (NoDup_concat_nth _ _ _ _ l1 l2 n1 Hnd); try assumption;
      rewrite nth_error_map, ?Ej, ?Ek; reflexivity.
  - split; [|split].
    + cbn [snd]. unfold migrate_threads, os. rewrite !map_length. reflexivity.
    + intros k r p Hk. cbn [fst snd] in *. unfold migrate_threads in Hk. rewrite nth_error_map in Hk.
      destruct (nth_error assign k) as [[r1 l1]|] eqn:Ek; [|discriminate]. cbn in Hk. injection Hk as <- <-.
      exists (in_rows (n_samples e) l1), (kernel_map e x tt n_nodes).
      assert (Hl1 : In l1 (map snd assign)).
      { apply in_map_iff. exists (r1, l1). split; [reflexivity|]. eapply nth_error_In. exact Ek. }
      split; [unfold os; rewrite nth_error_map, Ek; reflexivity|].
      split; [apply node_prog_local|].
      destruct (run_nodes e x tt n_nodes l1 Hok (NoDup_concat_in _ _ _ Hnd Hl1)) with (m := m0) (r := r1)
        as (m & r & E & Hrow & _ & Hlen).
      { intros node Hin. eapply Hrange; eassumption. }
      { intros node Hin. apply zeros_rows; [assumption|]. eapply Hrange; eassumption. }
      exists m, r. split; [exact E|].
      intros a (node & Hin & Hr). unfold in_row in Hr.
      replace a with (node * n_samples e + (a - node * n_samples e)) by lia.
      rewrite (Hrow node Hin) by lia. unfold kernel_map. rewrite rd_array2; [reflexivity| |lia].
      eapply Hrange; eassumption.
    + intros a _. reflexivity.
Qed.

Lemma migrate_threads_ok e x tt n_nodes assign c :
  menv_ok e x tt n_nodes -> 0 <= n_nodes -> Permutation (concat (map snd assign)) (zrange n_nodes) ->
  tsteps (mexec e) (repeat 0%R (Z.to_nat (n_nodes * n_samples e)), migrate_threads e assign) c ->
  ~ crashing (mexec e) c /\ (finished c -> fst c = kernel_map e x tt n_nodes).
Proof.
  intros Hok Hn Hperm Hsteps.
  destruct (migrate_tinv e x tt n_nodes assign Hok Hn Hperm) as [Hd Hinv].
  pose proof (tinv_steps _ _ _ _ _ _ Hd Hinv Hsteps) as Hc.
  split; [exact (tinv_not_crashing _ _ _ _ _ Hc)|].
  intros Hfin. destruct (tinv_finished _ _ _ _ _ Hc Hfin) as [Hag Hframe].
  pose proof (ok_n _ _ _ _ Hok) as Hns.
  apply rd_ext_opt. intros a.
  destruct (Z.lt_ge_cases a 0) as [Ha|Ha].
  { rewrite !rd_none by lia. reflexivity. }
  destruct (Z.lt_ge_cases a (n_nodes * n_samples e)) as [Hb|Hb].
  - assert (0 < n_samples e) by nia.
    destruct (array2_decomp (n_samples e) a n_nodes) as (i & j & Hi & Hj & ->); [lia|lia|].
    assert (Hin : In i (concat (map snd assign))).
    { apply (Permutation_in _ (Permutation_sym Hperm)). apply in_zrange. exact Hi. }
    apply in_concat in Hin. destruct Hin as (l & Hl & Hin). apply in_map_iff in Hl.
    destruct Hl as ([r l'] & Heq & Hl). cbn in Heq. subst l'.
    apply (Hag (in_rows (n_samples e) l)).
    + apply in_map_iff. exists (r, l). split; [reflexivity|exact Hl].
    + exists i. split; [exact Hin|]. unfold in_row. lia.
  - rewrite Hframe.
    + rewrite !rd_none; [reflexivity| |]; right; unfold kernel_map; rewrite ?array2_length, ?repeat_length; lia.
    + intros D mt HD HDa.
      apply in_map_iff in HD. destruct HD as ([r l] & Heq & Hl). injection Heq as <- <-.
      destruct HDa as (node & Hin & Hr). cbn [snd] in Hin.
      assert (0 <= node < n_nodes).
      { apply in_zrange. apply (Permutation_in _ Hperm). apply in_concat. exists l. split; [|exact Hin].
        apply in_map_iff. exists (r, l). auto. }
      unfold in_row in Hr. nia.
Qed.

(* ------------------------------------------------------------------ *)
(** * Geometric mean *)

Lemma Rprod_pos xs : (forall x, In x xs -> (0 < x)%R) -> (0 < Rprod xs)%R.
Proof.
  unfold Rprod. induction xs as [|x xs IH]; intros H; cbn [fold_right]; [lra|].
  apply Rmult_lt_0_compat; [apply H; left; reflexivity|]. apply IH. intros y Hy. apply H. right. exact Hy.
Qed.

Lemma ln_Rprod xs : (forall x, In x xs -> (0 < x)%R) -> ln (Rprod xs) = Rsum (map ln xs).
Proof.
  induction xs as [|x xs IH]; intros H; cbn; [apply ln_1|].
  fold (Rprod xs). fold (Rsum (map ln xs)). rewrite ln_mult.
  - rewrite IH; [reflexivity|]. intros y Hy. apply H. right. exact Hy.
  - apply H. left. reflexivity.
  - apply Rprod_pos. intros y Hy. apply H. right. exact Hy.
Qed.

Lemma geometric_mean_exp xs : (forall x, In x xs -> (0 < x)%R) ->
  geometric_mean xs = exp (Rsum (map ln xs) / INR (length xs)).
Proof.
  intros H. unfold geometric_mean, Rpower. rewrite ln_Rprod by exact H. f_equal. unfold Rdiv. ring.
Qed.

Lemma Rsum_bounds a b xs : (forall x, In x xs -> (a <= x <= b)%R) ->
  (INR (length xs) * a <= Rsum xs <= INR (length xs) * b)%R.
Proof.
  unfold Rsum. induction xs as [|x xs IH]; intros H; [cbn; lra|].
  cbn [fold_right length]. rewrite S_INR.
  pose proof (H x (or_introl eq_refl)). specialize (IH (fun y Hy => H y (or_intror Hy))). lra.
Qed.

Lemma geometric_mean_bounds a b xs : (0 < a)%R -> xs <> [] -> (forall x, In x xs -> (a <= x <= b)%R) ->
  (a <= geometric_mean xs <= b)%R.
Proof.
  intros Ha Hne H.
  assert (Hpos : forall x, In x xs -> (0 < x)%R) by (intros x Hx; specialize (H x Hx); lra).
  assert (Hb : (0 < b)%R). { destruct xs as [|x xs]; [congruence|]. specialize (H x (or_introl eq_refl)). lra. }
  rewrite geometric_mean_exp by exact Hpos.
  assert (Hn : (0 < INR (length xs))%R). { apply lt_0_INR. destruct xs; [congruence|cbn; lia]. }
  assert (Hln : forall x y, (0 < x)%R -> (x <= y)%R -> (ln x <= ln y)%R).
  { intros x y Hx [Hxy|<-]; [left; apply ln_increasing; lra|lra]. }
  assert (Hs : (INR (length (map ln xs)) * ln a <= Rsum (map ln xs) <= INR (length (map ln xs)) * ln b)%R).
  { apply Rsum_bounds. intros y Hy. apply in_map_iff in Hy. destruct Hy as (x & <- & Hx).
    specialize (H x Hx). split; apply Hln; lra. }
  rewrite map_length in Hs.
  assert (Hexp : forall x y, (x <= y)%R -> (exp x <= exp y)%R).
  { intros x y [Hxy|<-]; [left; apply exp_increasing; exact Hxy|lra]. }
  rewrite <- (exp_ln a) at 1 by exact Ha. rewrite <- (exp_ln b) by exact Hb.
  split; apply Hexp.
  - apply Rmult_le_reg_r with (INR (length xs)); [exact Hn|]. unfold Rdiv. rewrite Rmult_assoc, Rinv_l by lra. lra.
  - apply Rmult_le_reg_r with (INR (length xs)); [exact Hn|]. unfold Rdiv. rewrite Rmult_assoc, Rinv_l by lra. lra.
Qed.

Lemma Rsum_perm xs ys : Permutation xs ys -> Rsum xs = Rsum ys.
Proof. unfold Rsum. induction 1; cbn [fold_right] in *; try lra. Qed.
Lemma Rprod_perm xs ys : Permutation xs ys -> Rprod xs = Rprod ys.
Proof. unfold Rprod. induction 1 as [|x l l' _ IH|x y l|l l' l'' _ IH1 _ IH2]; cbn [fold_right] in *;
  [reflexivity|rewrite IH; reflexivity|ring|congruence]. Qed.
Lemma geometric_mean_perm xs ys : Permutation xs ys -> geometric_mean xs = geometric_mean ys.
Proof. intros H. unfold geometric_mean. rewrite (Rprod_perm _ _ H), (Permutation_length H). reflexivity. Qed.

(* ------------------------------------------------------------------ *)
(** * lib.migrate *)

Lemma clip_pos x : (0 < clip_onset x)%R.
Proof. unfold clip_onset. pose proof (Rmax_r x (1/100)). lra. Qed.

Lemma migrate_env_ok on n t tt n_nodes f l :
  1 <= n -> 0 <= f -> 0 <= l -> f + l <= t -> n * t < 2147483648 ->
  (forall node k, 0 <= node < n_nodes -> 0 <= k < n -> tt node k <= l) ->
  menv_ok (migrate_env (array2 n t on) n t (array2 n_nodes n tt) f l n)
    (fun k j => ln (clip_onset (on k j))) tt n_nodes.
Proof.
  intros Hn Hf Hl Ht Hsz Htt.
  assert (Et : f + l + (t - f - l) = t) by ring.
  constructor; cbn [migrate_env fsmp lsmp n_samples n_stations available onsets lookup_tables];
    rewrite ?Et; try lia; try assumption.
  - intros k j Hk Hj. unfold log_onsets. rewrite rd_map, rd_array2 by assumption. reflexivity.
  - intros node k Hnode Hk. apply rd_array2; assumption.
Qed.

Lemma array2_ext A n c (f g : Z -> Z -> A) :
  (forall i j, 0 <= i < n -> 0 <= j < c -> f i j = g i j) -> array2 n c f = array2 n c g.
Proof.
  intros H. unfold array2. rewrite !flat_map_concat_map. f_equal. apply map_ext_in. intros i Hi.
  apply map_ext_in. intros j Hj. apply in_zrange in Hi. apply in_zrange in Hj. auto.
Qed.

Lemma node_value_gm on n t tt n_nodes f l node s : 1 <= n ->
  node_value (migrate_env (array2 n t on) n t (array2 n_nodes n tt) f l n)
    (fun k j => ln (clip_onset (on k j))) tt node s = coalescence n on tt f node s.
Proof.
  intros Hn. unfold node_value, coalescence. cbn [migrate_env fsmp n_stations].
  rewrite geometric_mean_exp.
  - rewrite map_map, map_length, zrange_length. f_equal. f_equal.
    rewrite INR_IZR_INZ, Z2Nat.id by lia. reflexivity.
  - intros x Hx. apply in_map_iff in Hx. destruct Hx as (k & <- & _). apply clip_pos.
Qed.

Lemma lib_migrate_ok r0 on n t tt n_nodes f l :
  1 <= n -> 0 <= n_nodes -> 0 <= f -> 0 <= l -> f + l <= t -> n * t < 2147483648 ->
  (forall node k, 0 <= node < n_nodes -> 0 <= k < n -> tt node k <= l) ->
  lib_migrate r0 (array2 n t on) n t (array2 n_nodes n tt) n_nodes n f l n
  = Ret (array2 n_nodes (t - f - l) (coalescence n on tt f)).
Proof.
  intros Hn Hnn Hf Hl Ht Hsz Htt. unfold lib_migrate.
  destruct (Z.ltb_spec (t - f - l) 0) as [H|_]; [lia|].
  rewrite Z.eqb_refl. cbn [negb].
  destruct (Z.ltb_spec (n * t) (t - f - l + f)) as [H|_]; [nia|].
  pose proof (migrate_env_ok on n t tt n_nodes f l Hn Hf Hl Ht Hsz Htt) as Hok.
  pose proof (c_migrate_ok _ _ _ n_nodes r0 Hok Hnn) as E.
  cbn [n_samples migrate_env] in E. rewrite E. unfold kernel_map. f_equal.
  cbn [n_samples migrate_env]. apply array2_ext. intros i j _ _. apply node_value_gm. exact Hn.
Qed.

Lemma lib_migrate_value r0 on n t tt n_nodes f l m node s :
  1 <= n -> 0 <= f -> 0 <= l -> f + l <= t -> n * t < 2147483648 ->
  (forall node k, 0 <= node < n_nodes -> 0 <= k < n -> tt node k <= l) ->
  lib_migrate r0 (array2 n t on) n t (array2 n_nodes n tt) n_nodes n f l n = Ret m ->
  0 <= node < n_nodes -> 0 <= s < t - f - l ->
  rd m (node * (t - f - l) + s) = Some (coalescence n on tt f node s).
Proof.
  intros Hn Hf Hl Ht Hsz Htt E Hnode Hs.
  rewrite lib_migrate_ok in E by (try assumption; lia). injection E as <-.
  apply rd_array2; assumption.
Qed.

Lemma zrange_nonempty n : 1 <= n -> zrange n <> [].
Proof. intros H E. apply (f_equal (@length Z)) in E. rewrite zrange_length in E. cbn in E. lia. Qed.

Lemma coalescence_bounds n on tt f node s a b : 1 <= n ->
  (forall k, 0 <= k < n -> (a <= clip01 (on k (f + s + Z.max 0 (tt node k))%Z) <= b)%R) ->
  (a <= coalescence n on tt f node s <= b)%R.
Proof.
  intros Hn H. unfold coalescence.
  set (xs := map _ _).
  assert (Hne : xs <> []). { unfold xs. intros E. apply map_eq_nil in E. exact (zrange_nonempty n Hn E). }
  assert (Hlow : forall x, In x xs -> (1/100 <= x)%R /\ (a <= x <= b)%R).
  { intros x Hx. apply in_map_iff in Hx. destruct Hx as (k & <- & Hk). apply in_zrange in Hk.
    split; [apply Rmax_r|apply H; exact Hk]. }
  destruct (geometric_mean_bounds (Rmax a (1/100)) b xs) as [H1 H2].
  - pose proof (Rmax_r a (1/100)). lra.
  - exact Hne.
  - intros x Hx. destruct (Hlow x Hx) as [Hx1 Hx2]. split; [apply Rmax_lub; lra|lra].
  - pose proof (Rmax_l a (1/100)). lra.
Qed.

(* ------------------------------------------------------------------ *)
(** * Stations as a list *)

Lemma flat_map_array2 A B (g : A -> Z -> B) t (l : list A) d : 0 <= t ->
  flat_map (fun s => map (g s) (zrange t)) l
  = array2 (Z.of_nat (length l)) t (fun k => g (nth (Z.to_nat k) l d)).
Proof.
  intros Ht. apply list_eq_array2; try lia.
  - rewrite (flat_map_len _ _ _ (Z.to_nat t)); [nia|]. intros x _. rewrite map_length. apply zrange_length.
  - intros i j Hi Hj.
    rewrite (rd_flat_map _ _ _ t _ ltac:(lia)) with (x := nth (Z.to_nat i) l d); [| |exact Hj|].
    + rewrite rd_map, rd_zrange by lia. reflexivity.
    + intros x _. rewrite map_length, zrange_length. lia.
    + unfold rd. destruct (Z.ltb_spec i 0); [lia|]. apply nth_error_nth'. lia.
Qed.

Lemma map_nth_zrange A B (h : A -> B) (l : list A) d :
  map (fun k => h (nth (Z.to_nat k) l d)) (zrange (Z.of_nat (length l))) = map h l.
Proof.
  apply rd_ext_opt. intros i. rewrite !rd_map.
  destruct (Z.lt_ge_cases i 0) as [H|H]; [rewrite !rd_none by lia; reflexivity|].
  destruct (Z.lt_ge_cases i (Z.of_nat (length l))) as [H1|H1].
  - rewrite rd_zrange by lia. cbn. unfold rd. destruct (Z.ltb_spec i 0); [lia|].
    rewrite (nth_error_nth' l d) by lia. reflexivity.
  - rewrite !rd_none; [reflexivity| |]; right; rewrite ?zrange_length; lia.
Qed.

Lemma migrate_stations r0 sts t n_nodes f l :
  let n := Z.of_nat (length sts) in
  1 <= n -> 0 <= n_nodes -> 0 <= f -> 0 <= l -> f + l <= t -> n * t < 2147483648 ->
  (forall st node, In st sts -> 0 <= node < n_nodes -> snd st node <= l) ->
  lib_migrate r0 (station_onsets t sts) n t (station_tables n_nodes sts) n_nodes n f l n
  = Ret (array2 n_nodes (t - f - l) (fun node s =>
      geometric_mean (map (fun st => clip01 (fst st (f + s + Z.max 0 (snd st node)))) sts))).
Proof.
  intros n Hn Hnn Hf Hl Ht Hsz Htt.
  pose (d := ((fun _ : Z => 0%R), (fun _ : Z => 0))).
  unfold station_onsets. rewrite (flat_map_array2 _ _ fst t sts d) by lia. fold n.
  replace (station_tables n_nodes sts) with
    (array2 n_nodes n (fun node k => snd (nth (Z.to_nat k) sts d) node)).
  2:{ unfold station_tables, array2, n. rewrite !flat_map_concat_map. f_equal. apply map_ext.
      intros node. exact (map_nth_zrange _ _ (fun st => snd st node) sts d). }
  rewrite lib_migrate_ok; try assumption.
  - f_equal. apply array2_ext. intros i j _ _. unfold coalescence, n.
    rewrite (map_nth_zrange _ _ (fun st => clip01 (fst st (f + j + Z.max 0 (snd st i)))) sts d). reflexivity.
  - intros node k Hnode Hk. apply Htt; [|exact Hnode]. apply nth_In. lia.
Qed.

Lemma migrate_perm r0 sts sts' t n_nodes f l :
  Permutation sts sts' ->
  let n := Z.of_nat (length sts) in
  1 <= n -> 0 <= n_nodes -> 0 <= f -> 0 <= l -> f + l <= t -> n * t < 2147483648 ->
  (forall st node, In st sts -> 0 <= node < n_nodes -> snd st node <= l) ->
  lib_migrate r0 (station_onsets t sts') n t (station_tables n_nodes sts') n_nodes n f l n
  = lib_migrate r0 (station_onsets t sts) n t (station_tables n_nodes sts) n_nodes n f l n.
Proof.
  intros HP n Hn Hnn Hf Hl Ht Hsz Htt.
  pose proof (Permutation_length HP) as HL.
  unfold n. rewrite migrate_stations; try assumption. rewrite HL.
  rewrite migrate_stations; try (rewrite <- HL); try assumption.
  - f_equal. apply array2_ext. intros i j _ _. apply geometric_mean_perm.
    apply Permutation_map. apply Permutation_sym. exact HP.
  - intros st node Hin. apply Htt. apply (Permutation_in _ (Permutation_sym HP)). exact Hin.
Qed.

(* ------------------------------------------------------------------ *)
(** * find_max_coa *)

Lemma frun_run e p st : frun e p st = run (fexec e) p st.
Proof. revert st. induction p as [|i p IH]; intros st; cbn; [reflexivity|]. destruct (fexec e i st); auto. Qed.

Definition flook (o : fout) (s : Z) : option R * option (option R) * option Z :=
  (rd (o_max o) s, rd (o_norm o) s, rd (o_idx o) s).

(** [k] is the first maximum among the first [j] values. *)
Lemma first_max_step f j k : 0 < j -> first_max_at f j k ->
  first_max_at f (j + 1) (if Rlt_dec (f k) (f j) then j else k).
Proof.
  intros Hj (Hk & Hmax & Hfirst). destruct (Rlt_dec (f k) (f j)) as [H|H].
  - split; [lia|]. split.
    + intros i Hi. destruct (Z.eq_dec i j) as [->|Hne]; [lra|]. specialize (Hmax i ltac:(lia)). lra.
    + intros i Hi. specialize (Hmax i ltac:(lia)). lra.
  - split; [lia|]. split; [|exact Hfirst].
    intros i Hi. destruct (Z.eq_dec i j) as [->|Hne]; [lra|]. apply Hmax. lia.
Qed.

Lemma first_max_exists f n : 1 <= n -> exists k, first_max_at f n k.
Proof.
  intros Hn. replace n with (1 + Z.of_nat (Z.to_nat (n - 1))) by lia.
  induction (Z.to_nat (n - 1)) as [|m IH].
  - exists 0. split; [lia|]. split; intros j Hj; [replace j with 0 by lia; lra|lia].
  - destruct IH as [k Hk]. eexists.
    replace (1 + Z.of_nat (S m)) with (1 + Z.of_nat m + 1) by lia. apply first_max_step; [lia|exact Hk].
Qed.

Lemma first_max_unique f n k k' : first_max_at f n k -> first_max_at f n k' -> k = k'.
Proof.
  intros (H1 & H2 & H3) (H1' & H2' & H3').
  destruct (Z.lt_trichotomy k k') as [H|[H|H]]; [|exact H|].
  - specialize (H3' k ltac:(lia)). specialize (H2 k' ltac:(lia)). lra.
  - specialize (H3 k' ltac:(lia)). specialize (H2' k ltac:(lia)). lra.
Qed.

Definition scan_value (f : Z -> R) (n k : Z) : option R :=
  let s := Rsum (map f (zrange n)) in
  if Req_EM_T s 0 then None else Some (f k * IZR n / s)%R.

(** Scanning the nodes of one sample. *)
Lemma scan_nodes e f s o :
  (forall node, 0 <= node < f_nodes e -> rd (fmap e) (node * f_samples e + s) = Some (f node)) ->
  forall cnt j r, 1 <= j -> j + Z.of_nat cnt = f_nodes e ->
    first_max_at f j (fidx r) -> fmax r = f (fidx r) -> fsum r = Rsum (map f (zrange j)) ->
  exists r', run (fexec e) (flat_map (fun node => [FCur node s; FAcc node]) (zseq j cnt)) (o, r) = Some (o, r')
    /\ first_max_at f (f_nodes e) (fidx r') /\ fmax r' = f (fidx r') /\ fsum r' = Rsum (map f (zrange (f_nodes e))).
Proof.
  intros Hrd. induction cnt as [|cnt IH]; intros j r Hj Hcnt Hfm Hmax Hsum.
  - exists r. cbn. replace (f_nodes e) with j by lia. auto.
  - cbn [zseq flat_map]. rewrite run_app. cbn [run]. cbn [fexec]. rewrite Hrd by lia. cbn [fcur fmax fsum fidx].
    assert (Hs : (fsum r + f j)%R = Rsum (map f (zrange (j + 1)))).
    { unfold zrange. replace (Z.to_nat (j + 1)) with (Z.to_nat j + 1)%nat by lia.
      rewrite zseq_app, map_app, Rsum_app, Hsum. cbn [zseq map Rsum fold_right].
      rewrite Z.add_0_l, Z2Nat.id by lia. unfold zrange. lra. }
    pose proof (first_max_step f j (fidx r) ltac:(lia) Hfm) as Hstep. rewrite Hmax. cbn [fexec fcur fmax fsum fidx].
    destruct (Rlt_dec (f (fidx r)) (f j)) as [H|H];
      apply IH; cbn [fidx fmax fsum]; try assumption; try lia; try reflexivity.
Qed.

Lemma run_sample e f s : 1 <= f_nodes e ->
  (forall node, 0 <= node < f_nodes e -> rd (fmap e) (node * f_samples e + s) = Some (f node)) ->
  forall o r,
    0 <= s < Z.of_nat (length (o_max o)) -> 0 <= s < Z.of_nat (length (o_norm o)) -> 0 <= s < Z.of_nat (length (o_idx o)) ->
  exists o' r' k, run (fexec e) (sample_prog e s) (o, r) = Some (o', r') /\ first_max_at f (f_nodes e) k
    /\ flook o' s = (Some (f k), Some (scan_value f (f_nodes e) k), Some k)
    /\ (forall a, a <> s -> flook o' a = flook o a)
    /\ length (o_max o') = length (o_max o) /\ length (o_norm o') = length (o_norm o) /\ length (o_idx o') = length (o_idx o).
Proof.
  intros Hn Hrd o r L1 L2 L3. unfold sample_prog.
  change (FInit s :: ?q) with ([FInit s] ++ q). rewrite run_app. cbn [run]. cbn [fexec].
  pose proof (Hrd 0 ltac:(lia)) as H0. rewrite Z.mul_0_l, Z.add_0_l in H0. rewrite H0.
  rewrite run_app.
  destruct (scan_nodes e f s o Hrd (Z.to_nat (f_nodes e - 1)) 1 {| fcur := fcur r; fmax := f 0; fsum := f 0; fidx := 0 |})
    as (r' & E & Hfm & Hmax & Hsum); try lia; try reflexivity.
  { cbn [fidx]. split; [lia|]. split; intros j Hj; [replace j with 0 by lia; lra|lia]. }
  { change (zrange 1) with [0]. unfold Rsum. cbn [map fold_right fsum]. lra. }
  rewrite E. cbn [run]. cbn [fexec].
  destruct (wr_some _ (o_max o) s (fmax r') L1) as [a1 W1]. rewrite W1. cbn [fexec o_max o_norm o_idx].
  match goal with |- context [wr (o_norm o) s ?v] => destruct (wr_some _ (o_norm o) s v L2) as [a2 W2]; rewrite W2 end.
  cbn [fexec o_max o_norm o_idx].
  destruct (wr_some _ (o_idx o) s (fidx r') L3) as [a3 W3]. rewrite W3.
  eexists _, _, (fidx r'). split; [reflexivity|]. split; [exact Hfm|]. unfold flook. cbn [o_max o_norm o_idx].
  split; [|split].
  - rewrite (wr_same _ _ _ _ _ W1), (wr_same _ _ _ _ _ W2), (wr_same _ _ _ _ _ W3), Hmax, Hsum. reflexivity.
  - intros a Ha. rewrite (wr_other _ _ _ _ _ _ W1), (wr_other _ _ _ _ _ _ W2), (wr_other _ _ _ _ _ _ W3) by exact Ha.
    reflexivity.
  - rewrite (wr_length _ _ _ _ _ W1), (wr_length _ _ _ _ _ W2), (wr_length _ _ _ _ _ W3). auto.
Qed.

Lemma run_sample_set e f ns (smps : list Z) : 1 <= f_nodes e ->
  (forall node s, 0 <= node < f_nodes e -> 0 <= s < ns -> rd (fmap e) (node * f_samples e + s) = Some (f node s)) ->
  NoDup smps -> (forall s, In s smps -> 0 <= s < ns) ->
  forall o r,
    ns <= Z.of_nat (length (o_max o)) -> ns <= Z.of_nat (length (o_norm o)) -> ns <= Z.of_nat (length (o_idx o)) ->
  exists o' r', run (fexec e) (flat_map (sample_prog e) smps) (o, r) = Some (o', r')
    /\ (forall s, In s smps -> exists k, first_max_at (fun i => f i s) (f_nodes e) k /\
         flook o' s = (Some (f k s), Some (scan_value (fun i => f i s) (f_nodes e) k), Some k))
    /\ (forall a, ~ In a smps -> flook o' a = flook o a)
    /\ length (o_max o') = length (o_max o) /\ length (o_norm o') = length (o_norm o) /\ length (o_idx o') = length (o_idx o).
Proof.
  intros Hn Hrd Hnd. induction Hnd as [|s smps Hnin Hnd IH]; intros Hin o r L1 L2 L3.
  - exists o, r. cbn. repeat split; try reflexivity. intros s [].
  - cbn [flat_map]. rewrite run_app.
    pose proof (Hin s (or_introl eq_refl)) as Hs.
    destruct (run_sample e (fun i => f i s) s Hn) with (o := o) (r := r)
      as (o1 & r1 & k & E1 & Hk & Hlk & Hout1 & G1 & G2 & G3); try lia.
    { intros node Hnode. apply Hrd; assumption. }
    rewrite E1.
    destruct (IH (fun a Ha => Hin a (or_intror Ha)) o1 r1) as (o2 & r2 & E2 & Hs2 & Hout2 & K1 & K2 & K3);
      try (rewrite ?G1, ?G2, ?G3; assumption).
    exists o2, r2. split; [exact E2|]. split; [|split].
    + intros a [<-|Ha]; [|exact (Hs2 a Ha)]. exists k. split; [exact Hk|].
      rewrite Hout2 by exact Hnin. exact Hlk.
    + intros a Ha. rewrite Hout2, Hout1; [reflexivity| |].
      * intros ->. apply Ha. left. reflexivity.
      * intros H. apply Ha. right. exact H.
    + rewrite K1, K2, K3. auto.
Qed.

Lemma fout_ext o o' : (forall s, flook o s = flook o' s) -> o = o'.
Proof.
  intros H. destruct o as [a b c], o' as [a' b' c']. unfold flook in H. cbn [o_max o_norm o_idx] in H.
  f_equal; apply rd_ext_opt; intros i; specialize (H i); congruence.
Qed.

Lemma flook_none o s : (s < 0 \/ Z.of_nat (length (o_max o)) <= s) -> (s < 0 \/ Z.of_nat (length (o_norm o)) <= s) ->
  (s < 0 \/ Z.of_nat (length (o_idx o)) <= s) -> flook o s = (None, None, None).
Proof. intros. unfold flook. rewrite !rd_none by assumption. reflexivity. Qed.

Lemma find_max_ok r0 f n ns : 1 <= n -> 0 <= ns ->
  exists o, lib_find_max_coa r0 (array2 n ns f) n ns = Ret o
    /\ Z.of_nat (length (o_max o)) = ns /\ Z.of_nat (length (o_norm o)) = ns /\ Z.of_nat (length (o_idx o)) = ns
    /\ forall s, 0 <= s < ns -> exists k, first_max_at (fun i => f i s) n k
        /\ rd (o_max o) s = Some (f k s) /\ rd (o_idx o) s = Some k
        /\ rd (o_norm o) s = Some (scan_value (fun i => f i s) n k).
Proof.
  intros Hn Hns. unfold lib_find_max_coa. rewrite frun_run.
  set (e := {| fmap := array2 n ns f; f_samples := ns; f_nodes := n |}).
  destruct (run_sample_set e f ns (zrange ns)) with (o := fout0 ns) (r := r0)
    as (o & r & E & Hs & _ & K1 & K2 & K3); cbn [f_nodes f_samples fmap e fout0 o_max o_norm o_idx];
    rewrite ?repeat_length; try lia.
  { intros node s Hnode Hs. apply rd_array2; assumption. }
  { apply zrange_nodup. }
  { intros s. apply in_zrange. }
  rewrite E. exists o. split; [reflexivity|].
  rewrite K1, K2, K3. cbn [fout0 o_max o_norm o_idx]. rewrite !repeat_length.
  split; [lia|]. split; [lia|]. split; [lia|].
  intros s Hsr. destruct (Hs s) as (k & Hk & Hl); [apply in_zrange; exact Hsr|].
  unfold flook in Hl. injection Hl as H1 H2 H3. exists k. auto.
Qed.

(* ------------------------------------------------------------------ *)
(** * Interleavings of [find_max_coa] *)

Lemma finstr_local e (smps : list Z) i :
  (forall s, i = FOutMax s \/ i = FOutNorm s \/ i = FOutIdx s -> In s smps) ->
  local (fexec e) flook (fun s => In s smps) i.
Proof.
  intros Hi. split.
  - intros m r m' r' E a Ha. destruct i as [s|n s|n|s|s|s]; cbn [fexec] in E.
    + destruct (rd (fmap e) s); [|discriminate]. injection E as <- _. reflexivity.
    + destruct (rd (fmap e) (n * f_samples e + s)); [|discriminate]. injection E as <- _. reflexivity.
    + destruct (Rlt_dec (fmax r) (fcur r)); injection E as <- _; reflexivity.
    + destruct (wr (o_max m) s (fmax r)) as [w|] eqn:W; [|discriminate]. injection E as <- _.
      unfold flook. cbn [o_max o_norm o_idx]. rewrite (wr_other _ _ _ _ _ _ W); [reflexivity|].
      intros ->. apply Ha, Hi. auto.
    + match type of E with context [wr (o_norm m) s ?v] => destruct (wr (o_norm m) s v) as [w|] eqn:W; [|discriminate] end.
      injection E as <- _.
      unfold flook. cbn [o_max o_norm o_idx]. rewrite (wr_other _ _ _ _ _ _ W); [reflexivity|].
      intros ->. apply Ha, Hi. auto.
    + destruct (wr (o_idx m) s (fidx r)) as [w|] eqn:W; [|discriminate]. injection E as <- _.
      unfold flook. cbn [o_max o_norm o_idx]. rewrite (wr_other _ _ _ _ _ _ W); [reflexivity|].
      intros ->. apply Ha, Hi. auto.
  - intros m1 m2 r m1' r' Hag E. destruct i as [s|n s|n|s|s|s]; cbn [fexec] in *.
    + destruct (rd (fmap e) s); [|discriminate]. injection E as <- <-. eauto.
    + destruct (rd (fmap e) (n * f_samples e + s)); [|discriminate]. injection E as <- <-. eauto.
    + destruct (Rlt_dec (fmax r) (fcur r)); injection E as <- <-; eauto.
    + assert (Hs : In s smps) by (apply Hi; auto).
      destruct (wr (o_max m1) s (fmax r)) as [w|] eqn:W; [|discriminate]. injection E as <- <-.
      assert (Hb : 0 <= s < Z.of_nat (length (o_max m2))).
      { apply rd_some_iff. specialize (Hag s Hs). unfold flook in Hag. injection Hag as H1 _ _. rewrite <- H1.
        apply rd_some_iff. exact (wr_bounds _ _ _ _ _ W). }
      destruct (wr_some _ _ _ (fmax r) Hb) as [w2 W2]. rewrite W2. eexists. split; [reflexivity|].
      intros a Ha. specialize (Hag a Ha). unfold flook in *. cbn [o_max o_norm o_idx].
      rewrite (wr_rd _ _ _ _ _ a W), (wr_rd _ _ _ _ _ a W2). injection Hag as -> -> ->. reflexivity.
    + assert (Hs : In s smps) by (apply Hi; auto).
      match type of E with context [wr (o_norm m1) s ?v] => set (val := v) in *; destruct (wr (o_norm m1) s val) as [w|] eqn:W; [|discriminate] end.
      injection E as <- <-.
      assert (Hb : 0 <= s < Z.of_nat (length (o_norm m2))).
      { apply rd_some_iff. specialize (Hag s Hs). unfold flook in Hag. injection Hag as _ H1 _. rewrite <- H1.
        apply rd_some_iff. exact (wr_bounds _ _ _ _ _ W). }
      destruct (wr_some _ _ _ val Hb) as [w2 W2]. rewrite W2. eexists. split; [reflexivity|].
      intros a Ha. specialize (Hag a Ha). unfold flook in *. cbn [o_max o_norm o_idx].
      rewrite (wr_rd _ _ _ _ _ a W), (wr_rd _ _ _ _ _ a W2). injection Hag as -> -> ->. reflexivity.
    + assert (Hs : In s smps) by (apply Hi; auto).
      destruct (wr (o_idx m1) s (fidx r)) as [w|] eqn:W; [|discriminate]. injection E as <- <-.
      assert (Hb : 0 <= s < Z.of_nat (length (o_idx m2))).
      { apply rd_some_iff. specialize (Hag s Hs). unfold flook in Hag. injection Hag as _ _ H1. rewrite <- H1.
        apply rd_some_iff. exact (wr_bounds _ _ _ _ _ W). }
      destruct (wr_some _ _ _ (fidx r) Hb) as [w2 W2]. rewrite W2. eexists. split; [reflexivity|].
      intros a Ha. specialize (Hag a Ha). unfold flook in *. cbn [o_max o_norm o_idx].
      rewrite (wr_rd _ _ _ _ _ a W), (wr_rd _ _ _ _ _ a W2). injection Hag as -> -> ->. reflexivity.
Qed.

Lemma sample_prog_local e smps :
  Forall (local (fexec e) flook (fun s => In s smps)) (flat_map (sample_prog e) smps).
Proof.
  apply Forall_forall. intros i Hin. apply finstr_local. intros s Hi.
  apply in_flat_map in Hin. destruct Hin as (s' & Hs' & Hin). unfold sample_prog in Hin.
  destruct Hin as [<-|Hin]; [destruct Hi as [Hi|[Hi|Hi]]; discriminate|].
  apply in_app_or in Hin. destruct Hin as [Hin|Hin].
  - apply in_flat_map in Hin. destruct Hin as (k & _ & [<-|[<-|[]]]);
      destruct Hi as [Hi|[Hi|Hi]]; discriminate.
  - destruct Hin as [<-|[<-|[<-|[]]]]; destruct Hi as [Hi|[Hi|Hi]]; try discriminate; injection Hi as <-; exact Hs'.
Qed.

Lemma find_max_tinv f n ns assign o :
  let e := {| fmap := array2 n ns f; f_samples := ns; f_nodes := n |} in
  1 <= n -> 0 <= ns -> Permutation (concat (map snd assign)) (zrange ns) ->
  (forall s, 0 <= s < ns -> exists k, first_max_at (fun i => f i s) n k
        /\ flook o s = (Some (f k s), Some (scan_value (fun i => f i s) n k), Some k)) ->
  let os := map (fun rn => ((fun s => In s (snd rn)) : Z -> Prop, o)) assign in
  disjoint_owners os /\ tinv (fexec e) flook (fout0 ns) os (fout0 ns, find_max_threads e assign).
Proof.
  intros e Hn Hns Hperm Ho os.
  assert (Hnd : NoDup (concat (map snd assign))).
  { apply (Permutation_NoDup (Permutation_sym Hperm)). apply zrange_nodup. }
  assert (Hrange : forall smps s, In smps (map snd assign) -> In s smps -> 0 <= s < ns).
  { intros smps s H1 H2. apply in_zrange. apply (Permutation_in _ Hperm). apply in_concat. eauto. }
  split.
  - intros j k D E m n' Hj Hk Hne a Da Ea. unfold os in Hj, Hk.
    rewrite nth_error_map in Hj, Hk.
    destruct (nth_error assign j) as [[r1 l1]|] eqn:Ej; [|discriminate].
    destruct (nth_error assign k) as [[r2 l2]|] eqn:Ek; [|discriminate].
    cbn in Hj, Hk. injection Hj as <- _. injection Hk as <- _.
    apply Hne. apply (NoDup_concat_nth _ _ _ _ l1 l2 a Hnd); try assumption;
      rewrite nth_error_map, ?Ej, ?Ek; reflexivity.
  - split; [|split].
    + cbn [snd]. unfold find_max_threads, os. rewrite !map_length. reflexivity.
    + intros k r p Hk. cbn [fst snd] in *. unfold find_max_threads in Hk. rewrite nth_error_map in Hk.
      destruct (nth_error assign k) as [[r1 l1]|] eqn:Ek; [|discriminate]. cbn in Hk. injection Hk as <- <-.
      exists (fun s => In s l1), o.
      assert (Hl1 : In l1 (map snd assign)).
      { apply in_map_iff. exists (r1, l1). split; [reflexivity|]. eapply nth_error_In. exact Ek. }
      split; [unfold os; rewrite nth_error_map, Ek; reflexivity|].
      split; [apply sample_prog_local|].
      destruct (run_sample_set e f ns l1) with (o := fout0 ns) (r := r1)
        as (o1 & r & E & Hs & _); cbn [f_nodes f_samples fmap e fout0 o_max o_norm o_idx];
        rewrite ?repeat_length; try lia.
      { intros node s Hnode Hs. apply rd_array2; assumption. }
      { exact (NoDup_concat_in _ _ _ Hnd Hl1). }
      { intros s Hin. eapply Hrange; eassumption. }
      exists o1, r. split; [exact E|].
      intros s Hin. destruct (Hs s Hin) as (k1 & Hk1 & Hlk1).
      destruct (Ho s (Hrange _ _ Hl1 Hin)) as (k2 & Hk2 & Hlk2).
      cbn [f_nodes e] in Hk1, Hlk1. rewrite (first_max_unique _ _ _ _ Hk1 Hk2) in Hlk1. congruence.
    + intros a _. reflexivity.
Qed.

Lemma find_max_threads_ok r0 f n ns assign c :
  let e := {| fmap := array2 n ns f; f_samples := ns; f_nodes := n |} in
  1 <= n -> 0 <= ns -> Permutation (concat (map snd assign)) (zrange ns) ->
  tsteps (fexec e) (fout0 ns, find_max_threads e assign) c ->
  ~ crashing (fexec e) c /\ (finished c -> lib_find_max_coa r0 (array2 n ns f) n ns = Ret (fst c)).
Proof.
  intros e Hn Hns Hperm Hsteps.
  destruct (find_max_ok r0 f n ns Hn Hns) as (o & Eo & L1 & L2 & L3 & Ho).
  assert (Ho' : forall s, 0 <= s < ns -> exists k, first_max_at (fun i => f i s) n k
        /\ flook o s = (Some (f k s), Some (scan_value (fun i => f i s) n k), Some k)).
  { intros s Hs. destruct (Ho s Hs) as (k & Hk & H1 & H2 & H3). exists k. split; [exact Hk|].
    unfold flook. rewrite H1, H2, H3. reflexivity. }
  destruct (find_max_tinv f n ns assign o Hn Hns Hperm Ho') as [Hd Hinv].
  pose proof (tinv_steps _ _ _ _ _ _ Hd Hinv Hsteps) as Hc.
  split; [exact (tinv_not_crashing _ _ _ _ _ Hc)|].
  intros Hfin. destruct (tinv_finished _ _ _ _ _ Hc Hfin) as [Hag Hframe].
  rewrite Eo. f_equal. symmetry. apply fout_ext. intros s.
  destruct (Z.lt_ge_cases s 0) as [Ha|Ha].
  { rewrite !flook_none by lia. reflexivity. }
  destruct (Z.lt_ge_cases s ns) as [Hb|Hb].
  - assert (Hin : In s (concat (map snd assign))).
    { apply (Permutation_in _ (Permutation_sym Hperm)). apply in_zrange. lia. }
    apply in_concat in Hin. destruct Hin as (l & Hl & Hin). apply in_map_iff in Hl.
    destruct Hl as ([r l'] & Heq & Hl). cbn in Heq. subst l'.
    apply (Hag (fun s => In s l)); [|exact Hin].
    apply in_map_iff. exists (r, l). split; [reflexivity|exact Hl].
  - rewrite Hframe.
    + rewrite !flook_none; try reflexivity; right; cbn [fout0 o_max o_norm o_idx]; rewrite ?repeat_length; lia.
    + intros D mt HD Hin. apply in_map_iff in HD. destruct HD as ([r l] & Heq & Hl). injection Heq as <- <-.
      cbn [snd] in Hin.
      assert (0 <= s < ns); [|lia].
      apply in_zrange. apply (Permutation_in _ Hperm). apply in_concat. exists l. split; [|exact Hin].
      apply in_map_iff. exists (r, l). auto.
Qed.

(* ------------------------------------------------------------------ *)
(** * Onset reads stay in the row of their station *)

Fixpoint safe_reads (e : menv) (tt : Z -> Z -> Z) (n_nodes T : Z) (p : list minstr) : Prop :=
  match p with
  | [] => True
  | ISetTT node k :: p' => 0 <= node < n_nodes /\ 0 <= k < n_stations e /\
                           safe_reads e tt n_nodes (Z.max 0 (tt node k)) p'
  | IAdd k s :: p' => 0 <= k < n_stations e /\ 0 <= s < n_samples e /\ 0 <= T <= lsmp e /\
                      safe_reads e tt n_nodes T p'
  | _ :: p' => safe_reads e tt n_nodes T p'
  end.

Lemma safe_reads_app e tt n_nodes p q :
  (forall T, safe_reads e tt n_nodes T q) -> forall T, safe_reads e tt n_nodes T p ->
  safe_reads e tt n_nodes T (p ++ q).
Proof.
  intros Hq. induction p as [|i p IH]; intros T Hp; [apply Hq|].
  destruct i; cbn [safe_reads app] in *; intuition auto.
Qed.

Lemma safe_reads_node e x tt n_nodes nodes : menv_ok e x tt n_nodes ->
  (forall node, In node nodes -> 0 <= node < n_nodes) ->
  forall T, safe_reads e tt n_nodes T (flat_map (node_prog e) nodes).
Proof.
  intros Hok. induction nodes as [|node nodes IH]; intros Hin T; [exact I|].
  cbn [flat_map]. apply safe_reads_app; [apply IH; intros n Hn; apply Hin; right; exact Hn|].
  unfold node_prog.
  assert (Hnode : 0 <= node < n_nodes) by (apply Hin; left; reflexivity).
  apply safe_reads_app.
  - intros T'. induction (zrange (n_samples e)) as [|s l IHl]; [exact I|]. cbn. exact IHl.
  - assert (G : forall ks, (forall k, In k ks -> 0 <= k < n_stations e) ->
       forall T', safe_reads e tt n_nodes T' (flat_map (station_prog e node) ks)).
    { induction ks as [|k ks IHk]; intros Hks T'; [exact I|]. cbn [flat_map].
      apply safe_reads_app; [apply IHk; intros; apply Hks; right; assumption|].
      unfold station_prog. cbn [safe_reads].
      assert (Hk : 0 <= k < n_stations e) by (apply Hks; left; reflexivity).
      split; [exact Hnode|]. split; [exact Hk|].
      assert (Hs : forall s, In s (zrange (n_samples e)) -> 0 <= s < n_samples e) by (intros s; apply in_zrange).
      assert (HT : 0 <= Z.max 0 (tt node k) <= lsmp e).
      { pose proof (ok_last _ _ _ _ Hok node k Hnode Hk). pose proof (ok_l _ _ _ _ Hok). lia. }
      induction (zrange (n_samples e)) as [|s l IHl]; [exact I|]. cbn [flat_map app safe_reads].
      repeat (split; [first [exact Hk | exact HT | apply Hs; left; reflexivity]|]).
      apply IHl. intros s' Hs'. apply Hs. right. exact Hs'. }
    apply G. intros k. apply in_zrange.
Qed.

Lemma safe_reads_steps e x tt n_nodes c c' : menv_ok e x tt n_nodes ->
  (forall r p, In (r, p) (snd c) -> safe_reads e tt n_nodes (traveltime r) p) ->
  tsteps (mexec e) c c' ->
  (forall r p, In (r, p) (snd c') -> safe_reads e tt n_nodes (traveltime r) p).
Proof.
  intros Hok H Hsteps. induction Hsteps as [c|c1 c2 c3 Hstep _ IH]; [exact H|]. apply IH. clear IH.
  destruct Hstep as [m bef r i p aft m' r' E]. cbn [snd] in *. intros r1 p1 Hin.
  apply in_app_or in Hin. destruct Hin as [Hin|[Hin|Hin]].
  - apply H. apply in_or_app. left. exact Hin.
  - injection Hin as <- <-. pose proof (H r (i :: p) ltac:(apply in_or_app; right; left; reflexivity)) as Hs.
    destruct i as [n k|n s|k s| |n s]; cbn [safe_reads] in Hs; cbn [mexec] in E.
    + destruct Hs as (Hn & Hk & Hs). rewrite (ok_tt _ _ _ _ Hok n k Hn Hk) in E. injection E as _ <-. exact Hs.
    + destruct (rd m (n * n_samples e + s)); [|discriminate]. injection E as _ <-. exact Hs.
    + destruct (onset_index e (traveltime r) k s) as [z|]; [|discriminate].
      destruct (rd (onsets e) z); [|discriminate]. injection E as _ <-. exact (proj2 (proj2 (proj2 Hs))).
    + destruct (available e =? 0); [discriminate|]. injection E as _ <-. exact Hs.
    + destruct (wr m (n * n_samples e + s) (acc r)); [|discriminate]. injection E as _ <-. exact Hs.
  - apply H. apply in_or_app. right. right. exact Hin.
Qed.

Lemma reads_in_row e x tt n_nodes assign m0 c r k s p :
  menv_ok e x tt n_nodes -> (forall rn node, In rn assign -> In node (snd rn) -> 0 <= node < n_nodes) ->
  tsteps (mexec e) (m0, migrate_threads e assign) c ->
  In (r, IAdd k s :: p) (snd c) ->
  exists i, onset_index e (traveltime r) k s = Some i /\
    k * (fsmp e + lsmp e + n_samples e) <= i < (k + 1) * (fsmp e + lsmp e + n_samples e).
Proof.
  intros Hok Hassign Hsteps Hin.
  assert (H0 : forall r p, In (r, p) (migrate_threads e assign) -> safe_reads e tt n_nodes (traveltime r) p).
  { intros r1 p1 H. unfold migrate_threads in H. apply in_map_iff in H. destruct H as (rn & Heq & Hrn).
    injection Heq as <- <-. apply (safe_reads_node e x tt n_nodes _ Hok). intros node. apply Hassign. exact Hrn. }
  pose proof (safe_reads_steps e x tt n_nodes (m0, migrate_threads e assign) _ Hok H0 Hsteps _ _ Hin) as Hs. cbn [safe_reads] in Hs.
  destruct Hs as (Hk & Hs & HT & _). rewrite onset_index_ok; try apply Hok; try assumption.
  eexists. split; [reflexivity|]. pose proof (ok_f _ _ _ _ Hok). lia.
Qed.

(* ------------------------------------------------------------------ *)
(** * Normalised coalescence *)

Lemma Rsum_pos xs : xs <> [] -> (forall x, In x xs -> (0 < x)%R) -> (0 < Rsum xs)%R.
Proof.
  unfold Rsum. induction xs as [|x xs IH]; intros Hne H; [congruence|]. cbn [fold_right].
  pose proof (H x (or_introl eq_refl)). destruct xs as [|y ys]; [cbn; lra|].
  specialize (IH ltac:(discriminate) (fun z Hz => H z (or_intror Hz))). lra.
Qed.

Lemma Rsum_scale c xs : Rsum (map (fun x => c * x)%R xs) = (c * Rsum xs)%R.
Proof. unfold Rsum. induction xs as [|x xs IH]; cbn [map fold_right]; [ring|]. rewrite IH. ring. Qed.

Lemma Rsum_le_eq a xs : (forall x, In x xs -> (x <= a)%R) -> Rsum xs = (INR (length xs) * a)%R ->
  forall x, In x xs -> x = a.
Proof.
  induction xs as [|y xs IH]; intros H E x Hx; [destruct Hx|].
  unfold Rsum in E. cbn [fold_right length] in E. fold (Rsum xs) in E. rewrite S_INR in E.
  assert (Hy : (y <= a)%R) by (apply H; left; reflexivity).
  assert (Hs : (Rsum xs <= INR (length xs) * a)%R).
  { clear -H. unfold Rsum. induction xs as [|z zs IH]; [cbn; lra|]. cbn [fold_right length]. rewrite S_INR.
    pose proof (H z (or_intror (or_introl eq_refl))).
    assert (fold_right Rplus 0 zs <= INR (length zs) * a)%R; [|lra].
    apply IH. intros w [->|Hw]; apply H; [left; reflexivity|right; right; exact Hw]. }
  destruct Hx as [->|Hx]; [lra|]. apply IH; [intros z Hz; apply H; right; exact Hz| |exact Hx]. lra.
Qed.

Lemma scan_value_norm f n k : 1 <= n -> (forall i, 0 <= i < n -> (0 < f i)%R) -> first_max_at f n k ->
  exists v, scan_value f n k = Some v
    /\ v = (f k / arithmetic_mean (map f (zrange n)))%R
    /\ (1 <= v <= IZR n)%R
    /\ (v = 1%R <-> forall i j, 0 <= i < n -> 0 <= j < n -> f i = f j).
Proof.
  intros Hn Hpos (Hk & Hmax & _). unfold scan_value.
  set (S := Rsum (map f (zrange n))).
  assert (HS : (0 < S)%R).
  { apply Rsum_pos.
    - intros E. apply map_eq_nil in E. exact (zrange_nonempty n Hn E).
    - intros x Hx. apply in_map_iff in Hx. destruct Hx as (i & <- & Hi). apply Hpos. apply in_zrange. exact Hi. }
  assert (Hlen : INR (length (map f (zrange n))) = IZR n).
  { rewrite map_length, zrange_length, INR_IZR_INZ, Z2Nat.id by lia. reflexivity. }
  assert (HnR : (0 < IZR n)%R) by (apply IZR_lt; lia).
  destruct (Req_EM_T S 0) as [E|_]; [lra|].
  eexists. split; [reflexivity|]. split; [|split].
  - unfold arithmetic_mean. fold S. rewrite Hlen. field. lra.
  - assert (HS2 : (S <= IZR n * f k)%R).
    { rewrite <- Hlen. apply (Rsum_bounds 0 (f k)). intros x Hx. apply in_map_iff in Hx.
      destruct Hx as (i & <- & Hi). apply in_zrange in Hi. specialize (Hpos i Hi). specialize (Hmax i Hi). lra. }
    assert (HS3 : (f k <= S)%R).
    { unfold S. assert (Hin : In k (zrange n)) by (apply in_zrange; exact Hk).
      apply in_split in Hin. destruct Hin as (l1 & l2 & El). rewrite El, map_app, Rsum_app.
      unfold Rsum. cbn [map fold_right].
      assert (G : forall l, (forall i, In i l -> 0 <= i < n) -> (0 <= fold_right Rplus 0 (map f l))%R).
      { induction l as [|i l IH]; intros Hl; cbn [map fold_right]; [lra|].
        pose proof (Hpos i (Hl i (or_introl eq_refl))). specialize (IH (fun j Hj => Hl j (or_intror Hj))). lra. }
      assert (0 <= fold_right Rplus 0 (map f l1))%R.
      { apply G. intros i Hi. apply in_zrange. rewrite El. apply in_or_app. left. exact Hi. }
      assert (0 <= fold_right Rplus 0 (map f l2))%R.
      { apply G. intros i Hi. apply in_zrange. rewrite El. apply in_or_app. right. right. exact Hi. }
      lra. }
    split.
    + apply Rmult_le_reg_r with S; [exact HS|]. unfold Rdiv. rewrite Rmult_assoc, Rinv_l by lra. lra.
    + apply Rmult_le_reg_r with S; [exact HS|]. unfold Rdiv. rewrite Rmult_assoc, Rinv_l by lra. nra.
  - split.
    + intros Hv.
      assert (HS4 : S = (IZR n * f k)%R).
      { apply (f_equal (fun z => (z * S)%R)) in Hv. unfold Rdiv in Hv. rewrite Rmult_assoc, Rinv_l in Hv by lra. lra. }
      assert (G : forall i, 0 <= i < n -> f i = f k).
      { intros i Hi. apply (Rsum_le_eq (f k) (map f (zrange n))).
        - intros x Hx. apply in_map_iff in Hx. destruct Hx as (j & <- & Hj). apply Hmax. apply in_zrange. exact Hj.
        - rewrite Hlen. exact HS4.
        - apply in_map. apply in_zrange. exact Hi. }
      intros i j Hi Hj. rewrite (G i Hi), (G j Hj). reflexivity.
    + intros Hflat.
      assert (HS4 : (IZR n * f k <= S <= IZR n * f k)%R).
      { rewrite <- Hlen. apply Rsum_bounds. intros x Hx. apply in_map_iff in Hx.
        destruct Hx as (i & <- & Hi). apply in_zrange in Hi. rewrite (Hflat i k Hi Hk). lra. }
      assert (S = (IZR n * f k)%R) as -> by lra. specialize (Hpos k Hk). field. split; lra.
Qed.

Lemma first_max_scale c f g n k : (0 < c)%R -> (forall i, 0 <= i < n -> g i = (c * f i)%R) ->
  first_max_at f n k -> first_max_at g n k.
Proof.
  intros Hc Hg (Hk & Hmax & Hfirst). split; [exact Hk|]. split.
  - intros j Hj. rewrite !Hg by lia. specialize (Hmax j Hj). nra.
  - intros j Hj. rewrite !Hg by lia. specialize (Hfirst j Hj). nra.
Qed.

Lemma scan_value_scale c f g n k : (0 < c)%R -> 0 <= k < n -> (forall i, 0 <= i < n -> g i = (c * f i)%R) ->
  scan_value g n k = scan_value f n k.
Proof.
  intros Hc Hk Hg. unfold scan_value.
  replace (map g (zrange n)) with (map (fun x => c * x)%R (map f (zrange n))).
  2:{ rewrite map_map. apply map_ext_in. intros i Hi. symmetry. apply Hg. apply in_zrange. exact Hi. }
  rewrite Rsum_scale. set (S := Rsum (map f (zrange n))). rewrite (Hg k Hk).
  destruct (Req_EM_T (c * S) 0) as [E|E], (Req_EM_T S 0) as [E'|E']; try reflexivity.
  - exfalso. apply Rmult_integral in E. lra.
  - exfalso. apply E. rewrite E'. ring.
  - f_equal. field. split; lra.
Qed.

Lemma reads_in_row_pads on n t tt n_nodes f l assign m0 c r k s p :
  let e := migrate_env (array2 n t on) n t (array2 n_nodes n tt) f l n in
  1 <= n -> 0 <= f -> 0 <= l -> f + l <= t -> n * t < 2147483648 ->
  (forall node k, 0 <= node < n_nodes -> 0 <= k < n -> tt node k <= l) ->
  Permutation (concat (map snd assign)) (zrange n_nodes) ->
  tsteps (mexec e) (m0, migrate_threads e assign) c ->
  In (r, IAdd k s :: p) (snd c) ->
  exists i, onset_index e (traveltime r) k s = Some i /\ k * t <= i < (k + 1) * t.
Proof.
  intros e Hn Hf Hl Ht Hsz Htt Hperm Hsteps Hin.
  pose proof (migrate_env_ok on n t tt n_nodes f l Hn Hf Hl Ht Hsz Htt) as Hok.
  destruct (reads_in_row e _ tt n_nodes assign m0 c r k s p Hok) as (i & E & Hi); try assumption.
  - intros rn node Hrn Hnode. apply in_zrange. apply (Permutation_in _ Hperm). apply in_concat.
    exists (snd rn). split; [apply in_map; exact Hrn|exact Hnode].
  - exists i. split; [exact E|]. cbn [e migrate_env fsmp lsmp n_samples] in Hi.
    replace (f + l + (t - f - l)) with t in Hi by ring. exact Hi.
Qed.

Lemma migrate_interleavings r0 on n t tt n_nodes f l assign c :
  let e := migrate_env (array2 n t on) n t (array2 n_nodes n tt) f l n in
  1 <= n -> 0 <= n_nodes -> 0 <= f -> 0 <= l -> f + l <= t -> n * t < 2147483648 ->
  (forall node k, 0 <= node < n_nodes -> 0 <= k < n -> tt node k <= l) ->
  Permutation (concat (map snd assign)) (zrange n_nodes) ->
  tsteps (mexec e) (repeat 0%R (Z.to_nat (n_nodes * (t - f - l))), migrate_threads e assign) c ->
  ~ crashing (mexec e) c
  /\ (finished c ->
      lib_migrate r0 (array2 n t on) n t (array2 n_nodes n tt) n_nodes n f l n = Ret (fst c))
  /\ (finished c \/ exists c', tstep (mexec e) c c').
Proof.
  intros e Hn Hnn Hf Hl Ht Hsz Htt Hperm Hsteps.
  pose proof (migrate_env_ok on n t tt n_nodes f l Hn Hf Hl Ht Hsz Htt) as Hok.
  destruct (migrate_threads_ok e _ tt n_nodes assign c Hok Hnn Hperm Hsteps) as [Hc Hfin].
  split; [exact Hc|]. split; [|exact (progress _ c Hc)].
  intros H. rewrite lib_migrate_ok by assumption. rewrite (Hfin H). f_equal.
  unfold kernel_map. cbn [e migrate_env n_samples]. apply array2_ext.
  intros i j _ _. symmetry. apply node_value_gm. exact Hn.
Qed.

Lemma find_max_interleavings r0 f n ns assign c :
  let e := {| fmap := array2 n ns f; f_samples := ns; f_nodes := n |} in
  1 <= n -> 0 <= ns -> Permutation (concat (map snd assign)) (zrange ns) ->
  tsteps (fexec e) (fout0 ns, find_max_threads e assign) c ->
  ~ crashing (fexec e) c
  /\ (finished c -> lib_find_max_coa r0 (array2 n ns f) n ns = Ret (fst c))
  /\ (finished c \/ exists c', tstep (fexec e) c c').
Proof.
  intros e Hn Hns Hperm Hsteps.
  destruct (find_max_threads_ok r0 f n ns assign c Hn Hns Hperm Hsteps) as [Hc Hfin].
  split; [exact Hc|]. split; [exact Hfin|exact (progress _ c Hc)].
Qed.

(** Different threads never store to the same element. *)
Lemma migrate_single_writer e n_nodes assign j k rj rk pj pk nj sj nk sk :
  Permutation (concat (map snd assign)) (zrange n_nodes) ->
  nth_error (migrate_threads e assign) j = Some (rj, pj) ->
  nth_error (migrate_threads e assign) k = Some (rk, pk) -> j <> k ->
  In (IStore nj sj) pj -> In (IStore nk sk) pk ->
  nj * n_samples e + sj <> nk * n_samples e + sk.
Proof.
  intros Hperm Hj Hk Hne Hin1 Hin2 Heq.
  assert (Hnd : NoDup (concat (map snd assign))).
  { apply (Permutation_NoDup (Permutation_sym Hperm)). apply zrange_nodup. }
  unfold migrate_threads in Hj, Hk. rewrite nth_error_map in Hj, Hk.
  destruct (nth_error assign j) as [[r1 l1]|] eqn:Ej; [|discriminate].
  destruct (nth_error assign k) as [[r2 l2]|] eqn:Ek; [|discriminate].
  cbn in Hj, Hk. injection Hj as _ <-. injection Hk as _ <-.
  assert (G : forall l nd s, In (IStore nd s) (flat_map (node_prog e) l) -> In nd l /\ 0 <= s < n_samples e).
  { intros l nd s Hin. apply in_flat_map in Hin. destruct Hin as (n & Hn & Hin). unfold node_prog in Hin.
    apply in_app_or in Hin. destruct Hin as [Hin|Hin].
    - apply in_flat_map in Hin. destruct Hin as (q & _ & Hin). unfold station_prog in Hin.
      destruct Hin as [Hin|Hin]; [discriminate|]. apply in_flat_map in Hin. destruct Hin as (s' & Hs' & Hin).
      apply in_zrange in Hs'. destruct Hin as [Hin|[Hin|[Hin|[]]]]; try discriminate. injection Hin as <- <-. auto.
    - apply in_flat_map in Hin. destruct Hin as (s' & Hs' & Hin).
      apply in_zrange in Hs'. destruct Hin as [Hin|[Hin|[Hin|[]]]]; try discriminate. injection Hin as <- <-. auto. }
  destruct (G _ _ _ Hin1) as [A1 B1]. destruct (G _ _ _ Hin2) as [A2 B2].
  destruct (cell_inj (n_samples e) nj sj nk sk) as [-> _]; try lia.
  apply Hne. apply (NoDup_concat_nth _ _ _ _ l1 l2 nk Hnd); try assumption;
    rewrite nth_error_map, ?Ej, ?Ek; reflexivity.
Qed.

(** The number of steps of any execution is bounded by the initial work. *)
Lemma tsteps_bound {Mem Reg Instr} (ex : Instr -> Mem * Reg -> option (Mem * Reg)) c c' :
  tsteps ex c c' -> (work (snd c') <= work (snd c))%nat.
Proof.
  induction 1 as [|c1 c2 c3 H _ IH]; [lia|]. pose proof (tstep_work ex c1 c2 H). lia.
Qed.

Lemma window_independent r0 x n tt n_nodes w1 t1 f1 l1 w2 t2 f2 l2 m1 m2 node s1 s2 :
  1 <= n -> n * t1 < 2147483648 -> n * t2 < 2147483648 ->
  0 <= f1 -> 0 <= l1 -> f1 + l1 <= t1 -> 0 <= f2 -> 0 <= l2 -> f2 + l2 <= t2 ->
  (forall node k, 0 <= node < n_nodes -> 0 <= k < n -> tt node k <= l1 /\ tt node k <= l2) ->
  lib_migrate r0 (array2 n t1 (fun k j => x k (w1 + j))) n t1 (array2 n_nodes n tt) n_nodes n f1 l1 n = Ret m1 ->
  lib_migrate r0 (array2 n t2 (fun k j => x k (w2 + j))) n t2 (array2 n_nodes n tt) n_nodes n f2 l2 n = Ret m2 ->
  0 <= node < n_nodes -> 0 <= s1 < t1 - f1 - l1 -> 0 <= s2 < t2 - f2 - l2 ->
  w1 + f1 + s1 = w2 + f2 + s2 ->
  exists v, rd m1 (node * (t1 - f1 - l1) + s1) = Some v /\ rd m2 (node * (t2 - f2 - l2) + s2) = Some v.
Proof.
  intros Hn Hz1 Hz2 Hf1 Hl1 Ht1 Hf2 Hl2 Ht2 Htt E1 E2 Hnode Hs1 Hs2 Habs.
  erewrite lib_migrate_value with (m := m1); try exact E1; try assumption; [|intros; apply Htt; assumption].
  erewrite lib_migrate_value with (m := m2); try exact E2; try assumption; [|intros; apply Htt; assumption].
  eexists. split; [reflexivity|]. f_equal. unfold coalescence. f_equal. apply map_ext. intros k.
  do 2 f_equal. lia.
Qed.

Lemma find_max_norm r0 f n ns o s : 1 <= n -> 0 <= ns ->
  lib_find_max_coa r0 (array2 n ns f) n ns = Ret o -> 0 <= s < ns ->
  (forall i, 0 <= i < n -> (0 < f i s)%R) ->
  exists v M, rd (o_norm o) s = Some (Some v) /\ rd (o_max o) s = Some M
    /\ v = (M / arithmetic_mean (map (fun i => f i s) (zrange n)))%R
    /\ (1 <= v <= IZR n)%R
    /\ (v = 1%R <-> forall i j, 0 <= i < n -> 0 <= j < n -> f i s = f j s).
Proof.
  intros Hn Hns E Hs Hpos. destruct (find_max_ok r0 f n ns Hn Hns) as (o' & E' & _ & _ & _ & Ho).
  rewrite E in E'. injection E' as <-. destruct (Ho s Hs) as (k & Hk & H1 & H2 & H3).
  destruct (scan_value_norm (fun i => f i s) n k Hn Hpos Hk) as (v & Ev & Hv).
  exists v, (f k s). rewrite H3, Ev, H1. auto.
Qed.

Lemma find_max_norm_scale r0 f g n ns o o' s c : 1 <= n -> 0 <= ns ->
  lib_find_max_coa r0 (array2 n ns f) n ns = Ret o ->
  lib_find_max_coa r0 (array2 n ns g) n ns = Ret o' ->
  0 <= s < ns -> (0 < c)%R -> (forall i, 0 <= i < n -> g i s = (c * f i s)%R) ->
  rd (o_norm o') s = rd (o_norm o) s /\ rd (o_idx o') s = rd (o_idx o) s.
Proof.
  intros Hn Hns E E' Hs Hc Hg.
  destruct (find_max_ok r0 f n ns Hn Hns) as (o1 & E1 & _ & _ & _ & Ho1).
  destruct (find_max_ok r0 g n ns Hn Hns) as (o2 & E2 & _ & _ & _ & Ho2).
  rewrite E in E1. injection E1 as <-. rewrite E' in E2. injection E2 as <-.
  destruct (Ho1 s Hs) as (k1 & Hk1 & _ & A2 & A3). destruct (Ho2 s Hs) as (k2 & Hk2 & _ & B2 & B3).
  pose proof (first_max_scale c _ (fun i => g i s) n k1 Hc Hg Hk1) as Hk1'.
  rewrite (first_max_unique _ _ _ _ Hk2 Hk1') in B2, B3.
  rewrite A2, A3, B2, B3. split; [|reflexivity]. f_equal.
  apply (scan_value_scale c); try assumption. exact (proj1 Hk1).
Qed.

Lemma option_R_eq_dec (x y : option R) : x = y \/ x <> y.
Proof.
  destruct x as [x|], y as [y|]; try (right; discriminate); try (left; reflexivity).
  destruct (Req_EM_T x y) as [->|H]; [left; reflexivity|right; congruence].
Qed.

Lemma mexec_writes e i m r m' r' a : mexec e i (m, r) = Some (m', r') -> rd m' a <> rd m a ->
  exists node sample, i = IStore node sample /\ a = node * n_samples e + sample.
Proof.
  intros E Hne. destruct i as [node station|node sample|station sample| |node sample]; cbn [mexec] in E.
  - destruct (rd (lookup_tables e) _); [|discriminate]. congruence.
  - destruct (rd m (node * _ + sample)); [|discriminate]. congruence.
  - destruct (onset_index _ _ _ _); [|discriminate]. destruct (rd (onsets e) _); [|discriminate]. congruence.
  - destruct (available e =? 0); [discriminate|]. congruence.
  - destruct (wr m _ _) as [w|] eqn:W; [|discriminate]. injection E as <- <-.
    exists node, sample. split; [reflexivity|]. rewrite (wr_rd _ _ _ _ _ a W) in Hne.
    destruct (Z.eqb_spec a (node * n_samples e + sample)); [assumption|congruence].
Qed.

Lemma migrate_one_writer e n_nodes assign j k rj rk pj pk ij ik m1 m1' m2 m2' r1 r1' r2 r2' a :
  Permutation (concat (map snd assign)) (zrange n_nodes) ->
  nth_error (migrate_threads e assign) j = Some (rj, pj) ->
  nth_error (migrate_threads e assign) k = Some (rk, pk) -> j <> k ->
  In ij pj -> In ik pk ->
  mexec e ij (m1, r1) = Some (m1', r1') -> mexec e ik (m2, r2) = Some (m2', r2') ->
  rd m1' a <> rd m1 a -> rd m2' a = rd m2 a.
Proof.
  intros Hp Hj Hk Hjk Hij Hik E1 E2 H1.
  destruct (option_R_eq_dec (rd m2' a) (rd m2 a)) as [H2|H2]; [exact H2|]. exfalso.
  destruct (mexec_writes _ _ _ _ _ _ _ E1 H1) as (n1 & s1 & -> & A1).
  destruct (mexec_writes _ _ _ _ _ _ _ E2 H2) as (n2 & s2 & -> & A2).
  apply (migrate_single_writer e n_nodes assign j k rj rk pj pk n1 s1 n2 s2 Hp Hj Hk Hjk Hij Hik). congruence.
Qed.
