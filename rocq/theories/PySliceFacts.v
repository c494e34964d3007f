(** Lemmas about Python slices. *)
From Coq Require Import List ZArith Lia Bool.
From Verif Require Import Lib LibFacts PySlice.
Import ListNotations.
Open Scope Z_scope.

Lemma pynorm_bounds n i : 0 <= n -> 0 <= pynorm n i <= n.
Proof. intros H. unfold pynorm. destruct (Z.ltb_spec i 0); lia. Qed.
Lemma pylo_bounds n a : 0 <= n -> 0 <= pylo n a <= n.
Proof. intros H. destruct a; cbn; [apply pynorm_bounds; exact H|lia]. Qed.
Lemma pyhi_bounds n a : 0 <= n -> 0 <= pyhi n a <= n.
Proof. intros H. destruct a; cbn; [apply pynorm_bounds; exact H|lia]. Qed.

Lemma rd_skipn A (l : list A) k i : 0 <= k -> 0 <= i -> rd (skipn (Z.to_nat k) l) i = rd l (k + i).
Proof.
  intros Hk Hi. unfold rd. destruct (Z.ltb_spec i 0); [lia|]. destruct (Z.ltb_spec (k + i) 0); [lia|].
  replace (Z.to_nat (k + i)) with (Z.to_nat k + Z.to_nat i)%nat by lia.
  generalize (Z.to_nat k) as m. clear. intros m. revert l. induction m as [|m IH]; intros l; [reflexivity|].
  destruct l as [|x l]; cbn; [destruct (Z.to_nat i); reflexivity|]. apply IH.
Qed.

Lemma rd_firstn A (l : list A) k i : i < k -> rd (firstn (Z.to_nat k) l) i = rd l i.
Proof.
  intros Hi. unfold rd. destruct (Z.ltb_spec i 0); [reflexivity|].
  assert (H1 : (Z.to_nat i < Z.to_nat k)%nat) by lia.
  revert H1. generalize (Z.to_nat i) as j, (Z.to_nat k) as m. clear. intros j m. revert l j.
  induction m as [|m IH]; intros l j H; [lia|]. destruct l as [|x l]; [reflexivity|].
  destruct j as [|j]; [reflexivity|]. cbn. apply IH. lia.
Qed.

Lemma rd_firstn_none A (l : list A) k i : 0 <= k -> k <= i -> rd (firstn (Z.to_nat k) l) i = None.
Proof. intros Hk Hi. apply rd_none. right. rewrite firstn_length. lia. Qed.

Lemma pyslice_length A (l : list A) a b :
  let n := Z.of_nat (length l) in
  Z.of_nat (length (pyslice l a b)) = Z.max 0 (pyhi n b - pylo n a).
Proof.
  intros n. unfold pyslice. rewrite firstn_length, skipn_length. fold n.
  pose proof (pylo_bounds n a ltac:(lia)). pose proof (pyhi_bounds n b ltac:(lia)). lia.
Qed.

Lemma rd_pyslice A (l : list A) a b i :
  let n := Z.of_nat (length l) in
  0 <= i < pyhi n b - pylo n a -> rd (pyslice l a b) i = rd l (pylo n a + i).
Proof.
  intros n Hi. unfold pyslice. fold n. pose proof (pylo_bounds n a ltac:(lia)).
  rewrite rd_firstn by lia. apply rd_skipn; lia.
Qed.

Lemma splice_length A (l vals : list A) lo hi : 0 <= lo <= hi -> hi <= Z.of_nat (length l) ->
  Z.of_nat (length vals) = hi - lo ->
  length (firstn (Z.to_nat lo) l ++ vals ++ skipn (Z.to_nat hi) l) = length l.
Proof. intros H1 H2 H3. rewrite !app_length, firstn_length, skipn_length. lia. Qed.

Lemma rd_splice A (l vals : list A) lo hi i : 0 <= lo <= hi -> hi <= Z.of_nat (length l) ->
  Z.of_nat (length vals) = hi - lo ->
  rd (firstn (Z.to_nat lo) l ++ vals ++ skipn (Z.to_nat hi) l) i =
  if (lo <=? i) && (i <? hi) then rd vals (i - lo) else rd l i.
Proof.
  intros H1 H2 H3.
  assert (Hf : Z.of_nat (length (firstn (Z.to_nat lo) l)) = lo) by (rewrite firstn_length; lia).
  destruct (Z.leb_spec lo i) as [Ha|Ha]; cbn [andb].
  - rewrite rd_app2 by lia. rewrite Hf. destruct (Z.ltb_spec i hi) as [Hb|Hb].
    + apply rd_app1. lia.
    + rewrite rd_app2 by lia. rewrite rd_skipn by lia. f_equal. lia.
  - rewrite rd_app1 by lia. apply rd_firstn. lia.
Qed.

Lemma pyset_some A (l : list A) a b vals :
  let n := Z.of_nat (length l) in
  Z.of_nat (length vals) = Z.max 0 (pyhi n b - pylo n a) ->
  exists l', pyset l a b vals = Some l' /\ length l' = length l /\
    forall i, rd l' i = if (pylo n a <=? i) && (i <? pyhi n b) then rd vals (i - pylo n a) else rd l i.
Proof.
  intros n Hv. unfold pyset. fold n.
  pose proof (pylo_bounds n a ltac:(lia)) as Hlo. pose proof (pyhi_bounds n b ltac:(lia)) as Hhi.
  set (lo := pylo n a) in *. set (hi := pyhi n b) in *.
  destruct (Z.eqb_spec (Z.of_nat (length vals)) (Z.max lo hi - lo)) as [E|E]; [|lia].
  eexists. split; [reflexivity|]. split; [apply splice_length; lia|].
  intros i. rewrite rd_splice by lia.
  destruct (Z.leb_spec lo i), (Z.ltb_spec i (Z.max lo hi)), (Z.ltb_spec i hi); cbn [andb]; try reflexivity; lia.
Qed.

Lemma pyfill_length A (l : list A) a b v : length (pyfill l a b v) = length l.
Proof.
  unfold pyfill. set (n := Z.of_nat (length l)).
  pose proof (pylo_bounds n a ltac:(lia)). pose proof (pyhi_bounds n b ltac:(lia)).
  apply splice_length; rewrite ?repeat_length; lia.
Qed.

Lemma rd_pyfill A (l : list A) a b v i :
  let n := Z.of_nat (length l) in
  rd (pyfill l a b v) i = if (pylo n a <=? i) && (i <? pyhi n b) then Some v else rd l i.
Proof.
  intros n. unfold pyfill. fold n.
  pose proof (pylo_bounds n a ltac:(lia)) as Hlo. pose proof (pyhi_bounds n b ltac:(lia)) as Hhi.
  rewrite rd_splice by (rewrite ?repeat_length; lia).
  destruct (Z.leb_spec (pylo n a) i), (Z.ltb_spec i (Z.max (pylo n a) (pyhi n b))), (Z.ltb_spec i (pyhi n b));
    cbn [andb]; try reflexivity; try lia.
  apply rd_repeat. lia.
Qed.
