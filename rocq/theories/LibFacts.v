(** Lemmas about the vocabulary of Lib.v. *)
From Coq Require Import List ZArith Lia Bool.
From Verif Require Import Lib.
Import ListNotations.
Open Scope Z_scope.

Lemma rd_some_iff A (l : list A) i : (exists x, rd l i = Some x) <-> 0 <= i < Z.of_nat (length l).
Proof.
  unfold rd. destruct (Z.ltb_spec i 0) as [H|H].
  - split; [intros [x Hx]; discriminate | lia].
  - split.
    + intros [x Hx]. assert (nth_error l (Z.to_nat i) <> None) as Hn by congruence.
      apply nth_error_Some in Hn. lia.
    + intros Hi. destruct (nth_error l (Z.to_nat i)) as [x|] eqn:E; [eauto|].
      apply nth_error_None in E. lia.
Qed.

Lemma rd_bounds A (l : list A) i x : rd l i = Some x -> 0 <= i < Z.of_nat (length l).
Proof. intros H. apply rd_some_iff. eauto. Qed.

Lemma rd_in_range A (l : list A) i : 0 <= i < Z.of_nat (length l) -> exists x, rd l i = Some x.
Proof. intros H. apply rd_some_iff. exact H. Qed.

Lemma rd_none A (l : list A) i : i < 0 \/ Z.of_nat (length l) <= i -> rd l i = None.
Proof.
  intros H. destruct (rd l i) eqn:E; [|reflexivity]. apply rd_bounds in E. lia.
Qed.

Lemma rd_nil A i : rd (@nil A) i = None.
Proof. unfold rd. destruct (i <? 0); [reflexivity|]. destruct (Z.to_nat i); reflexivity. Qed.

Lemma rd_0 A (x : A) l : rd (x :: l) 0 = Some x.
Proof. reflexivity. Qed.

Lemma rd_S A (x : A) l i : 0 <= i -> rd (x :: l) (i + 1) = rd l i.
Proof.
  intros H. unfold rd. destruct (Z.ltb_spec (i + 1) 0); [lia|]. destruct (Z.ltb_spec i 0); [lia|].
  replace (Z.to_nat (i + 1)) with (S (Z.to_nat i)) by lia. reflexivity.
Qed.

Lemma rd_cons A (x : A) l i : rd (x :: l) i = if i =? 0 then Some x else rd l (i - 1).
Proof.
  destruct (Z.eqb_spec i 0) as [->|H]; [reflexivity|].
  unfold rd. destruct (Z.ltb_spec i 0).
  - destruct (Z.ltb_spec (i - 1) 0); [reflexivity|lia].
  - destruct (Z.ltb_spec (i - 1) 0); [lia|].
    replace (Z.to_nat i) with (S (Z.to_nat (i - 1))) by lia. reflexivity.
Qed.

Lemma rd_nat A (l : list A) n : rd l (Z.of_nat n) = nth_error l n.
Proof. unfold rd. destruct (Z.ltb_spec (Z.of_nat n) 0); [lia|]. rewrite Nat2Z.id. reflexivity. Qed.

Lemma rd_map A B (f : A -> B) l i : rd (map f l) i = option_map f (rd l i).
Proof. unfold rd. destruct (i <? 0); [reflexivity|]. rewrite nth_error_map. reflexivity. Qed.

Lemma rd_app1 A (l1 l2 : list A) i : i < Z.of_nat (length l1) -> rd (l1 ++ l2) i = rd l1 i.
Proof.
  intros H. unfold rd. destruct (Z.ltb_spec i 0); [reflexivity|]. apply nth_error_app1. lia.
Qed.

Lemma rd_app2 A (l1 l2 : list A) i :
  Z.of_nat (length l1) <= i -> rd (l1 ++ l2) i = rd l2 (i - Z.of_nat (length l1)).
Proof.
  intros H. unfold rd. destruct (Z.ltb_spec i 0); [lia|].
  destruct (Z.ltb_spec (i - Z.of_nat (length l1)) 0); [lia|].
  rewrite nth_error_app2 by lia. f_equal. lia.
Qed.

Lemma rd_repeat A (x : A) n i : 0 <= i < Z.of_nat n -> rd (repeat x n) i = Some x.
Proof.
  intros H. unfold rd. destruct (Z.ltb_spec i 0); [lia|].
  rewrite nth_error_repeat by lia. reflexivity.
Qed.

Lemma rd_in A (l : list A) i x : rd l i = Some x -> In x l.
Proof. unfold rd. destruct (i <? 0); [discriminate|]. apply nth_error_In. Qed.

Lemma in_rd A (l : list A) x : In x l -> exists i, rd l i = Some x.
Proof.
  intros H. apply In_nth_error in H. destruct H as [n Hn]. exists (Z.of_nat n). rewrite rd_nat. exact Hn.
Qed.

Lemma rd_ext A (l1 l2 : list A) :
  length l1 = length l2 -> (forall i, 0 <= i < Z.of_nat (length l1) -> rd l1 i = rd l2 i) -> l1 = l2.
Proof.
  revert l2. induction l1 as [|x l1 IH]; intros [|y l2] Hl Hr; try discriminate; [reflexivity|].
  cbn [length] in *. f_equal.
  - assert (H0 : rd (x :: l1) 0 = rd (y :: l2) 0) by (apply Hr; lia). rewrite !rd_0 in H0. congruence.
  - apply IH; [lia|]. intros i Hi. specialize (Hr (i + 1)). rewrite !rd_S in Hr by lia. apply Hr. lia.
Qed.

Lemma rd_ext_opt A (l1 l2 : list A) : (forall i, rd l1 i = rd l2 i) -> l1 = l2.
Proof.
  intros H. apply rd_ext; [|auto].
  destruct (Nat.lt_total (length l1) (length l2)) as [C|[C|C]]; [|exact C|].
  - destruct (rd_in_range _ l2 (Z.of_nat (length l1))) as [x Hx]; [lia|].
    rewrite <- H, rd_none in Hx by lia. discriminate.
  - destruct (rd_in_range _ l1 (Z.of_nat (length l2))) as [x Hx]; [lia|].
    rewrite H, rd_none in Hx by lia. discriminate.
Qed.

Lemma upd_length A (l l' : list A) i x : upd l i x = Some l' -> length l' = length l.
Proof.
  revert l' i. induction l as [|h t IH]; intros l' [|i] H; cbn in H; try discriminate.
  - injection H as <-. reflexivity.
  - destruct (upd t i x) as [t'|] eqn:E; [|discriminate]. injection H as <-. cbn. f_equal. eauto.
Qed.

Lemma upd_nth A (l l' : list A) i x j :
  upd l i x = Some l' -> nth_error l' j = if Nat.eqb j i then Some x else nth_error l j.
Proof.
  revert l' i j. induction l as [|h t IH]; intros l' [|i] j H; cbn in H; try discriminate.
  - injection H as <-. destruct j; reflexivity.
  - destruct (upd t i x) as [t'|] eqn:E; [|discriminate]. injection H as <-.
    destruct j; [reflexivity|]. cbn. eapply IH. exact E.
Qed.

Lemma upd_some A (l : list A) i x : (i < length l)%nat -> exists l', upd l i x = Some l'.
Proof.
  revert i. induction l as [|h t IH]; intros [|i] H; cbn in *; try lia; [eauto|].
  destruct (IH i) as [t' ->]; [lia|]. eauto.
Qed.

Lemma upd_inv A (l l' : list A) i x : upd l i x = Some l' -> (i < length l)%nat.
Proof.
  revert l' i. induction l as [|h t IH]; intros l' [|i] H; cbn in *; try discriminate; [lia|].
  destruct (upd t i x) eqn:E; [|discriminate]. apply IH in E. lia.
Qed.

Lemma wr_length A (l l' : list A) i x : wr l i x = Some l' -> length l' = length l.
Proof. unfold wr. destruct (i <? 0); [discriminate|]. apply upd_length. Qed.

Lemma wr_rd A (l l' : list A) i x j : wr l i x = Some l' -> rd l' j = if j =? i then Some x else rd l j.
Proof.
  unfold wr, rd. destruct (Z.ltb_spec i 0) as [Hi|Hi]; [discriminate|]. intros H.
  destruct (Z.ltb_spec j 0).
  - destruct (Z.eqb_spec j i); [lia|reflexivity].
  - rewrite (upd_nth _ _ _ _ _ (Z.to_nat j) H).
    destruct (Nat.eqb_spec (Z.to_nat j) (Z.to_nat i)); destruct (Z.eqb_spec j i); try lia; reflexivity.
Qed.

Lemma wr_same A (l l' : list A) i x : wr l i x = Some l' -> rd l' i = Some x.
Proof. intros H. rewrite (wr_rd _ _ _ _ _ i H), Z.eqb_refl. reflexivity. Qed.

Lemma wr_other A (l l' : list A) i x j : wr l i x = Some l' -> j <> i -> rd l' j = rd l j.
Proof. intros H Hj. rewrite (wr_rd _ _ _ _ _ j H). destruct (Z.eqb_spec j i); [contradiction|reflexivity]. Qed.

Lemma wr_some A (l : list A) i x : 0 <= i < Z.of_nat (length l) -> exists l', wr l i x = Some l'.
Proof. intros H. unfold wr. destruct (Z.ltb_spec i 0); [lia|]. apply upd_some. lia. Qed.

Lemma wr_bounds A (l l' : list A) i x : wr l i x = Some l' -> 0 <= i < Z.of_nat (length l).
Proof. unfold wr. destruct (Z.ltb_spec i 0); [discriminate|]. intros H1. apply upd_inv in H1. lia. Qed.

Lemma zseq_length lo n : length (zseq lo n) = n.
Proof. revert lo. induction n; intros lo; cbn; congruence. Qed.

Lemma zrange_length n : length (zrange n) = Z.to_nat n.
Proof. apply zseq_length. Qed.

Lemma in_zseq lo n x : In x (zseq lo n) <-> lo <= x < lo + Z.of_nat n.
Proof.
  revert lo. induction n as [|n IH]; intros lo; cbn [zseq In]; [lia|].
  rewrite IH. lia.
Qed.

Lemma in_zrange n x : In x (zrange n) <-> 0 <= x < n.
Proof. unfold zrange. rewrite in_zseq. lia. Qed.

Lemma zseq_nodup lo n : NoDup (zseq lo n).
Proof.
  revert lo. induction n as [|n IH]; intros lo; cbn; constructor; [|apply IH].
  rewrite in_zseq. lia.
Qed.

Lemma zrange_nodup n : NoDup (zrange n).
Proof. apply zseq_nodup. Qed.

Lemma rd_zseq lo n i : 0 <= i < Z.of_nat n -> rd (zseq lo n) i = Some (lo + i).
Proof.
  revert lo i. induction n as [|n IH]; intros lo i Hi; [lia|].
  cbn [zseq]. rewrite rd_cons. destruct (Z.eqb_spec i 0) as [->|H]; [f_equal; lia|].
  rewrite IH by lia. f_equal. lia.
Qed.

Lemma rd_zrange n i : 0 <= i < n -> rd (zrange n) i = Some i.
Proof. intros H. unfold zrange. rewrite rd_zseq by lia. reflexivity. Qed.

Lemma zseq_app lo n m : zseq lo (n + m) = zseq lo n ++ zseq (lo + Z.of_nat n) m.
Proof.
  revert lo. induction n as [|n IH]; intros lo; cbn [Nat.add zseq app].
  - f_equal; lia.
  - rewrite IH. replace (lo + 1 + Z.of_nat n) with (lo + Z.of_nat (S n)) by lia. reflexivity.
Qed.

Lemma loop_inv S (Inv : Z -> S -> Prop) n i (body : Z -> S -> option S) s :
  Inv i s ->
  (forall j s0, i <= j < i + Z.of_nat n -> Inv j s0 -> exists s1, body j s0 = Some s1 /\ Inv (j + 1) s1) ->
  exists s', loop n i body s = Some s' /\ Inv (i + Z.of_nat n) s'.
Proof.
  revert i s. induction n as [|n IH]; intros i s H0 Hs; cbn [loop].
  - exists s. split; [reflexivity|]. replace (i + Z.of_nat 0) with i by lia. exact H0.
  - destruct (Hs i s) as [s1 [E1 I1]]; [lia|exact H0|]. rewrite E1.
    destruct (IH (i + 1) s1 I1) as [s2 [E2 I2]].
    + intros j s0 Hj. apply Hs. lia.
    + exists s2. split; [exact E2|]. replace (i + Z.of_nat (Datatypes.S n)) with (i + 1 + Z.of_nat n) by lia. exact I2.
Qed.

Lemma for_inv S (Inv : Z -> S -> Prop) lo hi (body : Z -> S -> option S) s :
  lo <= hi ->
  Inv lo s ->
  (forall j s0, lo <= j < hi -> Inv j s0 -> exists s1, body j s0 = Some s1 /\ Inv (j + 1) s1) ->
  exists s', for_ lo hi body s = Some s' /\ Inv hi s'.
Proof.
  intros Hle H0 Hs. unfold for_.
  destruct (loop_inv S Inv (Z.to_nat (hi - lo)) lo body s H0) as [s' [E I]].
  - intros j s0 Hj. apply Hs. lia.
  - exists s'. split; [exact E|]. replace hi with (lo + Z.of_nat (Z.to_nat (hi - lo))) by lia. exact I.
Qed.

Lemma for_empty S lo hi (body : Z -> S -> option S) s : hi <= lo -> for_ lo hi body s = Some s.
Proof. intros H. unfold for_. replace (Z.to_nat (hi - lo)) with O by lia. reflexivity. Qed.

Lemma int32_some z : -2147483648 <= z <= 2147483647 -> int32 z = Some z.
Proof.
  intros H. unfold int32. destruct (Z.leb_spec (-2147483648) z); [|lia].
  destruct (Z.leb_spec z 2147483647); [reflexivity|lia].
Qed.

Lemma int32_inv z w : int32 z = Some w -> w = z /\ -2147483648 <= z <= 2147483647.
Proof.
  unfold int32. destruct (Z.leb_spec (-2147483648) z); [|discriminate].
  destruct (Z.leb_spec z 2147483647); [|discriminate]. cbn. intros E. injection E as <-. lia.
Qed.
