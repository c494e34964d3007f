(** Proofs about triggering. *)
From Coq Require Import List ZArith QArith Qabs Bool Permutation Sorted Ascii String Lia.
From Verif Require Import Lib LibFacts PySlice PySliceFacts Timeline_Model Calendar_Model Calendar_Spec
  Calendar_Proofs Trigger_Model Trigger_Spec.
Import ListNotations.
Open Scope Z_scope.

(** * Grouping consecutive elements *)
Section Chop.
Context {A : Type}.
Variable adj : A -> A -> bool.
Fixpoint chop (l : list A) : list (list A) :=
  match l with
  | [] => []
  | x :: r => match chop r with
              | (y :: b) :: bs => if adj x y then (x :: y :: b) :: bs else [x] :: (y :: b) :: bs
              | o => [x] :: o
              end
  end.
Lemma chop_head r : match chop r with
                    | (y :: b) :: bs => exists r', r = y :: r'
                    | [] :: _ => False
                    | [] => r = []
                    end.
Proof.
  induction r as [|x r IH]; [reflexivity|]. cbn [chop]. destruct (chop r) as [|[|y b] bs].
  - eauto.
  - destruct IH.
  - destruct (adj x y); eauto.
Qed.
Lemma chop_concat l : List.concat (chop l) = l.
Proof.
  induction l as [|x r IH]; [reflexivity|]. cbn [chop]. pose proof (chop_head r).
  destruct (chop r) as [|[|y b] bs]; [subst r; reflexivity|contradiction|].
  destruct (adj x y); cbn in *; rewrite IH; reflexivity.
Qed.
Lemma chop_nonempty l : Forall (fun b => b <> []) (chop l).
Proof.
  induction l as [|x r IH]; [constructor|]. cbn [chop]. pose proof (chop_head r).
  destruct (chop r) as [|[|y b] bs]; [constructor; [discriminate|constructor]|contradiction|].
  inversion IH; subst. destruct (adj x y); repeat constructor; try discriminate; assumption.
Qed.
Lemma chop_inside l : Forall (chained (fun a b => adj a b = true)) (chop l).
Proof.
  induction l as [|x r IH]; [constructor|]. cbn [chop]. pose proof (chop_head r).
  destruct (chop r) as [|[|y b] bs]; [constructor; [exact I|constructor]|contradiction|].
  inversion IH; subst. destruct (adj x y) eqn:E; constructor.
  - split; assumption.
  - assumption.
  - exact I.
  - constructor; assumption.
Qed.
Lemma chop_across l :
  chained (fun g h => forall g' a b h', g = g' ++ [a] -> h = b :: h' -> adj a b = false) (chop l).
Proof.
  induction l as [|x r IH]; [exact I|]. cbn [chop]. pose proof (chop_head r).
  destruct (chop r) as [|[|y b] bs]; [exact I|contradiction|].
  destruct (adj x y) eqn:E.
  - destruct bs as [|h bs]; [exact I|]. destruct IH as [I1 I2]. split; [|exact I2].
    intros g' a b' h' Eg Eh. destruct g' as [|x' g'].
    + discriminate Eg.
    + injection Eg as -> Eg. eapply I1; eauto.
  - split; [|exact IH]. intros g' a b' h' Eg Eh. destruct g' as [|x' [|]]; try discriminate Eg.
    + injection Eg as <-. injection Eh as <- <-. exact E.
Qed.
End Chop.

Lemma chop_map {A B} (f : A -> B) adj adj' l : (forall a b, adj a b = adj' (f a) (f b)) ->
  map (map f) (chop adj l) = chop adj' (map f l).
Proof.
  intros H. induction l as [|x r IH]; [reflexivity|]. cbn [map chop]. rewrite <- IH. clear IH.
  destruct (chop adj r) as [|[|y b] bs]; try reflexivity. cbn [map]. rewrite <- H.
  destruct (adj x y); reflexivity.
Qed.

(** * groupby on increasing keys *)
Lemma insert_key_head k ks : match ks with [] => True | j :: _ => k < j end -> insert_key k ks = k :: ks.
Proof. destruct ks as [|j r]; [reflexivity|]. intros H. cbn. destruct (Z.ltb_spec k j); [reflexivity|lia]. Qed.
Lemma group_keys_in ks k : In k (group_keys ks) <-> In k ks.
Proof.
  assert (I : forall a l, In k (insert_key a l) <-> k = a \/ In k l).
  { intros a l. induction l as [|j r IH]; cbn; [intuition|].
    destruct (a <? j); [cbn; intuition|]. destruct (Z.eqb_spec a j); cbn; [subst; intuition|rewrite IH; intuition]. }
  unfold group_keys. induction ks as [|a r IH]; cbn; [tauto|]. rewrite I, IH. intuition.
Qed.

(** The keys of consecutive elements: equal when [adj], increasing otherwise. *)
Definition keyed {A} (adj : A -> A -> bool) (key : A -> Z) : list A -> Prop :=
  chained (fun a b => if adj a b then key a = key b else key a < key b).
Lemma keyed_le {A} adj (key : A -> Z) x l : keyed adj key (x :: l) -> Forall (fun y => key x <= key y) l.
Proof.
  revert x. induction l as [|y r IH]; intros x H; [constructor|]. destruct H as [H1 H2].
  assert (key x <= key y) by (destruct (adj x y); lia). constructor; [assumption|].
  eapply Forall_impl; [|apply (IH y H2)]. cbn. lia.
Qed.
Lemma keyed_tail {A} adj (key : A -> Z) x l : keyed adj key (x :: l) -> keyed adj key l.
Proof. destruct l; [constructor|]. intros [_ H]. exact H. Qed.
Lemma filter_none {A} (f : A -> bool) l : Forall (fun x => f x = false) l -> filter f l = [].
Proof. induction 1; cbn; [reflexivity|]. rewrite H. assumption. Qed.
Lemma group_keys_head x l : Forall (fun y => x <= y) l ->
  group_keys (x :: l) = match group_keys l with
                        | [] => [x]
                        | j :: r => if x =? j then j :: r else x :: j :: r
                        end.
Proof.
  intros H. cbn [group_keys fold_right]. fold (group_keys l).
  destruct (group_keys l) as [|j r] eqn:E; [reflexivity|].
  assert (In j l) by (apply group_keys_in; rewrite E; left; reflexivity).
  rewrite Forall_forall in H. specialize (H j H0). cbn.
  destruct (Z.ltb_spec x j); destruct (Z.eqb_spec x j); try lia; reflexivity.
Qed.
Lemma group_keys_first l x : Forall (fun y => x <= y) l -> exists r, group_keys (x :: l) = x :: r /\ Forall (fun y => x < y) r
  /\ forall k, In k r <-> (In k l /\ k <> x).
Proof.
  destruct l as [|y l].
  - intros _. exists []. split; [reflexivity|]. split; [constructor|]. cbn. tauto.
  - intros H. inversion H as [|? ? Hy Hl]; subst.
    (* general fact: group_keys is strictly sorted *)
    assert (S : forall ks, StronglySorted Z.lt (group_keys ks)).
    { clear. assert (I : forall a l, StronglySorted Z.lt l -> StronglySorted Z.lt (insert_key a l)).
      { intros a l. induction l as [|j r IH]; cbn; intros S; [repeat constructor|].
        inversion S as [|? ? S1 S2]; subst. destruct (Z.ltb_spec a j).
        - constructor; [assumption|]. constructor; [lia|]. eapply Forall_impl; [|exact S2]. cbn. lia.
        - destruct (Z.eqb_spec a j); [assumption|]. constructor; [auto|].
          rewrite Forall_forall in *. intros z Hz.
          assert (Hz' : z = a \/ In z r).
          { clear -Hz. induction r as [|b r IH]; cbn in *; [intuition|].
            destruct (a <? b); [cbn in Hz; intuition|]. destruct (a =? b); [cbn in Hz; intuition|].
            cbn in Hz. destruct Hz as [|Hz]; [intuition|]. apply IH in Hz. intuition. }
          destruct Hz' as [->|]; [lia|auto]. }
      induction ks; cbn; [constructor|]. apply I. assumption. }
    pose proof (S (x :: y :: l)) as Sx.
    pose proof (group_keys_in (x :: y :: l)) as G.
    destruct (group_keys (x :: y :: l)) as [|j r] eqn:E.
    { exfalso. apply (G x). left. reflexivity. }
    inversion Sx as [|? ? S1 S2]; subst. rewrite Forall_forall in S2.
    assert (j = x).
    { assert (Hj : In j (x :: y :: l)) by (apply G; left; reflexivity).
      assert (Hx : In x (j :: r)) by (apply G; left; reflexivity).
      assert (x <= j). { destruct Hj as [->|Hj]; [lia|]. rewrite Forall_forall in H. apply H, Hj. }
      destruct Hx as [->|Hx]; [reflexivity|]. apply S2 in Hx. lia. }
    subst j. exists r. split; [reflexivity|]. split; [apply Forall_forall; exact S2|].
    intros k. specialize (G k). cbn in G |- *. split.
    + intros Hk. pose proof (S2 k Hk). split; [|lia]. destruct (proj1 G (or_intror Hk)) as [->|Q]; [lia|exact Q].
    + intros [Hk Hne]. destruct (proj2 G) as [->|Q]; [auto|congruence|exact Q].
Qed.

Lemma groupby_keyed {A} adj (key : A -> Z) l : keyed adj key l -> groupby key l = chop adj l.
Proof.
  unfold groupby. induction l as [|x r IH]; intros H; [reflexivity|].
  pose proof (keyed_le _ _ _ _ H) as Hle. specialize (IH (keyed_tail _ _ _ _ H)).
  cbn [map chop]. rewrite group_keys_head by (apply Forall_map; exact Hle).
  destruct r as [|y r'].
  - cbn. rewrite Z.eqb_refl. reflexivity.
  - destruct H as [Hxy Ht]. pose proof (keyed_le _ _ _ _ Ht) as Hle'.
    destruct (group_keys_first (map key r') (key y)) as (ks & Ek & Hks & _); [apply Forall_map; exact Hle'|].
    cbn [map] in *. rewrite Ek in *. cbn [map] in IH.
    pose proof (chop_head adj (y :: r')) as Hh.
    destruct (chop adj (y :: r')) as [|[|z b] bs]; [discriminate|contradiction|].
    destruct Hh as (r'' & Ez). injection Ez as -> ->. 
    cbn [filter] in IH. rewrite Z.eqb_refl in IH. injection IH as Eb Ebs.
    assert (Hk : forall k, In k ks -> key z < k) by (apply Forall_forall; exact Hks).
    destruct (adj x z).
    + (* same key *)
      rewrite Hxy, Z.eqb_refl. cbn [map filter]. rewrite Hxy, !Z.eqb_refl, Eb. f_equal.
      rewrite <- Ebs. apply map_ext_in. intros k Hin. specialize (Hk k Hin).
      cbn [filter]. destruct (Z.eqb_spec (key z) k); [lia|reflexivity].
    + destruct (Z.eqb_spec (key x) (key z)); [lia|]. cbn [map filter]. rewrite Z.eqb_refl.
      destruct (Z.eqb_spec (key z) (key x)); [lia|].
      rewrite filter_none.
      2:{ eapply Forall_impl; [|exact Hle']. cbn. intros a Ha. apply Z.eqb_neq. lia. }
      destruct (Z.eqb_spec (key x) (key z)); [lia|]. rewrite Z.eqb_refl, Eb. f_equal. f_equal.
      rewrite <- Ebs. apply map_ext_in. intros k Hin. specialize (Hk k Hin). cbn [filter].
      destruct (Z.eqb_spec (key x) k); [lia|reflexivity].
Qed.

(** * Samples at or above threshold *)
Lemma chained_app {A} (R : A -> A -> Prop) l1 x y l2 : chained R (l1 ++ x :: y :: l2) -> R x y.
Proof.
  induction l1 as [|a l1 IH]; cbn [app]; [intros [H _]; exact H|].
  intros H. apply IH. destruct l1; cbn [app chained] in *; destruct H; assumption.
Qed.
Lemma rd_cons_pos {A} (x : A) l i : 0 < i -> rd (x :: l) i = rd l (i - 1).
Proof. intros H. rewrite rd_cons. destruct (Z.eqb_spec i 0); [lia|reflexivity]. Qed.

Definition ix {A} (lo : Z) (l : list A) : list (Z * A) := combine (zseq lo (List.length l)) l.
Lemma ix_cons {A} lo (x : A) l : ix lo (x :: l) = (lo, x) :: ix (lo + 1) l.
Proof. reflexivity. Qed.
Lemma indexed_ix {A} (l : list A) : indexed l = ix 0 l.
Proof. unfold indexed, ix, zrange. rewrite Nat2Z.id. reflexivity. Qed.

Definition increasing {A} : list (Z * A) -> Prop := StronglySorted (fun a b => fst a < fst b).
Lemma increasing_filter {A} (f : Z * A -> bool) l : increasing l -> increasing (filter f l).
Proof.
  induction 1 as [|x l H IH Hx]; cbn; [constructor|]. destruct (f x); [|assumption].
  constructor; [assumption|]. rewrite Forall_forall in *. intros y Hy. apply filter_In in Hy. apply Hx, Hy.
Qed.

Section Above.
Variables (p : params).
Definition reaches (x : (Z * scanrow) * Q) : bool := Qle_bool (snd x) (trigger_on p (snd (fst x))).
Definition aboves (lo : Z) (data : list scanrow) (th : list Q) : list (Z * scanrow) :=
  map fst (filter reaches (combine (ix lo data) th)).
Lemma aboves_in lo data : forall th i r, In (i, r) (aboves lo data th) <->
  lo <= i /\ rd data (i - lo) = Some r /\ exists x, rd th (i - lo) = Some x /\ (x <= trigger_on p r)%Q.
Proof.
  revert lo. induction data as [|d data IH]; intros lo th i r.
  - cbn. rewrite rd_nil. intuition discriminate.
  - destruct th as [|x th].
    + cbn. split; [tauto|]. intros (_ & _ & x & E & _). rewrite rd_nil in E. discriminate.
    + unfold aboves. rewrite ix_cons. cbn [combine filter].
      assert (G : In (i, r) (aboves (lo + 1) data th) <-> lo < i /\ rd (d :: data) (i - lo) = Some r
                  /\ exists x0, rd (x :: th) (i - lo) = Some x0 /\ (x0 <= trigger_on p r)%Q).
      { rewrite IH. split.
        - intros (Hl & Hr & Hx). split; [lia|]. rewrite !rd_cons_pos by lia.
          replace (i - lo - 1) with (i - (lo + 1)) by lia. auto.
        - intros (Hl & Hr & Hx). split; [lia|]. rewrite !rd_cons_pos in * by lia.
          replace (i - lo - 1) with (i - (lo + 1)) in * by lia. auto. }
      destruct (reaches (lo, d, x)) eqn:E; cbn [map fst].
      * cbn [In]. fold (aboves (lo + 1) data th). rewrite G. unfold reaches in E. cbn [snd fst] in E. apply Qle_bool_iff in E.
        split.
        -- intros [Q|Q]; [|intuition lia]. injection Q as <- <-. rewrite Z.sub_diag, !rd_0.
           split; [lia|]. split; [reflexivity|]. eauto.
        -- intros (Hl & Hr & Hx). destruct (Z.eq_dec i lo) as [->|]; [|right; intuition lia].
           rewrite Z.sub_diag, rd_0 in Hr. injection Hr as ->. left. reflexivity.
      * fold (aboves (lo + 1) data th). rewrite G. split; [intuition lia|].
        intros (Hl & Hr & y & Hy & Hle). destruct (Z.eq_dec i lo) as [->|]; [|intuition (lia || eauto)].
        rewrite Z.sub_diag, rd_0 in Hr, Hy. injection Hr as ->. injection Hy as ->.
        unfold reaches in E. cbn [snd fst] in E. apply Qle_bool_iff in Hle. congruence.
Qed.
Lemma aboves_increasing data : forall lo th, increasing (aboves lo data th).
Proof.
  induction data as [|d data IH]; intros lo th; [constructor|]. destruct th as [|x th]; [constructor|].
  unfold aboves. rewrite ix_cons. cbn [combine filter]. destruct (reaches (lo, d, x)); [|apply IH].
  cbn [map fst]. constructor; [apply IH|]. apply Forall_forall. intros [i r] Hi.
  apply aboves_in in Hi. cbn. lia.
Qed.
Lemma above_aboves data th : above p data th = aboves 0 data th.
Proof. unfold above, aboves. rewrite indexed_ix. reflexivity. Qed.
Lemma above_in data th i r : In (i, r) (above p data th) <->
  rd data i = Some r /\ exists x, rd th i = Some x /\ (x <= trigger_on p r)%Q.
Proof.
  rewrite above_aboves, aboves_in, Z.sub_0_r. split; [tauto|]. intros [H1 H2].
  pose proof (rd_bounds _ _ _ _ H1). tauto.
Qed.
Lemma hit_above data th i : hit p data th i <-> exists r, In (i, r) (above p data th).
Proof.
  unfold hit. split.
  - intros (r & x & Hr & Hx & Hle). exists r. apply above_in. eauto.
  - intros (r & H). apply above_in in H as (Hr & x & Hx & Hle). exists r, x. auto.
Qed.
End Above.

Definition next_ix {A} (a b : Z * A) : bool := fst b =? fst a + 1.
Lemma ix_keyed {A} (l : list (Z * A)) : increasing l -> forall k,
  keyed (fun a b => next_ix (snd a) (snd b)) (fun x => fst (snd x) - fst x) (ix k l).
Proof.
  induction 1 as [|x l H IH Hx]; intros k; [exact I|]. rewrite ix_cons. destruct l as [|y l]; [exact I|].
  specialize (IH (k + 1)). rewrite ix_cons in *. split; [|exact IH].
  inversion Hx; subst. unfold next_ix. cbn [fst snd].
  destruct (Z.eqb_spec (fst y) (fst x + 1)); lia.
Qed.
Lemma map_snd_ix {A} (l : list A) : forall k, map snd (ix k l) = l.
Proof. induction l as [|x l IH]; intros k; [reflexivity|]. rewrite ix_cons. cbn. rewrite IH. reflexivity. Qed.

Lemma candidate_rows_chop p data th :
  candidate_rows p data th = map (map snd) (chop next_ix (above p data th)).
Proof.
  unfold candidate_rows. rewrite indexed_ix.
  rewrite (groupby_keyed (fun a b => next_ix (snd a) (snd b))).
  2:{ apply ix_keyed. rewrite above_aboves. apply aboves_increasing. }
  rewrite (map_ext (map (fun x : Z * (Z * scanrow) => snd (snd x))) (fun l : list (Z * (Z * scanrow)) => map snd (map snd l)))
    by (intros l; symmetry; apply map_map).
  rewrite <- (map_map (map snd) (map snd)).
  rewrite (chop_map snd _ next_ix) by reflexivity. rewrite map_snd_ix. reflexivity.
Qed.

(** A block of consecutive samples. *)
Lemma block_indices {A} (b : list (Z * A)) : chained (fun x y => next_ix x y = true) b ->
  forall lo, match b with [] => True | x :: _ => fst x = lo end ->
  map fst b = zseq lo (List.length b).
Proof.
  induction b as [|x b IH]; intros H lo Hlo; [reflexivity|]. cbn [map List.length zseq]. subst lo. f_equal.
  destruct b as [|y b]; [reflexivity|]. destruct H as [H1 H2]. apply IH; [exact H2|].
  unfold next_ix in H1. apply Z.eqb_eq in H1. exact H1.
Qed.
Lemma increasing_app {A} (l1 l2 : list (Z * A)) : increasing (l1 ++ l2) ->
  increasing l1 /\ increasing l2 /\ forall a b, In a l1 -> In b l2 -> fst a < fst b.
Proof.
  induction l1 as [|x l1 IH]; cbn; intros H.
  - split; [constructor|]. split; [exact H|]. contradiction.
  - inversion H as [|? ? H1 H2]; subst. destruct (IH H1) as (I1 & I2 & I3). rewrite Forall_forall in H2.
    split; [constructor; [exact I1|apply Forall_forall; intros y Hy; apply H2, in_or_app; auto]|].
    split; [exact I2|]. intros a b [<-|Ha] Hb; [apply H2, in_or_app; auto|auto].
Qed.

Definition lo_of {A} (b : list (Z * A)) : Z := match b with [] => 0 | x :: _ => fst x end.
Definition hi_of {A} (b : list (Z * A)) : Z := lo_of b + Z.of_nat (List.length b) - 1.
Lemma block_in {A} (b : list (Z * A)) : chained (fun x y => next_ix x y = true) b ->
  forall i, (exists r, In (i, r) b) <-> lo_of b <= i <= hi_of b.
Proof.
  intros H i. pose proof (block_indices b H (lo_of b)) as E.
  assert (E' : map fst b = zseq (lo_of b) (List.length b)) by (apply E; destruct b; [exact I|reflexivity]).
  unfold hi_of. transitivity (In i (map fst b)).
  - rewrite in_map_iff. split; [intros (r & Hr); exists (i, r); auto|].
    intros ((i', r) & <- & Hr). exists r. exact Hr.
  - rewrite E', in_zseq. lia.
Qed.
Lemma last_in_app {A} (l : list A) : l <> [] -> exists l' a, l = l' ++ [a].
Proof. intros H. destruct (exists_last H) as (l' & a & E). eauto. Qed.

Lemma block_maximal {A} (bs1 bs2 : list (list (Z * A))) b L :
  increasing L -> chop next_ix L = bs1 ++ b :: bs2 ->
  b <> [] /\ (forall i, lo_of b <= i <= hi_of b -> exists r, In (i, r) L)
  /\ (~ exists r, In (lo_of b - 1, r) L) /\ (~ exists r, In (hi_of b + 1, r) L)
  /\ (forall x y, In x (List.concat bs1) -> In y b -> fst x + 1 < fst y).
Proof.
  intros HL E. pose proof (chop_concat next_ix L) as C. pose proof (chop_nonempty next_ix L) as N.
  pose proof (chop_inside next_ix L) as I. pose proof (chop_across next_ix L) as X. rewrite E in C, N, I, X.
  rewrite concat_app in C. cbn [List.concat] in C.
  assert (Nb : b <> []) by (rewrite Forall_forall in N; apply N, in_or_app; right; left; reflexivity).
  assert (Ib : chained (fun x y => next_ix x y = true) b)
    by (rewrite Forall_forall in I; apply I, in_or_app; right; left; reflexivity).
  pose proof (block_in b Ib) as B. rewrite <- C in HL.
  destruct (increasing_app _ _ HL) as (_ & HL2 & H12). destruct (increasing_app _ _ HL2) as (_ & _ & H23).
  assert (Lb : 1 <= Z.of_nat (List.length b)) by (destruct b; [congruence|cbn; lia]).
  assert (Before : forall x, In x (List.concat bs1) -> fst x + 1 < lo_of b).
  { intros x Hx. destruct bs1 as [|g0 bs1'] using rev_ind; [contradiction|]. clear IHbs1'.
    rename g0 into g. assert (Ng : g <> []).
    { rewrite Forall_forall in N. apply N. apply in_or_app. left. apply in_or_app. right. left. reflexivity. }
    destruct (last_in_app g Ng) as (g' & a & ->).
    rewrite <- app_assoc in X. apply chained_app in X.
    destruct b as [|y b']; [congruence|]. specialize (X g' a y b' eq_refl eq_refl).
    rewrite concat_app in Hx, HL, H12. cbn [List.concat] in Hx, HL, H12. rewrite app_nil_r in Hx, HL, H12.
    assert (Ha : fst a < fst y) by (apply H12; [apply in_or_app; right; apply in_or_app; right; left; reflexivity|left; reflexivity]).
    assert (Hxa : fst x <= fst a).
    { assert (HL' : increasing ((List.concat bs1' ++ g') ++ ([a] ++ (y :: b') ++ List.concat bs2)))
        by (rewrite <- app_assoc; rewrite <- app_assoc, <- (app_assoc g') in HL; exact HL).
      rewrite app_assoc in Hx. apply in_app_or in Hx as [Hx|[<-|[]]]; [|lia].
      destruct (increasing_app _ _ HL') as (_ & _ & H3). apply Z.lt_le_incl. apply H3; [exact Hx|left; reflexivity]. }
    cbn [lo_of]. unfold next_ix in X. apply Z.eqb_neq in X. lia. }
  assert (After : forall x, In x (List.concat bs2) -> hi_of b + 1 < fst x).
  { intros x Hx. destruct bs2 as [|g bs2']; [contradiction|].
    assert (Ng : g <> []).
    { rewrite Forall_forall in N. apply N. apply in_or_app. right. right. left. reflexivity. }
    destruct (last_in_app b Nb) as (b' & a & ->). destruct g as [|y g']; [congruence|].
    apply chained_app in X. specialize (X b' a y g' eq_refl eq_refl).
    assert (Ea : fst a = hi_of (b' ++ [a])).
    { pose proof (block_indices _ Ib (lo_of (b' ++ [a]))) as E1.
      assert (E2 : map fst (b' ++ [a]) = zseq (lo_of (b' ++ [a])) (List.length (b' ++ [a]))) by (apply E1; destruct b'; [reflexivity|reflexivity]).
      rewrite map_app, app_length, zseq_app in E2. cbn [List.length zseq map] in E2.
      apply app_inj_tail in E2 as [_ E2]. unfold hi_of. rewrite app_length. cbn [List.length]. lia. }
    assert (Hay : fst a < fst y) by (apply H23; [apply in_or_app; right; left; reflexivity|left; reflexivity]).
    assert (Hyx : fst y <= fst x).
    { cbn [List.concat] in Hx, HL2. destruct Hx as [<-|Hx]; [lia|].
      destruct (increasing_app _ _ HL2) as (_ & H3 & _). inversion H3 as [|? ? _ H4]; subst.
      rewrite Forall_forall in H4. apply Z.lt_le_incl. apply H4, Hx. }
    unfold next_ix in X. apply Z.eqb_neq in X. lia. }
  split; [exact Nb|]. split; [|split; [|split]].
  - intros i Hi. apply B in Hi as (r & Hr). exists r. rewrite <- C. apply in_or_app. right. apply in_or_app. auto.
  - intros (r & Hr). rewrite <- C in Hr. apply in_app_or in Hr as [Hr|Hr].
    + apply Before in Hr. cbn in Hr. lia.
    + apply in_app_or in Hr as [Hr|Hr].
      * assert (lo_of b <= lo_of b - 1 <= hi_of b) by (apply B; eauto). lia.
      * apply After in Hr. cbn in Hr. unfold hi_of in Hr. lia.
  - intros (r & Hr). rewrite <- C in Hr. apply in_app_or in Hr as [Hr|Hr].
    + apply Before in Hr. cbn in Hr. unfold hi_of in Hr. lia.
    + apply in_app_or in Hr as [Hr|Hr].
      * assert (lo_of b <= hi_of b + 1 <= hi_of b) by (apply B; eauto). lia.
      * apply After in Hr. cbn in Hr. lia.
  - intros x [i r] Hx Hy. apply Before in Hx. assert (lo_of b <= i <= hi_of b) by (apply B; eauto). cbn. lia.
Qed.

(** * Candidates *)
Lemma qlt_bool_true a b : qlt_bool a b = true -> (a < b)%Q.
Proof. unfold qlt_bool. intros H. apply negb_true_iff in H. apply Qnot_le_lt. intros L. apply Qle_bool_iff in L. congruence. Qed.
Lemma qlt_bool_false a b : qlt_bool a b = false -> (b <= a)%Q.
Proof. unfold qlt_bool. intros H. apply negb_false_iff in H. apply Qle_bool_iff. exact H. Qed.

Lemma best_from_split {A} (v : A -> Q) l : forall x, exists l1 l2,
  x :: l = l1 ++ best_from v x l :: l2 /\ Forall (fun y => v y < v (best_from v x l))%Q l1
  /\ Forall (fun y => v y <= v (best_from v x l))%Q l2.
Proof.
  induction l as [|y l IH]; intros x.
  - exists [], []. cbn. auto.
  - cbn [best_from]. destruct (qlt_bool (v x) (v y)) eqn:E.
    + destruct (IH y) as (l1 & l2 & El & H1 & H2). set (m := best_from v y l) in *. clearbody m.
      exists (x :: l1), l2. cbn [app]. rewrite <- El.
      split; [reflexivity|]. split; [|exact H2]. constructor; [|exact H1].
      apply qlt_bool_true in E. apply Qlt_le_trans with (v y); [exact E|].
      destruct l1 as [|z l1]; injection El as -> El; [apply Qle_refl|]. inversion H1; subst. apply Qlt_le_weak; assumption.
    + destruct (IH x) as (l1 & l2 & El & H1 & H2). set (m := best_from v x l) in *. clearbody m.
      apply qlt_bool_false in E.
      destruct l1 as [|z l1].
      * injection El as -> ->. exists [], (y :: l2). cbn [app].
        split; [reflexivity|]. split; [constructor|]. constructor; assumption.
      * injection El as <- El. exists (x :: y :: l1), l2. cbn [app]. rewrite <- El.
        inversion H1; subst. split; [reflexivity|]. split; [|exact H2].
        constructor; [assumption|]. constructor; [|assumption]. eapply Qle_lt_trans; eassumption.
Qed.

Lemma map_some_all {A B} (f : A -> option B) l : Forall (fun x => exists y, f x = Some y) l ->
  exists ys, map_some f l = Some ys /\ Forall2 (fun x y => f x = Some y) l ys.
Proof.
  induction 1 as [|x l [y E] H (ys & E' & F)]; cbn; [exists []; auto|].
  rewrite E, E'. exists (y :: ys). auto.
Qed.
Lemma map_some_Forall2 {A B} (f : A -> option B) l : forall ys, map_some f l = Some ys ->
  Forall2 (fun x y => f x = Some y) l ys.
Proof.
  induction l as [|x l IH]; cbn; intros ys E; [injection E as <-; constructor|].
  destruct (f x) eqn:Ex; [|discriminate]. destruct (map_some f l) eqn:El; [|discriminate].
  injection E as <-. constructor; auto.
Qed.

Lemma block_rd {A} (data : list A) b : chained (fun x y => next_ix x y = true) b ->
  Forall (fun x => rd data (fst x) = Some (snd x)) b ->
  forall j, 0 <= j < Z.of_nat (List.length b) -> rd (map snd b) j = rd data (lo_of b + j).
Proof.
  induction b as [|x b IH]; intros C F j Hj; [cbn in Hj; lia|].
  inversion F as [|? ? Fx Fb]; subst. cbn [map lo_of]. destruct (Z.eq_dec j 0) as [->|Hj0].
  - rewrite rd_0, Z.add_0_r. symmetry. exact Fx.
  - rewrite rd_cons_pos by lia. cbn [List.length] in Hj. destruct b as [|y b]; [cbn in Hj; lia|].
    destruct C as [C1 C2]. rewrite (IH C2 Fb) by (cbn [List.length] in *; lia). cbn [lo_of].
    unfold next_ix in C1. apply Z.eqb_eq in C1. f_equal. lia.
Qed.

Lemma rd_app_mid {A} (l1 : list A) x l2 : rd (l1 ++ x :: l2) (Z.of_nat (List.length l1)) = Some x.
Proof. rewrite rd_app2 by lia. rewrite Z.sub_diag. apply rd_0. Qed.
Lemma rd_last {A} (l : list A) x : rd (x :: l) (Z.of_nat (List.length l)) = Some (last l x).
Proof.
  revert x. induction l as [|y l IH]; intros x; [reflexivity|]. cbn [List.length].
  rewrite rd_cons_pos by lia. replace (Z.of_nat (S (List.length l)) - 1) with (Z.of_nat (List.length l)) by lia.
  rewrite IH. f_equal. destruct l as [|z l]; [reflexivity|]. cbn [last]. clear. revert z.
  induction l; intros z; [reflexivity|]. cbn [last] in *. apply IHl.
Qed.

Lemma candidate_of_block p data i b : chained (fun x y => next_ix x y = true) b ->
  Forall (fun x => rd data (fst x) = Some (snd x)) b -> b <> [] ->
  exists e, make_candidate p i (map snd b) = Some e /\ candidate_of_run p data (lo_of b, hi_of b) e.
Proof.
  intros C F N. pose proof (block_rd data b C F) as R.
  destruct b as [|x b]; [congruence|]. cbn [map] in *. set (r0 := snd x) in *. set (rs := map snd b) in *.
  assert (Lr : List.length rs = List.length b) by apply map_length.
  eexists. split; [reflexivity|].
  destruct (best_from_split COA rs r0) as (l1 & l2 & El & H1 & H2).
  set (pk := best_from COA r0 rs) in *. set (lo := lo_of (x :: b)) in *.
  assert (Ll : (List.length l1 + S (List.length l2))%nat = S (List.length b)).
  { rewrite <- Lr. change (S (List.length rs)) with (List.length (r0 :: rs)). rewrite El, app_length. reflexivity. }
  exists (lo + Z.of_nat (List.length l1)), pk, r0, (last rs r0).
  assert (Hhi : hi_of (x :: b) = lo + Z.of_nat (List.length b)) by (unfold hi_of; fold lo; cbn [List.length]; lia).
  cbn [fst snd List.length] in *. rewrite Hhi.
  assert (Rk : rd data (lo + Z.of_nat (List.length l1)) = Some pk).
  { rewrite <- R by lia. rewrite El. apply rd_app_mid. }
  split; [|split; [|split]].
  - split; [lia|]. split; [exact Rk|]. intros j y Hj. split; intros Hb.
    + assert (Hy : rd l1 (j - lo) = Some y).
      { rewrite <- Hj. replace j with (lo + (j - lo)) at 2 by lia. rewrite <- R by lia. rewrite El.
        symmetry. apply rd_app1. lia. }
      rewrite Forall_forall in H1. apply H1. eapply rd_in; eassumption.
    + destruct (Z.eq_dec j (lo + Z.of_nat (List.length l1))) as [->|Hne].
      * rewrite Rk in Hj. injection Hj as <-. apply Qle_refl.
      * assert (Hy : rd l2 (j - lo - Z.of_nat (List.length l1) - 1) = Some y).
        { rewrite <- Hj. replace j with (lo + (j - lo)) at 2 by lia. rewrite <- R by lia. rewrite El.
          rewrite rd_app2 by lia. rewrite rd_cons_pos by lia. reflexivity. }
        rewrite Forall_forall in H2. apply H2. eapply rd_in; eassumption.
  - replace lo with (lo + 0) at 1 by lia. rewrite <- R by lia. apply rd_0.
  - rewrite <- R by lia. rewrite <- Lr. apply rd_last.
  - cbn [CoaTime CCOA COA_NORM TRIG_COA COA_X COA_Y COA_Z MinTime MaxTime].
    repeat (split; [reflexivity|]). split.
    + destruct (Z.ltb_spec (DT pk - DT r0) (marginal_window p)); lia.
    + destruct (Z.ltb_spec (DT (last rs r0) - DT pk) (marginal_window p)); lia.
Qed.

Lemma pairwise_split {A} (R : A -> A -> Prop) l :
  (forall l1 a l2 b l3, l = l1 ++ a :: l2 ++ b :: l3 -> R a b) -> pairwise_ R l.
Proof.
  induction l as [|x l IH]; intros H; [exact I|]. split.
  - apply Forall_forall. intros y Hy. apply in_split in Hy as (l2 & l3 & ->). apply (H [] x l2 y l3). reflexivity.
  - apply IH. intros l1 a l2 b l3 E. apply (H (x :: l1) a l2 b l3). rewrite E. reflexivity.
Qed.
Lemma pairwise_in {A} (R : A -> A -> Prop) l1 a l2 b l3 : pairwise_ R (l1 ++ a :: l2 ++ b :: l3) -> R a b.
Proof.
  induction l1 as [|x l1 IH]; cbn; intros [H1 H2]; [|auto].
  rewrite Forall_forall in H1. apply H1, in_or_app. right. left. reflexivity.
Qed.
Lemma in_concat_of {A} (l : list (list A)) b x : In b l -> In x b -> In x (List.concat l).
Proof. intros Hb Hx. apply in_concat. eauto. Qed.

(** The runs found by the code, in order. *)
Definition runs_of (p : params) (data : list scanrow) (th : list Q) : list (Z * Z) :=
  map (fun b => (lo_of b, hi_of b)) (chop next_ix (above p data th)).

Lemma runs_maximal p data th lo hi : In (lo, hi) (runs_of p data th) <-> maximal_run p data th lo hi.
Proof.
  pose proof (aboves_increasing p data 0 th) as HL. rewrite <- above_aboves in HL.
  assert (D : forall lo hi, In (lo, hi) (runs_of p data th) -> maximal_run p data th lo hi).
  { intros lo' hi' H. apply in_map_iff in H as (b & E & Hb). injection E as <- <-.
    apply in_split in Hb as (bs1 & bs2 & E). destruct (block_maximal _ _ _ _ HL E) as (N & M1 & M2 & M3 & _).
    split; [|split; [|split]].
    - unfold hi_of. destruct b; [congruence|]. cbn [List.length]. lia.
    - intros i Hi. apply hit_above, M1, Hi.
    - intros Hh. apply M2, hit_above, Hh.
    - intros Hh. apply M3, hit_above, Hh. }
  split; [apply D|]. intros (Hle & Hin & Hlo & Hhi).
  destruct (proj1 (hit_above p data th lo) (Hin lo ltac:(lia))) as (r & Hr).
  rewrite <- (chop_concat next_ix) in Hr. apply in_concat in Hr as (b & Hb & Hrb).
  assert (Hr' : In (lo_of b, hi_of b) (runs_of p data th)) by (apply in_map_iff; exists b; auto).
  destruct (D _ _ Hr') as (Hle' & Hin' & Hlo' & Hhi').
  assert (Ib : chained (fun x y => next_ix x y = true) b)
    by (pose proof (chop_inside next_ix (above p data th)) as I; rewrite Forall_forall in I; apply I, Hb).
  assert (Hlob : lo_of b <= lo <= hi_of b) by (apply (block_in b Ib); eauto).
  assert (lo = lo_of b).
  { destruct (Z.eq_dec lo (lo_of b)); [assumption|]. exfalso. apply Hlo, Hin'. lia. }
  assert (hi = hi_of b).
  { destruct (Z.lt_trichotomy hi (hi_of b)) as [L|[L|L]]; [|exact L|].
    - exfalso. apply Hhi, Hin'. lia.
    - exfalso. apply Hhi', Hin. lia. }
  subst lo hi. exact Hr'.
Qed.
Lemma runs_ordered p data th : pairwise_ (fun a b => snd a + 1 < fst b) (runs_of p data th).
Proof.
  pose proof (aboves_increasing p data 0 th) as HL. rewrite <- above_aboves in HL.
  apply pairwise_split. intros l1 a l2 b l3 E. unfold runs_of in E.
  apply map_eq_app in E as (k1 & k2 & Ek & E1 & E2).
  destruct k2 as [|ba k2]; [discriminate|]. injection E2 as Ea E2.
  apply map_eq_app in E2 as (k3 & k4 & -> & E3 & E4). destruct k4 as [|bb k4]; [discriminate|].
  injection E4 as Eb E4. subst a b. cbn [fst snd].
  assert (Ek' : chop next_ix (above p data th) = (k1 ++ ba :: k3) ++ bb :: k4)
    by (rewrite Ek, <- app_assoc; reflexivity).
  destruct (block_maximal _ _ _ _ HL Ek) as (Na & Ma & _).
  destruct (block_maximal _ _ _ _ HL Ek') as (Nb & Mb & _ & _ & Hlt).
  assert (Hin : forall b', In b' (chop next_ix (above p data th)) -> chained (fun x y => next_ix x y = true) b')
    by (apply Forall_forall, chop_inside).
  assert (Ia := Hin ba ltac:(rewrite Ek; apply in_or_app; right; left; reflexivity)).
  assert (Ib := Hin bb ltac:(rewrite Ek'; apply in_or_app; right; left; reflexivity)).
  assert (La : lo_of ba <= hi_of ba) by (unfold hi_of; destruct ba; [congruence|]; cbn [List.length]; lia).
  assert (Lb : lo_of bb <= hi_of bb) by (unfold hi_of; destruct bb; [congruence|]; cbn [List.length]; lia).
  destruct (proj2 (block_in ba Ia (hi_of ba)) ltac:(lia)) as (ra & Ha).
  destruct (proj2 (block_in bb Ib (lo_of bb)) ltac:(lia)) as (rb & Hb).
  apply (Hlt (hi_of ba, ra) (lo_of bb, rb)); [|exact Hb].
  rewrite concat_app. apply in_or_app. right. cbn [List.concat]. apply in_or_app. left. exact Ha.
Qed.


Lemma identify_ok p data th : List.length data = List.length th ->
  exists cands, identify_candidates p data th = Ret cands /\
    Forall2 (candidate_of_run p data) (runs_of p data th) cands.
Proof.
  intros Hlen. unfold identify_candidates. rewrite (proj2 (Nat.eqb_eq _ _) Hlen). cbn [negb].
  rewrite candidate_rows_chop, indexed_ix.
  assert (Hb : Forall (fun b => chained (fun x y => next_ix x y = true) b /\ b <> [] /\
                 Forall (fun x => rd data (fst x) = Some (snd x)) b) (chop next_ix (above p data th))).
  { apply Forall_forall. intros b Hb.
    pose proof (chop_inside next_ix (above p data th)) as I. rewrite Forall_forall in I.
    pose proof (chop_nonempty next_ix (above p data th)) as N. rewrite Forall_forall in N.
    split; [apply I, Hb|]. split; [apply N, Hb|]. apply Forall_forall. intros [i r] Hr.
    assert (In (i, r) (above p data th)) by (rewrite <- (chop_concat next_ix); apply in_concat; eauto).
    apply above_in in H. apply H. }
  unfold runs_of. revert Hb. generalize (chop next_ix (above p data th)). generalize 0.
  intros k bs Hb. 
  assert (G : exists cands, map_some (fun x => make_candidate p (fst x) (snd x)) (ix k (map (map snd) bs)) = Some cands
     /\ Forall2 (candidate_of_run p data) (map (fun b => (lo_of b, hi_of b)) bs) cands).
  { revert k. induction bs as [|b bs IH]; intros k; [exists []; split; [reflexivity|constructor]|].
    inversion Hb as [|? ? (C & N & F) Hbs]; subst. cbn [map]. rewrite ix_cons. cbn [map_some fst snd].
    destruct (candidate_of_block p data k b C F N) as (e & Ee & He). rewrite Ee.
    destruct (IH Hbs (k + 1)) as (cs & Ec & Hc). rewrite Ec. exists (e :: cs). auto. }
  destruct G as (cands & -> & F). exists cands. auto.
Qed.

(** * Merging candidates *)
Definition sim (a b : candidate) : Prop := b = with_num (EventNum b) a.
Definition nsep (p : params) (a b : candidate) : bool := negb (separate p a b).

Lemma number_sim p l : forall k, Forall2 sim l (number_events p k l).
Proof. induction l as [|e l IH]; intros k; cbn; constructor; [reflexivity|apply IH]. Qed.
Lemma nsep_sim p a a' b b' : sim a a' -> sim b b' -> nsep p a b = nsep p a' b'.
Proof. unfold sim. intros -> ->. reflexivity. Qed.
Lemma number_keyed p l : forall k, keyed (nsep p) EventNum (number_events p k l).
Proof.
  induction l as [|e l IH]; intros k; [exact I|]. cbn [number_events].
  destruct l as [|e2 l]; [exact I|]. specialize (IH (if separate p e e2 then k + 1 else k)).
  cbn [number_events] in *. split; [|exact IH].
  unfold nsep. change (separate p (with_num k e) (with_num (if separate p e e2 then k + 1 else k) e2))
    with (separate p e e2). cbn [EventNum with_num]. destruct (separate p e e2); cbn [negb]; lia.
Qed.
Lemma chop_Forall2 {A B} (S : A -> B -> Prop) adj adj' l l' :
  (forall a b a' b', S a a' -> S b b' -> adj a b = adj' a' b') ->
  Forall2 S l l' -> Forall2 (Forall2 S) (chop adj l) (chop adj' l').
Proof.
  intros H. induction 1 as [|x x' l l' Hx Hl IH]; [constructor|]. cbn [chop].
  inversion IH as [E1 E2|g g' gs gs' Hg Hgs E1 E2].
  - constructor; [|constructor]. constructor; [exact Hx|constructor].
  - inversion Hg as [F1 F2|y y' b b' Hy Hb F1 F2]; subst.
    + constructor; [constructor; [exact Hx|constructor]|]. constructor; assumption.
    + rewrite (H x y x' y' Hx Hy). destruct (adj' x' y'); constructor; try assumption; constructor; auto.
Qed.

Lemma separate_linked p a b : separate p a b = true <-> ~ linked p a b.
Proof. unfold separate, linked. rewrite andb_true_iff, !Z.ltb_lt. lia. Qed.
Lemma chained_impl {A} (R S : A -> A -> Prop) l : (forall a b, R a b -> S a b) -> chained R l -> chained S l.
Proof.
  intros H. induction l as [|x l IH]; [trivial|]. destruct l as [|y l]; [trivial|]. intros [H1 H2]. split; auto.
Qed.
Lemma chop_grouping p l : grouping p l (chop (nsep p) l).
Proof.
  split; [apply chop_concat|]. split; [apply chop_nonempty|]. split.
  - eapply Forall_impl; [|apply chop_inside]. intros g. apply chained_impl. intros a b H.
    unfold nsep in H. apply negb_true_iff in H. destruct (Z_le_gt_dec (CoaTime b - marginal_window p) (MaxTime a)); [left; assumption|].
    right. apply Z.le_ngt. intros L. rewrite <- not_true_iff_false in H. apply H.
    unfold separate. apply andb_true_iff. rewrite !Z.ltb_lt. lia.
  - eapply chained_impl; [|apply chop_across]. cbn beta. intros g h H g' a b h' Eg Eh. specialize (H g' a b h' Eg Eh).
    unfold nsep in H. apply negb_false_iff in H. apply separate_linked. exact H.
Qed.

Lemma fold_min_in (x : Z) l : In (fold_right Z.min x l) (x :: l) /\ Forall (fun y => fold_right Z.min x l <= y) (x :: l).
Proof.
  induction l as [|y l [I F]]; cbn [fold_right].
  - split; [left; reflexivity|]. constructor; [lia|constructor].
  - inversion F as [|? ? F1 F2]; subst. split.
    + destruct (Z.min_spec y (fold_right Z.min x l)) as [[_ ->]|[_ ->]]; [right; left; reflexivity|].
      destruct I as [I|I]; [left; exact I|right; right; exact I].
    + constructor; [lia|]. constructor; [lia|]. eapply Forall_impl; [|exact F2]. cbn. lia.
Qed.
Lemma fold_max_in (x : Z) l : In (fold_right Z.max x l) (x :: l) /\ Forall (fun y => y <= fold_right Z.max x l) (x :: l).
Proof.
  induction l as [|y l [I F]]; cbn [fold_right].
  - split; [left; reflexivity|]. constructor; [lia|constructor].
  - inversion F as [|? ? F1 F2]; subst. split.
    + destruct (Z.max_spec y (fold_right Z.max x l)) as [[_ ->]|[_ ->]]; [|right; left; reflexivity].
      destruct I as [I|I]; [left; exact I|right; right; exact I].
    + constructor; [lia|]. constructor; [lia|]. eapply Forall_impl; [|exact F2]. cbn. lia.
Qed.

Lemma merge_ok c g : g <> [] -> exists e, merge_candidates c g = Some e /\ event_of_group g (cand e)
  /\ EventID e = event_uid c (CoaTime (cand e)).
Proof.
  intros N. destruct g as [|e0 r]; [congruence|]. eexists. split; [reflexivity|]. cbn [cand EventID].
  split; [|reflexivity]. destruct (best_from_split TRIG_COA r e0) as (l1 & l2 & E & H1 & H2).
  exists l1, (best_from TRIG_COA e0 r), l2. split; [exact E|]. split; [exact H1|]. split; [exact H2|].
  cbn [with_window CoaTime TRIG_COA CCOA COA_NORM COA_X COA_Y COA_Z MinTime MaxTime].
  repeat (split; [reflexivity|]).
  destruct (fold_min_in (MinTime e0) (map MinTime r)) as [I F].
  destruct (fold_max_in (MaxTime e0) (map MaxTime r)) as [I' F'].
  change (MinTime e0 :: map MinTime r) with (map MinTime (e0 :: r)) in I, F.
  change (MaxTime e0 :: map MaxTime r) with (map MaxTime (e0 :: r)) in I', F'.
  apply in_map_iff in I as (x & Ex & Hx). apply in_map_iff in I' as (x' & Ex' & Hx').
  split; [exists x; auto|]. split; [apply (proj1 (Forall_map _ _ _)) in F; exact F|].
  split; [exists x'; auto|]. apply (proj1 (Forall_map _ _ _)) in F'. exact F'.
Qed.
Lemma Forall2_Forall {A B} (R : A -> B -> Prop) (P : B -> Prop) (Q : A -> Prop) l l' :
  Forall2 R l l' -> (forall a b, R a b -> P b -> Q a) -> Forall P l' -> Forall Q l.
Proof. induction 1; intros H' F; constructor; inversion F; subst; eauto. Qed.
Lemma Forall2_in_r {A B} (R : A -> B -> Prop) l l' b : Forall2 R l l' -> In b l' -> exists a, In a l /\ R a b.
Proof. induction 1; cbn; [tauto|]. intros [<-|H']; [eauto|]. destruct (IHForall2 H') as (a & Ha & HR). eauto. Qed.
Lemma event_of_group_sim g g' e : Forall2 sim g g' -> event_of_group g' e -> event_of_group g e.
Proof.
  intros S (l1' & m' & l2' & -> & H1 & H2 & Hrest).
  pose proof S as S0.
  apply Forall2_app_inv_r in S as (l1 & k & S1 & S2 & ->). inversion S2 as [|m ? l2 ? Sm S3]; subst.
  unfold sim in Sm. exists l1, m, l2. split; [reflexivity|].
  split; [eapply Forall2_Forall; [exact S1| |exact H1]; cbn; intros a b Hs; unfold sim in Hs; rewrite Hs, Sm; cbn; trivial|].
  split; [eapply Forall2_Forall; [exact S3| |exact H2]; cbn; intros a b Hs; unfold sim in Hs; rewrite Hs, Sm; cbn; trivial|].
  rewrite Sm in Hrest. cbn [with_num CoaTime TRIG_COA CCOA COA_NORM COA_X COA_Y COA_Z] in Hrest.
  rewrite <- Sm in Hrest.
  destruct Hrest as (E1 & E2 & E3 & E4 & E5 & E6 & E7 & (x & Hx & Ex) & F & (x' & Hx' & Ex') & F').
  repeat (split; [assumption|]).
  destruct (Forall2_in_r _ _ _ _ S0 Hx) as (y & Hy & Sy). destruct (Forall2_in_r _ _ _ _ S0 Hx') as (y' & Hy' & Sy').
  unfold sim in Sy, Sy'.
  split; [exists y; split; [exact Hy|]; rewrite Ex, Sy; reflexivity|].
  split; [eapply Forall2_Forall; [exact S0| |exact F]; cbn; intros a b Hs; unfold sim in Hs; rewrite Hs; cbn; trivial|].
  split; [exists y'; split; [exact Hy'|]; rewrite Ex', Sy'; reflexivity|].
  eapply Forall2_Forall; [exact S0| |exact F']; cbn; intros a b Hs; unfold sim in Hs; rewrite Hs; cbn; trivial.
Qed.

Lemma refine_ok c p l : exists es, refine_candidates c p l = Ret es /\
  Forall2 (fun g e => event_of_group g (cand e) /\ EventID e = event_uid c (CoaTime (cand e)))
          (chop (nsep p) l) es.
Proof.
  unfold refine_candidates. rewrite (groupby_keyed (nsep p)) by apply number_keyed.
  pose proof (chop_Forall2 sim (nsep p) (nsep p) _ _ (fun a b a' b' Ha Hb => nsep_sim p a a' b b' Ha Hb) (number_sim p l 1)) as S.
  pose proof (chop_nonempty (nsep p) (number_events p 1 l)) as N.
  revert S N. generalize (chop (nsep p) (number_events p 1 l)). generalize (chop (nsep p) l). intros gs gs' S N.
  assert (G : exists es, map_some (merge_candidates c) gs' = Some es /\
    Forall2 (fun g e => event_of_group g (cand e) /\ EventID e = event_uid c (CoaTime (cand e))) gs es).
  { induction S as [|g g' gs gs' Hg Hgs IH]; [exists []; auto|]. inversion N as [|? ? N1 N2]; subst.
    destruct (merge_ok c g' N1) as (e & Ee & He & Hid). destruct (IH N2) as (es & Es & Hes).
    cbn [map_some]. rewrite Ee, Es. exists (e :: es). split; [reflexivity|]. constructor; [|exact Hes].
    split; [eapply event_of_group_sim; eassumption|exact Hid]. }
  destruct G as (es & -> & H). eauto.
Qed.

(** * Separation in time *)
Lemma grouping_apart p l gs gs1 g gs2 h gs3 m n :
  grouping p l gs -> gs = gs1 ++ g :: gs2 ++ h :: gs3 ->
  pairwise_ (fun a b => CoaTime a < CoaTime b) l ->
  Forall (fun e => CoaTime e + min_event_interval p <= MaxTime e) l ->
  In m g -> In n h -> CoaTime n - CoaTime m > min_event_interval p + marginal_window p.
Proof.
  intros (Hc & Hne & _ & Hac) E Hinc Hmax Hm Hn.
  assert (exists g2 rest, gs2 ++ h :: gs3 = g2 :: rest /\ In n (List.concat (g2 :: rest))) as (g2 & rest & E2 & Hn2).
  { destruct gs2 as [|g2 gs2]; cbn [app].
    - exists h, gs3. split; [reflexivity|]. cbn [List.concat]. apply in_or_app. auto.
    - exists g2, (gs2 ++ h :: gs3). split; [reflexivity|]. cbn [List.concat]. apply in_or_app. right.
      rewrite concat_app. apply in_or_app. right. cbn [List.concat]. apply in_or_app. auto. }
  rewrite E2 in E. subst gs. rewrite Forall_forall in Hne.
  assert (Ng : g <> []) by (apply Hne, in_or_app; right; left; reflexivity).
  assert (Ng2 : g2 <> []) by (apply Hne, in_or_app; right; right; left; reflexivity).
  destruct (last_in_app g Ng) as (g' & a & ->). destruct g2 as [|b g2']; [congruence|].
  apply chained_app in Hac. specialize (Hac g' a b g2' eq_refl eq_refl).
  assert (Hl : l = List.concat gs1 ++ (g' ++ [a]) ++ (b :: g2') ++ List.concat rest).
  { rewrite <- Hc, concat_app. cbn [List.concat]. reflexivity. }
  assert (Ha : In a l) by (rewrite Hl; apply in_or_app; right; apply in_or_app; left; apply in_or_app; right; left; reflexivity).
  rewrite Forall_forall in Hmax. specialize (Hmax a Ha).
  assert (CoaTime m <= CoaTime a).
  { apply in_app_or in Hm as [Hm|[<-|[]]]; [|lia]. apply in_split in Hm as (x1 & x2 & ->).
    apply Z.lt_le_incl.
    apply (pairwise_in (fun a b => CoaTime a < CoaTime b) (List.concat gs1 ++ x1) m x2 a ((b :: g2') ++ List.concat rest)).
    rewrite Hl in Hinc. clear -Hinc.
    replace ((List.concat gs1 ++ x1) ++ m :: x2 ++ a :: (b :: g2') ++ List.concat rest)
      with (List.concat gs1 ++ ((x1 ++ m :: x2) ++ [a]) ++ (b :: g2') ++ List.concat rest); [exact Hinc|].
    rewrite <- !app_assoc. cbn [app]. rewrite <- ?app_assoc. reflexivity. }
  assert (CoaTime b <= CoaTime n).
  { cbn [List.concat app] in Hn2. destruct Hn2 as [<-|Hn2]; [lia|]. apply in_split in Hn2 as (x1 & x2 & Ex).
    apply Z.lt_le_incl.
    apply (pairwise_in (fun a b => CoaTime a < CoaTime b) (List.concat gs1 ++ (g' ++ [a])) b x1 n x2).
    rewrite Hl in Hinc. cbn [app] in Hinc. rewrite Ex in Hinc. rewrite <- app_assoc. exact Hinc. }
  unfold linked in Hac. lia.
Qed.

Lemma Forall2_split_r {A B} (R : A -> B -> Prop) l l' : Forall2 R l l' -> forall l1' b l2', l' = l1' ++ b :: l2' ->
  exists l1 a l2, l = l1 ++ a :: l2 /\ R a b /\ Forall2 R l1 l1' /\ Forall2 R l2 l2'.
Proof.
  intros H l1' b l2' ->. apply Forall2_app_inv_r in H as (l1 & k & H1 & H2 & ->).
  inversion H2; subst. eauto 8.
Qed.
Lemma candidates_increasing c p t0 data runs cands : 0 < delta c -> sampled c t0 data ->
  pairwise_ (fun a b => snd a + 1 < fst b) runs -> Forall2 (candidate_of_run p data) runs cands ->
  pairwise_ (fun a b => CoaTime a + 2 * delta c <= CoaTime b) cands.
Proof.
  intros Hd Hs Ho F. apply pairwise_split. intros l1 a l2 b l3 E.
  destruct (Forall2_split_r _ _ _ F _ _ _ E) as (r1 & ra & rest & Er & Ha & _ & F2).
  destruct (Forall2_split_r _ _ _ F2 _ _ _ eq_refl) as (r2 & rb & r3 & Er2 & Hb & _ & _).
  subst rest. rewrite Er in Ho. apply pairwise_in in Ho.
  destruct Ha as (ka & pa & _ & _ & (Ba & Da & _) & _ & _ & Ea & _).
  destruct Hb as (kb & pb & _ & _ & (Bb & Db & _) & _ & _ & Eb & _).
  rewrite Ea, Eb, (Hs _ _ Da), (Hs _ _ Db).
  assert (Hk : ka + 2 <= kb) by lia. apply (Z.mul_le_mono_nonneg_r _ _ (delta c)) in Hk; lia.
Qed.
Lemma pairwise_impl {A} (R S : A -> A -> Prop) l : (forall a b, R a b -> S a b) -> pairwise_ R l -> pairwise_ S l.
Proof.
  intros H. induction l as [|x l IH]; [trivial|]. intros [H1 H2]. split; [|auto].
  eapply Forall_impl; [|exact H1]. auto.
Qed.
Lemma pairwise_filter {A} (R : A -> A -> Prop) f l : pairwise_ R l -> pairwise_ R (filter f l).
Proof.
  induction l as [|x l IH]; [trivial|]. intros [H1 H2]. cbn. destruct (f x); [|auto]. split; [|auto].
  rewrite Forall_forall in *. intros y Hy. apply filter_In in Hy. apply H1, Hy.
Qed.
Lemma candidate_max p data run e : candidate_of_run p data run e -> CoaTime e + min_event_interval p <= MaxTime e.
Proof. intros (k & r & f & l & _ & _ & _ & Ec & _ & _ & _ & _ & _ & _ & _ & Em). rewrite Ec, Em. lia. Qed.
Lemma Forall2_Forall_r {A B} (R : A -> B -> Prop) (Q : B -> Prop) l l' : Forall2 R l l' ->
  (forall a b, R a b -> Q b) -> Forall Q l'.
Proof. induction 1; constructor; eauto. Qed.
Lemma event_member g e : event_of_group g e -> exists m, In m g /\ CoaTime e = CoaTime m.
Proof.
  intros (l1 & m & l2 & -> & _ & _ & E & _). exists m. split; [|exact E]. apply in_or_app. right. left. reflexivity.
Qed.
Lemma events_apart c p t0 data runs cands es : 0 < delta c -> sampled c t0 data ->
  pairwise_ (fun a b => snd a + 1 < fst b) runs -> Forall2 (candidate_of_run p data) runs cands ->
  refine_candidates c p cands = Ret es ->
  pairwise_ (fun a b => CoaTime (cand b) - CoaTime (cand a) > min_event_interval p + marginal_window p
                        /\ CoaTime (cand b) - CoaTime (cand a) >= 2 * delta c) es.
Proof.
  intros Hd Hs Ho F Er. destruct (refine_ok c p cands) as (es' & Er' & G). rewrite Er in Er'. injection Er' as <-.
  pose proof (candidates_increasing c p t0 data runs cands Hd Hs Ho F) as Hinc2.
  assert (Hinc : pairwise_ (fun a b => CoaTime a < CoaTime b) cands) by (eapply pairwise_impl; [|exact Hinc2]; cbv beta; intros; lia).
  assert (Hmax : Forall (fun e => CoaTime e + min_event_interval p <= MaxTime e) cands)
    by (eapply Forall2_Forall_r; [exact F|]; intros a b; apply candidate_max).
  apply pairwise_split. intros l1 a l2 b l3 E.
  destruct (Forall2_split_r _ _ _ G _ _ _ E) as (g1 & ga & rest & Eg & (Ha & _) & _ & G2).
  destruct (Forall2_split_r _ _ _ G2 _ _ _ eq_refl) as (g2 & gb & g3 & Eg2 & (Hb & _) & _ & _).
  subst rest. destruct (event_member _ _ Ha) as (m & Hm & Em). destruct (event_member _ _ Hb) as (n & Hn & En).
  rewrite Em, En. split.
  - eapply grouping_apart; [apply chop_grouping|exact Eg|eassumption..].
  - apply in_split in Hm as (m1 & m2 & ->). apply in_split in Hn as (n1 & n2 & ->).
    pose proof (chop_concat (nsep p) cands) as C. rewrite Eg in C. rewrite concat_app in C. cbn [List.concat] in C.
    rewrite concat_app in C. cbn [List.concat] in C.
    assert (C' : cands = (List.concat g1 ++ m1) ++ m :: (m2 ++ List.concat g2 ++ n1) ++ n :: (n2 ++ List.concat g3)).
    { rewrite <- C. clear. rewrite <- !app_assoc. cbn [app]. rewrite <- ?app_assoc. cbn [app]. reflexivity. }
    rewrite C' in Hinc2. apply pairwise_in in Hinc2. lia.
Qed.

(** * Threshold *)
Lemma insert_q_perm x l : Permutation (insert_q x l) (x :: l).
Proof.
  induction l as [|y l IH]; cbn; [constructor; constructor|]. destruct (Qle_bool x y); [apply Permutation_refl|].
  eapply perm_trans; [apply perm_skip, IH|]. apply perm_swap.
Qed.
Lemma insert_q_sorted x l : Sorted Qle l -> Sorted Qle (insert_q x l).
Proof.
  induction l as [|y l IH]; cbn; intros S; [repeat constructor|]. destruct (Qle_bool x y) eqn:E.
  - apply Qle_bool_iff in E. constructor; [assumption|]. constructor. exact E.
  - assert (y <= x)%Q.
    { apply Qnot_lt_le. intros L. apply Qlt_le_weak, Qle_bool_iff in L. congruence. }
    inversion S as [|? ? S1 S2]; subst. constructor; [auto|].
    destruct l as [|z l]; cbn; [constructor; assumption|]. inversion S2; subst.
    destruct (Qle_bool x z); constructor; assumption.
Qed.
Lemma sort_q_ok l : Permutation (sort_q l) l /\ Sorted Qle (sort_q l).
Proof.
  induction l as [|x l [P S]]; cbn; [split; constructor|]. split.
  - eapply perm_trans; [apply insert_q_perm|]. apply perm_skip, P.
  - apply insert_q_sorted, S.
Qed.
Lemma median_ok l : is_median l (median l).
Proof.
  destruct (sort_q_ok l) as [P S]. exists (sort_q l). split; [exact P|]. split; [exact S|].
  unfold median. set (s := sort_q l). set (n := List.length s). destruct (Nat.odd n) eqn:E.
  - apply Nat.odd_spec in E as (k & ->). replace (2 * k + 1 - 1)%nat with (k * 2)%nat by lia.
    replace (2 * k + 1)%nat with (1 + k * 2)%nat by lia. rewrite Nat.div_add, Nat.div_mul by lia. cbn [Nat.div Nat.divmod fst Nat.add].
    field.
  - rewrite <- Nat.negb_even in E. apply negb_false_iff, Nat.even_spec in E as (k & Ek). rewrite Ek.
    replace (2 * k)%nat with (k * 2)%nat by lia. rewrite Nat.div_mul by lia.
    replace ((k * 2 - 1) / 2)%nat with (k - 1)%nat; [reflexivity|].
    destruct k as [|k]; [reflexivity|]. apply (Nat.div_unique _ _ _ 1); lia.
Qed.
Lemma mad_ok l : is_mad l (calculate_mad l).
Proof.
  exists (median l), (median (map (fun x => Qabs (x - median l)) l)).
  split; [apply median_ok|]. split; [apply median_ok|]. reflexivity.
Qed.

(** The step between chunks, in samples. *)
Definition chunk_length (q : Q) : Z := Z.max 1 (Z.abs (int_of q)).
Lemma np_mod_zero i w : (np_mod i w =? 0) = (i mod Z.max 1 (Z.abs w) =? 0).
Proof.
  unfold np_mod. destruct (Z.eqb_spec w 0) as [->|Hw].
  - cbn. rewrite Z.mod_1_r. reflexivity.
  - replace (Z.max 1 (Z.abs w)) with (Z.abs w) by lia. apply eq_true_iff_eq. rewrite !Z.eqb_eq.
    rewrite !Z.mod_divide by lia. symmetry. apply Z.divide_abs_l.
Qed.
Lemma filter_zseq_none w lo n k : 0 < w -> k * w < lo -> lo + Z.of_nat n <= (k + 1) * w ->
  filter (fun i => i mod w =? 0) (zseq lo n) = [].
Proof.
  intros Hw H1 H2. apply filter_none, Forall_forall. intros i Hi. apply in_zseq in Hi. apply Z.eqb_neq.
  intros E. apply Z.mod_divide in E as (j & ->); [|lia].
  assert (k < j) by (apply (Z.mul_lt_mono_pos_r w); lia). assert (j < k + 1) by (apply (Z.mul_lt_mono_pos_r w); lia). lia.
Qed.
Lemma filter_multiples w : 0 < w -> forall m n k, (n <= m)%nat ->
  filter (fun i => i mod w =? 0) (zseq (k * w) n) = map (fun j => j * w) (zseq k (Z.to_nat ((Z.of_nat n + w - 1) / w))).
Proof.
  intros Hw. induction m as [|m IH]; intros n k Hn.
  - assert (n = O) by lia. subst n. cbn [zseq filter]. rewrite Z.div_small by lia. reflexivity.
  - destruct n as [|n]; [cbn [zseq filter]; rewrite Z.div_small by lia; reflexivity|].
    destruct (Z_le_gt_dec (Z.of_nat (S n)) w) as [L|L].
    + replace ((Z.of_nat (S n) + w - 1) / w) with 1 by (apply (Z.div_unique _ _ _ (Z.of_nat n)); lia).
      cbn [zseq filter Z.to_nat Pos.to_nat Pos.iter_op]. change (Z.to_nat 1) with 1%nat. cbn [zseq map].
      rewrite Z.mod_mul by lia. cbn [Z.eqb]. rewrite (filter_zseq_none w _ _ k) by lia. reflexivity.
    + set (n' := Z.to_nat (Z.of_nat (S n) - w)). assert (En : S n = (Z.to_nat w + n')%nat) by lia.
      rewrite En, zseq_app, filter_app.
      replace (Z.to_nat w) with (S (Z.to_nat (w - 1))) at 1 by lia. cbn [zseq filter].
      rewrite Z.mod_mul by lia. cbn [Z.eqb]. rewrite (filter_zseq_none w _ _ k) by lia.
      replace (k * w + Z.of_nat (Z.to_nat w)) with ((k + 1) * w) by lia. rewrite (IH n') by lia.
      replace ((Z.of_nat (Z.to_nat w + n') + w - 1) / w) with ((Z.of_nat n' + w - 1) / w + 1).
      2:{ replace (Z.of_nat (Z.to_nat w + n') + w - 1) with (Z.of_nat n' + w - 1 + 1 * w) by lia. rewrite Z.div_add by lia. lia. }
      rewrite Z2Nat.inj_add by (try apply Z.div_pos; lia). rewrite Nat.add_comm. reflexivity.
Qed.
Lemma pyslice_nn {A} (l : list A) a b : 0 <= a <= b -> b <= Z.of_nat (List.length l) ->
  pyslice l (Some a) (Some b) = firstn (Z.to_nat (b - a)) (skipn (Z.to_nat a) l).
Proof.
  intros Ha Hb. unfold pyslice, pylo, pyhi, pynorm.
  destruct (Z.ltb_spec a 0); [lia|]. destruct (Z.ltb_spec b 0); [lia|].
  rewrite !Z.min_l by lia. reflexivity.
Qed.
Definition piece {A} (w : Z) (l : list A) (k : Z) : list A := firstn (Z.to_nat w) (skipn (Z.to_nat (k * w)) l).
Lemma split_pieces {A} (l : list A) w : 0 < w -> forall m k, 0 <= k ->
  (k + Z.of_nat m) * w < Z.of_nat (List.length l) <= (k + Z.of_nat m + 1) * w ->
  map (fun ab => pyslice l (Some (fst ab)) (Some (snd ab)))
      (combine (k * w :: map (fun j => j * w) (zseq (k + 1) m))
               (map (fun j => j * w) (zseq (k + 1) m) ++ [Z.of_nat (List.length l)]))
  = map (piece w l) (zseq k (S m)).
Proof.
  intros Hw. induction m as [|m IH]; intros k Hk Hn.
  - cbn [zseq map app combine fst snd]. f_equal. unfold piece.
    assert (0 <= k * w) by (apply Z.mul_nonneg_nonneg; lia). rewrite pyslice_nn by lia.
    rewrite !firstn_all2; [reflexivity| |]; rewrite skipn_length; lia.
  - cbn [zseq map]. change ((k + 1) * w :: map (fun j => j * w) (zseq (k + 1 + 1) m)) with ([(k + 1) * w] ++ map (fun j => j * w) (zseq (k + 1 + 1) m)) at 2.
    cbn [app combine map fst snd]. f_equal.
    + assert (H1 : (k + 1) * w <= (k + Z.of_nat (S m)) * w) by (apply Z.mul_le_mono_nonneg_r; lia).
      assert (0 <= k * w) by (apply Z.mul_nonneg_nonneg; lia). rewrite pyslice_nn by lia.
      unfold piece. f_equal. f_equal. lia.
    + specialize (IH (k + 1) ltac:(lia)). cbn [zseq map app] in IH. rewrite <- IH; [reflexivity|].
      replace (k + 1 + Z.of_nat m) with (k + Z.of_nat (S m)) by lia. exact Hn.
Qed.
Lemma chunks_pieces values wl rate : values <> [] ->
  let w := chunk_length (wl * rate) in let n := Z.of_nat (List.length values) in
  chunks values wl rate = map (piece w values) (zseq 0 (Z.to_nat ((n + w - 1) / w))).
Proof.
  intros N w n. unfold chunks. fold n.
  assert (Hw : 0 < w) by (unfold w, chunk_length; lia).
  assert (Hn : 0 < n) by (destruct values; [congruence|unfold n; cbn; lia]).
  rewrite (filter_ext _ (fun i => i mod w =? 0)) by (intros i; apply np_mod_zero).
  unfold zrange. pose proof (filter_multiples w Hw (Z.to_nat n) (Z.to_nat n) 0 ltac:(lia)) as F.
  cbn [Z.mul] in F. rewrite F. rewrite Z2Nat.id by lia.
  set (m := (n + w - 1) / w).
  assert (Hm : 1 <= m) by (unfold m; apply Z.div_le_lower_bound; lia).
  assert (Hm2 : (m - 1) * w < n <= m * w).
  { unfold m. pose proof (Z.div_mod (n + w - 1) w ltac:(lia)). pose proof (Z.mod_pos_bound (n + w - 1) w Hw).
    rewrite Z.mul_sub_distr_r. rewrite (Z.mul_comm _ w). lia. }
  replace (Z.to_nat m) with (S (Z.to_nat (m - 1))) by lia.
  cbn [zseq map tl]. unfold np_split. fold n.
  pose proof (split_pieces values w Hw (Z.to_nat (m - 1)) 0 ltac:(lia)) as S. fold n in S.
  cbn [Z.mul] in S. rewrite S; [reflexivity|]. rewrite Z2Nat.id by lia. cbn [Z.add].
  replace (m - 1 + 1) with m by lia. exact Hm2.
Qed.
Lemma rd_flat_repeat {A} (a : list A) l0 : (0 < l0)%nat -> forall i, 0 <= i ->
  rd (flat_map (fun x => repeat x l0) a) i = rd a (i / Z.of_nat l0).
Proof.
  intros H0. induction a as [|x a IH]; intros i Hi; cbn [flat_map].
  - rewrite !rd_nil. reflexivity.
  - destruct (Z_lt_ge_dec i (Z.of_nat l0)) as [L|L].
    + rewrite rd_app1 by (rewrite repeat_length; lia). rewrite rd_repeat by lia.
      rewrite Z.div_small by lia. rewrite rd_0. reflexivity.
    + rewrite rd_app2 by (rewrite repeat_length; lia). rewrite repeat_length, IH by lia.
      replace (i - Z.of_nat l0) with (i + (-1) * Z.of_nat l0) by lia. rewrite Z.div_add by lia.
      rewrite rd_cons_pos by (apply Z.div_str_pos; lia). f_equal.
Qed.
Lemma flat_repeat_length {A} (a : list A) l0 : List.length (flat_map (fun x => repeat x l0) a) = (List.length a * l0)%nat.
Proof. induction a; cbn; [reflexivity|]. rewrite app_length, repeat_length, IHa. reflexivity. Qed.

(** The trace of a per-chunk statistic. *)
Lemma trace_ok {B} (f : list Q -> B) values wl rate :
  let w := chunk_length (wl * rate) in
  let cs := chunks values wl rate in
  let tr := firstn (List.length values) (chunks2trace (map f cs) (List.length (hd [] cs))) in
  List.length tr = List.length values /\
  forall i, 0 <= i < Z.of_nat (List.length values) -> rd tr i = Some (f (chunk_of w values i)).
Proof.
  intros w cs tr. destruct values as [|v0 vs].
  { split; [reflexivity|]. cbn. lia. }
  assert (N : v0 :: vs <> []) by discriminate. set (values := v0 :: vs) in *. clearbody values.
  set (n := Z.of_nat (List.length values)). assert (Hw : 0 < w) by (unfold w, chunk_length; lia).
  assert (Hn : 0 < n) by (destruct values; [congruence|unfold n; cbn; lia]).
  pose proof (chunks_pieces values wl rate N) as Ec. cbv zeta in Ec. fold w cs n in Ec.
  set (m := (n + w - 1) / w) in *.
  assert (Hm : 1 <= m) by (unfold m; apply Z.div_le_lower_bound; lia).
  assert (Hm2 : (m - 1) * w < n <= m * w).
  { unfold m. pose proof (Z.div_mod (n + w - 1) w ltac:(lia)). pose proof (Z.mod_pos_bound (n + w - 1) w Hw).
    rewrite Z.mul_sub_distr_r. rewrite (Z.mul_comm _ w). lia. }
  assert (El0 : List.length (hd [] cs) = Z.to_nat (Z.min w n)).
  { rewrite Ec. replace (Z.to_nat m) with (S (Z.to_nat (m - 1))) by lia. cbn [zseq map hd]. unfold piece.
    cbn [Z.mul]. rewrite firstn_length, skipn_length. change (Z.to_nat 0) with O. fold n. lia. }
  unfold tr. rewrite El0. unfold chunks2trace.
  assert (Lx : (List.length values <= List.length (flat_map (fun x => repeat x (Z.to_nat (Z.min w n))) (map f cs)))%nat).
  { rewrite flat_repeat_length, map_length, Ec, map_length, zseq_length. apply Nat2Z.inj_le.
    rewrite Nat2Z.inj_mul, !Z2Nat.id by lia. fold n. destruct (Z.min_spec w n) as [[_ ->]|[Hmin ->]]; [lia|].
    assert (1 * n <= m * n) by (apply Z.mul_le_mono_nonneg_r; lia). lia. }
  split; [rewrite firstn_length; lia|]. intros i Hi.
  replace (List.length values) with (Z.to_nat n) by (unfold n; lia).
  rewrite rd_firstn by lia. rewrite rd_flat_repeat by lia. rewrite Z2Nat.id by lia.
  assert (Ei : i / Z.min w n = i / w).
  { destruct (Z.min_spec w n) as [[_ ->]|[Hmin ->]]; [reflexivity|]. rewrite !Z.div_small by lia. reflexivity. }
  rewrite Ei, rd_map, Ec, rd_map.
  assert (0 <= i / w) by (apply Z.div_pos; lia).
  assert (i / w < m) by (apply Z.div_lt_upper_bound; lia).
  rewrite rd_zseq by lia. reflexivity.
Qed.
Lemma rd_combine_ {A B} (a : list A) (b : list B) i x y : rd a i = Some x -> rd b i = Some y -> rd (combine a b) i = Some (x, y).
Proof.
  revert b i. induction a as [|x' a IH]; intros b i Ha Hb; [rewrite rd_nil in Ha; discriminate|].
  destruct b as [|y' b]; [rewrite rd_nil in Hb; discriminate|]. cbn [combine].
  pose proof (rd_bounds _ _ _ _ Ha). destruct (Z.eq_dec i 0) as [->|].
  - rewrite rd_0 in Ha, Hb |- *. congruence.
  - rewrite rd_cons_pos in Ha by lia. rewrite rd_cons_pos in Hb by lia. rewrite rd_cons_pos by lia. apply IH; assumption.
Qed.

(** * Identifiers *)
Lemma remove_chars cs : forall s, fold_left remove_char cs s = filter (fun x => negb (existsb (Ascii.eqb x) cs)) s.
Proof.
  induction cs as [|ch cs IH]; intros s; cbn [fold_left existsb].
  - cbn. induction s as [|x s IHs]; cbn; [reflexivity|]. rewrite <- IHs at 1. reflexivity.
  - rewrite IH. unfold remove_char. clear IH. induction s as [|x s IHs]; cbn [filter]; [reflexivity|].
    destruct (Ascii.eqb x ch) eqn:E; cbn [negb orb filter]; [exact IHs|].
    destruct (existsb (Ascii.eqb x) cs); cbn [negb]; rewrite IHs; reflexivity.
Qed.
Definition kept (x : ascii) : bool := negb (existsb (Ascii.eqb x) [c_dash; c_colon; c_dot; c_space; c_Z; c_T]).
Lemma kept_digit n : kept (digit (n mod 10)) = true.
Proof.
  destruct (ten_cases (n mod 10) (Z.mod_pos_bound n 10 ltac:(lia))) as [E|[E|[E|[E|[E|[E|[E|[E|[E|E]]]]]]]]];
    rewrite E; reflexivity.
Qed.
Lemma kept_digits w : forall n, filter kept (digits w n) = digits w n.
Proof.
  induction w; intros n; [reflexivity|]. cbn [digits]. rewrite filter_app, IHw. cbn [filter].
  rewrite kept_digit. reflexivity.
Qed.
Lemma digits_split a b : forall n, digits (a + b) n = digits a (n / 10 ^ Z.of_nat b) ++ digits b n.
Proof.
  induction b; intros n.
  - rewrite Nat.add_0_r. cbn [digits]. rewrite app_nil_r. change (10 ^ Z.of_nat 0) with 1. rewrite Z.div_1_r. reflexivity.
  - rewrite Nat.add_succ_r. cbn [digits]. rewrite IHb. rewrite Nat2Z.inj_succ, Z.pow_succ_r by lia.
    rewrite Z.div_div by (try apply Z.pow_pos_nonneg; lia). rewrite app_assoc. reflexivity.
Qed.
Lemma firstn_app_exact {A} (a b : list A) n : List.length a = n -> firstn n (a ++ b) = a.
Proof. intros <-. rewrite firstn_app, Nat.sub_diag, firstn_all. cbn. apply app_nil_r. Qed.
Definition id_of (us : Z) : list ascii :=
  let d := us / 86400000000 in let s := us mod 86400000000 in
  digits 4 (year d) ++ digits 2 (month d)
  ++ digits 2 (mday d) ++ digits 2 (s / 3600000000)
  ++ digits 2 (s / 60000000 mod 60) ++ digits 2 (s / 1000000 mod 60)
  ++ digits 3 (s / 1000 mod 1000).
Lemma event_uid_ok c t : event_uid c t = id_of (to_us c t).
Proof.
  unfold event_uid. rewrite remove_chars. fold kept.
  change (fun x => negb (existsb (Ascii.eqb x) [c_dash; c_colon; c_dot; c_space; c_Z; c_T])) with kept.
  generalize (to_us c t). intros us. unfold str_time, id_of. cbv zeta.
  set (d := us / 86400000000). set (s := us mod 86400000000).
  rewrite !filter_app, !kept_digits.
  change (filter kept [c_dash]) with (@nil ascii). change (filter kept [c_T]) with (@nil ascii).
  change (filter kept [c_colon]) with (@nil ascii). change (filter kept [c_dot]) with (@nil ascii).
  change (filter kept [c_Z]) with (@nil ascii). cbn [app]. rewrite app_nil_r.
  change 6%nat with (3 + 3)%nat. rewrite digits_split. change (10 ^ Z.of_nat 3) with 1000.
  replace (s mod 1000000 / 1000) with (s / 1000 mod 1000).
  2:{ change 1000000 with (1000 * 1000). rewrite Z.rem_mul_r by lia.
      rewrite (Z.add_comm (s mod 1000)), (Z.mul_comm 1000), Z.div_add_l by lia.
      rewrite (Z.div_small (s mod 1000)) by (apply Z.mod_pos_bound; lia). lia. }
  rewrite !app_assoc. rewrite firstn_app_exact by (rewrite !app_length, !digits_length; reflexivity).
  unfold ljust. rewrite !app_length, !digits_length. cbn [Nat.add Nat.sub repeat]. apply app_nil_r.
Qed.
Lemma hms s : 0 <= s -> s / 1000 = ((s / 3600000000 * 60 + s / 60000000 mod 60) * 60 + s / 1000000 mod 60) * 1000 + s / 1000 mod 1000.
Proof.
  intros Hs.
  assert (E1 : s / 1000 = s / 1000000 * 1000 + s / 1000 mod 1000).
  { change 1000000 with (1000 * 1000). rewrite <- Z.div_div by lia. rewrite (Z.mul_comm _ 1000). apply Z.div_mod. lia. }
  assert (E2 : s / 1000000 = s / 60000000 * 60 + s / 1000000 mod 60).
  { change 60000000 with (1000000 * 60). rewrite <- Z.div_div by lia. rewrite (Z.mul_comm _ 60). apply Z.div_mod. lia. }
  assert (E3 : s / 60000000 = s / 3600000000 * 60 + s / 60000000 mod 60).
  { change 3600000000 with (60000000 * 60). rewrite <- Z.div_div by lia. rewrite (Z.mul_comm _ 60). apply Z.div_mod. lia. }
  lia.
Qed.
Lemma id_inj us us' : 0 <= year (us / 86400000000) <= 9999 -> 0 <= year (us' / 86400000000) <= 9999 ->
  id_of us = id_of us' -> us / 1000 = us' / 1000.
Proof.
  unfold id_of. cbv zeta. intros Y Y' E.
  set (d := us / 86400000000) in *. set (d' := us' / 86400000000) in *.
  pose proof (Z.mod_pos_bound us 86400000000 ltac:(lia)) as Bs. pose proof (Z.mod_pos_bound us' 86400000000 ltac:(lia)) as Bs'.
  pose proof (Z.div_mod us 86400000000 ltac:(lia)) as Eu. pose proof (Z.div_mod us' 86400000000 ltac:(lia)) as Eu'.
  fold d in Eu. fold d' in Eu'.
  set (s := us mod 86400000000) in *. set (s' := us' mod 86400000000) in *. clearbody d d' s s'.
  apply app_inj_length in E as [E1 E]; [|rewrite !digits_length; reflexivity].
  apply app_inj_length in E as [E2 E]; [|rewrite !digits_length; reflexivity].
  apply app_inj_length in E as [E3 E]; [|rewrite !digits_length; reflexivity].
  apply app_inj_length in E as [E4 E]; [|rewrite !digits_length; reflexivity].
  apply app_inj_length in E as [E5 E]; [|rewrite !digits_length; reflexivity].
  apply app_inj_length in E as [E6 E7]; [|rewrite !digits_length; reflexivity].
  pose proof (civil_valid d) as V. pose proof (civil_valid d') as V'.
  rewrite civil_split in V, V'. cbn in V, V'.
  assert (M31 : forall y m, month_days y m <= 31).
  { intros y m. unfold month_days. destruct (m =? 2); [destruct (leap y); lia|]. destruct (_ || _); lia. }
  pose proof (M31 (year d) (month d)). pose proof (M31 (year d') (month d')).
  apply digits_inj in E1; [|change (10 ^ Z.of_nat 4) with 10000; lia..].
  apply digits_inj in E2; [|change (10 ^ Z.of_nat 2) with 100; lia..].
  apply digits_inj in E3; [|change (10 ^ Z.of_nat 2) with 100; lia..].
  assert (H24 : forall x, 0 <= x < 86400000000 -> 0 <= x / 3600000000 < 10 ^ Z.of_nat 2).
  { intros x Hx. change (10 ^ Z.of_nat 2) with 100. split; [apply Z.div_pos; lia|apply Z.div_lt_upper_bound; lia]. }
  assert (H60 : forall x, 0 <= x mod 60 < 10 ^ Z.of_nat 2).
  { intros x. change (10 ^ Z.of_nat 2) with 100. pose proof (Z.mod_pos_bound x 60 ltac:(lia)). lia. }
  assert (H1000 : forall x, 0 <= x mod 1000 < 10 ^ Z.of_nat 3).
  { intros x. change (10 ^ Z.of_nat 3) with 1000. apply Z.mod_pos_bound. lia. }
  apply digits_inj in E4; [|apply H24; assumption..].
  apply digits_inj in E5; [|apply H60..]. apply digits_inj in E6; [|apply H60..]. apply digits_inj in E7; [|apply H1000..].
  assert (d = d') by (apply civil_inj; rewrite !civil_split; congruence). subst d'.
  assert (Es : s / 1000 = s' / 1000) by (rewrite (hms s), (hms s') by lia; congruence).
  rewrite Eu, Eu'. replace (86400000000 * d) with (86400000 * d * 1000) by lia. rewrite !Z.div_add_l by lia. lia.
Qed.

(** * Batches *)
Lemma batches_fuel c e : 0 < day c -> forall n s, e - s / day c * day c <= Z.of_nat n * day c -> exists l, forall fuel, (n < fuel)%nat -> batches fuel c s e = Some l.
Proof.
  intros Hd. induction n as [|n IH]; intros s Hn.
  - pose proof (Z.div_mod s (day c) ltac:(lia)). pose proof (Z.mod_pos_bound s (day c) Hd).
    exists []. intros fuel Hf. destruct fuel; [lia|]. cbn [batches]. destruct (Z.ltb_spec s e); [lia|reflexivity].
  - destruct (Z_lt_ge_dec s e) as [L|L].
    2:{ exists []. intros fuel Hf. destruct fuel; [lia|]. cbn [batches]. destruct (Z.ltb_spec s e); [lia|reflexivity]. }
    pose proof (Z.div_mod s (day c) ltac:(lia)). pose proof (Z.mod_pos_bound s (day c) Hd).
    set (nd := s / day c * day c + day c).
    assert (En : nd / day c * day c = nd) by (unfold nd; rewrite <- Z.mul_succ_l, Z.div_mul by lia; reflexivity).
    destruct (IH nd) as (l & Hl); [rewrite En; unfold nd; lia|].
    exists ((s, if nd <=? e then nd else e) :: l). intros fuel Hf. destruct fuel as [|fuel]; [lia|]. cbn [batches].
    destruct (Z.ltb_spec s e); [|lia]. cbn [negb]. fold nd. rewrite Hl by lia. reflexivity.
Qed.
(** What the batches look like, by induction on the loop. *)
Inductive batched (c : clock) : Z -> Z -> list (Z * Z) -> Prop :=
| b_done s e : e <= s -> batched c s e []
| b_next s e l : s < e -> batched c (s / day c * day c + day c) e l ->
    batched c s e ((s, Z.min (s / day c * day c + day c) e) :: l).
Lemma batches_batched c e fuel : forall s l, batches fuel c s e = Some l -> batched c s e l.
Proof.
  induction fuel as [|fuel IH]; intros s l; cbn [batches]; destruct (Z.ltb_spec s e); cbn [negb];
    try discriminate; try (intros E; injection E as <-; constructor; lia).
  destruct (batches fuel c (s / day c * day c + day c) e) as [l'|] eqn:El; [|discriminate].
  intros E. injection E as <-. apply IH in El.
  replace (if s / day c * day c + day c <=? e then s / day c * day c + day c else e) with (Z.min (s / day c * day c + day c) e)
    by (destruct (Z.leb_spec (s / day c * day c + day c) e); lia).
  constructor; assumption.
Qed.
Section Batched.
Variable c : clock.
Hypothesis Hday : 0 < day c.
Lemma next_day_facts s : let nd := s / day c * day c + day c in s < nd /\ nd mod day c = 0 /\ s / day c = (nd - 1) / day c
  /\ forall t, s <= t < nd -> t / day c = s / day c.
Proof.
  intros nd. pose proof (Z.div_mod s (day c) ltac:(lia)). pose proof (Z.mod_pos_bound s (day c) Hday).
  split; [unfold nd; lia|]. split; [unfold nd; rewrite <- Z.mul_succ_l; apply Z.mod_mul; lia|].
  assert (G : forall t, s <= t < nd -> t / day c = s / day c).
  { intros t Ht. symmetry. apply (Z.div_unique _ _ _ (t - s / day c * day c)); unfold nd in Ht; lia. }
  split; [symmetry; apply G; unfold nd; lia|exact G].
Qed.
Lemma batched_inside s e l : batched c s e l ->
  Forall (fun b => s <= fst b < snd b /\ snd b <= e /\ forall t, fst b <= t < snd b -> t / day c = fst b / day c) l.
Proof.
  induction 1 as [|s e l Hse Hb IH]; constructor.
  - destruct (next_day_facts s) as (H1 & _ & _ & H3). cbn [fst snd]. split; [lia|]. split; [lia|].
    intros t Ht. apply H3. lia.
  - destruct (next_day_facts s) as (H1 & _). eapply Forall_impl; [|exact IH]. cbv beta. intros b (B1 & B2 & B3).
    split; [lia|]. split; assumption.
Qed.
Lemma batched_chain s e l : batched c s e l -> chained (fun a b => snd a = fst b) l.
Proof.
  induction 1 as [|s e l Hse Hb IH]; [exact I|]. destruct l as [|b l]; [exact I|]. split; [|exact IH].
  inversion Hb; subst; cbn [fst snd]; lia.
Qed.
Lemma batched_first s e l : batched c s e l -> s < e -> exists b l', l = b :: l' /\ fst b = s.
Proof. intros H Hl. inversion H; subst; [lia|]. eauto. Qed.
Lemma batched_last s e l : batched c s e l -> s < e -> exists l' b, l = l' ++ [b] /\ snd b = e.
Proof.
  induction 1 as [|s e l Hse Hb IH]; intros Hl; [lia|].
  destruct (Z_lt_ge_dec (s / day c * day c + day c) e) as [L|L].
  - destruct (IH L) as (l' & b & -> & Eb). exists ((s, Z.min (s / day c * day c + day c) e) :: l'), b. auto.
  - inversion Hb; subst; [|lia]. exists [], (s, Z.min (s / day c * day c + day c) e). split; [reflexivity|]. cbn [snd]. lia.
Qed.

Hypothesis Hdelta : 0 < delta c.
Hypothesis Hdiv : (delta c | day c).
Lemma grid_step a b : (delta c | a) -> (delta c | b) -> a < b -> a <= b - delta c.
Proof.
  intros (i & ->) (j & ->) H. apply (Z.mul_lt_mono_pos_r (delta c)) in H; [|lia].
  assert (HH : i + 1 <= j) by lia. apply (Z.mul_le_mono_nonneg_r _ _ (delta c)) in HH; lia.
Qed.
Lemma day_grid x : x mod day c = 0 -> (delta c | x).
Proof. intros H. apply Z.mod_divide in H; [|lia]. eapply Z.divide_trans; eassumption. Qed.
Lemma batched_accepts t : (delta c | t) -> forall s e l, batched c s e l ->
  s <= t -> (t < e \/ (t = e /\ e mod day c <> 0 /\ s < e)) ->
  exists l1 b l2, l = l1 ++ b :: l2 /\ accepts c b t /\ Forall (fun b => ~ accepts c b t) (l1 ++ l2).
Proof.
  intros Ht. induction 1 as [|s e l Hse Hb IH]; intros Hs He; [lia|].
  destruct (next_day_facts s) as (H1 & H2 & _). set (nd := s / day c * day c + day c) in *.
  destruct (Z_lt_ge_dec t nd) as [L|L].
  - exists [], (s, Z.min nd e), l. split; [reflexivity|]. split.
    + unfold accepts. cbn [fst snd]. fold (day c). split; [exact Hs|].
      destruct (Z.eqb_spec (Z.min nd e mod day c) 0) as [Em|Em].
      * apply grid_step; [exact Ht|apply day_grid; exact Em|].
        destruct (Z.min_spec nd e) as [[_ E]|[_ E]]; rewrite E in *; [lia|]. destruct He as [|[_ [He _]]]; [assumption|congruence].
      * lia.
    + apply batched_inside in Hb. eapply Forall_impl; [|exact Hb]. cbv beta. intros b (B & _) [A _]. lia.
  - assert (Hnd : nd < e).
    { destruct He as [|[-> [He _]]]; [lia|]. destruct (Z.eq_dec nd e); [congruence|lia]. }
    destruct (IH ltac:(lia)) as (l1 & b & l2 & -> & A & F).
    { destruct He as [|[Et [He _]]]; [left; assumption|right; auto]. }
    exists ((s, Z.min nd e) :: l1), b, l2. split; [reflexivity|]. split; [exact A|]. constructor; [|exact F].
    unfold accepts. cbn [fst snd]. fold (day c). rewrite Z.min_l by lia. rewrite H2. cbn [Z.eqb]. lia.
Qed.
Lemma batched_only t s e l : batched c s e l -> forall b, In b l -> accepts c b t ->
  s <= t <= e /\ (e mod day c = 0 -> t < e).
Proof.
  intros H b Hb [A1 A2]. pose proof (batched_inside _ _ _ H) as F. rewrite Forall_forall in F.
  destruct (F b Hb) as (B1 & B2 & _). fold (day c) in A2.
  destruct (Z.eqb_spec (snd b mod day c) 0); [lia|]. split; [lia|]. intros E. destruct (Z.eq_dec (snd b) e); [congruence|lia].
Qed.
End Batched.

(** * Consecutive batches *)
Lemma in_runs p data th i : hit p data th i -> exists lo hi, In (lo, hi) (runs_of p data th) /\ lo <= i <= hi.
Proof.
  intros H. apply hit_above in H as (r & Hr). rewrite <- (chop_concat next_ix) in Hr.
  apply in_concat in Hr as (b & Hb & Hrb). exists (lo_of b), (hi_of b).
  split; [apply in_map_iff; exists b; auto|].
  pose proof (chop_inside next_ix (above p data th)) as I. rewrite Forall_forall in I.
  apply (block_in b (I b Hb)). eauto.
Qed.
Lemma run_convex p data th lo hi i j : maximal_run p data th lo hi -> lo <= i <= hi ->
  (forall k, Z.min i j <= k <= Z.max i j -> hit p data th k) -> lo <= j <= hi.
Proof.
  intros (_ & _ & Hlo & Hhi) Hi Hh. split.
  - destruct (Z_le_gt_dec lo j); [assumption|]. exfalso. apply Hlo, Hh. lia.
  - destruct (Z_le_gt_dec j hi); [assumption|]. exfalso. apply Hhi, Hh. lia.
Qed.
Lemma run_unique p data th lo hi lo' hi' i : maximal_run p data th lo hi -> maximal_run p data th lo' hi' ->
  lo <= i <= hi -> lo' <= i <= hi' -> lo = lo' /\ hi = hi'.
Proof.
  intros M M' Hi Hi'. pose proof M as (A1 & A2 & _). pose proof M' as (B1 & B2 & _).
  assert (lo' <= lo <= hi') by (eapply run_convex; [exact M'|exact Hi'|intros; apply A2; lia]).
  assert (lo' <= hi <= hi') by (eapply run_convex; [exact M'|exact Hi'|intros; apply A2; lia]).
  assert (lo <= lo' <= hi) by (eapply run_convex; [exact M|exact Hi|intros; apply B2; lia]).
  assert (lo <= hi' <= hi) by (eapply run_convex; [exact M|exact Hi|intros; apply B2; lia]).
  lia.
Qed.
Lemma first_largest_unique data lo hi k r k' r' : first_largest data lo hi k r -> first_largest data lo hi k' r' -> k = k'.
Proof.
  intros (B & D & F) (B' & D' & F'). destruct (Z.lt_trichotomy k k') as [L|[L|L]]; [|exact L|].
  - destruct (F' k r D) as [F1 _]. destruct (F k' r' D') as [_ F2].
    exfalso. apply (Qlt_irrefl (COA r)). eapply Qlt_le_trans; [apply F1; lia|apply F2; lia].
  - destruct (F k' r' D') as [F1 _]. destruct (F' k r D) as [_ F2].
    exfalso. apply (Qlt_irrefl (COA r')). eapply Qlt_le_trans; [apply F1; lia|apply F2; lia].
Qed.

(** What is known about one batch: candidates and events. *)
Section OneBatch.
Variables (c : clock) (p : params) (t0 : Z) (data : list scanrow) (th : list Q) (cands : list candidate) (es : list event).
Hypothesis Hd : 0 < delta c.
Hypothesis Hs : sampled c t0 data.
Hypothesis Hlen : List.length data = List.length th.
Hypothesis Hc : identify_candidates p data th = Ret cands.
Hypothesis He : refine_candidates c p cands = Ret es.

Lemma cands_of_runs : Forall2 (candidate_of_run p data) (runs_of p data th) cands.
Proof. destruct (identify_ok p data th Hlen) as (cs & E & F). rewrite Hc in E. injection E as <-. exact F. Qed.
Lemma run_candidate lo hi : maximal_run p data th lo hi -> exists e, In e cands /\ candidate_of_run p data (lo, hi) e.
Proof.
  intros M. apply runs_maximal in M. pose proof cands_of_runs as F. revert M F. clear.
  generalize (runs_of p data th). generalize cands. intros cs rs M F. induction F as [|r x rs cs Hr F IH]; [contradiction|].
  destruct M as [->|M]; [exists x; split; [left; reflexivity|exact Hr]|].
  destruct (IH M) as (e & H1 & H2). exists e. split; [right; exact H1|exact H2].
Qed.
Lemma event_peak e : In e es -> exists lo hi k r, maximal_run p data th lo hi /\ first_largest data lo hi k r
  /\ CoaTime (cand e) = DT r /\ TRIG_COA (cand e) = trigger_on p r.
Proof.
  intros H. destruct (refine_ok c p cands) as (es' & E & G). rewrite He in E. injection E as <-.
  destruct (Forall2_in_r _ _ _ _ G H) as (g & Hg & Hev & _).
  destruct Hev as (l1 & m & l2 & Eg & _ & _ & Ec & Et & _).
  assert (Hm : In m cands).
  { rewrite <- (chop_concat (nsep p) cands). apply in_concat. exists g. split; [exact Hg|]. rewrite Eg. apply in_or_app. right. left. reflexivity. }
  destruct (Forall2_in_r _ _ _ _ cands_of_runs Hm) as ([lo hi] & Hr & Hcr).
  apply runs_maximal in Hr. destruct Hcr as (k & r & f & l & FL & _ & _ & E1 & _ & _ & E2 & _).
  exists lo, hi, k, r. split; [exact Hr|]. split; [exact FL|]. rewrite Ec, Et. split; [exact E1|]. exact E2.
Qed.
(** A candidate close to an event is one of its members. *)
Lemma event_dominates e x : In e es -> In x cands ->
  Z.abs (CoaTime x - CoaTime (cand e)) <= min_event_interval p + marginal_window p ->
  (TRIG_COA x <= TRIG_COA (cand e))%Q /\ (CoaTime x < CoaTime (cand e) -> (TRIG_COA x < TRIG_COA (cand e))%Q).
Proof.
  intros H Hx Hnear. destruct (refine_ok c p cands) as (es' & E & G). rewrite He in E. injection E as <-.
  destruct (Forall2_in_r _ _ _ _ G H) as (g & Hg & Hev & _).
  destruct Hev as (l1 & m & l2 & Eg & F1 & F2 & Ec & Et & _). rewrite Ec, Et in *.
  assert (Hm : In m g) by (rewrite Eg; apply in_or_app; right; left; reflexivity).
  pose proof (candidates_increasing c p t0 data _ _ Hd Hs (runs_ordered p data th) cands_of_runs) as Hinc2.
  assert (Hinc : pairwise_ (fun a b => CoaTime a < CoaTime b) cands) by (eapply pairwise_impl; [|exact Hinc2]; cbv beta; intros; lia).
  assert (Hmax : Forall (fun e => CoaTime e + min_event_interval p <= MaxTime e) cands)
    by (eapply Forall2_Forall_r; [exact cands_of_runs|]; intros a b; apply candidate_max).
  pose proof Hx as Hx0.
  rewrite <- (chop_concat (nsep p) cands) in Hx. apply in_concat in Hx as (g' & Hg' & Hxg').
  assert (Sg : In x g).
  { apply in_split in Hg as (a1 & a2 & Ea). rewrite Ea in Hg'. apply in_app_or in Hg' as [Hg'|[->|Hg']]; [|exact Hxg'|].
    - exfalso. apply in_split in Hg' as (b1 & b2 & ->).
      assert (Ea' : chop (nsep p) cands = b1 ++ g' :: b2 ++ g :: a2) by (rewrite Ea, <- app_assoc; reflexivity).
      pose proof (grouping_apart p cands _ b1 g' b2 g a2 x m (chop_grouping p cands) Ea' Hinc Hmax Hxg' Hm). lia.
    - exfalso. apply in_split in Hg' as (b1 & b2 & ->).
      pose proof (grouping_apart p cands _ a1 g b1 g' b2 m x (chop_grouping p cands) Ea Hinc Hmax Hm Hxg'). lia. }
  rewrite Eg in Sg. rewrite Forall_forall in F1, F2.
  assert (Hord : forall y, In y l2 -> CoaTime m < CoaTime y).
  { intros y Hy. apply in_split in Hg as (a1 & a2 & Ea). pose proof (chop_concat (nsep p) cands) as C.
    rewrite Ea, Eg, concat_app in C. cbn [List.concat] in C. apply in_split in Hy as (y1 & y2 & ->).
    apply (pairwise_in (fun a b => CoaTime a < CoaTime b) (List.concat a1 ++ l1) m y1 y (y2 ++ List.concat a2)).
    replace ((List.concat a1 ++ l1) ++ m :: y1 ++ y :: y2 ++ List.concat a2) with cands; [exact Hinc|].
    rewrite <- C. clear. rewrite <- !app_assoc. cbn [app]. rewrite <- ?app_assoc. reflexivity. }
  apply in_app_or in Sg as [Sg|[<-|Sg]].
  - split; [apply Qlt_le_weak|intros _]; apply F1, Sg.
  - split; [apply Qle_refl|lia].
  - split; [apply F2, Sg|]. intros L. specialize (Hord x Sg). lia.
Qed.
End OneBatch.

Section TwoBatches.
Variables (c : clock) (p : params) (mid t1 o : Z) (d1 d2 : list scanrow) (th1 th2 : list Q)
  (cands1 cands2 : list candidate) (es1 es2 : list event).
Let gap := min_event_interval p + marginal_window p.
Hypothesis Hd : 0 < delta c.
Hypothesis OV : overlapping c mid gap t1 o d1 d2 th1 th2.
Hypothesis L1 : List.length d1 = List.length th1.
Hypothesis L2 : List.length d2 = List.length th2.
Hypothesis C1 : identify_candidates p d1 th1 = Ret cands1.
Hypothesis C2 : identify_candidates p d2 th2 = Ret cands2.
Hypothesis E1 : refine_candidates c p cands1 = Ret es1.
Hypothesis E2 : refine_candidates c p cands2 = Ret es2.

Lemma hit_shift j : 0 <= j -> j + o < Z.of_nat (List.length d1) -> hit p d2 th2 j <-> hit p d1 th1 (j + o).
Proof.
  intros H0 H1. unfold hit. rewrite (ov_rows _ _ _ _ _ _ _ _ _ OV j H0 H1), (ov_th _ _ _ _ _ _ _ _ _ OV j H0 H1).
  reflexivity.
Qed.
Lemma hit_bounds1 i : hit p d1 th1 i -> 0 <= i < Z.of_nat (List.length d1).
Proof. intros (r & x & H & _). eapply rd_bounds, H. Qed.
Lemma hit_bounds2 i : hit p d2 th2 i -> 0 <= i < Z.of_nat (List.length d2).
Proof. intros (r & x & H & _). eapply rd_bounds, H. Qed.
Lemma time_lt i j : t1 + i * delta c < t1 + j * delta c -> i < j.
Proof. intros H. apply (Z.mul_lt_mono_pos_r (delta c)); lia. Qed.

Lemma batches_apart e1 e2 : In e1 es1 -> In e2 es2 -> CoaTime (cand e1) < mid -> mid <= CoaTime (cand e2) ->
  CoaTime (cand e2) - CoaTime (cand e1) > gap.
Proof.
  intros H1 H2 T1 T2.
  destruct (Z_gt_le_dec (CoaTime (cand e2) - CoaTime (cand e1)) gap) as [|Hnear]; [assumption|exfalso].
  destruct (event_peak c p d1 th1 cands1 es1 L1 C1 E1 e1 H1) as (lo1 & hi1 & P1 & r1 & M1 & FL1 & Ec1 & Et1).
  destruct (event_peak c p d2 th2 cands2 es2 L2 C2 E2 e2 H2) as (lo2 & hi2 & p2 & r2 & M2 & FL2 & Ec2 & Et2).
  pose proof FL1 as (B1 & D1 & F1). pose proof FL2 as (B2 & D2 & F2).
  pose proof (rd_bounds _ _ _ _ D1) as R1. pose proof (rd_bounds _ _ _ _ D2) as R2.
  pose proof (ov_t1 _ _ _ _ _ _ _ _ _ OV _ _ D1) as S1. pose proof (ov_t2 _ _ _ _ _ _ _ _ _ OV _ _ D2) as S2.
  rewrite <- Z.add_assoc, <- Z.mul_add_distr_r, (Z.add_comm o) in S2.
  assert (Ho : o <= P1) by (apply (ov_before _ _ _ _ _ _ _ _ _ OV); [exact R1|lia]).
  assert (Hn : p2 + o < Z.of_nat (List.length d1)) by (apply (ov_after _ _ _ _ _ _ _ _ _ OV); [exact R2|lia]).
  assert (Hlt : P1 < p2 + o) by (apply time_lt; lia).
  assert (O0 := ov_start _ _ _ _ _ _ _ _ _ OV).
  destruct M1 as (M1a & M1b & M1c & M1d). destruct M2 as (M2a & M2b & M2c & M2d).
  (* the peak of batch 2 is a peak of batch 1 *)
  assert (Hh2 : hit p d1 th1 (p2 + o)) by (apply hit_shift; [lia..|apply M2b; lia]).
  destruct (in_runs _ _ _ _ Hh2) as (lo & hi & Hr & Hin). apply runs_maximal in Hr.
  destruct (run_candidate p d1 th1 cands1 L1 C1 lo hi Hr) as (b1 & Hb1 & (k & rk & f1 & f2 & FLk & _ & _ & Eb1 & _ & _ & Etb1 & _)).
  pose proof FLk as (Bk & Dk & Fk). pose proof Hr as (_ & Hrin & _). cbn [fst snd] in *.
  assert (Ek : k = p2 + o).
  { destruct (Z_lt_ge_dec k o) as [Lk|Lk].
    - exfalso. assert (Hsame : lo1 = lo /\ hi1 = hi).
      { eapply (run_unique p d1 th1 lo1 hi1 lo hi P1); [repeat split; assumption|exact Hr|lia|lia]. }
      destruct Hsame as [-> ->]. pose proof (first_largest_unique _ _ _ _ _ _ _ FL1 FLk). lia.
    - assert (Hk2 : lo2 <= k - o <= hi2).
      { apply (run_convex p d2 th2 lo2 hi2 p2 (k - o)); [repeat split; assumption|lia|].
        intros q Hq. apply hit_shift; [lia|pose proof (hit_bounds1 _ (Hrin (q + o) ltac:(lia))); lia|apply Hrin; lia]. }
      assert (Dk2 : rd d2 (k - o) = Some rk).
      { rewrite (ov_rows _ _ _ _ _ _ _ _ _ OV) by (pose proof (rd_bounds _ _ _ _ Dk); lia).
        replace (k - o + o) with k by lia. exact Dk. }
      assert (D2' : rd d1 (p2 + o) = Some r2).
      { rewrite <- (ov_rows _ _ _ _ _ _ _ _ _ OV) by lia. exact D2. }
      destruct (F2 (k - o) rk Dk2) as [G1 G2]. destruct (Fk (p2 + o) r2 D2') as [G3 G4].
      destruct (Z.lt_trichotomy k (p2 + o)) as [L|[L|L]]; [|exact L|]; exfalso; apply (Qlt_irrefl (COA rk)).
      + eapply Qlt_le_trans; [apply G1; lia|apply G4; lia].
      + eapply Qle_lt_trans; [apply G2; lia|apply G3; lia]. }
  subst k.
  (* the peak of batch 1 is a peak of batch 2 *)
  assert (Hh1 : hit p d2 th2 (P1 - o)).
  { apply hit_shift; [lia..|]. replace (P1 - o + o) with P1 by lia. apply M1b. lia. }
  destruct (in_runs _ _ _ _ Hh1) as (lo' & hi' & Hr' & Hin'). apply runs_maximal in Hr'.
  destruct (run_candidate p d2 th2 cands2 L2 C2 lo' hi' Hr') as (a2 & Ha2 & (k & rk' & f1' & f2' & FLk' & _ & _ & Ea2 & _ & _ & Eta2 & _)).
  pose proof FLk' as (Bk' & Dk' & Fk'). pose proof Hr' as (_ & Hrin' & _). cbn [fst snd] in *.
  assert (Ek' : k = P1 - o).
  { destruct (Z_lt_ge_dec (k + o) (Z.of_nat (List.length d1))) as [Lk|Lk].
    - assert (Hk1 : lo1 <= k + o <= hi1).
      { apply (run_convex p d1 th1 lo1 hi1 P1 (k + o)); [repeat split; assumption|lia|].
        intros q Hq. replace q with (q - o + o) by lia. pose proof (hit_bounds2 _ (Hrin' (q - o) ltac:(lia))).
        apply hit_shift; [lia|lia|apply Hrin'; lia]. }
      assert (Dk1 : rd d1 (k + o) = Some rk').
      { rewrite <- (ov_rows _ _ _ _ _ _ _ _ _ OV) by (pose proof (rd_bounds _ _ _ _ Dk'); lia). exact Dk'. }
      assert (D1' : rd d2 (P1 - o) = Some r1).
      { rewrite (ov_rows _ _ _ _ _ _ _ _ _ OV) by lia. replace (P1 - o + o) with P1 by lia. exact D1. }
      destruct (F1 (k + o) rk' Dk1) as [G1 G2]. destruct (Fk' (P1 - o) r1 D1') as [G3 G4].
      destruct (Z.lt_trichotomy k (P1 - o)) as [L|[L|L]]; [|exact L|]; exfalso; apply (Qlt_irrefl (COA rk')).
      + eapply Qlt_le_trans; [apply G1; lia|apply G4; lia].
      + eapply Qle_lt_trans; [apply G2; lia|apply G3; lia].
    - exfalso. assert (Hsame : lo2 = lo' /\ hi2 = hi').
      { eapply (run_unique p d2 th2 lo2 hi2 lo' hi' p2); [repeat split; assumption|exact Hr'|lia|lia]. }
      destruct Hsame as [-> ->]. pose proof (first_largest_unique _ _ _ _ _ _ _ FL2 FLk'). lia. }
  subst k.
  assert (Er1 : rk' = r1).
  { rewrite (ov_rows _ _ _ _ _ _ _ _ _ OV) in Dk' by lia. replace (P1 - o + o) with P1 in Dk' by lia. congruence. }
  assert (Er2 : rk = r2).
  { rewrite <- (ov_rows _ _ _ _ _ _ _ _ _ OV) in Dk by lia. congruence. }
  subst rk rk'.
  destruct (event_dominates c p t1 d1 th1 cands1 es1 Hd (ov_t1 _ _ _ _ _ _ _ _ _ OV) L1 C1 E1 e1 b1 H1 Hb1) as [Q1 _];
    [fold gap; lia|].
  destruct (event_dominates c p _ d2 th2 cands2 es2 Hd (ov_t2 _ _ _ _ _ _ _ _ _ OV) L2 C2 E2 e2 a2 H2 Ha2) as [_ Q2];
    [fold gap; lia|].
  specialize (Q2 ltac:(lia)). rewrite Etb1, Et1 in Q1. rewrite Eta2, Et2 in Q2.
  apply (Qlt_irrefl (trigger_on p r1)). eapply Qlt_le_trans; [exact Q2|exact Q1].
Qed.
End TwoBatches.

(** * Identifiers and decimal numbers *)
Lemma decimal_app a b : decimal (a ++ b) = decimal a * 10 ^ Z.of_nat (List.length b) + decimal b.
Proof.
  unfold decimal. rewrite fold_left_app.
  assert (G : forall b x, fold_left (fun n ch => 10 * n + (Z.of_nat (nat_of_ascii ch) - 48)) b x
     = x * 10 ^ Z.of_nat (List.length b) + fold_left (fun n ch => 10 * n + (Z.of_nat (nat_of_ascii ch) - 48)) b 0).
  { clear. induction b as [|ch b IH]; intros x; [cbn [fold_left List.length]; change (10 ^ Z.of_nat 0) with 1; lia|].
    cbn [fold_left List.length]. rewrite IH. rewrite (IH (10 * 0 + (Z.of_nat (nat_of_ascii ch) - 48))).
    rewrite Nat2Z.inj_succ, Z.pow_succ_r by lia. ring. }
  apply G.
Qed.
Lemma digit_code d : 0 <= d < 10 -> Z.of_nat (nat_of_ascii (digit d)) = 48 + d.
Proof. intros H. unfold digit. rewrite nat_ascii_embedding by lia. lia. Qed.
Lemma digits_spell w : forall n, 0 <= n < 10 ^ Z.of_nat w -> spells w n (digits w n).
Proof.
  induction w as [|w IH]; intros n Hn.
  { change (10 ^ Z.of_nat 0) with 1 in Hn. assert (n = 0) by lia. subst n. repeat split. constructor. }
  rewrite Nat2Z.inj_succ, Z.pow_succ_r in Hn by lia.
  pose proof (Z.div_mod n 10 ltac:(lia)). pose proof (Z.mod_pos_bound n 10 ltac:(lia)).
  destruct (IH (n / 10)) as (H1 & H2 & H3).
  { split; [apply Z.div_pos; lia|apply Z.div_lt_upper_bound; lia]. }
  cbn [digits]. split; [rewrite app_length, H1; cbn; lia|]. split.
  - apply Forall_app. split; [exact H2|]. constructor; [|constructor]. rewrite digit_code; lia.
  - rewrite decimal_app, H3. cbn [List.length]. change (10 ^ Z.of_nat 1) with 10.
    unfold decimal. cbn [fold_left]. rewrite digit_code by lia. lia.
Qed.
Lemma mod_small_unit us u : 0 < u -> (u * 60 | 86400000000) -> us mod 86400000000 / u mod 60 = us / u mod 60.
Proof.
  intros Hu [k Hk]. set (q := us / 86400000000).
  assert (E : us mod 86400000000 = us + (- (k * q) * 60) * u).
  { pose proof (Z.div_mod us 86400000000 ltac:(lia)). fold q in H. rewrite Hk in H at 1. lia. }
  rewrite E, Z.div_add, Z.mod_add by lia. reflexivity.
Qed.
Lemma mod_ms us : us mod 86400000000 / 1000 mod 1000 = us / 1000 mod 1000.
Proof.
  set (q := us / 86400000000).
  assert (E : us mod 86400000000 = us + (- (86400 * q) * 1000) * 1000) by (pose proof (Z.div_mod us 86400000000 ltac:(lia)); lia).
  rewrite E, Z.div_add, Z.mod_add by lia. reflexivity.
Qed.
Lemma month_days_le y m : month_days y m <= 31.
Proof. unfold month_days. destruct (m =? 2); [destruct (leap y); lia|]. destruct (_ || _); lia. Qed.
Lemma id_of_spells us : 0 <= year (us / 86400000000) <= 9999 -> spells_time civil us (id_of us).
Proof.
  intros Hy. unfold id_of. cbv zeta. do 7 eexists. split; [reflexivity|]. rewrite civil_split.
  pose proof (civil_valid (us / 86400000000)) as V. rewrite civil_split in V. destruct V as [Hm Hd].
  pose proof (month_days_le (year (us / 86400000000)) (month (us / 86400000000))).
  pose proof (Z.mod_pos_bound us 86400000000 ltac:(lia)) as Bs.
  rewrite (mod_small_unit us 60000000) by (try lia; exists 24; reflexivity).
  rewrite (mod_small_unit us 1000000) by (try lia; exists 1440; reflexivity). rewrite mod_ms.
  assert (P2 : 10 ^ Z.of_nat 2 = 100) by reflexivity. assert (P3 : 10 ^ Z.of_nat 3 = 1000) by reflexivity.
  assert (P4 : 10 ^ Z.of_nat 4 = 10000) by reflexivity.
  assert (B60 : forall x, 0 <= x mod 60 < 100) by (intros x; pose proof (Z.mod_pos_bound x 60 ltac:(lia)); lia).
  assert (B24 : 0 <= us mod 86400000000 / 3600000000 < 100) by (split; [apply Z.div_pos; lia|apply Z.div_lt_upper_bound; lia]).
  split; [|split; [|split; [|split; [|split; [|split]]]]]; apply digits_spell; rewrite ?P2, ?P3, ?P4; auto; try lia.
  apply Z.mod_pos_bound. lia.
Qed.

(** * Thresholds, sample by sample *)
Lemma int_of_window len rate w : window_samples len rate w -> chunk_length (len * rate) = w.
Proof.
  intros (H1 & H2 & H3). unfold chunk_length, int_of.
  generalize dependent (len * rate)%Q. intros [n d] H2 H3. unfold Qle, Qlt, inject_Z in *. cbn [Qnum Qden] in *.
  rewrite Z.quot_div_nonneg by lia.
  assert (E : n / Zpos d = w) by (symmetry; apply (Z.div_unique _ _ _ (n - w * Zpos d)); lia). lia.
Qed.
Lemma rd_map_ {A B} (f : A -> B) l i : rd (map f l) i = option_map f (rd l i).
Proof. unfold rd. destruct (i <? 0); [reflexivity|]. rewrite nth_error_map. reflexivity. Qed.
Lemma threshold_length p values rate : List.length (get_threshold p values rate) = List.length values.
Proof.
  unfold get_threshold. destruct (threshold_method p).
  - apply map_length.
  - rewrite map_length, combine_length.
    rewrite (proj1 (trace_ok median values _ _)), (proj1 (trace_ok calculate_mad values _ _)). lia.
  - rewrite map_length. apply (trace_ok median values).
Qed.
Lemma threshold_at p values rate i : 0 <= i < Z.of_nat (List.length values) ->
  rd (get_threshold p values rate) i = Some
    match threshold_method p with
    | Static => (0 + static_threshold p)%Q
    | Mad => let ch := chunk_of (chunk_length (mad_window_length p * rate)) values i in
             (median ch + calculate_mad ch * mad_multiplier p)%Q
    | MedianRatio => (median (chunk_of (chunk_length (median_window_length p * rate)) values i) * median_multiplier p)%Q
    end.
Proof.
  intros Hi. unfold get_threshold. destruct (threshold_method p); rewrite rd_map_.
  - destruct (rd values i) as [v|] eqn:E; [reflexivity|]. unfold rd in E. destruct (Z.ltb_spec i 0); [lia|].
    apply nth_error_None in E. lia.
  - cbv zeta. rewrite (rd_combine_ _ _ _ _ _ (proj2 (trace_ok median values _ _) i Hi) (proj2 (trace_ok calculate_mad values _ _) i Hi)).
    reflexivity.
  - rewrite (proj2 (trace_ok median values _ _) i Hi). reflexivity.
Qed.
Lemma sorted_ge (x : Q) s : Sorted Qle s -> Forall (fun y => x <= y)%Q s -> forall i, (i < List.length s)%nat -> (x <= nth i s 0)%Q.
Proof. intros _ F i Hi. rewrite Forall_forall in F. apply F, nth_In, Hi. Qed.
Lemma median_ge (x : Q) l m : l <> [] -> is_median l m -> Forall (fun y => x <= y)%Q l -> (x <= m)%Q.
Proof.
  intros Hl (s & P & S & E) F. assert (F' : Forall (fun y => x <= y)%Q s) by (eapply Permutation_Forall; [symmetry; exact P|exact F]).
  assert (Hs : (0 < List.length s)%nat) by (rewrite (Permutation_length P); destruct l; [congruence|cbn; lia]).
  pose proof (sorted_ge x s S F' ((List.length s - 1) / 2)) as A. pose proof (sorted_ge x s S F' (List.length s / 2)) as B.
  assert (A1 : ((List.length s - 1) / 2 < List.length s)%nat) by (apply Nat.div_lt_upper_bound; lia).
  assert (B1 : (List.length s / 2 < List.length s)%nat) by (apply Nat.div_lt_upper_bound; lia).
  specialize (A A1). specialize (B B1). rewrite E. apply Qle_shift_div_l; [reflexivity|].
  setoid_replace (x * 2)%Q with (x + x)%Q by ring. apply Qplus_le_compat; assumption.
Qed.
Lemma mad_nonneg l d : l <> [] -> is_mad l d -> (0 <= d)%Q.
Proof.
  intros Hl (x & y & _ & Hy & ->). apply Qmult_le_0_compat; [discriminate|].
  eapply median_ge; [|exact Hy|]; [destruct l; [congruence|discriminate]|].
  apply Forall_map. apply Forall_forall. intros v _. apply Qabs_nonneg.
Qed.
Lemma chunk_nonempty {A} w (l : list A) i : 1 <= w -> 0 <= i < Z.of_nat (List.length l) -> chunk_of w l i <> [].
Proof.
  intros Hw Hi E. apply (f_equal (@List.length A)) in E. unfold chunk_of in E. rewrite firstn_length, skipn_length in E.
  pose proof (Z.mul_div_le i w ltac:(lia)). pose proof (Z.div_pos i w ltac:(lia) ltac:(lia)). rewrite Z.mul_comm in H.
  assert (0 <= i / w * w) by (apply Z.mul_nonneg_nonneg; lia). cbn in E. lia.
Qed.

(** * Whole batches and runs *)
Lemma batch_threshold_length c p data : List.length data = List.length (batch_threshold c p data).
Proof. unfold batch_threshold. rewrite threshold_length, map_length. reflexivity. Qed.
Lemma trigger_batch_inv c p read reg w s e w' es : trigger_batch c p read reg w s e = Ret (w', es) ->
  exists data cands refined,
    read s e = Ret data /\ identify_candidates p data (batch_threshold c p data) = Ret cands /\
    refine_candidates c p cands = Ret refined /\
    es = filter_events refined s (if e mod day c =? 0 then e - delta c else e) reg /\
    w' = (match cands with [] => w | _ => write_triggered_events c w es s (write_event_time_windows p) end) /\
    (cands = [] -> es = []).
Proof.
  unfold trigger_batch, bind. destruct (read s e) as [data| |]; [|discriminate..].
  fold (batch_threshold c p data). destruct (identify_candidates p data (batch_threshold c p data)) as [cands| |] eqn:Ec; [|discriminate..].
  destruct cands as [|x cands].
  - intros E. injection E as <- <-. exists data, [], []. repeat split; [exact Ec|]. unfold filter_events. destruct reg; reflexivity.
  - destruct (refine_candidates c p (x :: cands)) as [refined| |] eqn:Er; [|discriminate..].
    intros E. injection E as <- <-. exists data, (x :: cands), refined. repeat split; auto. discriminate.
Qed.
Lemma filter_events_in l s e reg x : In x (filter_events l s e reg) <->
  In x l /\ s <= CoaTime (cand x) <= e /\ match reg with Some g => in_region g (cand x) | None => True end.
Proof.
  unfold filter_events. cbv zeta. destruct reg as [g|]; rewrite ?filter_In.
  - rewrite !andb_true_iff, !Qle_bool_iff, !Z.leb_le. unfold in_region. tauto.
  - rewrite andb_true_iff, !Z.leb_le. tauto.
Qed.
Lemma filter_events_filter l s e reg : exists f, filter_events l s e reg = filter f l.
Proof.
  unfold filter_events. cbv zeta. destruct reg as [g|]; [|eexists; reflexivity].
  assert (G : forall A (f g : A -> bool) l, filter f (filter g l) = filter (fun x => f x && g x) l).
  { clear. intros A f g l. induction l as [|x l IH]; [reflexivity|]. cbn. destruct (g x); cbn; destruct (f x); cbn; rewrite IH; reflexivity. }
  rewrite G. eexists. reflexivity.
Qed.
Lemma batch_events_apart c p read reg w s e w' es t0 data : 0 < delta c ->
  trigger_batch c p read reg w s e = Ret (w', es) -> read s e = Ret data -> sampled c t0 data ->
  pairwise_ (fun a b => CoaTime (cand b) - CoaTime (cand a) > min_event_interval p + marginal_window p
                        /\ CoaTime (cand b) - CoaTime (cand a) >= 2 * delta c) es.
Proof.
  intros Hd E Er Hs. destruct (trigger_batch_inv _ _ _ _ _ _ _ _ _ E) as (d & cands & refined & E1 & E2 & E3 & -> & _).
  rewrite Er in E1. injection E1 as <-.
  destruct (filter_events_filter refined s (if e mod day c =? 0 then e - delta c else e) reg) as (f & ->).
  apply pairwise_filter.
  apply (events_apart c p t0 data (runs_of p data (batch_threshold c p data)) cands); try assumption; [apply runs_ordered|].
  apply cands_of_runs; [apply batch_threshold_length|exact E2].
Qed.
Lemma batch_events_accepted c p read reg w s e w' es x : trigger_batch c p read reg w s e = Ret (w', es) ->
  In x es -> accepts c (s, e) (CoaTime (cand x)) /\ EventID x = event_uid c (CoaTime (cand x)).
Proof.
  intros E Hx. destruct (trigger_batch_inv _ _ _ _ _ _ _ _ _ E) as (d & cands & refined & E1 & E2 & E3 & -> & _).
  apply filter_events_in in Hx as (Hx & Ht & _). split; [exact Ht|].
  destruct (refine_ok c p cands) as (es' & E' & G). rewrite E3 in E'. injection E' as <-.
  destruct (Forall2_in_r _ _ _ _ G Hx) as (g & _ & _ & H). exact H.
Qed.
Lemma no_candidates p data th : List.length data = List.length th ->
  (identify_candidates p data th = Ret [] <-> forall i, ~ hit p data th i).
Proof.
  intros L. destruct (identify_ok p data th L) as (cs & E & F). rewrite E. split.
  - intros H i Hi. injection H as ->. inversion F as [Hr|]. destruct (in_runs _ _ _ _ Hi) as (lo & hi & H & _).
    rewrite <- Hr in H. contradiction.
  - intros H. destruct cs as [|x cs]; [reflexivity|]. inversion F as [|r y rs ys Hr HF Er Ey]; subst. destruct r as [lo hi].
    assert (M : maximal_run p data th lo hi) by (apply runs_maximal; rewrite <- Er; left; reflexivity).
    destruct M as (M1 & M2 & _). exfalso. apply (H lo), M2. lia.
Qed.

Section Runs.
Variables (c : clock) (p : params) (read : Z -> Z -> outcome (list scanrow)) (reg : option region).
Hypothesis Hday : 0 < day c.
(** What a batch does to the file of its date. *)
Definition outcome_of (w w' : world) (b : Z * Z) (es : list event) : Prop :=
  exists data, read (fst b) (snd b) = Ret data /\
   (((exists i, hit p data (batch_threshold c p data) i) /\
     exists cols, tfiles w' (fst b / day c) = Some (cols, es) /\
                  (write_event_time_windows p = false -> cols = output_cols w)) \/
    ((forall i, ~ hit p data (batch_threshold c p data) i) /\ es = [] /\ tfiles w' (fst b / day c) = tfiles w (fst b / day c))).
Lemma batch_files w s e w' es : trigger_batch c p read reg w s e = Ret (w', es) ->
  outcome_of w w' (s, e) es /\ (forall d, d <> s / day c -> tfiles w' d = tfiles w d) /\
  (write_event_time_windows p = false -> output_cols w' = output_cols w).
Proof.
  intros E. destruct (trigger_batch_inv _ _ _ _ _ _ _ _ _ E) as (data & cands & refined & E1 & E2 & E3 & E4 & Ew & En).
  pose proof (no_candidates p data _ (batch_threshold_length c p data)) as N.
  destruct cands as [|x cands].
  - subst w'. split; [|auto]. exists data. split; [exact E1|]. right. rewrite <- N. auto.
  - split; [|split].
    + exists data. split; [exact E1|]. left. split.
      * pose proof (cands_of_runs p data _ _ (batch_threshold_length c p data) E2) as F.
        inversion F as [|r y rs ys Hr HF Er Ey]; subst y. destruct r as [lo hi].
        assert (M : maximal_run p data (batch_threshold c p data) lo hi) by (apply runs_maximal; rewrite <- Er; left; reflexivity).
        destruct M as (M1 & M2 & _). exists lo. apply M2. lia.
      * rewrite Ew. eexists. cbn [fst snd write_triggered_events tfiles]. rewrite Z.eqb_refl. split; [reflexivity|].
        intros ->. reflexivity.
    + intros d Hd. rewrite Ew. cbn [write_triggered_events tfiles]. destruct (Z.eqb_spec d (s / day c)); [contradiction|reflexivity].
    + intros Hw. rewrite Ew. cbn [write_triggered_events output_cols]. rewrite Hw. reflexivity.
Qed.
Lemma run_files s e l : batched c s e l -> forall w w' ess, run_batches c p read reg w l = Ret (w', ess) ->
  Forall2 (outcome_of w w') l ess /\
  (forall d, d < s / day c \/ (e - 1) / day c < d -> tfiles w' d = tfiles w d) /\
  (write_event_time_windows p = false -> output_cols w' = output_cols w) /\
  map (fun b => fst b / day c) l = zseq (s / day c) (List.length l) /\
  (s < e -> s / day c + Z.of_nat (List.length l) = (e - 1) / day c + 1).
Proof.
  induction 1 as [s e Hse|s e l Hse Hb IH]; intros w w' ess E.
  - injection E as <- <-. repeat split; auto. lia.
  - cbn [run_batches] in E. unfold bind in E.
    set (b := (s, Z.min (s / day c * day c + day c) e)) in *.
    destruct (trigger_batch c p read reg w s (Z.min (s / day c * day c + day c) e)) as [[w1 es]| |] eqn:Eb; [|discriminate..].
    cbn [fst snd] in E.
    destruct (run_batches c p read reg w1 l) as [[w2 ess']| |] eqn:Er; [|discriminate..]. cbn [fst snd] in E. injection E as <- <-.
    destruct (IH _ _ _ Er) as (I1 & I2 & I3 & I4 & I5). clear IH.
    destruct (batch_files _ _ _ _ _ Eb) as (B1 & B2 & B3). fold b in B1.
    set (nd := s / day c * day c + day c) in *.
    assert (End : nd / day c = s / day c + 1).
    { unfold nd. rewrite <- Z.mul_succ_l. apply Z.div_mul. lia. }
    destruct (next_day_facts c Hday s) as (N1 & _ & N2 & _). fold nd in N1, N2.
    assert (Le : s / day c <= (e - 1) / day c) by (apply Z.div_le_mono; lia).
    split; [constructor|split; [|split; [|split]]].
    + assert (Keep : tfiles w2 (fst b / day c) = tfiles w1 (fst b / day c)) by (apply I2; cbn [fst b]; left; cbn [b fst]; lia).
      destruct B1 as (data & R & [(H & cols & T & C)|(H & H' & T)]); exists data; (split; [exact R|]); [left|right].
      * split; [exact H|]. exists cols. rewrite Keep. auto.
      * rewrite Keep. auto.
    + assert (Fl : Forall (fun b' => fst b' / day c <> s / day c) l).
      { apply Forall_forall. intros b' Hb'. assert (In (fst b' / day c) (map (fun b => fst b / day c) l)) by (apply in_map with (f := fun b => fst b / day c); exact Hb').
        rewrite I4 in H. apply in_zseq in H. lia. }
      clear - I1 Fl B2 B3. induction I1 as [|b' es' l' ess' (data & R & Hh) F IHF]; [constructor|].
      inversion Fl as [|? ? F1 F2]; subst. constructor; [|apply IHF; assumption].
      exists data. split; [exact R|]. destruct Hh as [(H & cols & T & C)|(H & H' & T)]; [left|right].
      * split; [exact H|]. exists cols. split; [exact T|]. intros Hw. rewrite (C Hw). auto.
      * split; [exact H|]. split; [exact H'|]. rewrite T. auto.
    + intros d Hd. rewrite I2, B2; [reflexivity|lia|].
      destruct Hd as [Hd|Hd]; [left; lia|right; exact Hd].
    + intros Hw. rewrite I3, B3 by assumption. reflexivity.
    + cbn [map List.length zseq]. rewrite I4, End. reflexivity.
    + intros _. cbn [List.length]. destruct (Z_lt_ge_dec nd e) as [L|L]; [specialize (I5 L); lia|].
      inversion Hb; subst; [|lia]. cbn [List.length]. pose proof (Z.div_le_mono (e - 1) (nd - 1) (day c) Hday ltac:(lia)). lia.
Qed.

Lemma run_events_accepted l : forall w w' ess, run_batches c p read reg w l = Ret (w', ess) ->
  Forall2 (fun b es => Forall (fun x => accepts c b (CoaTime (cand x)) /\ EventID x = event_uid c (CoaTime (cand x))) es) l ess.
Proof.
  induction l as [|[s e] l IH]; intros w w' ess E; cbn [run_batches] in E.
  - injection E as <- <-. constructor.
  - unfold bind in E. destruct (trigger_batch c p read reg w s e) as [[w1 es]| |] eqn:Eb; [|discriminate..]. cbn [fst snd] in E.
    destruct (run_batches c p read reg w1 l) as [[w2 ess']| |] eqn:Er; [|discriminate..]. injection E as <- <-.
    constructor; [|eapply IH, Er]. apply Forall_forall. intros x Hx. eapply batch_events_accepted; eassumption.
Qed.
Lemma concat_files (w' : world) (l : list (Z * Z)) ess :
  Forall2 (fun b es => tfiles w' (fst b / day c) = None /\ es = [] \/ exists cols, tfiles w' (fst b / day c) = Some (cols, es)) l ess ->
  List.concat (flat_map (fun d => match tfiles w' d with Some f => [snd f] | None => [] end) (map (fun b => fst b / day c) l)) = List.concat ess.
Proof.
  induction 1 as [|b es l ess H F IH]; [reflexivity|]. cbn [map flat_map]. rewrite concat_app, IH. cbn [List.concat].
  destruct H as [[-> ->]|(cols & ->)]; cbn [List.concat snd]; rewrite ?app_nil_r; reflexivity.
Qed.
Lemma read_back_run s e l w w' ess : 0 < delta c -> batched c s e l -> run_batches c p read reg w l = Ret (w', ess) ->
  (forall d, s / day c <= d <= e / day c -> tfiles w d = None) ->
  match read_triggered_events c w' s e with
  | Ret es => es = List.concat ess
  | Raise x => x = NoTriggerFilesFound /\ List.concat ess = []
  | Undef => False
  end.
Proof.
  intros Hd Hb E Hn. destruct (run_files s e l Hb w w' ess E) as (F & U & _ & D & Len).
  pose proof (run_events_accepted l _ _ _ E) as A.
  set (get := fun d => match tfiles w' d with Some f => [snd f] | None => [] end).
  assert (Days : List.concat (flat_map get (zseq (s / day c) (Z.to_nat (e / day c - s / day c + 1)))) = List.concat ess).
  { destruct (Z_lt_ge_dec s e) as [L|L].
    - specialize (Len L).
      pose proof (Z.div_mod e (day c) ltac:(lia)) as Ee. pose proof (Z.mod_pos_bound e (day c) Hday) as Be.
      assert (HH : e / day c = (e - 1) / day c \/ (e / day c = (e - 1) / day c + 1)).
      { destruct (Z.eq_dec (e mod day c) 0) as [Z0|Z0].
        - right. assert ((e - 1) / day c = e / day c - 1); [|lia]. symmetry. apply (Z.div_unique _ _ _ (day c - 1)); lia.
        - left. apply (Z.div_unique _ _ _ (e mod day c - 1)); lia. }
      assert (Base : List.concat (flat_map get (map (fun b => fst b / day c) l)) = List.concat ess).
      { apply concat_files. assert (Fin : Forall (fun b => tfiles w (fst b / day c) = None) l).
        { apply Forall_forall. intros b Hb'. apply Hn.
          assert (Hi : In (fst b / day c) (map (fun b => fst b / day c) l)) by (apply in_map with (f := fun b : Z * Z => fst b / day c); exact Hb').
          rewrite D in Hi. apply in_zseq in Hi. lia. }
        clear - F Fin. induction F as [|b es l ess (data & _ & H) F IH]; [constructor|].
        inversion Fin as [|? ? F1 F2]; subst. constructor; [|apply IH; assumption].
        destruct H as [(_ & cols & T & _)|(_ & -> & T)]; [right; eauto|left]. rewrite T. auto. }
      rewrite D in Base. destruct HH as [H|H].
      + replace (Z.to_nat (e / day c - s / day c + 1)) with (List.length l) by lia. exact Base.
      + replace (Z.to_nat (e / day c - s / day c + 1)) with (List.length l + 1)%nat by lia.
        rewrite zseq_app, flat_map_app, concat_app, Base. cbn [zseq flat_map]. unfold get at 1.
        rewrite U by lia. rewrite Hn by lia. rewrite app_nil_r. reflexivity.
    - inversion Hb; subst; [|lia]. injection E as <- <-. cbn [List.concat].
      assert (G : forall d, s / day c <= d <= e / day c -> get d = []) by (intros d Hdd; unfold get; rewrite Hn by exact Hdd; reflexivity).
      assert (G2 : flat_map get (zseq (s / day c) (Z.to_nat (e / day c - s / day c + 1))) = []); [|rewrite G2; reflexivity].
      assert (Z0 : forall l, Forall (fun d => get d = []) l -> flat_map get l = []).
      { clear. induction 1 as [|d l H F IH]; [reflexivity|]. cbn [flat_map]. rewrite H, IH. reflexivity. }
      apply Z0, Forall_forall. intros d Hdd. apply in_zseq in Hdd. apply G. lia. }
  assert (Acc : Forall (fun x => s <= CoaTime (cand x) <= e /\ (e mod day c = 0 -> CoaTime (cand x) < e)) (List.concat ess)).
  { apply Forall_forall. intros x Hx. apply in_concat in Hx as (es & Hes & Hx).
    destruct (Forall2_in_r _ _ _ _ A Hes) as (b & Hb' & HF). rewrite Forall_forall in HF. destruct (HF x Hx) as [Hacc _].
    eapply batched_only; eassumption. }
  rewrite Forall_forall in Acc.
  assert (Keep : forall f, (forall x, In x (List.concat ess) -> f x = true) -> filter f (List.concat ess) = List.concat ess).
  { clear. intros f H. induction (List.concat ess) as [|x l IH]; [reflexivity|]. cbn [filter]. rewrite (H x) by (left; reflexivity).
    f_equal. apply IH. intros y Hy. apply H. right. exact Hy. }
  unfold read_triggered_events. cbv zeta. fold get.
  destruct (flat_map get (zseq (s / day c) (Z.to_nat (e / day c - s / day c + 1)))) as [|f fs]; [auto|].
  rewrite Days. destruct (Z.eqb_spec (e mod day c) 0) as [M|M]; apply Keep; intros x Hx; destruct (Acc x Hx) as [H1 H2].
  - specialize (H2 M). apply andb_true_iff. split; [apply Z.leb_le|apply Z.ltb_lt]; lia.
  - apply andb_true_iff. split; apply Z.leb_le; lia.
Qed.

(** Identifiers over a whole run. *)
Lemma id_differ t t' : 0 < sec c -> 0 <= year (to_us c t / 86400000000) <= 9999 -> 0 <= year (to_us c t' / 86400000000) <= 9999 ->
  (sec c <= 1000 * (t' - t) \/ exists k, t < k * day c <= t') -> event_uid c t <> event_uid c t'.
Proof.
  intros Hs Y Y' H E. rewrite !event_uid_ok in E. apply id_inj in E; [|assumption..].
  assert (Hlt : to_us c t / 1000 < to_us c t' / 1000); [|lia]. unfold to_us. rewrite !Z.div_div by lia.
  destruct H as [H|(k & H1 & H2)].
  - assert (G : (t * 1000000 + 1 * (sec c * 1000)) / (sec c * 1000) <= t' * 1000000 / (sec c * 1000)) by (apply Z.div_le_mono; lia).
    rewrite Z.div_add in G by lia. lia.
  - unfold day in *.
    assert (G : t * 1000000 / (sec c * 1000) < k * 86400000) by (apply Z.div_lt_upper_bound; lia).
    assert (G' : k * 86400000 <= t' * 1000000 / (sec c * 1000)) by (apply Z.div_le_lower_bound; lia). lia.
Qed.
Lemma pairwise_app {A} (R : A -> A -> Prop) l1 l2 : pairwise_ R l1 -> pairwise_ R l2 ->
  (forall a b, In a l1 -> In b l2 -> R a b) -> pairwise_ R (l1 ++ l2).
Proof.
  intros H1 H2 H. induction l1 as [|x l1 IH]; [exact H2|]. destruct H1 as [F1 H1]. cbn [app pairwise_]. split.
  - apply Forall_app. split; [exact F1|]. apply Forall_forall. intros b Hb. apply H; [left; reflexivity|exact Hb].
  - apply IH; [exact H1|]. intros a b Ha Hb. apply H; [right; exact Ha|exact Hb].
Qed.
Lemma run_times_apart s e l : 0 < delta c -> batched c s e l -> forall w w' ess, run_batches c p read reg w l = Ret (w', ess) ->
  (forall b data, In b l -> read (fst b) (snd b) = Ret data -> exists t0, sampled c t0 data) ->
  pairwise_ (fun a b => EventID a = event_uid c (CoaTime (cand a)) /\ EventID b = event_uid c (CoaTime (cand b)) /\
     (Z.max (2 * delta c) (min_event_interval p + marginal_window p) <= CoaTime (cand b) - CoaTime (cand a)
      \/ exists k, CoaTime (cand a) < k * day c <= CoaTime (cand b))) (List.concat ess).
Proof.
  intros Hd. induction 1 as [s e Hse|s e l Hse Hb IH]; intros w w' ess E Hs; cbn [run_batches] in E.
  - injection E as <- <-. exact I.
  - unfold bind in E. set (b := (s, Z.min (s / day c * day c + day c) e)) in *.
    destruct (trigger_batch c p read reg w s (Z.min (s / day c * day c + day c) e)) as [[w1 es]| |] eqn:Eb; [|discriminate..].
    cbn [fst snd] in E.
    destruct (run_batches c p read reg w1 l) as [[w2 ess']| |] eqn:Er; [|discriminate..]. cbn [fst snd] in E. injection E as <- <-.
    cbn [List.concat]. apply pairwise_app.
    + destruct (trigger_batch_inv _ _ _ _ _ _ _ _ _ Eb) as (data & _ & _ & Rd & _).
      destruct (Hs b data (or_introl eq_refl) Rd) as (t0 & Hsam).
      pose proof (batch_events_apart _ _ _ _ _ _ _ _ _ _ _ Hd Eb Rd Hsam) as P.
      apply pairwise_split. intros l1 a l2 b' l3 El. subst es.
      apply pairwise_in in P. destruct (batch_events_accepted _ _ _ _ _ _ _ _ _ a Eb) as [_ Ia]; [apply in_or_app; right; left; reflexivity|].
      destruct (batch_events_accepted _ _ _ _ _ _ _ _ _ b' Eb) as [_ Ib]; [apply in_or_app; right; right; apply in_or_app; right; left; reflexivity|].
      split; [exact Ia|]. split; [exact Ib|]. left. lia.
    + eapply IH; [exact Er|]. intros b' data Hb'. apply Hs. right. exact Hb'.
    + intros a b' Ha Hb'. destruct (batch_events_accepted _ _ _ _ _ _ _ _ _ a Eb Ha) as [Aa Ia].
      apply in_concat in Hb' as (es' & Hes & Hx). pose proof (run_events_accepted _ _ _ _ Er) as A.
      destruct (Forall2_in_r _ _ _ _ A Hes) as (q & Hq & HF). rewrite Forall_forall in HF. destruct (HF b' Hx) as [Hacc Ib].
      split; [exact Ia|]. split; [exact Ib|]. right. exists (s / day c + 1). rewrite Z.mul_add_distr_r, Z.mul_1_l.
      pose proof (batched_inside c Hday _ _ _ Hb) as In. rewrite Forall_forall in In. destruct (In q Hq) as (Q1 & Q2 & _).
      destruct Hacc as [Hacc _]. destruct Aa as [_ Aa]. cbn [fst snd] in Aa. fold (day c) in Aa.
      rewrite Z.min_l in Aa by lia. destruct (next_day_facts c Hday s) as (_ & N & _). rewrite N in Aa. cbn [Z.eqb] in Aa. lia.
Qed.
End Runs.

Lemma Forall2_impl {A B} (R S : A -> B -> Prop) l l' : (forall a b, R a b -> S a b) -> Forall2 R l l' -> Forall2 S l l'.
Proof. intros H. induction 1; constructor; auto. Qed.
Lemma nth_error_firstn_lt {A} (l : list A) : forall n k, (k < n)%nat -> nth_error (firstn n l) k = nth_error l k.
Proof. induction l as [|x l IH]; intros [|n] [|k] H; cbn; try lia; try reflexivity. apply IH. lia. Qed.
Lemma nth_error_skipn_ {A} (l : list A) : forall n k, nth_error (skipn n l) k = nth_error l (n + k).
Proof. induction l as [|x l IH]; intros [|n] k; cbn; try reflexivity; [destruct k; reflexivity|apply IH]. Qed.
