(** Interleavings of threads with disjoint write sets have one possible outcome. *)
From Coq Require Import List ZArith Lia Bool.
From Verif Require Import Lib LibFacts Migrate_Model.
Import ListNotations.
Local Open Scope nat_scope.

Section Generic.
  Context {Mem Reg Instr Loc V : Type}.
  Variable exec : Instr -> Mem * Reg -> option (Mem * Reg).
  Variable look : Mem -> Loc -> V.

  Fixpoint run (p : list Instr) (st : Mem * Reg) : option (Mem * Reg) :=
    match p with
    | [] => Some st
    | i :: p' => match exec i st with Some st' => run p' st' | None => None end
    end.

  Definition agree (D : Loc -> Prop) (m1 m2 : Mem) : Prop := forall a, D a -> look m1 a = look m2 a.

  (** The step touches only locations in [D]. *)
  Definition local (D : Loc -> Prop) (i : Instr) : Prop :=
    (forall m r m' r', exec i (m, r) = Some (m', r') -> forall a, ~ D a -> look m' a = look m a) /\
    (forall m1 m2 r m1' r', agree D m1 m2 -> exec i (m1, r) = Some (m1', r') ->
       exists m2', exec i (m2, r) = Some (m2', r') /\ agree D m1' m2').

  Lemma run_agree D p : Forall (local D) p -> forall m1 m2 r m1' r',
    agree D m1 m2 -> run p (m1, r) = Some (m1', r') ->
    exists m2', run p (m2, r) = Some (m2', r') /\ agree D m1' m2'.
  Proof.
    induction 1 as [|i p Hi Hp IH]; intros m1 m2 r m1' r' Ha Hr; cbn [run] in *.
    - injection Hr as <- <-. eauto.
    - destruct (exec i (m1, r)) as [[m1a ra]|] eqn:E; [|discriminate].
      destruct Hi as [_ Hl]. destruct (Hl _ _ _ _ _ Ha E) as [m2a [E2 Ha2]]. rewrite E2. eauto.
  Qed.

  (** Ownership table: for each thread its locations and the memory its program leads to alone. *)
  Definition owners := list ((Loc -> Prop) * Mem).

  Definition disjoint_owners (os : owners) : Prop :=
    forall j k D E m n, nth_error os j = Some (D, m) -> nth_error os k = Some (E, n) -> j <> k ->
    forall a, D a -> E a -> False.

  Definition tinv (m0 : Mem) (os : owners) (c : config (Mem:=Mem) (Reg:=Reg) (Instr:=Instr)) : Prop :=
    length (snd c) = length os /\
    (forall k r p, nth_error (snd c) k = Some (r, p) ->
       exists D mt, nth_error os k = Some (D, mt) /\ Forall (local D) p /\
         exists mf rf, run p (fst c, r) = Some (mf, rf) /\ agree D mf mt) /\
    (forall a, (forall D mt, In (D, mt) os -> ~ D a) -> look (fst c) a = look m0 a).

  Lemma tinv_step m0 os c c' :
    disjoint_owners os -> tinv m0 os c -> tstep exec c c' -> tinv m0 os c'.
  Proof.
    intros Hd (Hlen & Hth & Hframe) Hstep.
    destruct Hstep as [m bef r i p aft m' r' Hexec].
    cbn [fst snd] in *.
    assert (Hk : nth_error (bef ++ (r, i :: p) :: aft) (length bef) = Some (r, i :: p)).
    { rewrite nth_error_app2, Nat.sub_diag by lia. reflexivity. }
    destruct (Hth _ _ _ Hk) as (D & mt & HD & Hloc & mf & rf & Hrun & Hag).
    inversion Hloc as [|? ? Hli Hlp]; subst.
    cbn [run] in Hrun. rewrite Hexec in Hrun.
    repeat split; cbn [fst snd].
    - rewrite app_length in *. cbn [length] in *. exact Hlen.
    - intros k r1 p1 Hk1.
      destruct (Nat.eq_dec k (length bef)) as [->|Hne].
      + rewrite nth_error_app2, Nat.sub_diag in Hk1 by lia. cbn in Hk1. injection Hk1 as <- <-.
        exists D, mt. split; [exact HD|]. split; [exact Hlp|]. exists mf, rf. split; assumption.
      + assert (Hk2 : nth_error (bef ++ (r, i :: p) :: aft) k = Some (r1, p1)).
        { destruct (Nat.lt_ge_cases k (length bef)).
          - rewrite nth_error_app1 in * by lia. exact Hk1.
          - rewrite nth_error_app2 in * by lia.
            destruct (k - length bef) as [|q] eqn:Eq; [lia|]. cbn in *. exact Hk1. }
        destruct (Hth _ _ _ Hk2) as (D1 & mt1 & HD1 & Hloc1 & mf1 & rf1 & Hrun1 & Hag1).
        exists D1, mt1. split; [exact HD1|]. split; [exact Hloc1|].
        assert (Hsame : agree D1 m m').
        { intros a Ha. destruct Hli as [Hw _]. symmetry. apply (Hw _ _ _ _ Hexec).
          intros Da. exact (Hd _ _ _ _ _ _ HD1 HD Hne a Ha Da). }
        destruct (run_agree D1 p1 Hloc1 _ _ _ _ _ Hsame Hrun1) as (m2 & E2 & A2).
        exists m2, rf1. split; [exact E2|]. intros a Ha. rewrite <- (A2 a Ha). apply Hag1, Ha.
    - intros a Ha. rewrite <- (Hframe a Ha). destruct Hli as [Hw _].
      apply (Hw _ _ _ _ Hexec). eapply Ha. eapply nth_error_In. exact HD.
  Qed.

  Lemma tinv_steps m0 os c c' :
    disjoint_owners os -> tinv m0 os c -> tsteps exec c c' -> tinv m0 os c'.
  Proof. intros Hd Hi Hs. induction Hs; eauto using tinv_step. Qed.

  Lemma tinv_not_crashing m0 os c : tinv m0 os c -> ~ crashing exec c.
  Proof.
    intros (_ & Hth & _) (r & i & p & Hin & E).
    apply In_nth_error in Hin. destruct Hin as [k Hk].
    destruct (Hth _ _ _ Hk) as (D & mt & _ & _ & mf & rf & Hrun & _).
    cbn [run] in Hrun. rewrite E in Hrun. discriminate.
  Qed.

  Lemma tinv_finished m0 os c :
    tinv m0 os c -> finished c ->
    (forall D mt, In (D, mt) os -> agree D (fst c) mt) /\
    (forall a, (forall D mt, In (D, mt) os -> ~ D a) -> look (fst c) a = look m0 a).
  Proof.
    intros (Hlen & Hth & Hframe) Hfin. split; [|exact Hframe].
    intros D mt Hin. apply In_nth_error in Hin. destruct Hin as [k Hk].
    assert (Hkl : k < length (snd c)).
    { rewrite Hlen. apply nth_error_Some. congruence. }
    destruct (nth_error (snd c) k) as [[r p]|] eqn:Et; [|apply nth_error_None in Et; exfalso; exact (Nat.lt_irrefl _ (Nat.lt_le_trans _ _ _ Hkl Et))].
    assert (p = []) as ->. { apply (Hfin (r, p)). eapply nth_error_In. exact Et. }
    destruct (Hth _ _ _ Et) as (D1 & mt1 & HD1 & _ & mf & rf & Hrun & Hag).
    rewrite Hk in HD1. injection HD1 as <- <-. cbn [run] in Hrun. injection Hrun as <- <-. exact Hag.
  Qed.

  (** As long as no step is undefined, an unfinished configuration can move. *)
  Lemma progress (c : config (Mem:=Mem) (Reg:=Reg) (Instr:=Instr)) :
    ~ crashing exec c -> finished c \/ exists c', tstep exec c c'.
  Proof.
    intros Hc. destruct c as [m ts].
    assert (H : (forall t, In t ts -> snd t = []) \/ exists r i p, In (r, i :: p) ts).
    { clear Hc. induction ts as [|[r p] ts IH]; [left; intros t []|].
      destruct p as [|i p].
      - destruct IH as [H|(r1 & i1 & p1 & H)].
        + left. intros t [<-|Ht]; [reflexivity|auto].
        + right. exists r1, i1, p1. right. exact H.
      - right. exists r, i, p. left. reflexivity. }
    destruct H as [H|(r & i & p & H)]; [left; exact H|]. right.
    destruct (exec i (m, r)) as [[m' r']|] eqn:E.
    - apply in_split in H. destruct H as (bef & aft & ->).
      exists (m', bef ++ (r', p) :: aft). constructor. exact E.
    - exfalso. apply Hc. exists r, i, p. split; assumption.
  Qed.

  (** Every execution is finite: each step consumes one instruction. *)
  Definition work (ts : list (Reg * list Instr)) : nat := list_sum (map (fun t => length (snd t)) ts).

  Lemma tstep_work (c c' : config (Mem:=Mem) (Reg:=Reg) (Instr:=Instr)) :
    tstep exec c c' -> work (snd c) = S (work (snd c')).
  Proof.
    intros H. destruct H. cbn [snd]. unfold work. rewrite !map_app, !list_sum_app. cbn [map snd length list_sum fold_right]. change (fold_right Nat.add 0) with list_sum. lia.
  Qed.
End Generic.
