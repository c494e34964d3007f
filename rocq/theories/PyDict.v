(** Python dictionaries with string keys: association lists in insertion order. *)
From Coq Require Import List ZArith String.
Import ListNotations.

Definition dict (A : Type) : Type := list (string * A).

(** [d.get(k)] *)
Fixpoint dget {A} (d : dict A) (k : string) : option A :=
  match d with
  | [] => None
  | (k', v) :: r => if String.eqb k' k then Some v else dget r k
  end.

(** [d[k] = v]: an existing key keeps its position, a new key goes to the end. *)
Fixpoint dset {A} (d : dict A) (k : string) (v : A) : dict A :=
  match d with
  | [] => [(k, v)]
  | (k', v') :: r => if String.eqb k' k then (k', v) :: r else (k', v') :: dset r k v
  end.

(** [d.update(e)] *)
Definition dupdate {A} (d e : dict A) : dict A :=
  fold_left (fun acc kv => dset acc (fst kv) (snd kv)) e d.

Definition keys {A} (d : dict A) : list string := map fst d.
Definition values {A} (d : dict A) : list A := map snd d.

Lemma dget_dset A (d : dict A) k v k' :
  dget (dset d k v) k' = if String.eqb k k' then Some v else dget d k'.
Proof.
  induction d as [|(a, x) r IH]; cbn.
  - reflexivity.
  - destruct (String.eqb_spec a k) as [->|Hak]; cbn.
    + destruct (String.eqb k k'); reflexivity.
    + rewrite IH. destruct (String.eqb_spec a k') as [->|Hak']; [|reflexivity].
      destruct (String.eqb_spec k k') as [->|]; [congruence|reflexivity].
Qed.

Lemma dset_new A (d : dict A) k v : dget d k = None -> dset d k v = d ++ [(k, v)].
Proof.
  induction d as [|(a, x) r IH]; cbn; intros H; [reflexivity|].
  destruct (String.eqb a k); [discriminate|]. rewrite (IH H). reflexivity.
Qed.

Lemma dget_in A (d : dict A) k : dget d k <> None <-> In k (keys d).
Proof.
  induction d as [|(a, x) r IH]; cbn; [tauto|]. destruct (String.eqb_spec a k) as [->|H].
  - split; [tauto|discriminate].
  - rewrite IH. split; [tauto|]. intros [?|?]; [contradiction|assumption].
Qed.

Lemma dget_none A (d : dict A) k : dget d k = None <-> ~ In k (keys d).
Proof. rewrite <- dget_in. destruct (dget d k); split; intros H; try discriminate; try reflexivity.
  - exfalso. apply H. discriminate.
  - intros H'. apply H'. reflexivity. Qed.

Lemma dget_dupdate A (e : dict A) : forall d k, NoDup (keys e) ->
  dget (dupdate d e) k = match dget e k with Some v => Some v | None => dget d k end.
Proof.
  unfold dupdate. induction e as [|(a, x) r IH]; cbn [fold_left fst snd dget keys map]; intros d k Hnd.
  - reflexivity.
  - inversion Hnd as [|? ? Hn Hr]; subst. rewrite (IH (dset d a x) k Hr), dget_dset.
    destruct (String.eqb_spec a k) as [->|]; [|reflexivity].
    apply dget_none in Hn. rewrite Hn. reflexivity.
Qed.
