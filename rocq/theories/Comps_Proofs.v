(** Proofs about the component texts. *)
From Coq Require Import String Ascii.
From Coq Require Import List ZArith Bool Lia.
From Verif Require Import Lib LibFacts Archive_Model Archive_Spec Comps_Model Comps_Spec.
Import ListNotations.

Lemma code_plain : forall c, code c -> c <> "*"%char /\ c <> "["%char /\ c <> "]"%char /\ c <> ","%char.
Proof.
  intros c H. unfold code, is_digit in H. cbn in H.
  repeat split; intros ->; destruct H as [H|H];
    repeat (destruct H as [H|H]; [discriminate|]); destruct H.
Qed.

Lemma isnumeric_digit : forall c, isnumeric c = true <-> is_digit c.
Proof.
  assert (H : forall c, isnumeric c = existsb (Ascii.eqb c) (txt "0123456789")).
  { intros [[|] [|] [|] [|] [|] [|] [|] [|]]; reflexivity. }
  intros c. rewrite H, existsb_exists. unfold is_digit. split.
  - intros [x [Hx Ex]]. apply Ascii.eqb_eq in Ex. now subst.
  - intros Hc. exists c. split; [exact Hc|apply Ascii.eqb_refl].
Qed.

Lemma lstrip_head : forall c x r, x <> c -> lstrip c (x :: r) = x :: r.
Proof. intros c x r H. cbn. destruct (Ascii.eqb_spec x c); [contradiction|reflexivity]. Qed.
Lemma lstrip_drop : forall c r, lstrip c (c :: r) = lstrip c r.
Proof. intros c r. cbn. now rewrite Ascii.eqb_refl. Qed.
Lemma rstrip_last : forall c x r, x <> c -> rstrip c (r ++ [x]) = r ++ [x].
Proof. intros c x r H. unfold rstrip. rewrite rev_app_distr. cbn [rev app]. rewrite lstrip_head by exact H.
  cbn [rev]. now rewrite rev_involutive. Qed.
Lemma rstrip_drop : forall c r, rstrip c (r ++ [c]) = rstrip c r.
Proof. intros c r. unfold rstrip. rewrite rev_app_distr. cbn [rev app]. now rewrite lstrip_drop. Qed.

Lemma last_default : forall (cs : list ascii) e c d, last (e :: cs) c = last (e :: cs) d.
Proof.
  induction cs as [|a cs IH]; intros e c d; [reflexivity|].
  change (last (a :: cs) c = last (a :: cs) d). apply IH.
Qed.
Lemma joined_ends : forall c cs, exists m, joined (c :: cs) = m ++ [last cs c].
Proof.
  intros c cs. revert c. induction cs as [|d cs IH]; intros c; [exists []; reflexivity|].
  destruct (IH d) as [m Hm]. exists (c :: ","%char :: m).
  change (joined (c :: d :: cs)) with (c :: ","%char :: joined (d :: cs)). rewrite Hm. cbn [app].
  assert (E : last (d :: cs) c = last cs d).
  { clear. destruct cs as [|e cs]; [reflexivity|]. change (last (d :: e :: cs) c) with (last (e :: cs) c).
    apply last_default. }
  now rewrite E.
Qed.
Lemma joined_head : forall c cs, exists m, joined (c :: cs) = c :: m.
Proof. intros c [|d cs]; eexists; reflexivity. Qed.

Lemma last_code : forall cs c, code c -> Forall code cs -> code (last cs c).
Proof.
  induction cs as [|d cs IH]; intros c Hc H; [exact Hc|]. inversion H; subst. cbn [last]. destruct cs as [|e cs]; [assumption|].
  apply IH; assumption.
Qed.

Lemma every_second_joined : forall cs, every_second (joined cs) = cs.
Proof.
  induction cs as [|c cs IH]; [reflexivity|]. destruct cs as [|d cs]; [reflexivity|].
  change (joined (c :: d :: cs)) with (c :: ","%char :: joined (d :: cs)).
  cbn [every_second]. now rewrite IH.
Qed.

Lemma comps_map : forall cs, Forall code cs -> cs <> [] -> comps (map_text cs) = cs.
Proof.
  intros [|c cs] H Hne; [congruence|]. inversion H as [|? ? Hc Hcs]; subst.
  unfold comps, map_text. cbn [txt list_ascii_of_string app].
  destruct (joined_head c cs) as [m Hm]. destruct (joined_ends c cs) as [m' Hm'].
  pose proof (last_code cs c Hc Hcs) as Hl. destruct (code_plain _ Hc) as [C1 [C2 [C3 C4]]].
  destruct (code_plain _ Hl) as [L1 [L2 [L3 L4]]].
  assert (S1 : strip "*" ("*" :: "[" :: joined (c :: cs) ++ ["]"])%char = ("[" :: joined (c :: cs) ++ ["]"])%char).
  { unfold strip. rewrite lstrip_drop, lstrip_head by discriminate.
    change ("[" :: joined (c :: cs) ++ ["]"])%char with (("[" :: joined (c :: cs)) ++ ["]"])%char.
    apply rstrip_last. discriminate. }
  rewrite S1.
  assert (S2 : strip "[" ("[" :: joined (c :: cs) ++ ["]"])%char = (joined (c :: cs) ++ ["]"])%char).
  { unfold strip. rewrite lstrip_drop. rewrite Hm. cbn [app]. rewrite lstrip_head by exact C2.
    change (c :: m ++ ["]"])%char with ((c :: m) ++ ["]"])%char. apply rstrip_last. discriminate. }
  rewrite S2.
  assert (S3 : strip "]" (joined (c :: cs) ++ ["]"])%char = joined (c :: cs)).
  { unfold strip. rewrite Hm. cbn [app]. rewrite lstrip_head by exact C3.
    change (c :: m ++ ["]"])%char with ((c :: m) ++ ["]"])%char. rewrite rstrip_drop, <- Hm, Hm'.
    apply rstrip_last. exact L3. }
  rewrite S3. apply every_second_joined.
Qed.

Lemma comps_single : forall c, code c -> comps (map_single c) = [c].
Proof.
  intros c H. destruct (code_plain _ H) as [C1 [C2 [C3 C4]]]. unfold comps, map_single, strip.
  rewrite lstrip_drop, lstrip_head by exact C1. change [c] with ([] ++ [c]).
  rewrite (rstrip_last "*" c []) by exact C1. cbn [app]. rewrite lstrip_head by exact C2. change [c] with ([] ++ [c]).
  rewrite (rstrip_last "[" c []) by exact C2. cbn [app]. rewrite lstrip_head by exact C3. change [c] with ([] ++ [c]).
  rewrite (rstrip_last "]" c []) by exact C3. reflexivity.
Qed.

Lemma rstrip_commas : forall s c, c <> ","%char -> rstrip comma ((s ++ [c; comma])) = s ++ [c].
Proof.
  intros s c H. change (s ++ [c; comma]) with (s ++ ([c] ++ [comma])). rewrite app_assoc, rstrip_drop.
  apply rstrip_last. exact H.
Qed.

Lemma selects_bracket : forall s x, s <> [] -> selects ("["%char :: s ++ ["]"%char]) x = existsb (Ascii.eqb x) s.
Proof.
  intros s x H. unfold selects. rewrite rev_app_distr. cbn [rev app].
  destruct (rev s) as [|y r] eqn:E; [destruct s; [congruence|]; cbn in E; destruct (rev s); discriminate|].
  rewrite <- E, rev_involutive. cbn [fnmatch xorb]. rewrite andb_true_r. now destruct (existsb _ _).
Qed.
Lemma selects_empty : forall x, selects ("["%char :: [] ++ ["]"%char]) x = false.
Proof. reflexivity. Qed.

Lemma existsb_in : forall x s, existsb (Ascii.eqb x) s = true <-> In x s.
Proof.
  intros x s. rewrite existsb_exists. split.
  - intros [y [Hy E]]. apply Ascii.eqb_eq in E. now subst.
  - intros H. exists x. split; [exact H|apply Ascii.eqb_refl].
Qed.

(** The text "c1,c2,...," selects the components it lists. *)
Lemma p_text_shape : forall cs, cs <> [] -> exists s c, p_text cs = s ++ [c; comma] /\ In c cs /\
  forall x, x <> ","%char -> (In x (s ++ [c]) <-> In x cs).
Proof.
  induction cs as [|c cs IH]; intros H; [congruence|]. destruct cs as [|d cs].
  - exists [], c. cbn. repeat split; tauto.
  - destruct IH as [s [e [E [Hin Hx]]]]; [discriminate|]. exists (c :: comma :: s), e.
    change (p_text (c :: d :: cs)) with (c :: comma :: p_text (d :: cs)). rewrite E. repeat split; [now right| |].
    + cbn [app]. intros [->|[<-|Hi]]; [now left| |right; apply (Hx x); assumption]. unfold comma in *. congruence.
    + intros [->|Hi]; [now left|]. right. right. apply (Hx x); assumption.
Qed.
Lemma p_text_selects : forall cs x, Forall code cs -> code x ->
  (selects (bracket (p_text cs)) x = true <-> In x cs).
Proof.
  intros [|c cs] x Hcs Hx; [cbn; tauto || (split; [discriminate|tauto])|].
  destruct (p_text_shape (c :: cs)) as [s [e [E [Hin Hs]]]]; [discriminate|].
  destruct (code_plain _ Hx) as [_ [_ [_ Cx]]].
  rewrite Forall_forall in Hcs. destruct (code_plain _ (Hcs e Hin)) as [_ [_ [_ Ce]]].
  unfold bracket. rewrite E, rstrip_commas by exact Ce. rewrite selects_bracket by (destruct s; discriminate).
  rewrite existsb_in. apply Hs. exact Cx.
Qed.

Lemma text_shows : forall cs, Forall code cs -> shows (bracket (p_text cs)) (fun x => In x cs).
Proof. intros cs H x Hx. apply p_text_selects; assumption. Qed.

Lemma splits_filter : forall cs ls ds, splits cs ls ds ->
  filter (fun c => negb (isnumeric c)) cs = ls /\ filter isnumeric cs = ds.
Proof.
  intros cs ls ds H. induction H as [|c cs ls ds Hc H [E1 E2]|c cs ls ds Hc H [E1 E2]]; [split; reflexivity| |].
  - assert (N : isnumeric c = false) by (destruct (isnumeric c) eqn:E; [apply isnumeric_digit in E; contradiction|reflexivity]).
    cbn [filter]. rewrite N. cbn [negb]. now rewrite E1, E2.
  - apply isnumeric_digit in Hc. cbn [filter]. rewrite Hc. cbn [negb]. now rewrite E1, E2.
Qed.
Lemma splits_in : forall cs ls ds, splits cs ls ds -> forall x, In x cs <-> In x ls \/ In x ds.
Proof. intros cs ls ds H x. induction H; cbn [In]; tauto. Qed.
Lemma splits_code : forall cs ls ds, splits cs ls ds -> Forall code cs -> Forall code ls /\ Forall code ds.
Proof.
  intros cs ls ds H F. rewrite !Forall_forall in *. pose proof (splits_in _ _ _ H) as Hi.
  split; intros x Hx; apply F; apply Hi; tauto.
Qed.

(** What the texts for S list, as lists of components. *)
Definition panel1 (ls ds : list ascii) : list ascii :=
  match ls, ds with [], [] => [] | [], d :: _ => [d] | l :: _, [] => [l] | l :: _, d :: _ => [l; d] end.
Definition panel2 (ls ds : list ascii) : list ascii :=
  match ls, ds with
  | [], _ :: d :: _ => [d] | _ :: l :: _, [] => [l] | _ :: l :: _, _ :: d :: _ => [l; d] | _, _ => []
  end.

Lemma component_strings_panels : forall pm cs ls ds, Forall code cs -> cs <> [] -> splits cs ls ds ->
  component_strings pm (map_text cs)
  = (bracket (p_text (comps pm)), bracket (p_text (panel1 ls ds)), bracket (p_text (panel2 ls ds))).
Proof.
  intros pm cs ls ds F Hne H. unfold component_strings. rewrite comps_map by assumption.
  destruct (splits_filter _ _ _ H) as [-> ->].
  destruct ls as [|l [|l' ls]], ds as [|d [|d' ds]]; reflexivity.
Qed.
