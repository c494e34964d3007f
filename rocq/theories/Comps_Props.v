(** C103: the panels of the waveform plots show the right components. *)
From Coq Require Import String Ascii.
From Coq Require Import List ZArith Bool Lia.
From Verif Require Import Lib LibFacts Archive_Model Archive_Spec Comps_Model Comps_Spec Comps_Proofs.
Import ListNotations.

(** The first panel shows exactly the components of the map of P, written "*[A,B,...]" or "*Z". *)
Theorem C103_p_panel_partial : forall sm,
  (forall cs, Forall code cs -> cs <> [] -> shows (fst (fst (component_strings (map_text cs) sm))) (fun x => In x cs)) /\
  (forall c, code c -> shows (fst (fst (component_strings (map_single c) sm))) (fun x => x = c)).
Proof.
  intros sm. split.
  - intros cs F Hne. unfold component_strings. destruct (match _ with | [] => _ | _ :: _ => _ end) as [s1 s2].
    cbn [fst]. rewrite comps_map by assumption. apply text_shows. exact F.
  - intros c Hc x Hx. unfold component_strings. destruct (match _ with | [] => _ | _ :: _ => _ end) as [s1 s2].
    cbn [fst]. rewrite comps_single by exact Hc. rewrite p_text_selects; [|constructor; [exact Hc|constructor]|exact Hx].
    cbn. split; [intros [E|[]]; now symmetry|intros ->; now left].
Qed.
Print Assumptions C103_p_panel_partial.

Lemma some_eq : forall (a x : ascii), (Some a = Some x) <-> a = x.
Proof. intros; split; congruence. Qed.
Lemma none_eq : forall (x : ascii), (None = Some x) <-> False.
Proof. intros; split; [discriminate|tauto]. Qed.

(** The second panel shows exactly the first letter and the first digit of the map of S. *)
Theorem C103_s_first_partial : forall pm cs ls ds, Forall code cs -> cs <> [] -> splits cs ls ds ->
  shows (snd (fst (component_strings pm (map_text cs))))
    (fun x => nth_error ls 0 = Some x \/ nth_error ds 0 = Some x).
Proof.
  intros pm cs ls ds F Hne H x Hx. rewrite (component_strings_panels pm cs ls ds F Hne H). cbn [fst snd].
  destruct (splits_code _ _ _ H F) as [Fl Fd].
  assert (Fp : Forall code (panel1 ls ds)).
  { rewrite Forall_forall in *. intros y Hy. destruct ls as [|l ls], ds as [|d ds]; cbn in Hy; [tauto| | |].
    - destruct Hy as [<-|[]]. apply Fd. now left.
    - destruct Hy as [<-|[]]. apply Fl. now left.
    - destruct Hy as [<-|[<-|[]]]; [apply Fl|apply Fd]; now left. }
  rewrite p_text_selects by assumption.
  clear - x. destruct ls, ds; cbn [panel1 nth_error In]; rewrite ?some_eq, ?none_eq; tauto.
Qed.
Print Assumptions C103_s_first_partial.

(** The third panel shows exactly the second letter and the second digit, when there are as many letters
    as digits or only letters or only digits. *)
Theorem C103_s_second_partial : forall pm cs ls ds, Forall code cs -> cs <> [] -> splits cs ls ds ->
  ls = [] \/ ds = [] \/ length ls = length ds ->
  shows (snd (component_strings pm (map_text cs)))
    (fun x => nth_error ls 1 = Some x \/ nth_error ds 1 = Some x).
Proof.
  intros pm cs ls ds F Hne H Hlen x Hx. rewrite (component_strings_panels pm cs ls ds F Hne H). cbn [fst snd].
  destruct (splits_code _ _ _ H F) as [Fl Fd].
  assert (Fp : Forall code (panel2 ls ds)).
  { rewrite Forall_forall in *. intros y Hy.
    destruct ls as [|l [|l' ls]], ds as [|d [|d' ds]]; cbn [panel2] in Hy; cbn in Hy; try tauto.
    - destruct Hy as [<-|[]]. apply Fd. right; now left.
    - destruct Hy as [<-|[]]. apply Fl. right; now left.
    - destruct Hy as [<-|[<-|[]]]; [apply Fl|apply Fd]; right; now left. }
  rewrite p_text_selects by assumption.
  clear - x Hlen. destruct ls as [|l [|l' ls]], ds as [|d [|d' ds]]; cbn [panel2 nth_error In length] in *;
    rewrite ?some_eq, ?none_eq; try tauto; exfalso; destruct Hlen as [E|[E|E]]; discriminate.
Qed.
Print Assumptions C103_s_second_partial.

(** So each component of a map of S with up to two letters and as many digits (or only letters or only
    digits) is shown in one panel of S and in no more. *)
Theorem C103_s_each_once_partial : forall pm cs ls ds, Forall code cs -> NoDup cs -> cs <> [] -> splits cs ls ds ->
  (length ls <= 2)%nat -> (length ds <= 2)%nat -> ls = [] \/ ds = [] \/ length ls = length ds ->
  forall x, In x cs ->
    xorb (selects (snd (fst (component_strings pm (map_text cs)))) x)
         (selects (snd (component_strings pm (map_text cs))) x) = true.
Proof.
  intros pm cs ls ds F Hnd Hne H Hl Hd Hlen x Hx.
  assert (Cx : code x) by (rewrite Forall_forall in F; exact (F x Hx)).
  pose proof (C103_s_first_partial pm cs ls ds F Hne H x Cx) as P1.
  pose proof (C103_s_second_partial pm cs ls ds F Hne H Hlen x Cx) as P2.
  pose proof (splits_in _ _ _ H x) as Hin.
  assert (Nl : NoDup ls /\ NoDup ds /\ forall y, In y ls -> In y ds -> False).
  { destruct (splits_filter _ _ _ H) as [<- <-]. repeat split; try (apply NoDup_filter; exact Hnd).
    intros y Hy Hy'. apply filter_In in Hy as [_ Hy]. apply filter_In in Hy' as [_ Hy']. rewrite Hy' in Hy. discriminate. }
  destruct Nl as [Nl [Nd Nx]].
  assert (A : (nth_error ls 0 = Some x \/ nth_error ds 0 = Some x) \/ (nth_error ls 1 = Some x \/ nth_error ds 1 = Some x)).
  { destruct (proj1 Hin Hx) as [Hi|Hi]; apply In_nth_error in Hi as [n Hn];
      assert (n < 2)%nat by (assert (N : nth_error ls n <> None \/ nth_error ds n <> None) by (rewrite Hn; (left; discriminate) || (right; discriminate));
        match type of Hn with nth_error ?l n = _ => assert (n < length l)%nat by (apply nth_error_Some; congruence) end; lia);
      destruct n as [|[|n]]; try lia; tauto. }
  assert (B : ~ ((nth_error ls 0 = Some x \/ nth_error ds 0 = Some x) /\ (nth_error ls 1 = Some x \/ nth_error ds 1 = Some x))).
  { intros [[B1|B1] [B2|B2]].
    - assert (0 = 1)%nat; [|discriminate]. apply (proj1 (NoDup_nth_error ls) Nl); [apply nth_error_Some; congruence|congruence].
    - apply (Nx x); eapply nth_error_In; eassumption.
    - apply (Nx x); eapply nth_error_In; eassumption.
    - assert (0 = 1)%nat; [|discriminate]. apply (proj1 (NoDup_nth_error ds) Nd); [apply nth_error_Some; congruence|congruence]. }
  destruct (selects (snd (fst (component_strings pm (map_text cs)))) x),
    (selects (snd (component_strings pm (map_text cs))) x); try reflexivity; exfalso.
  - apply B. split; [apply P1|apply P2]; reflexivity.
  - destruct A as [A|A]; [apply P1 in A|apply P2 in A]; discriminate.
Qed.
Print Assumptions C103_s_each_once_partial.

(** Two letters and one digit: the second letter is in no panel. Maps written without commas, which select
    the same channels: every second component is in no panel. "*?": nothing is shown. *)
Theorem C103_component_missing_refuted :
  (exists pm, let r := component_strings pm (map_text (txt "NE1")) in
     selects (snd (fst r)) "E" = false /\ selects (snd r) "E" = false) /\
  (exists pm, let r := component_strings pm (txt "*[NE]") in
     selects (snd (fst r)) "E" = false /\ selects (snd r) "E" = false) /\
  (exists pm, let r := component_strings pm (txt "*[NE12]") in
     selects (snd (fst r)) "E" = false /\ selects (snd r) "E" = false /\
     selects (snd (fst r)) "2" = false /\ selects (snd r) "2" = false) /\
  (forall x, code x -> forall sm, selects (fst (fst (component_strings (txt "*?") sm))) x = false).
Proof.
  split; [|split; [|split]].
  - exists (txt "*Z"). split; reflexivity.
  - exists (txt "*Z"). split; reflexivity.
  - exists (txt "*Z"). repeat split; reflexivity.
  - intros x Hx sm. unfold component_strings. destruct (match _ with | [] => _ | _ :: _ => _ end) as [s1 s2]. cbn [fst].
    change (bracket (p_text (comps (txt "*?")))) with (txt "[?]"). cbn. rewrite andb_true_r.
    destruct (Ascii.eqb_spec x "?") as [->|]; [|reflexivity]. exfalso. unfold code, is_digit in Hx. cbn in Hx.
    destruct Hx as [Hx|Hx]; repeat (destruct Hx as [Hx|Hx]; [discriminate|]); destruct Hx.
Qed.
Print Assumptions C103_component_missing_refuted.

(** The default maps. *)
Example C103_applies : Forall code (txt "NE12") /\ NoDup (txt "NE12") /\ splits (txt "NE12") (txt "NE") (txt "12") /\
  map_text (txt "NE12") = txt "*[N,E,1,2]" /\
  component_strings (txt "*Z") (txt "*[N,E,1,2]") = (txt "[Z]", txt "[N,1]", txt "[E,2]").
Proof.
  assert (D : forall c, is_digit c <-> isnumeric c = true) by (intros c; symmetry; apply isnumeric_digit).
  split; [|split; [|split; [|split]]]; try reflexivity.
  - assert (B : forall l c, existsb (Ascii.eqb c) l = true -> In c l) by (intros l c; apply existsb_in).
    apply Forall_forall. intros c Hc. cbn in Hc. unfold code, is_digit.
    destruct Hc as [<-|[<-|[<-|[<-|[]]]]]; first [left; apply B; reflexivity | right; apply B; reflexivity].
  - repeat constructor; cbn; intuition discriminate.
  - apply splits_letter; [rewrite D; discriminate|]. apply splits_letter; [rewrite D; discriminate|].
    apply splits_digit; [rewrite D; reflexivity|]. apply splits_digit; [rewrite D; reflexivity|]. constructor.
Qed.
