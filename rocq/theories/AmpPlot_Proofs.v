(** Lemmas about the plot of amplitudes against distance. *)
From Coq Require Import String Ascii.
From Coq Require Import List ZArith Reals Bool Lia Lra.
From Verif Require Import Lib LibFacts Mag_Model Mag_Spec Mag_Proofs AmpPlot_Model AmpPlot_Spec.
Import ListNotations.
Open Scope Z_scope.

(** * Strings *)

Lemma app_nil_s s : append s EmptyString = s.
Proof. induction s as [|c s IH]; cbn; congruence. Qed.
Lemma but_last_id s c : but_last (trace_id s c) = s.
Proof.
  unfold trace_id. induction s as [|d s IH]; [reflexivity|]. cbn [append but_last]. rewrite IH.
  destruct s; reflexivity.
Qed.
Lemma last_char_id s c : last_char (trace_id s c) = Ret c.
Proof. unfold trace_id. induction s as [|d s IH]; [reflexivity|]. cbn [append last_char]. destruct s; exact IH. Qed.

Lemma compstring_fold cs : forall a, fold_left (fun s c => append (append s (String c EmptyString)) ",") cs a
  = append a (fold_left (fun s c => append (append s (String c EmptyString)) ",") cs EmptyString).
Proof.
  induction cs as [|c cs IH]; intros a; cbn [fold_left]; [symmetry; apply app_nil_s|].
  rewrite IH, (IH (append (append EmptyString _) _)). rewrite !app_assoc_s. reflexivity.
Qed.
Lemma but_last_comma s : but_last (append s ",") = s.
Proof. exact (but_last_id s ","). Qed.
Lemma compstring_concat cs : cs <> [] ->
  compstring cs = append (String.concat "," (map (fun c => String c EmptyString) cs)) ",".
Proof.
  unfold compstring. induction cs as [|c [|d cs] IH]; intros H; [congruence|reflexivity|].
  cbn [fold_left]. rewrite compstring_fold.
  cbn [fold_left] in IH. rewrite compstring_fold in IH. specialize (IH ltac:(discriminate)).
  rewrite !app_assoc_s in *. cbn [append] in *. cbn [map String.concat]. cbn [map String.concat] in IH.
  rewrite IH. cbn [append]. reflexivity.
Qed.
Lemma label_text s cs : cs <> [] ->
  label s cs = append s (append "[" (append (String.concat "," (map (fun c => String c EmptyString) cs)) "]")).
Proof. intros H. unfold label. rewrite compstring_concat by exact H. rewrite but_last_comma. reflexivity. Qed.

(** * Labels *)

Definition gmax (g : list lrow) : ext :=
  match map l_amp g with [] => NaN | x :: r => fold_left (fun m y => if eltb m y then y else m) r x end.
Definition gdist (g : list lrow) : ext := l_dist (last g (mk_lrow EmptyString NaN NaN)).
Definition comps (g : list lrow) : list ascii := map (fun r => match last_char (l_id r) with Ret c => c | _ => zero end) g.
Definition gnote (rej : bool) (sg : string * list lrow) : note :=
  mk_note (label (fst sg) (comps (snd sg))) (gdist (snd sg)) (gmax (snd sg)) rej.
Fixpoint listed (l : list (string * list lrow)) : list string :=
  match l with
  | [] => []
  | (s, g) :: r => match r with
                   | [] => match g with _ :: _ :: _ => [s] | _ => [] end
                   | _ => s :: listed r
                   end
  end.

Lemma slice_mid A (pre g post : list A) a b : a = Z.of_nat (length pre) -> b = Z.of_nat (length pre) + Z.of_nat (length g) ->
  slice (pre ++ g ++ post) a b = g.
Proof.
  intros -> ->. unfold slice. replace (Z.of_nat (length pre) + Z.of_nat (length g) - Z.of_nat (length pre)) with (Z.of_nat (length g)) by lia.
  rewrite !Nat2Z.id. rewrite skipn_app, skipn_all, Nat.sub_diag. cbn [app skipn].
  rewrite firstn_app, Nat.sub_diag, firstn_all. cbn [firstn]. apply app_nil_r.
Qed.

Lemma annotate_group rows rej s pre g post a b :
  rows = pre ++ g ++ post -> g <> [] -> a = Z.of_nat (length pre) -> b = Z.of_nat (length pre) + Z.of_nat (length g) ->
  annotate rows rej s (comps g) (b - 1) (slice (map l_amp rows) a b) = Ret (gnote rej (s, g)).
Proof.
  intros -> Hg Ha Hb. rewrite !map_app. rewrite slice_mid by (rewrite !map_length; assumption).
  unfold annotate, iloc. rewrite rd_map.
  destruct (exists_last Hg) as (g' & r & ->).
  assert (E : rd (pre ++ (g' ++ [r]) ++ post) (b - 1) = Some r).
  { rewrite app_length in Hb. cbn [length] in Hb. rewrite rd_app2 by lia. rewrite rd_app1 by (rewrite app_length; cbn [length]; lia).
    rewrite rd_app2 by lia. replace (b - 1 - Z.of_nat (length pre) - Z.of_nat (length g')) with 0 by lia. reflexivity. }
  rewrite E. cbn [option_map bind]. unfold gnote. cbn [fst snd]. unfold gdist. rewrite last_last.
  unfold gmax, pymax. destruct (map l_amp (g' ++ [r])) as [|x l] eqn:El; [destruct g'; discriminate El|]. reflexivity.
Qed.

Lemma of_station_comps s g cs : of_station s g cs -> cs = comps g.
Proof.
  intros (_ & _ & H). induction H as [|r c g cs Hr H IH]; [reflexivity|]. cbn [comps map].
  rewrite Hr, last_char_id. f_equal. exact IH.
Qed.

Definition same (s : string) (g : list lrow) : Prop := Forall (fun r => exists c, l_id r = trace_id s c) g.
Definition group (sg : string * list lrow) : Prop := fst sg <> EmptyString /\ snd sg <> [] /\ same (fst sg) (snd sg).

Lemma of_station_group s g cs : of_station s g cs -> group (s, g).
Proof.
  intros (A & B & H). split; [exact A|]. split; [exact B|]. cbn [fst snd]. clear B.
  induction H as [|r c g cs Hr H IH]; constructor; [exists c; exact Hr|exact IH].
Qed.
Lemma group_of_station s g : group (s, g) -> of_station s g (comps g).
Proof.
  intros (A & B & H). split; [exact A|]. split; [exact B|]. cbn [fst snd] in H. clear B.
  induction H as [|r g (c & Hr) H IH]; [apply Forall2_nil|]. cbn [comps map]. apply Forall2_cons; [|exact (IH A)].
  rewrite Hr, last_char_id. reflexivity.
Qed.

Lemma label_loop_group rows rej : forall todo pre cur s m gs stns notes,
  rows = pre ++ cur ++ todo -> cur <> [] -> todo <> [] -> s <> EmptyString ->
  todo = m ++ concat (map snd gs) -> same s m -> Forall group gs -> NoDup (s :: map fst gs) ->
  exists st, label_loop rows rej (Z.of_nat (length pre) + Z.of_nat (length cur)) todo
      (mk_lstate s (Z.of_nat (length pre)) (comps cur) stns notes) = Ret st
    /\ s_notes st = notes ++ gnote rej (s, cur ++ m) :: map (gnote rej) gs
    /\ s_stns st = stns ++ listed ((s, cur ++ m) :: gs).
Proof.
  induction todo as [|r todo IH]; intros pre cur s m gs stns notes Hrows Hcur Ht Hs Hm Sm Hgs ND; [congruence|].
  set (i := Z.of_nat (length pre) + Z.of_nat (length cur)) in *.
  assert (Hn : Z.of_nat (length rows) = i + 1 + Z.of_nat (length todo)) by (subst rows; rewrite !app_length; cbn [length]; unfold i; lia).
  assert (Hlast : (i =? Z.of_nat (length rows) - 1) = match todo with [] => true | _ => false end).
  { rewrite Hn. destruct todo; cbn [length]; [apply Z.eqb_eq|apply Z.eqb_neq]; lia. }
  assert (Hse : forall (A : Type) (a b : A), ifempty s a b = b) by (intros; destruct s; [congruence|reflexivity]).
  cbn [label_loop]. unfold label_step. cbn [s_stn s_start s_comps s_stns s_notes]. rewrite Hse, Hlast.
  destruct m as [|r0 m].
  - (* the next station *)
    cbn [app] in Hm. destruct gs as [|[s2 g2] gs]; [discriminate Hm|]. inversion Hgs as [|? ? G2 Hgs']; subst.
    destruct G2 as (Hs2 & Hg2 & Sg2). cbn [fst snd] in *. destruct g2 as [|r2 g2]; [congruence|]. cbn [map concat snd app] in Hm.
    assert (Er : r2 = r) by congruence. assert (Etodo : todo = g2 ++ concat (map snd gs)) by congruence. clear Hm. subst r2.
    inversion Sg2 as [|? ? (c & Hc) Sg2']; subst x l. rewrite Hc, but_last_id, last_char_id.
    assert (Hne : String.eqb s2 s = false).
    { apply String.eqb_neq. intros ->. inversion ND as [|? ? N _]. apply N. left. reflexivity. }
    rewrite Hne. cbn [negb].
    rewrite (annotate_group _ rej s pre cur (r :: todo) (Z.of_nat (length pre)) i eq_refl Hcur eq_refl eq_refl).
    cbn [bind]. cbn [s_stn s_start s_comps s_stns s_notes].
    assert (E2 : comps [r] = [c]) by (cbn [comps map]; rewrite Hc, last_char_id; reflexivity).
    rewrite app_nil_r. rewrite <- E2.
    assert (ND2 : NoDup (s2 :: map fst gs)) by (inversion ND; assumption).
    assert (Hrows2 : pre ++ cur ++ r :: todo = (pre ++ cur) ++ [r] ++ todo) by (rewrite <- app_assoc; reflexivity).
    assert (Hi : i = Z.of_nat (length (pre ++ cur))) by (rewrite app_length; unfold i; lia).
    destruct todo as [|r' todo'].
    + assert (g2 = []) by (destruct g2; [reflexivity|discriminate Etodo]). subst g2.
      assert (gs = []).
      { destruct gs as [|[s3 g3] gs]; [reflexivity|]. inversion Hgs' as [|? ? (_ & H3 & _)]; subst. cbn [snd] in H3.
        destruct g3; [congruence|discriminate Etodo]. }
      subst gs.
      assert (Ha : annotate (pre ++ cur ++ [r]) rej s2 (comps [r]) i (slice (map l_amp (pre ++ cur ++ [r])) i (Z.of_nat (length (pre ++ cur ++ [r]))))
        = Ret (gnote rej (s2, [r]))).
      { rewrite Hn. cbn [length]. change (Z.of_nat 0) with 0. rewrite Z.add_0_r.
        replace i with (i + 1 - 1) at 1 by lia.
        apply (annotate_group _ rej s2 (pre ++ cur) [r] []); [exact Hrows2|discriminate|exact Hi|cbn [length]; rewrite <- Hi; lia]. }
      rewrite Ha. cbn [bind label_loop]. eexists. split; [reflexivity|]. cbn [s_notes s_stns map listed fst snd].
      split; [rewrite <- !app_assoc; reflexivity|]. reflexivity.
    + destruct (IH (pre ++ cur) [r] s2 g2 gs (stns ++ [s]) (notes ++ [gnote rej (s, cur)])) as (st & E & N & S);
        [exact Hrows2|discriminate|discriminate|exact Hs2|exact Etodo|exact Sg2'|exact Hgs'|exact ND2|].
      exists st. rewrite <- Hi in E. cbn [length] in E. change (Z.of_nat 1) with 1 in E. split; [exact E|].
      split; [rewrite N; rewrite <- app_assoc; reflexivity|]. rewrite S. rewrite <- app_assoc. reflexivity.
  - (* the same station *)
    cbn [app] in Hm. assert (r0 = r) by congruence. assert (Etodo : todo = m ++ concat (map snd gs)) by congruence. clear Hm. subst r0.
    inversion Sm as [|? ? (c & Hc) Sm']; subst x l. rewrite Hc, but_last_id, last_char_id, String.eqb_refl. cbn [negb bind].
    assert (E2 : comps (cur ++ [r]) = comps cur ++ [c]) by (unfold comps; rewrite map_app; cbn [map]; rewrite Hc, last_char_id; reflexivity).
    rewrite <- E2.
    assert (Hrows2 : rows = pre ++ (cur ++ [r]) ++ todo) by (rewrite Hrows; rewrite <- !app_assoc; reflexivity).
    assert (Hne : cur ++ [r] <> []) by (destruct cur; discriminate).
    assert (Hi : i + 1 = Z.of_nat (length pre) + Z.of_nat (length (cur ++ [r]))) by (rewrite app_length; cbn [length]; unfold i; lia).
    replace (cur ++ r :: m) with ((cur ++ [r]) ++ m) by (rewrite <- app_assoc; reflexivity).
    destruct todo as [|r' todo'].
    + assert (m = []) by (destruct m; [reflexivity|discriminate Etodo]). subst m.
      assert (gs = []).
      { destruct gs as [|[s3 g3] gs]; [reflexivity|]. inversion Hgs as [|? ? (_ & H3 & _)]; subst. cbn [snd] in H3.
        destruct g3; [congruence|discriminate Etodo]. }
      subst gs.
      assert (Ha : annotate rows rej s (comps (cur ++ [r])) i (slice (map l_amp rows) (Z.of_nat (length pre)) (Z.of_nat (length rows)))
        = Ret (gnote rej (s, cur ++ [r]))).
      { rewrite Hn. cbn [length]. change (Z.of_nat 0) with 0. rewrite Z.add_0_r.
        replace i with (i + 1 - 1) at 1 by lia.
        apply (annotate_group _ rej s pre (cur ++ [r]) []); [exact Hrows2|exact Hne|reflexivity|exact Hi]. }
      rewrite Ha. cbn [bind label_loop]. eexists. split; [reflexivity|]. cbn [s_notes s_stns map].
      rewrite app_nil_r. split; [reflexivity|]. cbn [listed]. destruct cur as [|x [|y cur]]; [congruence|reflexivity|reflexivity].
    + destruct (IH pre (cur ++ [r]) s m gs stns notes) as (st & E & N & S);
        [exact Hrows2|exact Hne|discriminate|exact Hs|exact Etodo|exact Sm'|exact Hgs|exact ND|].
      exists st. rewrite <- Hi in E. auto.
Qed.

Lemma label_stations_groups rej gs : Forall group gs -> NoDup (map fst gs) -> length (concat (map snd gs)) <> 1%nat ->
  label_stations (concat (map snd gs)) rej = Ret (map (gnote rej) gs, listed gs).
Proof.
  intros Hgs ND Hl. destruct gs as [|[s g] gs]; [reflexivity|].
  inversion Hgs as [|? ? (Hs & Hg & Sg) Hgs']; subst. cbn [fst snd] in *. destruct g as [|r m]; [congruence|].
  cbn [map concat snd app] in *. set (todo := m ++ concat (map snd gs)) in *.
  inversion Sg as [|? ? (c & Hc) Sm]; subst x l.
  assert (Ht : todo <> []) by (intros E; rewrite E in Hl; apply Hl; reflexivity).
  unfold label_stations. cbn [label_loop]. unfold label_step. cbn [s_stn ifempty s_comps app]. rewrite Hc, but_last_id, last_char_id.
  cbn [bind s_stns s_notes].
  destruct (label_loop_group (r :: todo) rej todo [] [r] s m gs [] []) as (st & E & N & S);
    [reflexivity|discriminate|exact Ht|exact Hs|reflexivity|exact Sm|exact Hgs'|exact ND|].
  cbn [length app] in E. change (Z.of_nat 0 + Z.of_nat 1) with (0 + 1) in E. change (Z.of_nat 0) with 0 in E.
  assert (E2 : comps [r] = [c]) by (cbn [comps map]; rewrite Hc, last_char_id; reflexivity). rewrite E2 in E.
  rewrite E. cbn [bind]. rewrite N, S. reflexivity.
Qed.

(** * Labels of used and rejected observations *)

Lemma filter_concat A (P : A -> bool) ll : filter P (concat ll) = concat (map (filter P) ll).
Proof. induction ll as [|l ll IH]; [reflexivity|]. cbn [concat map]. rewrite filter_app, IH. reflexivity. Qed.

Definition rows_of (k : mag_params) (sel : list fobs -> list fobs) (sg : string * list fobs) : string * list lrow :=
  (fst sg, map (row_of k) (sel (snd sg))).

Lemma concat_map_map A B (f : A -> B) ll : concat (map (map f) ll) = map f (concat ll).
Proof. induction ll as [|l ll IH]; [reflexivity|]. cbn [map concat]. rewrite map_app, IH. reflexivity. Qed.

Lemma used_concat k gs :
  concat (map snd (map (rows_of k used_rows) (in_use gs))) = map (row_of k) (filter f_used (concat (map snd gs))).
Proof.
  rewrite filter_concat. induction gs as [|[s g] gs IH]; [reflexivity|]. cbn [in_use filter map concat snd].
  unfold used_rows at 2. change (filter (fun f => f_used f) g) with (filter f_used g).
  rewrite map_app. unfold in_use in IH. destruct (filter f_used g) as [|x l] eqn:E; cbn [negb].
  - exact IH.
  - cbn [map concat snd rows_of]. unfold used_rows at 1. rewrite E. rewrite IH. reflexivity.
Qed.

Lemma same_sub s (g g' : list lrow) : (forall r, In r g' -> In r g) -> same s g -> same s g'.
Proof. unfold same. rewrite !Forall_forall. auto. Qed.

Lemma group_used k s g : group (s, map (row_of k) g) -> used_rows g <> [] -> group (rows_of k used_rows (s, g)).
Proof.
  intros (A & B & C) N. split; [exact A|]. unfold rows_of. cbn [fst snd] in *. split; [destruct (used_rows g); [congruence|discriminate]|].
  eapply same_sub; [|exact C]. intros r. rewrite !in_map_iff. intros (f & E & I). exists f. split; [exact E|]. apply filter_In in I. tauto.
Qed.

Lemma nodup_filter_fst A B (P : A * B -> bool) l : NoDup (map fst l) -> NoDup (map fst (filter P l)).
Proof.
  induction l as [|x l IH]; intros H; [exact H|]. cbn [map] in H. inversion H as [|? ? N H']; subst. cbn [filter].
  destruct (P x); [|exact (IH H')]. cbn [map]. constructor; [|exact (IH H')].
  intros I. apply N. apply in_map_iff in I. destruct I as (y & E & I). apply filter_In in I. apply in_map_iff. exists y. tauto.
Qed.

Lemma listed_in l s : In s (listed l) -> In s (map fst l).
Proof.
  induction l as [|[t g] l IH]; [intros []|]. cbn [listed map fst]. destruct l as [|x l].
  - destruct g as [|a [|b g]]; cbn; tauto.
  - intros [E|I]; [left; exact E|right; apply IH; exact I].
Qed.
Lemma listed_but_last l s : In s (map fst l) -> In s (listed l) \/ exists pre r, l = pre ++ [(s, [r])] \/ l = pre ++ [(s, [])].
Proof.
  induction l as [|[t g] l IH]; [intros []|]. cbn [map fst]. cbn [listed]. destruct l as [|x l].
  - intros [<-|[]]. destruct g as [|a [|b g]]; [right; exists [], (mk_lrow EmptyString NaN NaN); right; reflexivity|right; exists [], a; left; reflexivity|left; left; reflexivity].
  - intros [<-|I]; [left; left; reflexivity|]. destruct (IH I) as [H|(pre & r & H)]; [left; right; exact H|].
    right. exists ((t, g) :: pre), r. destruct H as [->| ->]; [left|right]; reflexivity.
Qed.

Lemma map_snoc A B (f : A -> B) l pre y : map f l = pre ++ [y] -> exists l' x, l = l' ++ [x] /\ f x = y.
Proof.
  intros H. destruct l as [|a l] using rev_ind; [destruct pre; discriminate H|]. rewrite map_app in H. cbn [map] in H.
  apply app_inj_tail in H. exists l, a. tauto.
Qed.

(** Names of stations that were labelled do not come up in the second pass, all others do. *)
Lemma rest_rows k gs stns :
  (forall s g, In (s, g) gs -> group (s, map (row_of k) g)) -> 
  (forall s g, In (s, g) gs -> used_rows g <> [] -> In s stns \/ rejected_rows g = []) ->
  (forall s g, In (s, g) gs -> used_rows g = [] -> ~ In s stns) ->
  filter (fun f => negb (existsb (String.eqb (but_last (l_id (row_of k f)))) stns))
    (filter (fun f => negb (f_used f)) (concat (map snd gs)))
  = concat (map snd (not_in_use gs)).
Proof.
  intros HG H1 H2. rewrite filter_concat, filter_concat. induction gs as [|[s g] gs IH]; [reflexivity|].
  cbn [map concat snd not_in_use filter].
  assert (IH' := IH (fun s g I => HG s g (or_intror I)) (fun s g I => H1 s g (or_intror I)) (fun s g I => H2 s g (or_intror I))). clear IH.
  rewrite IH'. clear IH'. fold (rejected_rows g).
  assert (St : forall f, In f g -> but_last (l_id (row_of k f)) = s).
  { intros f I. destruct (HG s g (or_introl eq_refl)) as (_ & _ & S). cbn [fst snd] in S. unfold same in S. rewrite Forall_forall in S.
    destruct (S (row_of k f)) as (c & E); [apply in_map; exact I|]. rewrite E. apply but_last_id. }
  assert (Ex : existsb (String.eqb s) stns = true <-> In s stns).
  { rewrite existsb_exists. split; [intros (x & I & E); apply String.eqb_eq in E; subst; exact I|intros I; exists s; split; [exact I|apply String.eqb_refl]]. }
  destruct (used_rows g) as [|u us] eqn:Eu.
  - cbn [map concat snd].
    assert (N := H2 s g (or_introl eq_refl) Eu). f_equal.
    assert (R : rejected_rows g = g).
    { unfold rejected_rows, used_rows in *. clear -Eu. induction g as [|f g IH]; [reflexivity|]. cbn [filter] in *.
      destruct (f_used f); [discriminate Eu|]. cbn [negb]. rewrite (IH Eu). reflexivity. }
    rewrite R. clear R. assert (F : existsb (String.eqb s) stns = false) by (destruct (existsb (String.eqb s) stns); [exfalso; apply N, Ex; reflexivity|reflexivity]).
    clear -St F. induction g as [|f g IH]; [reflexivity|]. cbn [filter]. rewrite (St f) by (left; reflexivity). rewrite F. cbn [negb].
    f_equal. apply IH. intros f' I. apply St. right. exact I.
  - destruct (H1 s g (or_introl eq_refl)) as [I|R]; [rewrite Eu; discriminate| |rewrite R; reflexivity].
    apply Ex in I. assert (E : filter (fun f => negb (existsb (String.eqb (but_last (l_id (row_of k f)))) stns)) (rejected_rows g) = []).
    { assert (Hin : forall f, In f (rejected_rows g) -> In f g) by (intros f J; apply filter_In in J; tauto).
      revert Hin. generalize (rejected_rows g). induction l as [|f l IHl]; intros Hin; [reflexivity|]. cbn [filter].
      rewrite (St f) by (apply Hin; left; reflexivity). rewrite I. cbn [negb]. apply IHl. intros f' J. apply Hin. right. exact J. }
    rewrite E. reflexivity.
Qed.

Lemma plot_labels_groups k table gs :
  by_station k table gs -> length (filter f_used table) <> 1%nat -> length (concat (map snd (not_in_use gs))) <> 1%nat ->
  (forall pre s g, in_use gs = pre ++ [(s, g)] -> (2 <= length (used_rows g))%nat \/ rejected_rows g = []) ->
  plot_labels k table = Ret (map (gnote false) (map (rows_of k used_rows) (in_use gs))
                             ++ map (gnote true) (map (rows_of k (fun g => g)) (not_in_use gs))).
Proof.
  intros (Et & ND & HG) L1 L2 HL.
  assert (HG' : forall s g, In (s, g) gs -> group (s, map (row_of k) g)).
  { intros s g I. destruct (HG s g I) as (cs & H). eapply of_station_group. exact H. }
  assert (GU : Forall group (map (rows_of k used_rows) (in_use gs))).
  { rewrite Forall_forall. intros x I. apply in_map_iff in I. destruct I as ([s g] & <- & I). unfold in_use in I.
    apply filter_In in I. destruct I as (I & U). cbn [snd] in U. apply group_used; [apply HG'; exact I|].
    destruct (used_rows g); [discriminate U|discriminate]. }
  assert (Fu : forall sel l, map fst (map (rows_of k sel) l) = map fst l) by (intros; rewrite map_map; reflexivity).
  assert (NU : NoDup (map fst (map (rows_of k used_rows) (in_use gs)))) by (rewrite Fu; apply nodup_filter_fst; exact ND).
  unfold plot_labels. rewrite Et. rewrite <- used_concat. rewrite label_stations_groups; [|exact GU|exact NU|].
  2: { rewrite used_concat, map_length, <- Et. exact L1. }
  cbn [bind]. set (stns := listed (map (rows_of k used_rows) (in_use gs))).
  assert (Rest := rest_rows k gs stns HG').
  assert (A1 : forall s g, In (s, g) gs -> used_rows g <> [] -> In s stns \/ rejected_rows g = []).
  { intros s g I U. destruct (listed_but_last (map (rows_of k used_rows) (in_use gs)) s) as [H|(pre & r & H)].
    - rewrite Fu. apply in_map_iff. exists (s, g). split; [reflexivity|]. apply filter_In. split; [exact I|]. cbn [snd].
      destruct (used_rows g); [congruence|reflexivity].
    - left. exact H.
    - right. assert (H' : exists l' sg, in_use gs = l' ++ [sg] /\ fst sg = s /\ (length (used_rows (snd sg)) <= 1)%nat).
      { destruct H as [H|H]; apply map_snoc in H; destruct H as (l' & sg & E & E'); exists l', sg; split; [exact E| |exact E|];
          unfold rows_of in E'; split; [congruence| |congruence|];
          rewrite <- (map_length (row_of k)); assert (E2 := f_equal snd E'); cbn [snd] in E2; rewrite E2; cbn; lia. }
      destruct H' as (l' & [s' g'] & E & E' & Lg). cbn [fst snd] in *. subst s'.
      assert (I' : In (s, g') gs).
      { assert (J : In (s, g') (in_use gs)) by (rewrite E; apply in_or_app; right; left; reflexivity). apply filter_In in J. tauto. }
      assert (g' = g).
      { clear -ND I I'. induction gs as [|[t h] gs IH]; [destruct I|]. cbn [map fst] in ND. inversion ND as [|? ? N ND']; subst.
        destruct I as [E|I], I' as [E'|I']; [congruence| | |exact (IH ND' I I')];
          exfalso; apply N; apply in_map_iff; [exists (s, g')|exists (s, g)]; (split; [cbn; congruence|assumption]). }
      subst g'. destruct (HL _ _ _ E) as [H2|H2]; [lia|exact H2]. }
  assert (A2 : forall s g, In (s, g) gs -> used_rows g = [] -> ~ In s stns).
  { intros s g I U J. apply listed_in in J. rewrite Fu in J. apply in_map_iff in J. destruct J as ([s' g'] & E & J). cbn [fst] in E. subst s'.
    apply filter_In in J. destruct J as (J & W). cbn [snd] in W.
    assert (g' = g).
    { clear -ND I J. induction gs as [|[t h] gs IH]; [destruct I|]. cbn [map fst] in ND. inversion ND as [|? ? N ND']; subst.
      destruct I as [E|I], J as [E'|J]; [congruence| | |exact (IH ND' I J)];
        exfalso; apply N; apply in_map_iff; [exists (s, g')|exists (s, g)]; (split; [cbn; congruence|assumption]). }
    subst g'. rewrite U in W. discriminate W. }
  specialize (Rest A1 A2).
  set (rej := filter (fun f => negb (f_used f)) (concat (map snd gs))) in *.
  assert (LR : label_stations (map (row_of k) (concat (map snd (not_in_use gs)))) true
    = Ret (map (gnote true) (map (rows_of k (fun g => g)) (not_in_use gs)), listed (map (rows_of k (fun g => g)) (not_in_use gs)))).
  { assert (E : map (row_of k) (concat (map snd (not_in_use gs))) = concat (map snd (map (rows_of k (fun g => g)) (not_in_use gs)))).
    { rewrite <- concat_map_map. rewrite !map_map. reflexivity. }
    rewrite E. apply label_stations_groups.
    - rewrite Forall_forall. intros x I. apply in_map_iff in I. destruct I as ([s g] & <- & I). apply filter_In in I. apply HG'. tauto.
    - rewrite Fu. apply nodup_filter_fst. exact ND.
    - rewrite <- E, map_length. exact L2. }
  destruct rej as [|f rej'] eqn:Er.
  - cbn [filter] in Rest. assert (N : not_in_use gs = []).
    { destruct (not_in_use gs) as [|[s g] l] eqn:E; [reflexivity|]. assert (I : In (s, g) (not_in_use gs)) by (rewrite E; left; reflexivity).
      apply filter_In in I. destruct (HG' s g (proj1 I)) as (_ & B & _). cbn [map concat snd] in Rest. destruct g; [cbn in B; congruence|discriminate Rest]. }
    rewrite N. cbn [map]. rewrite app_nil_r. reflexivity.
  - rewrite Rest, LR. reflexivity.
Qed.

(** * The label of a group *)

Lemma fold_max_fin (xs : list R) : forall x, exists m, fold_left (fun m y => if eltb m y then y else m) (map Fin xs) (Fin x) = Fin m
  /\ In m (x :: xs) /\ (forall y, In y (x :: xs) -> y <= m)%R.
Proof.
  induction xs as [|a xs IH]; intros x; cbn [map fold_left].
  - exists x. split; [reflexivity|]. split; [left; reflexivity|]. intros y [->|[]]. lra.
  - cbn [eltb]. destruct (Rlt_dec x a) as [H|H].
    + destruct (IH a) as (m & E & I & B). exists m. split; [exact E|]. split; [right; exact I|].
      intros y [<-|J]; [|apply B; exact J]. assert (a <= m)%R by (apply B; left; reflexivity). lra.
    + destruct (IH x) as (m & E & I & B). exists m. split; [exact E|].
      split; [destruct I as [I|I]; [left; exact I|right; right; exact I]|].
      intros y [<-|[<-|J]]; [apply B; left; reflexivity| |apply B; right; exact J].
      assert (x <= m)%R by (apply B; left; reflexivity). lra.
Qed.

Lemma fin_list (l : list ext) : (forall x, In x l -> exists r, x = Fin r) -> exists rs, l = map Fin rs.
Proof.
  induction l as [|x l IH]; intros H; [exists []; reflexivity|]. destruct (H x) as (r & ->); [left; reflexivity|].
  destruct IH as (rs & ->); [intros y I; apply H; right; exact I|]. exists (r :: rs). reflexivity.
Qed.

Lemma gnote_label rej s g : group (s, g) -> (forall r, In r g -> exists a, l_amp r = Fin a) -> station_label s g rej (gnote rej (s, g)).
Proof.
  intros G F. exists (comps g). pose proof (group_of_station s g G) as O. split; [exact O|]. destruct G as (_ & N & _). cbn [snd] in N.
  unfold gnote. cbn [n_text n_dist n_amp n_grey fst snd].
  split; [apply label_text; destruct g; [congruence|discriminate]|].
  split. { unfold gdist. destruct (exists_last N) as (g' & r & ->). rewrite last_last. exists r. split; [apply in_or_app; right; left; reflexivity|reflexivity]. }
  assert (Hf : exists rs, map l_amp g = map Fin rs).
  { apply fin_list. intros x I. apply in_map_iff in I. destruct I as (r & <- & I). apply F. exact I. }
  destruct Hf as (rs & E). unfold gmax. rewrite E. destruct rs as [|x rs]; [destruct g; [congruence|discriminate E]|]. cbn [map].
  destruct (fold_max_fin rs x) as (m & Em & I & B). rewrite Em.
  split; [|split; [|reflexivity]].
  - assert (J : In (Fin m) (map l_amp g)) by (rewrite E; change (Fin x :: map Fin rs) with (map Fin (x :: rs)); apply in_map; exact I).
    apply in_map_iff in J. destruct J as (r & Er & J). exists r. split; [exact J|symmetry; exact Er].
  - intros r J. assert (J' : In (l_amp r) (map l_amp g)) by (apply in_map; exact J). rewrite E in J'.
    change (Fin x :: map Fin rs) with (map Fin (x :: rs)) in J'. apply in_map_iff in J'. destruct J' as (y & <- & J').
    apply eleb_fin. apply B. exact J'.
Qed.

Lemma Forall2_map_self {A B C} (P : A -> C -> Prop) (f : A -> B) (g : B -> C) l : (forall x, In x l -> P x (g (f x))) ->
  Forall2 P l (map g (map f l)).
Proof. induction l as [|x l IH]; intros H; cbn [map]; constructor; [apply H; left; reflexivity|apply IH; intros y I; apply H; right; exact I]. Qed.

(** * Labelling never fails *)

Lemma last_char_some s : s <> EmptyString -> exists c, last_char s = Ret c.
Proof.
  induction s as [|c s IH]; intros H; [congruence|]. cbn [last_char]. destruct s; [exists c; reflexivity|]. apply IH. discriminate.
Qed.
Lemma slice_nonempty A (l : list A) a b : 0 <= a < b -> b <= Z.of_nat (length l) -> slice l a b <> [].
Proof.
  intros H L E. assert (Hl : length (slice l a b) = 0%nat) by (rewrite E; reflexivity). unfold slice in Hl.
  rewrite firstn_length, skipn_length in Hl. lia.
Qed.
Lemma annotate_some rows rej s cs i amps : 0 <= i < Z.of_nat (length rows) -> amps <> [] -> exists n, annotate rows rej s cs i amps = Ret n.
Proof.
  intros H N. unfold annotate, iloc. destruct (rd_in_range _ (map l_dist rows) i) as (x & ->); [rewrite map_length; exact H|].
  cbn [bind]. destruct amps as [|y l]; [congruence|]. eexists. reflexivity.
Qed.
Lemma label_loop_some rows rej : (forall r, In r rows -> l_id r <> EmptyString) -> forall todo i st,
  0 <= i -> i + Z.of_nat (length todo) = Z.of_nat (length rows) -> (forall r, In r todo -> In r rows) ->
  (s_stn st <> EmptyString -> 0 <= s_start st < i) -> exists st', label_loop rows rej i todo st = Ret st'.
Proof.
  intros Hid. induction todo as [|r todo IH]; intros i st Hi Hl Hin Hst; [eexists; reflexivity|].
  cbn [label_loop]. cbn [length] in Hl.
  destruct (last_char_some (l_id r)) as (c & Ec); [apply Hid, Hin; left; reflexivity|].
  assert (Hin' : forall x, In x todo -> In x rows) by (intros x I; apply Hin; right; exact I).
  assert (Hm : Z.of_nat (length (map l_amp rows)) = Z.of_nat (length rows)) by (rewrite map_length; reflexivity).
  assert (Hs : exists st', label_step rows rej i (l_id r) st = Ret st' /\ (s_stn st' <> EmptyString -> 0 <= s_start st' < i + 1)).
  { unfold label_step. destruct (s_stn st) as [|a s] eqn:Es; cbn [ifempty].
    - rewrite Ec. cbn [bind]. eexists. split; [reflexivity|]. cbn [s_stn s_start]. intros _. lia.
    - specialize (Hst ltac:(discriminate)). destruct (negb (String.eqb (but_last (l_id r)) (String a s))).
      + destruct (annotate_some rows rej (String a s) (s_comps st) (i - 1) (slice (map l_amp rows) (s_start st) i)) as (n & ->);
          [lia|apply slice_nonempty; lia|]. cbn [bind]. rewrite Ec. cbn [bind]. cbn [s_stn s_start s_comps s_stns s_notes].
        destruct (i =? Z.of_nat (length rows) - 1).
        * destruct (annotate_some rows rej (but_last (l_id r)) [c] i (slice (map l_amp rows) i (Z.of_nat (length rows)))) as (n' & ->);
            [lia|apply slice_nonempty; lia|]. cbn [bind]. eexists. split; [reflexivity|]. cbn [s_stn s_start]. intros _. lia.
        * eexists. split; [reflexivity|]. cbn [s_stn s_start]. intros _. lia.
      + rewrite Ec. cbn [bind]. destruct (i =? Z.of_nat (length rows) - 1).
        * destruct (annotate_some rows rej (but_last (l_id r)) (s_comps st ++ [c]) i (slice (map l_amp rows) (s_start st) (Z.of_nat (length rows)))) as (n' & ->);
            [lia|apply slice_nonempty; lia|]. cbn [bind]. eexists. split; [reflexivity|]. cbn [s_stn s_start]. intros _. lia.
        * eexists. split; [reflexivity|]. cbn [s_stn s_start]. intros _. lia. }
  destruct Hs as (st' & -> & Hst'). cbn [bind]. apply IH; [lia|lia|exact Hin'|exact Hst'].
Qed.
Lemma label_stations_some rows rej : (forall r, In r rows -> l_id r <> EmptyString) -> exists x, label_stations rows rej = Ret x.
Proof.
  intros H. unfold label_stations. destruct (label_loop_some rows rej H rows 0 (mk_lstate EmptyString 0 [] [] [])) as (st & ->);
    [lia|lia|auto|cbn; congruence|]. eexists. reflexivity.
Qed.
Lemma plot_labels_some k table : (forall f, In f table -> l_id (row_of k f) <> EmptyString) -> exists ns, plot_labels k table = Ret ns.
Proof.
  intros H. unfold plot_labels.
  destruct (label_stations_some (map (row_of k) (filter f_used table)) false) as ([ns stns] & ->).
  { intros r I. apply in_map_iff in I. destruct I as (f & <- & I). apply filter_In in I. apply H. tauto. }
  cbn [bind]. destruct (filter (fun f => negb (f_used f)) table) as [|x l] eqn:E; [eexists; reflexivity|]. rewrite <- E.
  match goal with |- context [label_stations ?a true] => destruct (label_stations_some a true) as (y & ->) end; [|eexists; reflexivity].
  intros r I. apply in_map_iff in I. destruct I as (f & <- & I). apply filter_In in I. destruct I as (I & _). apply filter_In in I. apply H. tauto.
Qed.

(** * Limits *)
Open Scope R_scope.

Lemma series_max_fin (rs : list R) : rs <> [] -> exists m, series_max (map Fin rs) = Fin m /\ In m rs /\ forall y, In y rs -> y <= m.
Proof.
  intros H. unfold series_max, series_best. rewrite not_nan_fin. destruct rs as [|x rs]; [congruence|]. cbn [map]. apply fold_max_fin.
Qed.
Lemma fold_min_fin (xs : list R) : forall x, exists m, fold_left (fun m y => if eltb y m then y else m) (map Fin xs) (Fin x) = Fin m
  /\ In m (x :: xs) /\ (forall y, In y (x :: xs) -> m <= y).
Proof.
  induction xs as [|a xs IH]; intros x; cbn [map fold_left].
  - exists x. split; [reflexivity|]. split; [left; reflexivity|]. intros y [->|[]]. lra.
  - cbn [eltb]. destruct (Rlt_dec a x) as [H|H].
    + destruct (IH a) as (m & E & I & B). exists m. split; [exact E|]. split; [right; exact I|].
      intros y [<-|J]; [|apply B; exact J]. assert (m <= a) by (apply B; left; reflexivity). lra.
    + destruct (IH x) as (m & E & I & B). exists m. split; [exact E|].
      split; [destruct I as [I|I]; [left; exact I|right; right; exact I]|].
      intros y [<-|[<-|J]]; [apply B; left; reflexivity| |apply B; right; exact J].
      assert (m <= x) by (apply B; left; reflexivity). lra.
Qed.
Lemma series_min_fin (rs : list R) : rs <> [] -> exists m, series_min (map Fin rs) = Fin m /\ In m rs /\ forall y, In y rs -> m <= y.
Proof.
  intros H. unfold series_min, series_best. rewrite not_nan_fin. destruct rs as [|x rs]; [congruence|]. cbn [map]. apply fold_min_fin.
Qed.
Lemma fin_column {A} (f : A -> ext) (P : R -> Prop) l : (forall x, In x l -> exists r, f x = Fin r /\ P r) ->
  exists rs, map f l = map Fin rs /\ (forall r, In r rs -> P r).
Proof.
  induction l as [|x l IH]; intros H; [exists []; split; [reflexivity|intros r []]|].
  destruct (H x) as (r & E & Hp); [left; reflexivity|]. destruct IH as (rs & E' & Hp'); [intros y I; apply H; right; exact I|].
  exists (r :: rs). cbn [map]. rewrite E, E'. split; [reflexivity|]. intros q [<-|I]; [exact Hp|apply Hp'; exact I].
Qed.

Lemma linspace_fin a b n : (1 < n)%Z -> a <= b -> exists rs, linspace (Fin a) (Fin b) n = map Fin rs /\ (length rs = Z.to_nat n) /\ forall r, In r rs -> a <= r <= b.
Proof.
  intros Hn Hab. exists (map (fun i => a + IZR i * (b + - a) / IZR (n - 1)) (zrange n)).
  assert (P : 0 < IZR (n - 1)) by (apply IZR_lt; lia).
  split; [|split].
  - unfold linspace. rewrite map_map. apply map_ext. intros i. unfold esub. cbn [eneg eadd emul]. cbn [ediv]. destruct (Req_EM_T (IZR (n - 1)) 0); [lra|]. reflexivity.
  - rewrite map_length, zrange_length. reflexivity.
  - intros r I. apply in_map_iff in I. destruct I as (i & <- & I). apply in_zrange in I.
    assert (0 <= IZR i <= IZR (n - 1)) by (split; apply IZR_le; lia).
    assert (Q : 0 <= IZR i / IZR (n - 1) <= 1).
    { split; [apply Rmult_le_pos; [lra|apply Rlt_le, Rinv_0_lt_compat; exact P]|].
      apply Rmult_le_reg_r with (IZR (n - 1)); [exact P|]. unfold Rdiv. rewrite Rmult_assoc, Rinv_l by lra. lra. }
    replace (a + IZR i * (b + - a) / IZR (n - 1)) with (a + (IZR i / IZR (n - 1)) * (b - a)) by (field; lra).
    set (t := IZR i / IZR (n - 1)) in *. clearbody t. split; [|]. 
    + assert (0 <= t * (b - a)) by (apply Rmult_le_pos; lra). lra.
    + assert (0 <= (1 - t) * (b - a)) by (apply Rmult_le_pos; lra). lra.
Qed.

(** Distances, amplitudes and noise are positive numbers. *)
Definition finite_row (k : mag_params) (f : fobs) : Prop :=
  l_id (row_of k f) <> EmptyString
  /\ (exists d, f_dist f = Fin d /\ 0 < d) /\ (exists y, corrected_amp k f = Fin y /\ 0 < y) /\ (exists n, corrected_noise k f = Fin n /\ 0 < n).

Lemma plot_ok k att ucf u m err table : table <> [] -> (forall f, In f table -> finite_row k f) ->
  get_attenuation k = Ret att -> (forall d, 0 < d -> exists l, att (Fin d) = Fin l) ->
  exists p dmin dmax nmin ymax top, plot_amplitudes k ucf u (Fin m) err table = Ret p
  /\ (forall f, In f table -> exists d y n, f_dist f = Fin d /\ corrected_amp k f = Fin y /\ corrected_noise k f = Fin n
        /\ 0 < dmin <= d /\ d <= dmax /\ 0 < nmin <= n /\ 0 < y <= ymax)
  /\ p_xlim p = (Fin (dmin / 2), Fin (dmax * (15 / 10))) /\ p_ylim p = (Fin (nmin / 10), Fin top) /\ ymax * 5 <= top
  /\ p_used p = map (point k) (filter f_used table) /\ p_rejected p = map (point k) (filter (fun f => negb (f_used f)) table)
  /\ p_noise p = map (fun f => (f_dist f, corrected_noise k f)) table
  /\ (forall d, p_curve p d = epow10 (esub (Fin m) (att d))) /\ (forall d, p_upper p d = epow10 (esub (eadd (Fin m) err) (att d)))
  /\ (forall d, p_lower p d = epow10 (esub (esub (Fin m) err) (att d)))
  /\ p_xerr p = (let '(x, y, z) := u in distance_error k ucf x y z) /\ plot_labels k table = Ret (p_labels p)
  /\ (exists f, In f table /\ corrected_noise k f = Fin nmin).
Proof.
  intros Hne Hf Hatt Hfin. destruct u as [[ux uy] uz].
  destruct (fin_column f_dist (fun d => 0 < d) table) as (ds & Ed & Pd); [intros f I; apply Hf; exact I|].
  destruct (fin_column (corrected_amp k) (fun d => 0 < d) table) as (ys & Ey & Py); [intros f I; apply Hf; exact I|].
  destruct (fin_column (corrected_noise k) (fun d => 0 < d) table) as (ns & En & Pn); [intros f I; apply Hf; exact I|].
  assert (Nd : ds <> []) by (destruct table, ds; congruence || discriminate).
  assert (Ny : ys <> []) by (destruct table, ys; congruence || discriminate).
  assert (Nn : ns <> []) by (destruct table, ns; congruence || discriminate).
  destruct (series_min_fin ds Nd) as (dmin & Edm & Idm & Bdm). destruct (series_max_fin ds Nd) as (dmax & Edx & Idx & Bdx).
  destruct (series_max_fin ys Ny) as (ymax & Eyx & Iyx & Byx). destruct (series_min_fin ns Nn) as (nmin & Enm & Inm & Bnm).
  destruct (plot_labels_some k table) as (labels & El); [intros f I; apply Hf; exact I|].
  assert (Pdm := Pd _ Idm). assert (Pdx := Pd _ Idx). assert (Pnm := Pn _ Inm). assert (Pyx := Py _ Iyx).
  assert (Hdd : dmin <= dmax) by (apply Bdm; exact Idx).
  unfold plot_amplitudes. rewrite Ed, Ey, En, Edm, Edx, Eyx, Enm, El, Hatt. cbn [bind emul].
  assert (V2 : ediv (Fin dmin) (Fin 2) = Fin (dmin / 2)) by (cbn [ediv]; destruct (Req_EM_T 2 0); [lra|reflexivity]).
  assert (V10 : ediv (Fin nmin) (Fin 10) = Fin (nmin / 10)) by (cbn [ediv]; destruct (Req_EM_T 10 0); [lra|reflexivity]).
  rewrite V2, V10. cbn [limits bind].
  destruct (linspace_fin (dmin / 2) (dmax * (15 / 10)) 10000) as (ls & Els & Ll & Bl); [lia|lra|]. rewrite Els.
  assert (Nl : ls <> []) by (intros ->; discriminate Ll).
  destruct (fin_column (fun d => epow10 (esub (Fin m) (att d))) (fun _ => True) (map Fin ls)) as (cs & Ecs & _).
  { intros x I. apply in_map_iff in I. destruct I as (r & <- & I). specialize (Bl r I). destruct (Hfin r) as (l & ->); [lra|].
    cbn. eexists. split; [reflexivity|exact Logic.I]. }
  rewrite Ecs. assert (Nc : cs <> []) by (destruct ls, cs; congruence || discriminate).
  destruct (series_max_fin cs Nc) as (cmax & Ecx & _ & _).
  assert (Enp : np_max (map Fin cs) = Fin cmax).
  { unfold np_max. assert (E : existsb is_nan (map Fin cs) = false) by (clear; induction cs as [|c cs IH]; [reflexivity|exact IH]). rewrite E. exact Ecx. }
  rewrite Enp. cbn [pymax fold_left bind].
  assert (Ht : exists top, (if eltb (Fin cmax) (Fin (ymax * 5)) then Fin (ymax * 5) else Fin cmax) = Fin top /\ ymax * 5 <= top).
  { cbn [eltb]. destruct (Rlt_dec cmax (ymax * 5)); [exists (ymax * 5)|exists cmax]; (split; [reflexivity|lra]). }
  destruct Ht as (top & -> & Htop). cbn [limits bind].
  eexists. exists dmin, dmax, nmin, ymax, top. split; [reflexivity|]. cbn [p_xlim p_ylim p_used p_rejected p_noise p_curve p_upper p_lower p_xerr p_labels].
  assert (Hnm : exists f, In f table /\ corrected_noise k f = Fin nmin).
  { assert (J : In (Fin nmin) (map (corrected_noise k) table)) by (rewrite En; apply in_map; exact Inm).
    apply in_map_iff in J. destruct J as (f & E & J). exists f. auto. }
  split; [|repeat split; try reflexivity; assumption].
  intros f I. destruct (Hf f I) as (_ & (d & E1 & P1) & (y & E2 & P2) & (n0 & E3 & P3)). exists d, y, n0.
  assert (D : In d ds). { assert (J : In (Fin d) (map Fin ds)) by (rewrite <- Ed, <- E1; apply in_map; exact I). apply in_map_iff in J. destruct J as (q & Q & J). congruence. }
  assert (Y : In y ys). { assert (J : In (Fin y) (map Fin ys)) by (rewrite <- Ey, <- E2; apply in_map; exact I). apply in_map_iff in J. destruct J as (q & Q & J). congruence. }
  assert (N : In n0 ns). { assert (J : In (Fin n0) (map Fin ns)) by (rewrite <- En, <- E3; apply in_map; exact I). apply in_map_iff in J. destruct J as (q & Q & J). congruence. }
  specialize (Bdm d D). specialize (Bdx d D). specialize (Byx y Y). specialize (Bnm n0 N). repeat split; assumption.
Qed.

Lemma rpower_pos a b : 0 < Rpower a b. Proof. apply exp_pos. Qed.
Lemma rpower_lt a b : a < b <-> Rpower 10 a < Rpower 10 b.
Proof.
  pose proof ln10_pos. split; intros H1.
  - apply Rpower_lt; [lra|exact H1].
  - destruct (Rle_or_lt b a) as [H2|H2]; [|exact H2]. exfalso.
    assert (Rpower 10 b <= Rpower 10 a) by (destruct H2 as [H2| ->]; [apply Rlt_le, Rpower_lt; lra|lra]). lra.
Qed.
Lemma rpower_log10 a : 0 < a -> Rpower 10 (log10 a) = a.
Proof. intros H. unfold Rpower, log10. pose proof ln10_pos. replace (ln a / ln 10 * ln 10) with (ln a) by (field; lra). apply exp_ln. exact H. Qed.

(** A row of the table and its observation. *)
Definition table_row (k : mag_params) (att : ext -> ext) (fl : bool) (o : obs) : fobs :=
  filter_row k (gain_corrected (negb fl) (magnitude_row k att (negb fl) o)).

Lemma table_row_values k att fl o a n d l : measured k att fl o a n d l ->
  corrected_amp k (table_row k att fl o) = Fin (a * amp_multiplier k * Rpower 10 (correction (station_corrections k) (o_id o)))
  /\ corrected_noise k (table_row k att fl o) = Fin (n * amp_multiplier k * Rpower 10 (correction (station_corrections k) (o_id o)))
  /\ f_dist (table_row k att fl o) = Fin d /\ l_id (row_of k (table_row k att fl o)) = o_id o
  /\ o_amp (m_obs (f_mobs (table_row k att fl o))) = Fin a.
Proof.
  intros M. pose proof (measured_obs _ _ _ _ _ _ _ _ M) as E. pose proof (measured_distance _ _ _ _ _ _ _ _ M) as Hd.
  pose proof (measured_blank _ _ _ _ _ _ _ _ M) as Hb.
  destruct M as (Ha & Pa & Hn & Pn & Hdd & Pd & Hl).
  assert (Eg : exists ml er, gain_corrected (negb fl) (magnitude_row k att (negb fl) o)
     = mk_mobs (mk_obs (o_id o) (o_epi o) (o_z o) (o_amp o) (o_gain o) (Fin n) (o_picked o)) ml er).
  { unfold gain_corrected. rewrite E. destruct fl; cbn [negb].
    - destruct Hn as (n0 & g & E1 & E2 & Pg & ->). rewrite E1, E2. cbn [ediv]. destruct (Req_EM_T g 0); [lra|]. eexists. eexists. reflexivity.
    - cbn [negb] in E. destruct (magnitude_row k att true o) as [o' ml er]. cbn [m_obs] in E. subst o'. destruct o as [i e z am g nz p]. cbn [o_id o_epi o_z o_amp o_gain o_noise o_picked] in *. rewrite Hn. eexists. eexists. reflexivity. }
  destruct Eg as (ml & er & Eg). unfold table_row. rewrite Eg. unfold filter_row. cbn [m_obs o_id].
  unfold corrected_amp, corrected_noise, row_of. cbn [f_mobs f_corr f_dist m_obs m_ml m_err l_id].
  set (o' := mk_obs (o_id o) (o_epi o) (o_z o) (o_amp o) (o_gain o) (Fin n) (o_picked o)) in *.
  assert (Hd' : distance k o' = Fin d) by exact Hd.
  assert (Hb' : blank_zero_distance k o' = o').
  { unfold blank_zero_distance. destruct (use_hyp_dist k) eqn:Eh; [reflexivity|]. unfold o'. cbn [o_id o_epi o_z o_amp o_gain o_noise o_picked]. f_equal.
    unfold distance in Hd. rewrite Eh in Hd. rewrite Hd. unfold zero_to_nan. cbn [eeqb]. destruct (Req_EM_T d 0); [lra|reflexivity]. }
  rewrite Hb', Hd'. unfold o'. cbn [o_id o_amp o_noise emul]. rewrite Ha. cbn [emul].
  split; [reflexivity|]. split; [reflexivity|]. split; [unfold zero_to_nan; cbn [eeqb]; destruct (Req_EM_T d 0); [lra|reflexivity]|]. split; reflexivity.
Qed.

Lemma table_row_ml k att fl o a n d l ml : measured k att fl o a n d l -> 0 < amp_multiplier k ->
  m_ml (f_mobs (table_row k att fl o)) = Fin ml -> ml = log10 (a * amp_multiplier k) + l + correction (station_corrections k) (o_id o).
Proof.
  intros M Hk. pose proof (measured_distance _ _ _ _ _ _ _ _ M) as Hd. destruct M as (Ha & Pa & Hn & Pn & Hdd & Pd & Hl).
  unfold table_row, filter_row. cbn [f_mobs m_ml].
  assert (E : m_ml (gain_corrected (negb fl) (magnitude_row k att (negb fl) o)) = m_ml (magnitude_row k att (negb fl) o))
    by (unfold gain_corrected; destruct (negb fl); reflexivity).
  rewrite E. clear E. unfold magnitude_row. cbv zeta. rewrite Hd, Ha. cbn [emul].
  assert (Ez : zero_to_nan (Fin d) = Fin d) by (unfold zero_to_nan; cbn [eeqb]; destruct (Req_EM_T d 0); [lra|reflexivity]). rewrite Ez.
  match goal with |- context [eltb ?x ?y] => destruct (eltb x y) end.
  - cbn. discriminate.
  - assert (Pm : 0 < a * amp_multiplier k) by (apply Rmult_lt_0_compat; assumption).
    cbn [eeqb]. destruct (Req_EM_T (a * amp_multiplier k) 0); [lra|]. unfold calc_mag. cbv zeta. cbn [m_ml]. cbn [elog10].
    destruct (Rlt_dec 0 (a * amp_multiplier k)); [|lra]. rewrite Hl. cbn [eadd]. intros H. congruence.
Qed.

Lemma mean_magnitude_table k att fl rows ms r table : get_attenuation k = Ret att -> (fl = true <-> some_gain rows) ->
  calculate_magnitudes k rows = Ret ms -> mean_magnitude k ms = Ret (r, table) ->
  table = map (table_row k att fl) (filter (fun o => complete (gain_corrected (negb fl) (magnitude_row k att (negb fl) o))) rows).
Proof.
  intros Hatt Hfl Hms Hr. unfold calculate_magnitudes in Hms. rewrite Hatt in Hms. cbn [bind] in Hms.
  rewrite (no_filter_iff fl rows Hfl) in Hms. assert (E : ms = map (magnitude_row k att (negb fl)) rows) by congruence. subst ms. clear Hms.
  unfold mean_magnitude in Hr. rewrite gain_kept, (no_filter_iff fl rows Hfl) in Hr. cbv zeta in Hr.
  set (t := filter_mags k (map (gain_corrected (negb fl)) (map (magnitude_row k att (negb fl)) rows))) in *.
  assert (Et : table = t).
  { destruct (filter f_used t) as [|u rest]; [congruence|].
    match type of Hr with bind ?x _ = _ => destruct x; cbn [bind] in Hr; congruence end. }
  rewrite Et. unfold t, filter_mags, table_row. rewrite map_map. clear. induction rows as [|o rows IH]; [reflexivity|]. cbn [map filter].
  destruct (complete _); cbn [map]; rewrite IH; reflexivity.
Qed.

Lemma named_finite s att : logA0 s = Ret att -> forall d, 0 < d -> exists l, att (Fin d) = Fin l.
Proof.
  unfold logA0. intros H d Hd.
  repeat match type of H with (if ?b then _ else _) = _ => destruct b end; try discriminate H;
    (assert (E := f_equal (fun o => match o with Ret f => f | _ => fun x => x end) H); cbv beta iota in E; rewrite <- E; clear H E);
    try (rewrite log_linear_fin by lra; eexists; reflexivity).
  cbn [elog10]. destruct (Rlt_dec 0 d); [|lra]. cbn. eexists. reflexivity.
Qed.

Lemma distance_error_fin k ucf x y z : 0 < ucf -> exists e, distance_error k ucf (Fin x) (Fin y) (Fin z) = Fin e /\ 0 <= e
  /\ e ^ 2 = (x ^ 2 + y ^ 2 + (if use_hyp_dist k then z ^ 2 else 0)) * (ucf / 1000) ^ 2.
Proof.
  intros Hu. assert (P : 1000 / ucf <> 0) by (assert (0 < 1000 / ucf) by (apply Rdiv_lt_0_compat; lra); lra).
  unfold distance_error. cbv zeta. cbn [ediv]. destruct (Req_EM_T (1000 / ucf) 0); [contradiction|].
  unfold esq. cbn [emul eadd].
  assert (Sq : forall a, 0 <= a * a) by (intros a; apply Rle_0_sqr).
  set (X := x / (1000 / ucf)). set (Y := y / (1000 / ucf)). set (W := z / (1000 / ucf)).
  assert (E1 : esqrt (Fin (X * X + Y * Y)) = Fin (sqrt (X * X + Y * Y))).
  { cbn [esqrt]. destruct (Rlt_dec (X * X + Y * Y) 0) as [L|_]; [|reflexivity]. pose proof (Sq X). pose proof (Sq Y). lra. }
  rewrite E1.
  assert (H1 : sqrt (X * X + Y * Y) * sqrt (X * X + Y * Y) = X * X + Y * Y) by (apply sqrt_sqrt; pose proof (Sq X); pose proof (Sq Y); lra).
  destruct (use_hyp_dist k).
  - cbn [emul eadd]. rewrite H1. cbn [esqrt]. destruct (Rlt_dec (X * X + Y * Y + W * W) 0) as [L|_]; [pose proof (Sq X); pose proof (Sq Y); pose proof (Sq W); lra|].
    eexists. split; [reflexivity|]. split; [apply sqrt_pos|]. cbn [pow]. rewrite Rmult_1_r. rewrite sqrt_sqrt by (pose proof (Sq X); pose proof (Sq Y); pose proof (Sq W); lra).
    unfold X, Y, W. field. lra.
  - eexists. split; [reflexivity|]. split; [apply sqrt_pos|]. cbn [pow]. rewrite Rmult_1_r, H1. unfold X, Y. field. lra.
Qed.
