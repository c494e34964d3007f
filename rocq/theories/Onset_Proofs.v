(** Lemmas for Onset_Props.v. *)
From Coq Require Import String Ascii.
From Coq Require Import List ZArith Reals QArith Bool Lia Lra Permutation.
From Verif Require Import Lib LibFacts PyDict Timeline_Model Avail_Model Avail_Spec Avail_Proofs Archive_Model Read_Model Read_Proofs Migrate_Spec StaLta_Model StaLta_Spec Resample_Spec Onset_Model Onset_Spec.
From Verif Require Resample_Model Resample_Proofs Resample_Props StaLta_Props Avail_Props.
Import ListNotations.
Open Scope Z_scope.

(** ** Ids in order *)
Definition sle (x y : string) : Prop := String.compare x y <> Gt.
Lemma ascii_cmp a b : Ascii.compare a b = N.compare (N_of_ascii a) (N_of_ascii b).
Proof. reflexivity. Qed.
Lemma sle_trans : forall x y z, sle x y -> sle y z -> sle x z.
Proof.
  unfold sle. induction x as [|a x IH]; intros [|b y] [|c z]; cbn [String.compare]; try congruence. rewrite !ascii_cmp.
  destruct (N.compare_spec (N_of_ascii a) (N_of_ascii b)) as [E|E|E], (N.compare_spec (N_of_ascii b) (N_of_ascii c)) as [F|F|F]; intros H1 H2; try congruence.
  - rewrite E, F, N.compare_refl. apply (IH y z H1 H2).
  - rewrite E. apply N.compare_lt_iff in F. rewrite F. discriminate.
  - rewrite <- F. apply N.compare_lt_iff in E. rewrite E. discriminate.
  - assert (G : (N_of_ascii a < N_of_ascii c)%N) by lia. apply N.compare_lt_iff in G. rewrite G. discriminate.
Qed.
Lemma sle_antisym x y : sle x y -> sle y x -> x = y.
Proof.
  unfold sle. intros H1 H2. apply String.compare_eq_iff. rewrite String.compare_antisym in H2. destruct (String.compare x y); cbn in *; congruence.
Qed.
Lemma sle_total x y : sle x y \/ sle y x.
Proof. unfold sle. rewrite (String.compare_antisym y x). destruct (String.compare x y); cbn; (left; discriminate) || (right; discriminate). Qed.
Lemma insert_le x y l : sle x y -> insert_id x (y :: l) = x :: y :: l.
Proof. unfold sle. cbn [insert_id]. destruct (String.compare x y); congruence. Qed.
Lemma insert_gt x y l : ~ sle x y -> insert_id x (y :: l) = y :: insert_id x l.
Proof. unfold sle. cbn [insert_id]. destruct (String.compare x y); intros H; [exfalso; apply H; discriminate..|reflexivity]. Qed.
Lemma sle_dec x y : sle x y \/ ~ sle x y.
Proof. unfold sle. destruct (String.compare x y); [left|left|right]; congruence. Qed.
Lemma insert_comm x y : forall l, insert_id x (insert_id y l) = insert_id y (insert_id x l).
Proof.
  induction l as [|z l IH].
  - change (insert_id x [y] = insert_id y [x]). destruct (sle_dec x y) as [H|H], (sle_dec y x) as [G|G].
    + rewrite (sle_antisym x y H G). reflexivity.
    + rewrite (insert_le x y), (insert_gt y x) by assumption. reflexivity.
    + rewrite (insert_gt x y), (insert_le y x) by assumption. reflexivity.
    + destruct (sle_total x y); contradiction.
  - destruct (sle_dec x z) as [Hx|Hx], (sle_dec y z) as [Hy|Hy].
    + rewrite (insert_le y z), (insert_le x z) by assumption. destruct (sle_dec x y) as [H|H], (sle_dec y x) as [G|G].
      * rewrite (sle_antisym x y H G). reflexivity.
      * rewrite (insert_le x y), (insert_gt y x), (insert_le y z) by assumption. reflexivity.
      * rewrite (insert_gt x y), (insert_le y x), (insert_le x z) by assumption. reflexivity.
      * destruct (sle_total x y); contradiction.
    + rewrite (insert_gt y z), (insert_le x z), (insert_le x z) by assumption. assert (G : ~ sle y x) by (intros C; apply Hy; apply (sle_trans y x z); assumption).
      rewrite (insert_gt y x), (insert_gt y z) by assumption. reflexivity.
    + rewrite (insert_gt x z), (insert_le y z), (insert_le y z) by assumption. assert (G : ~ sle x y) by (intros C; apply Hx; apply (sle_trans x y z); assumption).
      rewrite (insert_gt x y), (insert_gt x z) by assumption. reflexivity.
    + rewrite (insert_gt y z), (insert_gt x z), (insert_gt x z), (insert_gt y z), IH by assumption. reflexivity.
Qed.
Lemma sort_ids_perm l l' : Permutation l l' -> fold_right insert_id [] l = fold_right insert_id [] l'.
Proof. induction 1; cbn [fold_right]; [reflexivity|congruence|apply insert_comm|congruence]. Qed.

(** ** Traces by id *)
Lemma select_in st i s : In s (select_id st i) <-> In s st /\ sg_id s = i.
Proof. unfold select_id. rewrite filter_In, String.eqb_eq. reflexivity. Qed.
Lemma sorted_ids_same st st' : (forall i, select_id st i = select_id st' i) -> sorted_ids st = sorted_ids st'.
Proof.
  intros H. unfold sorted_ids. apply sort_ids_perm. apply NoDup_Permutation; [apply NoDup_nodup..|]. intros i. rewrite !nodup_In, !in_map_iff.
  split; intros (s & E & I); exists s; (split; [exact E|]).
  - assert (X : In s (select_id st i)) by (apply select_in; auto). rewrite H in X. apply select_in in X. tauto.
  - assert (X : In s (select_id st' i)) by (apply select_in; auto). rewrite <- H in X. apply select_in in X. tauto.
Qed.
Lemma select_cons s st i : select_id (s :: st) i = if String.eqb (sg_id s) i then s :: select_id st i else select_id st i.
Proof. reflexivity. Qed.
Lemma select_app a b i : select_id (a ++ b) i = select_id a i ++ select_id b i.
Proof. unfold select_id. apply filter_app. Qed.
Lemma select_by (p : string -> bool) st i : select_id (filter (fun s => p (sg_id s)) st) i = if p i then select_id st i else [].
Proof.
  induction st as [|s st IH]; [destruct (p i); reflexivity|]. cbn [filter]. rewrite select_cons. destruct (String.eqb_spec (sg_id s) i) as [E|E].
  - rewrite E. destruct (p i) eqn:P; [|exact IH]. rewrite select_cons, E, String.eqb_refl, IH. reflexivity.
  - destruct (p (sg_id s)); [rewrite select_cons; destruct (String.eqb_spec (sg_id s) i); [contradiction|]|]; exact IH.
Qed.
Lemma same_perm st : forall st', (forall i, select_id st i = select_id st' i) -> Permutation st st'.
Proof.
  induction st as [|s st IH]; intros st' H.
  - destruct st' as [|s' st']; [constructor|]. specialize (H (sg_id s')). rewrite select_cons, String.eqb_refl in H. discriminate.
  - assert (X : In s (select_id st' (sg_id s))) by (rewrite <- H, select_cons, String.eqb_refl; left; reflexivity).
    assert (G : exists a b, st' = a ++ s :: b /\ select_id a (sg_id s) = []).
    { specialize (H (sg_id s)). rewrite select_cons, String.eqb_refl in H. clear X IH. revert H. induction st' as [|t st' IHt]; intros H; [discriminate|].
      rewrite select_cons in H. destruct (String.eqb (sg_id t) (sg_id s)) eqn:E.
      - injection H as <- _. exists [], st'. split; reflexivity.
      - destruct (IHt H) as (a & b & -> & Ea). exists (t :: a), b. split; [reflexivity|]. rewrite select_cons, E. exact Ea. }
    destruct G as (a & b & -> & Ea). rewrite <- Permutation_middle. constructor. apply IH. intros i. pose proof (H i) as Hi. rewrite !select_app in Hi. rewrite select_app. rewrite !select_cons in Hi. clear H. rename Hi into H.
    destruct (String.eqb_spec (sg_id s) i) as [Ei|Ei]; [|exact H]. rewrite <- Ei in *. rewrite Ea in *. cbn [app] in *. congruence.
Qed.

(** ** map_out *)
Lemma map_out_all {A B} (f : A -> outcome B) : forall l ys, map_out f l = Ret ys -> Forall2 (fun x y => f x = Ret y) l ys.
Proof.
  induction l as [|x l IH]; cbn [map_out]; intros ys H.
  - assert (ys = []) by congruence. subst. constructor.
  - destruct (f x) as [y| |] eqn:E; try discriminate. cbn [bind] in H. destruct (map_out f l) as [r| |] eqn:F; try discriminate. cbn [bind] in H. assert (ys = y :: r) by congruence. subst. constructor; auto.
Qed.
Lemma map_out_ret {A B} (f : A -> outcome B) l ys : Forall2 (fun x y => f x = Ret y) l ys -> map_out f l = Ret ys.
Proof. induction 1; cbn [map_out]; [reflexivity|]. rewrite H. cbn [bind]. rewrite IHForall2. reflexivity. Qed.
Lemma map_out_ext {A B} (f g : A -> outcome B) l : (forall x, In x l -> f x = g x) -> map_out f l = map_out g l.
Proof.
  induction l as [|x l IH]; intros H; [reflexivity|]. cbn [map_out]. rewrite H by (left; reflexivity). rewrite IH by (intros; apply H; right; assumption). reflexivity.
Qed.
Lemma forall2_perm {A B} (P : A -> B -> Prop) l l' : Permutation l l' -> forall ys, Forall2 P l ys -> exists ys', Permutation ys ys' /\ Forall2 P l' ys'.
Proof.
  induction 1 as [|x l l' H IH|x y l|l l' l'' H IH H' IH']; intros ys F.
  - inversion F; subst. exists []. split; constructor.
  - inversion F as [|? y ? ys0 Hx F']; subst. destruct (IH _ F') as (ys' & Pm & F''). exists (y :: ys'). split; constructor; assumption.
  - inversion F as [|? a ? ys0 Hx F']; subst. inversion F' as [|? b ? ys1 Hy F'']; subst. exists (b :: a :: ys1). split; [constructor|]. repeat constructor; assumption.
  - destruct (IH _ F) as (ys1 & P1 & F1). destruct (IH' _ F1) as (ys2 & P2 & F2). exists ys2. split; [etransitivity; eassumption|exact F2].
Qed.

(** ** The sum over the components does not depend on their order *)
Lemma fadd_comm a b : fadd a b = fadd b a.
Proof. destruct a, b; cbn; try reflexivity. f_equal. ring. Qed.
Lemma fadd_assoc a b c : fadd a (fadd b c) = fadd (fadd a b) c.
Proof. destruct a, b, c; cbn; try reflexivity. f_equal. ring. Qed.
Lemma add_comm : forall a b, add_lists a b = add_lists b a.
Proof. induction a as [|x a IH]; intros [|y b]; cbn; try reflexivity. rewrite fadd_comm, IH. reflexivity. Qed.
Lemma add_assoc : forall a b c, add_lists a (add_lists b c) = add_lists (add_lists a b) c.
Proof. induction a as [|x a IH]; intros [|y b] [|z c]; cbn; try reflexivity. rewrite fadd_assoc, IH. reflexivity. Qed.
Definition addsq (acc x : list (option R)) : list (option R) := add_lists acc (map fsq x).
Lemma fold_addsq_perm l l' : Permutation l l' -> forall acc, fold_left addsq l acc = fold_left addsq l' acc.
Proof.
  induction 1 as [|x l l' H IH|x y l|l l' l'' H IH H' IH']; intros acc; cbn [fold_left]; [reflexivity|apply IH| |rewrite IH; apply IH'].
  f_equal. unfold addsq. rewrite <- !add_assoc. f_equal. apply add_comm.
Qed.
Lemma zeros_add l : add_lists (repeat (Some 0%R) (length l)) l = l.
Proof. induction l as [|x l IH]; cbn; [reflexivity|]. rewrite IH. f_equal. destruct x; cbn; [f_equal; ring|reflexivity]. Qed.
Lemma combine_zeros n o os : length o = n -> combine_components (o :: os) = map (option_map (fun v => sqrt (v / INR (length (o :: os))))) (fold_left addsq (o :: os) (repeat (Some 0%R) n)).
Proof. intros <-. unfold combine_components. cbn [fold_left]. unfold addsq at 2. rewrite <- (map_length fsq o), zeros_add. reflexivity. Qed.
Lemma combine_perm n os os' : Forall (fun o => length o = n) os -> Permutation os os' -> combine_components os = combine_components os'.
Proof.
  intros F H. assert (F' : Forall (fun o => length o = n) os') by (eapply Permutation_Forall; eassumption). destruct os as [|o os], os' as [|o' os'].
  - reflexivity.
  - apply Permutation_nil in H. discriminate.
  - symmetry in H. apply Permutation_nil in H. discriminate.
  - inversion F; inversion F'; subst. rewrite (combine_zeros (length o)), (combine_zeros (length o)) by congruence. rewrite (fold_addsq_perm _ _ H), (Permutation_length H). reflexivity.
Qed.
Lemma pyfill_length {A} (l : list A) a b v : length (PySlice.pyfill l a b v) = length l.
Proof.
  unfold PySlice.pyfill. cbv zeta. set (n := Z.of_nat (length l)). assert (Ha : 0 <= PySlice.pylo n a <= n) by (unfold PySlice.pylo, PySlice.pynorm; destruct a as [x|]; [destruct (Z.ltb_spec x 0)|]; lia).
  assert (Hb : PySlice.pyhi n b <= n) by (unfold PySlice.pyhi, PySlice.pynorm; destruct b as [x|]; [destruct (Z.ltb_spec x 0)|]; lia).
  rewrite !app_length, firstn_length, repeat_length, skipn_length. lia.
Qed.
Lemma combined_perm mov stw ltw tp n os os' : Forall (fun o => length o = n) os -> Permutation os os' -> combined_onset mov stw ltw tp os = combined_onset mov stw ltw tp os'.
Proof.
  intros F H. unfold combined_onset. f_equal. destruct tp as [x|]; [|apply (combine_perm n); assumption].
  apply (combine_perm n); [|apply Permutation_map; exact H]. apply Forall_map. eapply Forall_impl; [|exact F]. cbv beta. intros o <-. unfold trim_taper_pad1. rewrite !pyfill_length. reflexivity.
Qed.

(** ** Pre-processing works trace by trace *)
Lemma decimate_id lp d s o : Resample_Model.decimate lp d s = Ret o -> sg_id o = sg_id s.
Proof. unfold Resample_Model.decimate. cbv zeta. destruct (_ <=? 0); intros H; [discriminate|]. assert (E : o = mk_seg (sg_id s) (sg_start s) (d / sg_delta s * sg_delta s) (Resample_Model.every (d / sg_delta s) (lp (sg_delta s) (sg_data s)))) by congruence. rewrite E. reflexivity. Qed.
Lemma resample_trace_id lp secs rate rs uf a b s o : Resample_Model.resample_trace lp secs rate rs uf a b s = Ret o -> sg_id o = sg_id s.
Proof.
  unfold Resample_Model.resample_trace. destruct (Resample_Model.at_rate secs rate s); [congruence|]. destruct (Resample_Model.decimable secs rate s); [apply decimate_id|].
  destruct rs, uf as [u|]; try congruence. destruct (negb _); [discriminate|]. unfold Resample_Model.upsample_trace. cbv zeta. destruct (_ || _); [discriminate|].
  destruct (upsample _ _ _ _ _ _) as [[st dt]|]; [|discriminate]. cbn [bind]. intros H. apply decimate_id in H. rewrite H. reflexivity.
Qed.
Section PreProcess.
Variables (lp bp : Z -> list R -> list R) (secs rate : Z) (rs : bool) (uf : option Z) (hc : Q) (a b : Z).
Let pp := Resample_Model.pre_process lp bp secs rate rs uf hc a b.
Let one := Resample_Model.resample_trace lp secs rate rs uf a b.
Let mv := Resample_Model.moved secs rate rs uf.
Lemma loop_select i : forall st kn, Resample_Model.resample_loop one mv st = Ret kn -> Resample_Model.resample_loop one mv (select_id st i) = Ret (select_id (fst kn) i, select_id (snd kn) i).
Proof.
  induction st as [|s st IH]; cbn [Resample_Model.resample_loop]; intros kn H.
  - assert (kn = ([], [])) by congruence. subst. reflexivity.
  - destruct (one s) as [o| |] eqn:E; try discriminate. cbn [bind] in H. destruct (Resample_Model.resample_loop one mv st) as [kn0| |]; try discriminate. cbn [bind] in H. specialize (IH kn0 eq_refl).
    assert (Ek : kn = if mv s then (fst kn0, o :: snd kn0) else (o :: fst kn0, snd kn0)) by congruence. rewrite select_cons. pose proof (resample_trace_id _ _ _ _ _ _ _ _ _ E) as Eo.
    destruct (String.eqb (sg_id s) i) eqn:Ei.
    + cbn [Resample_Model.resample_loop]. rewrite E. cbn [bind]. rewrite IH. cbn [bind fst snd]. rewrite Ek. destruct (mv s); cbn [fst snd]; rewrite select_cons, Eo, Ei; reflexivity.
    + rewrite IH, Ek. destruct (mv s); cbn [fst snd]; rewrite select_cons, Eo, Ei; reflexivity.
Qed.
Lemma loop_total : forall st, (forall s, In s st -> exists o, one s = Ret o) -> exists kn, Resample_Model.resample_loop one mv st = Ret kn.
Proof.
  induction st as [|s st IH]; intros H; [exists ([], []); reflexivity|]. cbn [Resample_Model.resample_loop]. destruct (H s (or_introl eq_refl)) as (o & ->). cbn [bind].
  destruct IH as (kn & ->); [intros x Ix; apply H; right; exact Ix|]. cbn [bind]. eexists. reflexivity.
Qed.
Lemma loop_ones : forall st kn, Resample_Model.resample_loop one mv st = Ret kn -> forall s, In s st -> exists o, one s = Ret o.
Proof.
  induction st as [|s st IH]; cbn [Resample_Model.resample_loop]; intros kn H x Ix; [destruct Ix|].
  destruct (one s) as [o| |] eqn:E; try discriminate. cbn [bind] in H. destruct (Resample_Model.resample_loop one mv st) as [kn0| |] eqn:F; try discriminate. destruct Ix as [<-|Ix]; [exists o; exact E|apply (IH _ eq_refl x Ix)].
Qed.
Lemma map_select (f : seg -> seg) st i : (forall s, sg_id (f s) = sg_id s) -> select_id (map f st) i = map f (select_id st i).
Proof. intros H. induction st as [|s st IH]; [reflexivity|]. cbn [map]. rewrite !select_cons, H. destruct (String.eqb (sg_id s) i); cbn [map]; rewrite IH; reflexivity. Qed.
Lemma select_filter (f : seg -> bool) st i : select_id (filter f st) i = filter f (select_id st i).
Proof. apply Read_Proofs.filter_comm. Qed.
Lemma pp_select st outs i : pp st = Ret outs -> pp (select_id st i) = Ret (select_id outs i).
Proof.
  unfold pp, Resample_Model.pre_process, Resample_Model.resample. fold one mv. destruct (Resample_Model.resample_loop one mv st) as [kn| |] eqn:E; try discriminate. cbn [bind]. intros H.
  rewrite (loop_select i st kn E). cbn [bind fst snd]. destruct (Qle_bool _ _); [discriminate|].
  match type of H with Ret ?x = _ => assert (Eo : outs = x) by congruence end. rewrite Eo. f_equal. rewrite map_select by reflexivity. f_equal. unfold Resample_Model.trim_stream. rewrite <- select_app.
  rewrite select_filter, (map_select _ _ i) by reflexivity. reflexivity.
Qed.
Lemma pp_total st st' outs : (forall s, In s st' -> In s st) -> pp st = Ret outs -> exists outs', pp st' = Ret outs'.
Proof.
  intros Sub. unfold pp, Resample_Model.pre_process, Resample_Model.resample. fold one mv. destruct (Resample_Model.resample_loop one mv st) as [kn| |] eqn:E; try discriminate. cbn [bind]. intros H.
  destruct (loop_total st') as (kn' & ->); [intros s Is; apply (loop_ones st kn E); auto|]. cbn [bind]. destruct (Qle_bool _ _); [discriminate|]. eexists. reflexivity.
Qed.
End PreProcess.

(** ** The onset of a station *)
Definition st_name (i : string) : string := string_of_list_ascii (fst (at_dot (list_ascii_of_string i))).
Lemma list_string s : list_ascii_of_string (string_of_list_ascii s) = s.
Proof. apply list_ascii_of_string_of_list_ascii. Qed.
Lemma list_app a b : list_ascii_of_string (a ++ b)%string = (list_ascii_of_string a ++ list_ascii_of_string b)%list.
Proof. induction a as [|c a IH]; cbn; [reflexivity|]. f_equal. exact IH. Qed.
Lemma st_name_iff s i : plain_station s -> st_name i = s <-> of_station s i.
Proof.
  intros P. unfold st_name, of_station. split.
  - intros <-.
    assert (G : forall l, string_of_list_ascii l = string_of_list_ascii (fst (at_dot l)) \/ exists ch, string_of_list_ascii l = (string_of_list_ascii (fst (at_dot l)) ++ "." ++ ch)%string).
    { clear. induction l as [|x l IH]; [left; reflexivity|]. cbn [at_dot]. destruct (Ascii.eqb_spec x dot) as [->|N].
      - right. exists (string_of_list_ascii l). reflexivity.
      - cbn [fst string_of_list_ascii]. destruct IH as [E|(ch & E)]; [left; rewrite <- E; reflexivity|right; exists ch; rewrite E; reflexivity]. }
    specialize (G (list_ascii_of_string i)). rewrite string_of_list_ascii_of_string in G. exact G.
  - intros [->|(ch & ->)].
    + assert (H : forall l, ~ In dot l -> fst (at_dot l) = l).
      { induction l as [|x l IH]; intros N; [reflexivity|]. cbn [at_dot]. destruct (Ascii.eqb_spec x dot) as [->|]; [exfalso; apply N; left; reflexivity|]. cbn [fst]. f_equal. apply IH. intros C. apply N. right. exact C. }
      rewrite H by exact P. apply string_of_list_ascii_of_string.
    + rewrite list_app. change (list_ascii_of_string ("." ++ ch)) with (dot :: list_ascii_of_string ch). rewrite at_dot_ok by exact P. apply string_of_list_ascii_of_string.
Qed.
Lemma remove_select av : forall st i, select_id (remove_unavailable av st) i = fold_left (fun l kv => if (snd kv =? 0) && String.eqb i (fst kv) then [] else l) av (select_id st i).
Proof.
  unfold remove_unavailable. induction av as [|[key v] av IH]; intros st i; cbn [fold_left fst snd]; [reflexivity|]. rewrite IH. f_equal. destruct (v =? 0); cbn [andb]; [|reflexivity].
  rewrite (select_by (fun x => negb (String.eqb x key))). destruct (String.eqb i key); reflexivity.
Qed.
Lemma check_channels_ext c a b cr st st' : (forall i, select_id st i = select_id st' i) -> forall ids, check_channels c a b cr st ids = check_channels c a b cr st' ids.
Proof. intros H. induction ids as [|i ids IH]; cbn [check_channels]; [reflexivity|]. rewrite H, IH. reflexivity. Qed.
Lemma check_ext c a b cr st st' : (forall i, select_id st i = select_id st' i) -> check_availability c a b cr st = check_availability c a b cr st'.
Proof.
  intros H. unfold check_availability. rewrite (check_channels_ext c a b cr st st' H), (sorted_ids_same st st' H).
  destruct st as [|s st], st' as [|s' st']; try reflexivity; exfalso.
  - specialize (H (sg_id s')). rewrite select_cons, String.eqb_refl in H. discriminate.
  - specialize (H (sg_id s)). rewrite select_cons, String.eqb_refl in H. discriminate.
Qed.
Section Station.
Variables (lowpass : Z -> list R -> list R) (taper : list R -> list R) (tiny : R) (secs : Z) (k : onset_cfg).
Lemma onset_perm stw ltw ts st st' o : Permutation st st' -> onset tiny secs k stw ltw ts st = Ret o -> onset tiny secs k stw ltw ts st' = Ret o.
Proof.
  intros Pm. unfold onset. set (f := fun s : seg => _). destruct (map_out f st) as [os| |] eqn:E; try discriminate. cbn [bind].
  apply map_out_all in E. destruct (forall2_perm _ _ _ Pm os E) as (os' & Po & F'). rewrite (map_out_ret f st' os' F'). cbn [bind].
  destruct os as [|o0 r]; [discriminate|]. destruct (forallb _ r) eqn:Fb; [|discriminate]. intros H.
  assert (Fl : Forall (fun x : list (option R) => length x = length o0) (o0 :: r)).
  { constructor; [reflexivity|]. apply Forall_forall. intros x Ix. rewrite forallb_forall in Fb. apply Nat.eqb_eq, Fb, Ix. }
  assert (Fl' : Forall (fun x : list (option R) => length x = length o0) os') by (eapply Permutation_Forall; eassumption).
  destruct os' as [|o1 r']; [symmetry in Po; apply Permutation_nil in Po; discriminate|]. inversion Fl' as [|? ? L1 L2]; subst.
  assert (Fb' : forallb (fun x : list (option R) => Nat.eqb (length x) (length o1)) r' = true).
  { apply forallb_forall. intros x Ix. apply Nat.eqb_eq. rewrite L1. apply (proj1 (Forall_forall _ _) L2 x Ix). }
  rewrite Fb'. rewrite <- H. f_equal. symmetry. apply (combined_perm _ _ _ _ (length o0)); assumption.
Qed.
Definition same_result (r r' : outcome (Z * option (list (option R) * list seg))) : Prop :=
  forall av x, r = Ret (av, x) -> exists x', r' = Ret (av, x') /\ option_map fst x = option_map fst x' /\ forall o w o' w', x = Some (o, w) -> x' = Some (o', w') -> forall i, select_id w i = select_id w' i.
Lemma station_same d d' ts pc fl fl' s : d_start d = d_start d' -> d_end d = d_end d' ->
  (forall i, st_name i = s -> select_id fl i = select_id fl' i) ->
  same_result (station_onset taper tiny secs k d ts pc fl s) (station_onset taper tiny secs k d' ts pc fl' s).
Proof.
  intros Ea Eb H av x. unfold station_onset. cbv zeta. rewrite <- Ea, <- Eb.
  assert (Hw : forall i, select_id (select_station fl s) i = select_id (select_station fl' s) i).
  { intros i. unfold select_station. rewrite !(select_by (fun i => String.eqb (st_name i) s)). destruct (String.eqb_spec (st_name i) s) as [E|]; [apply H, E|reflexivity]. }
  rewrite (check_ext _ _ _ _ _ _ Hw). destruct (check_availability _ _ _ _ _) as [[v dct]| |]; cbn [bind]; try discriminate. destruct (v =? 0).
  - intros E. exists None. split; [congruence|]. assert (x = None) by congruence. subst. split; [reflexivity|discriminate].
  - assert (Hr : forall i, select_id (remove_unavailable dct (select_station fl s)) i = select_id (remove_unavailable dct (select_station fl' s)) i) by (intros i; rewrite !remove_select, Hw; reflexivity).
    unfold fill_gaps. destruct (o_gaps k || negb (o_full k)).
    + rewrite <- (sorted_ids_same _ _ Hr). rewrite (map_out_ext (fun i => Resample_Model.fill_channel taper (sqrt tiny) secs (d_start d) (d_end d) (select_id (remove_unavailable dct (select_station fl' s)) i))
        (fun i => Resample_Model.fill_channel taper (sqrt tiny) secs (d_start d) (d_end d) (select_id (remove_unavailable dct (select_station fl s)) i))) by (intros i _; rewrite Hr; reflexivity).
      intros E. exists x. split; [exact E|]. split; [reflexivity|]. intros o w o' w' X X' i. assert (w = w') by congruence. subst. reflexivity.
    + cbn [bind]. destruct (onset tiny secs k _ _ ts (remove_unavailable dct (select_station fl s))) as [o| |] eqn:E; cbn [bind]; try discriminate. intros Ex.
      rewrite (onset_perm _ _ _ _ (remove_unavailable dct (select_station fl' s)) o (same_perm _ _ Hr) E). cbn [bind]. eexists. split; [assert (Ev : av = v) by congruence; rewrite Ev; reflexivity|].
      assert (Ex' : x = Some (o, remove_unavailable dct (select_station fl s))) by congruence. rewrite Ex'. split; [reflexivity|]. intros o1 w o2 w' X X' i. assert (E1 : w = remove_unavailable dct (select_station fl s)) by congruence. assert (E2 : w' = remove_unavailable dct (select_station fl' s)) by congruence. rewrite E1, E2. apply Hr.
Qed.
End Station.

(** ** The loops *)
Lemma key_left s s' ph : onset_key s ph = onset_key s' ph -> s = s'.
Proof.
  unfold onset_key. intros H. apply (f_equal list_ascii_of_string) in H. rewrite !list_app in H. apply app_inv_tail in H. rewrite <- (string_of_list_ascii_of_string s), <- (string_of_list_ascii_of_string s'), H. reflexivity.
Qed.
Lemma onset_for_set D s ph o s' ph' : onset_for (set_onset D s ph o) s' ph' = if String.eqb s s' && String.eqb ph ph' then Some o else onset_for D s' ph'.
Proof.
  unfold onset_for, set_onset. rewrite dget_dset. destruct (String.eqb_spec s s') as [->|N]; cbn [andb]; [|reflexivity]. rewrite dget_dset. destruct (String.eqb ph ph'); [reflexivity|]. destruct (dget D s'); reflexivity.
Qed.
Definition res_row (r : Z * option (list (option R) * list seg)) : list (list (option R)) := match snd r with Some (o, _) => [o] | None => [] end.
Definition res_onset (r : Z * option (list (option R) * list seg)) : option (list (option R)) := option_map fst (snd r).
Section Loops.
Variables (lowpass : Z -> list R -> list R) (taper : list R -> list R) (tiny : R) (secs : Z) (k : onset_cfg) (d : wdata) (ts : option Z).
(** What the loops compute for a phase and a station. *)
Definition pair_result (ph s : string) : outcome (Z * option (list (option R) * list seg)) :=
  match dget (o_cfg k) ph with
  | None => Raise KeyError
  | Some pc => bind (phase_waveforms lowpass secs k d pc) (fun fl => station_onset taper tiny secs k d ts pc fl s)
  end.
Definition got (ph s : string) : Z * option (list (option R) * list seg) := match pair_result ph s with Ret r => r | _ => (0, None) end.
Lemma verdict_none pc fl s av x : station_onset taper tiny secs k d ts pc fl s = Ret (av, x) -> (av = 0 <-> x = None).
Proof.
  unfold station_onset. cbv zeta. destruct (check_availability _ _ _ _ _) as [[v dct]| |]; cbn [bind]; try discriminate. destruct (Z.eqb_spec v 0) as [->|N].
  - intros H. assert (av = 0) by congruence. assert (x = None) by congruence. tauto.
  - destruct (fill_gaps _ _ _ _ _ _ _) as [w| |]; cbn [bind]; try discriminate. destruct (onset _ _ _ _ _ _ _) as [o| |]; cbn [bind]; try discriminate. intros H. assert (av = v) by congruence. assert (x = Some (o, w)) by congruence. subst. split; [contradiction|discriminate].
Qed.
Definition one (pc : phase_cfg) (fl : list seg) (s : string) : Z * option (list (option R) * list seg) := match station_onset taper tiny secs k d ts pc fl s with Ret r => r | _ => (0, None) end.
Lemma stations_loop ph pc fl : forall sts st0 st1, fold_out (station_body taper tiny secs k d ts ph pc fl) sts st0 = Ret st1 ->
  let g := one pc fl in
  (forall s, In s sts -> station_onset taper tiny secs k d ts pc fl s = Ret (g s))
  /\ l_onsets st1 = l_onsets st0 ++ flat_map (fun s => res_row (g s)) sts
  /\ (forall s' ph', onset_for (l_dict st1) s' ph' =
        match (if String.eqb ph ph' then (if in_dec string_dec s' sts then res_onset (g s') else None) else None) with Some o => Some o | None => onset_for (l_dict st0) s' ph' end)
  /\ (forall s, In s sts -> dget (l_avail st1) (onset_key s ph) = Some (fst (g s)))
  /\ (forall key, (forall s, In s sts -> key <> onset_key s ph) -> dget (l_avail st1) key = dget (l_avail st0) key).
Proof.
  induction sts as [|s sts IH]; intros st0 st1 H g; cbn [fold_out] in H.
  - assert (st1 = st0) by congruence. subst. cbn [flat_map]. rewrite app_nil_r. repeat split; try (intros; contradiction). intros s' ph'. destruct (String.eqb ph ph'); reflexivity.
  - unfold station_body in H at 1. destruct (station_onset taper tiny secs k d ts pc fl s) as [[av x]| |] eqn:E; cbn [bind] in H; try discriminate.
    assert (Eg : g s = (av, x)) by (unfold g, one; rewrite E; reflexivity).
    set (stm := match x with None => mk_state (l_onsets st0) (l_dict st0) (l_filtered st0) (dset (l_avail st0) (onset_key s ph) av)
      | Some (o, w) => mk_state (l_onsets st0 ++ [o]) (set_onset (l_dict st0) s ph o) (l_filtered st0 ++ w) (dset (l_avail st0) (onset_key s ph) av) end).
    assert (Hm : fold_out (station_body taper tiny secs k d ts ph pc fl) sts stm = Ret st1) by (unfold stm; destruct x as [[o w]|]; exact H). clear H.
    destruct (IH stm st1 Hm) as (I1 & I2 & I3 & I4 & I5). fold g in I1, I2, I3, I4, I5.
    assert (Mo : l_onsets stm = l_onsets st0 ++ res_row (g s)) by (rewrite Eg; unfold stm, res_row; destruct x as [[o w]|]; cbn [l_onsets snd]; [reflexivity|rewrite app_nil_r; reflexivity]).
    assert (Ma : l_avail stm = dset (l_avail st0) (onset_key s ph) av) by (unfold stm; destruct x as [[o w]|]; reflexivity).
    assert (Md : forall s' ph', onset_for (l_dict stm) s' ph' = match (if String.eqb s s' && String.eqb ph ph' then res_onset (g s') else None) with Some o => Some o | None => onset_for (l_dict st0) s' ph' end).
    { intros s' ph'. unfold stm. destruct (String.eqb_spec s s') as [<-|N]; cbn [andb].
      - rewrite Eg. unfold res_onset. cbn [snd]. destruct x as [[o w]|]; cbn [l_dict option_map fst]; [rewrite onset_for_set, String.eqb_refl; cbn [andb]|]; destruct (String.eqb ph ph'); reflexivity.
      - destruct x as [[o w]|]; cbn [l_dict]; [rewrite onset_for_set; destruct (String.eqb_spec s s'); [contradiction|]|]; reflexivity. }
    split; [|split; [|split; [|split]]].
    + intros s' [<-|I']; [unfold g, one; rewrite E; reflexivity|apply I1, I'].
    + rewrite I2, Mo. cbn [flat_map]. rewrite <- app_assoc. reflexivity.
    + intros s' ph'. rewrite I3, Md. destruct (String.eqb_spec ph ph') as [<-|N].
      * rewrite andb_true_r. destruct (in_dec string_dec s' sts) as [Y|N'].
        -- destruct (in_dec string_dec s' (s :: sts)) as [_|C]; [|exfalso; apply C; right; exact Y]. destruct (res_onset (g s')) as [o|]; [reflexivity|]. destruct (String.eqb s s'); reflexivity.
        -- destruct (String.eqb_spec s s') as [<-|N2].
           ++ destruct (in_dec string_dec s (s :: sts)) as [_|C]; [reflexivity|exfalso; apply C; left; reflexivity].
           ++ destruct (in_dec string_dec s' (s :: sts)) as [[C|C]|_]; [contradiction..|reflexivity].
      * rewrite andb_false_r. reflexivity.
    + intros s' [<-|I']; [|apply I4, I']. destruct (in_dec string_dec s sts) as [Y|N]; [apply I4, Y|].
      rewrite I5, Ma, dget_dset, String.eqb_refl, Eg; [reflexivity|]. intros s' Is' C. apply key_left in C. subst. contradiction.
    + intros key Hk. rewrite I5 by (intros s' Is'; apply Hk; right; exact Is'). rewrite Ma, dget_dset. destruct (String.eqb_spec (onset_key s ph) key) as [C|]; [|reflexivity]. exfalso. apply (Hk s); [left; reflexivity|congruence].
Qed.
Lemma phases_loop : forall phs st0 st1, fold_out (phase_body lowpass taper tiny secs k d ts) phs st0 = Ret st1 ->
  (forall ph s, In ph phs -> In s (d_stations d) -> pair_result ph s = Ret (got ph s))
  /\ l_onsets st1 = l_onsets st0 ++ flat_map (fun ph => flat_map (fun s => res_row (got ph s)) (d_stations d)) phs
  /\ (forall s ph, onset_for (l_dict st1) s ph = match (if in_dec string_dec ph phs then (if in_dec string_dec s (d_stations d) then res_onset (got ph s) else None) else None) with Some o => Some o | None => onset_for (l_dict st0) s ph end)
  /\ ((forall s s' p p', In s (d_stations d) -> In s' (d_stations d) -> In p phs -> In p' phs -> onset_key s p = onset_key s' p' -> p = p') ->
      forall s ph, In ph phs -> In s (d_stations d) -> dget (l_avail st1) (onset_key s ph) = Some (fst (got ph s)))
  /\ (forall key, (forall s ph, In ph phs -> In s (d_stations d) -> key <> onset_key s ph) -> dget (l_avail st1) key = dget (l_avail st0) key).
Proof.
  induction phs as [|ph phs IH]; intros st0 st1 H; cbn [fold_out] in H.
  - assert (st1 = st0) by congruence. subst. cbn [flat_map]. rewrite app_nil_r. repeat split; try (intros; contradiction).
  - unfold phase_body in H at 1. destruct (dget (o_cfg k) ph) as [pc|] eqn:Ec; [|discriminate]. destruct (phase_waveforms lowpass secs k d pc) as [fl| |] eqn:Ef; cbn [bind] in H; try discriminate.
    destruct (fold_out (station_body taper tiny secs k d ts ph pc fl) (d_stations d) st0) as [stm| |] eqn:Em; cbn [bind] in H; try discriminate.
    destruct (stations_loop ph pc fl _ _ _ Em) as (J1 & J2 & J3 & J4 & J5). destruct (IH _ _ H) as (I1 & I2 & I3 & I4 & I5).
    assert (Pr : forall s, pair_result ph s = station_onset taper tiny secs k d ts pc fl s) by (intros s; unfold pair_result; rewrite Ec, Ef; reflexivity).
    assert (Eg : forall s, got ph s = one pc fl s) by (intros s; unfold got, one; rewrite Pr; reflexivity).
    split; [|split; [|split; [|split]]].
    + intros p s [<-|Ip] Is; [rewrite Pr, Eg; apply J1, Is|apply I1; assumption].
    + rewrite I2, J2. cbn [flat_map]. rewrite <- app_assoc. do 2 f_equal. apply flat_map_ext. intros s. rewrite Eg. reflexivity.
    + intros s p. rewrite I3, J3. destruct (in_dec string_dec p phs) as [Y|N].
      * destruct (in_dec string_dec p (ph :: phs)) as [_|C]; [|exfalso; apply C; right; exact Y]. destruct (in_dec string_dec s (d_stations d)) as [Ys|Ns].
        -- destruct (res_onset (got p s)) as [o|] eqn:Eo; [reflexivity|]. destruct (String.eqb_spec ph p) as [<-|]; [|reflexivity]. rewrite <- Eg, Eo. reflexivity.
        -- destruct (String.eqb ph p); reflexivity.
      * destruct (String.eqb_spec ph p) as [<-|Np].
        -- destruct (in_dec string_dec ph (ph :: phs)) as [_|C]; [|exfalso; apply C; left; reflexivity]. rewrite <- Eg. reflexivity.
        -- destruct (in_dec string_dec p (ph :: phs)) as [[C|C]|_]; [contradiction..|reflexivity].
    + intros Inj s p Ip Is. destruct (in_dec string_dec p phs) as [Y|N].
      * apply I4; [|exact Y|exact Is]. intros a a' q q' Ia Ia' Iq Iq'. apply Inj; try assumption; right; assumption.
      * destruct Ip as [<-|Ip]; [|contradiction]. rewrite I5, Eg; [apply J4, Is|]. intros s' p' Ip' Is' C. apply N. assert (Ep : ph = p') by (apply (Inj s s'); [exact Is|exact Is'|left; reflexivity|right; exact Ip'|exact C]). rewrite Ep. exact Ip'.
    + intros key Hk. rewrite I5, J5; [reflexivity| |]; intros; apply Hk; try assumption; [left; reflexivity|right; assumption].
Qed.
End Loops.

(** ** The loops over phases and stations are those of Lut_Model *)
Lemma verdict_01 c a b cr st v dct : check_availability c a b cr st = Ret (v, dct) -> v = 0 \/ v = 1.
Proof.
  unfold check_availability. destruct st as [|s st]; [intros H; left; congruence|]. destruct (check_channels c a b cr (s :: st) _) as [dd| |]; cbn [bind]; try discriminate.
  destruct (forallb _ _).
  - destruct (all_channels cr).
    + destruct (n_channels cr) as [[|p|p]|]; try discriminate; intros H; match type of H with Ret (if ?b then _ else _, _) = _ => destruct b end; [right|left|right|left]; congruence.
    + intros H. right. congruence.
  - intros H. match type of H with Ret (if ?b then _ else _, _) = _ => destruct b end; [right|left]; congruence.
Qed.
Definition row_of (o : list (option R)) : list R := match numbers o with Some r => r | None => [] end.
Definition is_available (r : Z * option (list (option R) * list seg)) : bool := negb (fst r =? 0).
Definition res_numbers (r : Z * option (list (option R) * list seg)) : list R := match snd r with Some (o, _) => row_of o | None => [] end.
Lemma all_numbers_app : forall a b, all_numbers (a ++ b) = match all_numbers a, all_numbers b with Some x, Some y => Some (x ++ y) | _, _ => None end.
Proof.
  induction a as [|x a IH]; intros b; cbn [all_numbers app]; [destruct (all_numbers b); reflexivity|]. rewrite IH. destruct (numbers x); [|reflexivity]. destruct (all_numbers a); [|reflexivity]. destruct (all_numbers b); reflexivity.
Qed.
Lemma all_numbers_rows : forall l rs, all_numbers l = Some rs -> rs = map row_of l.
Proof.
  induction l as [|x l IH]; intros rs H; cbn [all_numbers] in H; [cbn; congruence|]. cbn [map]. unfold row_of at 1. destruct (numbers x); [|discriminate]. destruct (all_numbers l) as [q|]; [|discriminate].
  rewrite <- (IH q eq_refl). congruence.
Qed.
Section Refine.
Variables (lowpass : Z -> list R -> list R) (taper : list R -> list R) (tiny : R) (secs : Z) (k : onset_cfg) (d : wdata) (ts : option Z).
Lemma station_01 pc fl s av x : station_onset taper tiny secs k d ts pc fl s = Ret (av, x) -> av = 0 \/ av = 1.
Proof.
  unfold station_onset. cbv zeta. destruct (check_availability _ _ _ _ _) as [[v dct]| |] eqn:E; cbn [bind]; try discriminate. apply verdict_01 in E. destruct (v =? 0).
  - intros H. assert (av = v) by congruence. subst. exact E.
  - destruct (fill_gaps _ _ _ _ _ _ _) as [w| |]; cbn [bind]; try discriminate. destruct (onset _ _ _ _ _ _ _) as [o| |]; cbn [bind]; try discriminate. intros H. assert (av = v) by congruence. subst. exact E.
Qed.
Definition check (s ph : string) : bool := is_available (got lowpass taper tiny secs k d ts ph s).
Definition rows_of (s ph : string) : list R := res_numbers (got lowpass taper tiny secs k d ts ph s).
Lemma stations_refine ph pc fl : dget (o_cfg k) ph = Some pc -> phase_waveforms lowpass secs k d pc = Ret fl ->
  forall sts st0 st1, fold_out (station_body taper tiny secs k d ts ph pc fl) sts st0 = Ret st1 ->
  (map row_of (l_onsets st1), l_avail st1) = fold_left (Lut_Model.onset_step check rows_of ph) sts (map row_of (l_onsets st0), l_avail st0).
Proof.
  intros Ec Ef. induction sts as [|s sts IH]; intros st0 st1 H; cbn [fold_out fold_left] in *; [congruence|].
  unfold station_body in H at 1. destruct (station_onset taper tiny secs k d ts pc fl s) as [[av x]| |] eqn:E; cbn [bind] in H; try discriminate.
  assert (Eg : got lowpass taper tiny secs k d ts ph s = (av, x)) by (unfold got, pair_result; rewrite Ec, Ef; cbn [bind]; rewrite E; reflexivity).
  unfold Lut_Model.onset_step at 2. unfold check, rows_of, is_available, res_numbers. rewrite Eg. cbn [fst snd]. pose proof (station_01 _ _ _ _ _ E) as V. pose proof (verdict_none lowpass taper tiny secs k d ts _ _ _ _ _ E) as N.
  destruct x as [[o w]|]; rewrite (IH _ _ H); cbn [l_onsets l_avail].
  - destruct V as [->| ->]; [discriminate (proj1 N eq_refl)|]. cbn [Z.eqb negb]. rewrite map_app. reflexivity.
  - rewrite (proj2 N eq_refl). reflexivity.
Qed.
Lemma phases_refine : forall phs st0 st1, fold_out (phase_body lowpass taper tiny secs k d ts) phs st0 = Ret st1 ->
  (map row_of (l_onsets st1), l_avail st1) = fold_left (fun st phase => fold_left (Lut_Model.onset_step check rows_of phase) (d_stations d) st) phs (map row_of (l_onsets st0), l_avail st0).
Proof.
  induction phs as [|ph phs IH]; intros st0 st1 H; cbn [fold_out fold_left] in *; [congruence|]. unfold phase_body in H at 1. destruct (dget (o_cfg k) ph) as [pc|] eqn:Ec; [|discriminate].
  destruct (phase_waveforms lowpass secs k d pc) as [fl| |] eqn:Ef; cbn [bind] in H; try discriminate. destruct (fold_out (station_body taper tiny secs k d ts ph pc fl) (d_stations d) st0) as [stm| |] eqn:Em; cbn [bind] in H; try discriminate.
  rewrite (IH _ _ H), (stations_refine ph pc fl Ec Ef _ _ _ Em). reflexivity.
Qed.
Lemma calculate_refine st : calculate_onsets lowpass taper tiny secs k d ts = Ret st ->
  Lut_Model.calculate_onsets check rows_of (o_phases k) (d_stations d) = Ret (map row_of (l_onsets st), l_avail st).
Proof.
  unfold calculate_onsets, Lut_Model.calculate_onsets. destruct (fold_out _ _ _) as [s0| |] eqn:E; cbn [bind]; try discriminate. apply phases_refine in E. cbn [l_onsets l_avail map] in E.
  destruct (Z.eqb_spec (fold_left Z.add (values (l_avail s0)) 0) 0) as [Z0|Z0]; [discriminate|]. intros H. assert (s0 = st). { destruct (l_onsets s0); [discriminate|]. destruct (forallb _ _); [congruence|discriminate]. } subst.
  cbv zeta. set (F := fold_left _ (o_phases k) _). change ((map row_of (l_onsets st), l_avail st) = F) in E. rewrite <- E. cbn [snd]. destruct (Z.eqb_spec (fold_left Z.add (values (l_avail st)) 0) 0); [contradiction|reflexivity].
Qed.
End Refine.
Lemma compute_refine lowpass taper tiny secs k r0 l d rate a b st rows : calculate_onsets lowpass taper tiny secs k d None = Ret st -> all_numbers (l_onsets st) = Some rows ->
  compute_coalescence lowpass taper tiny secs k r0 l d rate a b
  = Lut_Model.compute_map r0 l (check lowpass taper tiny secs k d None) (rows_of lowpass taper tiny secs k d None) (o_phases k) (d_stations d) rate a b.
Proof.
  intros E A. unfold compute_coalescence, Lut_Model.compute_map. rewrite (calculate_refine _ _ _ _ _ _ _ _ E), E. cbn [bind fst snd]. rewrite A, (all_numbers_rows _ _ A). reflexivity.
Qed.

(** ** Other data of the other stations, and the same data *)
Section Same.
Variables (lowpass : Z -> list R -> list R) (taper : list R -> list R) (tiny : R) (secs : Z) (k : onset_cfg).
Definition same_window (d d' : wdata) : Prop := d_start d = d_start d' /\ d_end d = d_end d' /\ d_resample d = d_resample d' /\ d_upfactor d = d_upfactor d'.
Lemma channel_select p st i : select_id (select_channel p st) i = if fnmatch p (snd (at_dot (list_ascii_of_string i))) then select_id st i else [].
Proof. unfold select_channel. apply (select_by (fun i => fnmatch p (snd (at_dot (list_ascii_of_string i))))). Qed.
Lemma phase_same d d' pc fl fl' i : same_window d d' -> select_id (d_waveforms d) i = select_id (d_waveforms d') i ->
  phase_waveforms lowpass secs k d pc = Ret fl -> phase_waveforms lowpass secs k d' pc = Ret fl' -> select_id fl i = select_id fl' i.
Proof.
  intros (E1 & E2 & E3 & E4) Hi. unfold phase_waveforms. rewrite <- E1, <- E2, <- E3, <- E4. intros H H'. apply (pp_select _ _ _ _ _ _ _ _ _ _ _ i) in H. apply (pp_select _ _ _ _ _ _ _ _ _ _ _ i) in H'.
  rewrite channel_select in H, H'. rewrite <- Hi in H'. congruence.
Qed.
Lemma phase_total d d' pc fl : same_window d d' -> (forall s, In s (d_waveforms d') -> In s (d_waveforms d)) ->
  phase_waveforms lowpass secs k d pc = Ret fl -> exists fl', phase_waveforms lowpass secs k d' pc = Ret fl'.
Proof.
  intros (E1 & E2 & E3 & E4) Hs. unfold phase_waveforms. rewrite <- E1, <- E2, <- E3, <- E4. apply pp_total. intros s. unfold select_channel. rewrite !filter_In. intros (I & F). auto.
Qed.
Lemma pair_same d d' ts ph s r r' : same_window d d' -> plain_station s -> same_data s (d_waveforms d) (d_waveforms d') ->
  pair_result lowpass taper tiny secs k d ts ph s = Ret r -> pair_result lowpass taper tiny secs k d' ts ph s = Ret r' -> fst r = fst r' /\ res_onset r = res_onset r' /\
  forall o w o' w', snd r = Some (o, w) -> snd r' = Some (o', w') -> forall i, select_id w i = select_id w' i.
Proof.
  intros W Ps Sd. unfold pair_result. destruct (dget (o_cfg k) ph) as [pc|]; [|discriminate]. destruct (phase_waveforms lowpass secs k d pc) as [fl| |] eqn:E; cbn [bind]; try discriminate.
  destruct (phase_waveforms lowpass secs k d' pc) as [fl'| |] eqn:E'; cbn [bind]; try discriminate. intros H H'. destruct r as [av x].
  destruct (station_same taper tiny secs k d d' ts pc fl fl' s (proj1 W) (proj1 (proj2 W))) with (av := av) (x := x) as (x' & Hx & Ex & Ew); [|exact H|].
  - intros i Hi. apply (phase_same d d' pc); auto. apply Sd. apply st_name_iff; assumption.
  - rewrite H' in Hx. assert (r' = (av, x')) by congruence. subst. unfold res_onset. cbn [fst snd]. split; [reflexivity|]. split; [exact Ex|exact Ew].
Qed.
End Same.
Section Sim.
Variables (lowpass : Z -> list R -> list R) (taper : list R -> list R) (tiny : R) (secs : Z) (k : onset_cfg) (d d' : wdata) (ts : option Z).
Hypothesis W : same_window d d'.
Hypothesis Hst : d_stations d = d_stations d'.
Hypothesis Hw : forall i, select_id (d_waveforms d) i = select_id (d_waveforms d') i.
Definition sim (a b : loop_state) : Prop := l_onsets a = l_onsets b /\ l_dict a = l_dict b /\ l_avail a = l_avail b.
Lemma stations_sim ph pc fl fl' : (forall i, select_id fl i = select_id fl' i) -> forall sts a a' b, sim a a' ->
  fold_out (station_body taper tiny secs k d ts ph pc fl) sts a = Ret b -> exists b', fold_out (station_body taper tiny secs k d' ts ph pc fl') sts a' = Ret b' /\ sim b b'.
Proof.
  intros Hf. induction sts as [|s sts IH]; intros a a' b Sm H; cbn [fold_out] in *; [exists a'; split; [reflexivity|]; assert (a = b) by congruence; subst; exact Sm|].
  unfold station_body in H at 1. unfold station_body at 1. destruct (station_onset taper tiny secs k d ts pc fl s) as [[av x]| |] eqn:E; cbn [bind] in H; try discriminate.
  destruct (station_same taper tiny secs k d d' ts pc fl fl' s (proj1 W) (proj1 (proj2 W)) (fun i _ => Hf i) av x E) as (x' & -> & Ex & _). cbn [bind]. destruct Sm as (S1 & S2 & S3).
  destruct x as [[o w]|], x' as [[o' w']|]; cbn [option_map fst] in Ex; try discriminate; cbn [bind] in *.
  - assert (o' = o) by congruence. subst o'. eapply IH; [|exact H]. unfold sim. cbn [l_onsets l_dict l_avail]. rewrite S1, S2, S3. auto.
  - eapply IH; [|exact H]. unfold sim. cbn [l_onsets l_dict l_avail]. rewrite S1, S2, S3. auto.
Qed.
Lemma phases_sim : forall phs a a' b, sim a a' -> fold_out (phase_body lowpass taper tiny secs k d ts) phs a = Ret b ->
  exists b', fold_out (phase_body lowpass taper tiny secs k d' ts) phs a' = Ret b' /\ sim b b'.
Proof.
  induction phs as [|ph phs IH]; intros a a' b Sm H; cbn [fold_out] in *; [exists a'; split; [reflexivity|]; assert (a = b) by congruence; subst; exact Sm|].
  unfold phase_body in H at 1. unfold phase_body at 1. destruct (dget (o_cfg k) ph) as [pc|]; [|discriminate]. destruct (phase_waveforms lowpass secs k d pc) as [fl| |] eqn:E; cbn [bind] in H; try discriminate.
  destruct (phase_total lowpass secs k d d' pc fl W) as (fl' & E'); [|exact E|].
  { intros s Is. assert (X : In s (select_id (d_waveforms d) (sg_id s))) by (rewrite Hw; apply select_in; auto). apply select_in in X. apply X. }
  rewrite E'. cbn [bind]. rewrite <- Hst. destruct (fold_out (station_body taper tiny secs k d ts ph pc fl) (d_stations d) a) as [m| |] eqn:Em; cbn [bind] in H; try discriminate.
  destruct (stations_sim ph pc fl fl' (fun i => phase_same lowpass secs k d d' pc fl fl' i W (Hw i) E E') _ _ _ _ Sm Em) as (m' & -> & Sm'). cbn [bind]. apply (IH _ _ _ Sm' H).
Qed.
Lemma calculate_sim st : calculate_onsets lowpass taper tiny secs k d ts = Ret st -> exists st', calculate_onsets lowpass taper tiny secs k d' ts = Ret st' /\ sim st st'.
Proof.
  unfold calculate_onsets. destruct (fold_out (phase_body lowpass taper tiny secs k d ts) _ _) as [m| |] eqn:E; cbn [bind]; try discriminate.
  destruct (phases_sim _ _ (mk_state [] [] [] []) _ (conj eq_refl (conj eq_refl eq_refl)) E) as (m' & -> & S1 & S2 & S3). cbn [bind]. rewrite <- S3, <- S1. destruct (_ =? 0); [discriminate|].
  intros H. exists m'. assert (m = st). { destruct (l_onsets m); [discriminate|]. destruct (forallb _ _); [congruence|discriminate]. } subst. split; [|split; [exact S1|split; [exact S2|exact S3]]].
  destruct (l_onsets st); [discriminate|]. destruct (forallb _ _); [reflexivity|discriminate].
Qed.
Lemma compute_sim r0 l rate a b m : ts = None -> compute_coalescence lowpass taper tiny secs k r0 l d rate a b = Ret m -> compute_coalescence lowpass taper tiny secs k r0 l d' rate a b = Ret m.
Proof.
  intros Et. unfold compute_coalescence. rewrite <- Et. destruct (calculate_onsets lowpass taper tiny secs k d ts) as [st| |] eqn:E; cbn [bind]; try discriminate.
  destruct (calculate_sim st E) as (st' & -> & S1 & S2 & S3). cbn [bind]. rewrite S1, S3. exact (fun H => H).
Qed.
End Sim.

(** ** Lengths *)
Lemma add_lists_length : forall a b, length a = length b -> length (add_lists a b) = length a.
Proof. induction a as [|x a IH]; intros [|y b] H; cbn in *; try reflexivity; try discriminate. rewrite IH; [reflexivity|lia]. Qed.
Lemma combine_length_ n : forall os o, Forall (fun x => length x = n) (o :: os) -> length (combine_components (o :: os)) = n.
Proof.
  intros os o F. unfold combine_components. rewrite map_length. inversion F as [|? ? L Fo]; subst. clear F. assert (G : forall os acc, length acc = length o -> Forall (fun x => length x = length o) os -> length (fold_left (fun acc x => add_lists acc (map fsq x)) os acc) = length o).
  { clear. induction os as [|x os IH]; intros acc La F; cbn [fold_left]; [exact La|]. inversion F; subst. apply IH; [|assumption]. rewrite add_lists_length; [exact La|]. rewrite map_length. congruence. }
  apply G; [apply map_length|exact Fo].
Qed.
Lemma combined_length mov stw ltw tp n os : os <> [] -> Forall (fun o => length o = n) os -> length (combined_onset mov stw ltw tp os) = n.
Proof.
  intros Hn F. unfold combined_onset, clip_min. rewrite map_length. destruct os as [|o os]; [contradiction|]. destruct tp as [x|]; [|apply combine_length_; exact F].
  cbn [map]. apply combine_length_. change (Forall (fun x0 => length x0 = n) (map (trim_taper_pad1 stw ltw x) (o :: os))). apply Forall_map. eapply Forall_impl; [|exact F]. cbv beta. intros a <-. unfold trim_taper_pad1. rewrite !pyfill_length. reflexivity.
Qed.
Lemma array1_sample l : array1 (Z.of_nat (length l)) (sample l) = l.
Proof.
  apply rd_ext; [unfold array1; rewrite map_length, zrange_length; lia|]. intros i Hi. unfold array1 in Hi. rewrite map_length, zrange_length in Hi. unfold array1. rewrite rd_map, rd_zrange by lia. cbn [option_map]. unfold sample.
  destruct (rd_in_range _ l i) as (v & ->); [lia|reflexivity].
Qed.
Lemma onset_fn_len tiny k x nsta nlta : (0 < tiny <= 1)%R -> 1 <= nsta < nlta -> nlta + nsta <= Z.of_nat (length x) -> exists o, onset_fn tiny k x nsta nlta = Ret o /\ length o = length x.
Proof.
  intros Ht Hs Hn. assert (E : onset_fn tiny k x nsta nlta = onset_fn tiny k (array1 (Z.of_nat (length x)) (sample x)) nsta nlta) by (rewrite array1_sample; reflexivity). rewrite E. unfold onset_fn.
  assert (L : forall f : Z -> option R, length (array1 (Z.of_nat (length x)) f) = length x) by (intros f; unfold array1; rewrite map_length, zrange_length; lia).
  destruct (o_centred k), (o_python k).
  - rewrite StaLta_Props.C10_centred_python by lia || lra. eexists. split; [reflexivity|apply L].
  - rewrite StaLta_Props.C10_centred_c by lia. eexists. split; [reflexivity|apply L].
  - rewrite StaLta_Props.C09_overlapping_python by lia || lra. eexists. split; [reflexivity|apply L].
  - rewrite StaLta_Props.C09_overlapping_c by lia. eexists. split; [reflexivity|apply L].
Qed.
Lemma onset_len tiny secs k stw ltw ts n st : (0 < tiny <= 1)%R -> (forall l, length (o_transform k l) = length l) -> 1 <= stw < ltw -> ltw + stw <= n -> st <> [] -> Forall (fun g => npts g = n) st ->
  exists o, onset tiny secs k stw ltw ts st = Ret o /\ Z.of_nat (length o) = n.
Proof.
  intros Ht Tr Hs Hn Ne F. unfold onset. set (f := fun s : seg => _).
  assert (G : exists os, map_out f st = Ret os /\ Forall (fun o => length o = Z.to_nat n) os /\ length os = length st).
  { clear Ne. induction st as [|g st IH]; [exists []; repeat split; constructor|]. inversion F as [|? ? Fg Fs]; subst. destruct (IH Fs) as (os & E & Fo & L).
    destruct (onset_fn_len tiny k (o_transform k (sg_data g)) stw ltw Ht Hs) as (o & Eo & Lo); [rewrite Tr; unfold npts in *; lia|].
    exists (o :: os). cbn [map_out]. unfold f at 1. rewrite Eo. cbn [bind]. rewrite E. cbn [bind length]. split; [reflexivity|]. split; [|lia]. constructor; [|exact Fo]. rewrite Lo, Tr. unfold npts in *. lia. }
  destruct G as (os & -> & Fo & L). cbn [bind]. destruct os as [|o os]; [destruct st; [contradiction|discriminate]|].
  assert (Fb : forallb (fun x : list (option R) => Nat.eqb (length x) (length o)) os = true).
  { apply forallb_forall. intros x Ix. apply Nat.eqb_eq. inversion Fo as [|? ? A B]; subst. rewrite A. apply (proj1 (Forall_forall _ _) B x Ix). }
  rewrite Fb. eexists. split; [reflexivity|]. rewrite (combined_length _ _ _ _ (Z.to_nat n)); [lia|discriminate|exact Fo].
Qed.
(** The traces after pre-processing. *)
Definition prepared (secs rate t0 t1 : Z) (o : seg) : Prop :=
  sg_data o <> [] /\ 0 < sg_delta o /\ secs <= 500000 * sg_delta o /\ (sg_delta o = secs / rate -> (secs / rate | sg_start o) /\ t0 <= sg_start o /\ sg_end o <= t1).
Lemma npts_pos s : sg_data s <> [] <-> 1 <= npts s.
Proof. unfold npts. destruct (sg_data s); cbn [length]; split; intros; try congruence; try lia; discriminate. Qed.
Lemma trim_grid_ d t0 t1 e s : 0 < d -> 0 <= e < d -> sg_delta s = d -> (d | sg_start s) -> (d | t0) -> (d | t1) -> 1 <= npts (Resample_Model.trim (t0 - e) (t1 + e) s) ->
  let o := Resample_Model.trim (t0 - e) (t1 + e) s in (d | sg_start o) /\ t0 <= sg_start o /\ sg_end o <= t1.
Proof.
  intros Hd He Ed Gs G0 G1 Hn o.
  assert (Do : sg_delta o = d) by exact Ed.
  assert (So : (d | sg_start o)). { unfold o, Resample_Model.trim. cbn [sg_start]. rewrite Ed. apply Z.divide_add_r; [exact Gs|apply Z.divide_factor_r]. }
  assert (B : forall j, 0 <= j < npts o -> t0 - e <= sg_start o + j * d <= t1 + e).
  { intros j Hj. destruct (rd_in_range _ (sg_data o) j) as (v & Ev); [exact Hj|]. assert (X : sample_at o (sg_start o + j * d) v) by (exists j; rewrite Do; auto).
    apply Resample_Proofs.trim_samples in X; [|lia]. apply X. }
  fold o in Hn. split; [exact So|]. destruct So as (a & Ea), G0 as (b & Eb), G1 as (c & Ec). split.
  - specialize (B 0 ltac:(lia)). rewrite Ea, Eb in *. assert (b - 1 < a) by (apply (Zmult_lt_reg_r _ _ d); lia). apply Z.mul_le_mono_nonneg_r; lia.
  - specialize (B (npts o - 1) ltac:(lia)). unfold sg_end. rewrite Do. rewrite Ea, Ec in *. replace (a * d + (npts o - 1) * d) with ((a + npts o - 1) * d) in * by ring.
    assert (a + npts o - 1 < c + 1) by (apply (Zmult_lt_reg_r _ _ d); lia). apply Z.mul_le_mono_nonneg_r; lia.
Qed.
Lemma pre_process_prepared lp bp secs rate rs uf hc t0 t1 st : ticks_ok secs rate -> (forall d l, length (lp d l) = length l) -> (forall d l, length (bp d l) = length l) ->
  (hc < inject_Z rate * (1 # 2))%Q -> (secs / rate | t0) -> (secs / rate | t1) -> t0 <= t1 -> Forall (usable secs rate rs uf t0 t1) st ->
  exists outs, Resample_Model.pre_process lp bp secs rate rs uf hc t0 t1 st = Ret outs /\ Forall (prepared secs rate t0 t1) outs.
Proof.
  intros T HL HB Hq G0 G1 Hle F. destruct (Resample_Proofs.ticks_d _ _ T) as (HD & ED). destruct T as (T1 & T2 & T3 & T4 & T5). assert (T : ticks_ok secs rate) by (unfold ticks_ok; auto). set (D := secs / rate) in *. set (e := secs / 100000) in *.
  assert (One : forall s, In s st -> exists o, Resample_Model.resample_trace lp secs rate rs uf t0 t1 s = Ret o /\ 0 < sg_delta o /\ secs <= 500000 * sg_delta o /\ (sg_delta o = D -> (D | sg_start o))).
  { intros s Is. pose proof (proj1 (Forall_forall _ _) F s Is) as ((Gp & Gg) & Nd & Mx & C). destruct C as [C|[(C & Cv)|(C & Cr)]].
    - exists s. unfold Resample_Model.resample_trace, Resample_Model.at_rate. fold D. rewrite C, Z.eqb_refl. repeat split; try lia. intros _. rewrite C in Gg. exact Gg.
    - destruct (Resample_Proofs.resample_window lp secs rate rs uf t0 t1 s T HL (conj Gp Gg) Nd C G0 G1 Hle (proj1 (proj2 Cv)) (proj2 (proj2 Cv))) as (o & E & _ & Ed & Es & _).
      exists o. split; [exact E|]. fold D in Ed. rewrite Ed, Es. assert (E5 : secs <= 100000 * e + 99999) by (unfold e; pose proof (Z.div_mod secs 100000 ltac:(lia)); pose proof (Z.mod_pos_bound secs 100000 ltac:(lia)); lia).
      split; [exact HD|]. split; [lia|]. intros _. exact G0.
    - exists s. unfold Resample_Model.resample_trace, Resample_Model.at_rate, Resample_Model.decimable. fold D. destruct (Z.eqb_spec (sg_delta s) D) as [E|N]; [exfalso; apply C; rewrite E; apply Z.divide_refl|].
      destruct (Z.eqb_spec (D mod sg_delta s) 0) as [E|N2]; [exfalso; apply C; apply Z.mod_divide; [lia|exact E]|].
      split; [destruct Cr as [-> | ->]; [reflexivity|destruct rs; reflexivity]|]. repeat split; try lia; try contradiction. }
  unfold Resample_Model.pre_process, Resample_Model.resample. fold e.
  assert (Lp : exists kn, Resample_Model.resample_loop (Resample_Model.resample_trace lp secs rate rs uf t0 t1) (Resample_Model.moved secs rate rs uf) st = Ret kn
    /\ Forall (fun o => 0 < sg_delta o /\ secs <= 500000 * sg_delta o /\ (sg_delta o = D -> (D | sg_start o))) (fst kn ++ snd kn)).
  { clear F. induction st as [|s st IH]; [exists ([], []); split; [reflexivity|constructor]|]. destruct IH as ((a & b) & E & Fk); [intros s' I'; apply One; right; exact I'|]. destruct (One s (or_introl eq_refl)) as (o & Eo & Po).
    cbn [Resample_Model.resample_loop]. rewrite Eo. cbn [bind]. rewrite E. cbn [bind fst snd]. eexists. split; [reflexivity|]. cbn [fst snd] in Fk. apply Forall_app in Fk. destruct Fk as (Fa & Fb). destruct (Resample_Model.moved _ _ _ _ _); cbn [fst snd]; apply Forall_app; split; try assumption; constructor; assumption. }
  destruct Lp as (kn & -> & Fk). cbn [bind]. destruct (Qle_bool (inject_Z rate * (1 # 2)) hc) eqn:Q; [apply Qle_bool_iff in Q; exfalso; exact (Qlt_not_le _ _ Hq Q)|].
  eexists. split; [reflexivity|]. apply Forall_forall. intros o Io. apply in_map_iff in Io. destruct Io as (o1 & <- & I1). unfold Resample_Model.trim_stream in I1. apply filter_In in I1. destruct I1 as (I1 & N1). apply in_map_iff in I1. destruct I1 as (o2 & <- & I2).
  apply Z.ltb_lt in N1. pose proof (proj1 (Forall_forall _ _) Fk o2 I2) as (P1 & P2 & P3). unfold prepared. cbn [sg_data sg_delta sg_start]. split; [|split; [|split]].
  - intros C. apply (f_equal (@length R)) in C. rewrite HB in C. unfold npts in N1. cbn [length] in C. lia.
  - exact P1.
  - exact P2.
  - intros Ed. assert (Ee : sg_delta o2 = D) by exact Ed. destruct (trim_grid_ D t0 t1 e o2) as (Q1 & Q2 & Q3); auto; try lia. split; [exact Q1|]. split; [exact Q2|]. unfold sg_end, npts in *. cbn [sg_start sg_data sg_delta]. rewrite HB. exact Q3.
Qed.
Section Lens.
Variables (lowpass : Z -> list R -> list R) (taper : list R -> list R) (tiny : R) (secs : Z) (k : onset_cfg) (d : wdata) (ts : option Z).
Let n := n_window secs (o_rate k) (d_start d) (d_end d).
Hypothesis T : ticks_ok secs (o_rate k).
Hypothesis Ht : (0 < tiny <= 1)%R.
Hypothesis Tl : forall l, length (taper l) = length l.
Hypothesis Tr : forall l, length (o_transform k l) = length l.
Hypothesis G0 : (secs / o_rate k | d_start d).
Hypothesis G1 : (secs / o_rate k | d_end d).
Hypothesis Hle : d_start d <= d_end d.
(** What is asked of the settings of a phase. *)
Definition phase_ok (pc : phase_cfg) : Prop :=
  let nsta := stw_samples (o_clock secs k) (ph_sta pc) in let nlta := ltw_samples (o_clock secs k) (ph_lta pc) in
  1 <= nsta < nlta /\ nlta + nsta <= n_window secs (o_rate k) (d_start d) (d_end d) /\ (o_all k = true -> 0 < ph_count pc) /\ (forall dd l, length (ph_band pc dd l) = length l) /\ (ph_highcut pc < inject_Z (o_rate k) * (1 # 2))%Q.
Lemma secs_pos : 0 < secs.
Proof. destruct T as (A & B & C & D & E). destruct (Resample_Proofs.ticks_d _ _ T) as (X & Y). rewrite Y. apply Z.mul_pos_pos; assumption. Qed.
Lemma station_len pc fl s : phase_ok pc -> Forall (prepared secs (o_rate k) (d_start d) (d_end d)) fl ->
  exists av x, station_onset taper tiny secs k d ts pc fl s = Ret (av, x) /\ match x with Some (o, w) => Z.of_nat (length o) = n /\ Forall (fun g => npts g = n) w | None => True end.
Proof.
  intros (P1 & P2 & P3 & P4 & P5) F. unfold station_onset. cbv zeta. set (cr := mk_criteria _ _ _ _ _ _ _). set (st := select_station fl s). set (D := secs / o_rate k) in *. destruct (Resample_Proofs.ticks_d _ _ T) as (HD & _). fold D in HD.
  assert (Fs : Forall (prepared secs (o_rate k) (d_start d) (d_end d)) st) by (apply Forall_forall; intros g Ig; unfold st, select_station in Ig; apply filter_In in Ig; apply (proj1 (Forall_forall _ _) F), Ig).
  assert (Sm : Forall (sampled (o_clock secs k)) st). { eapply Forall_impl; [|exact Fs]. intros g (A & B & C & _). split; [exact A|]. split; [exact B|exact C]. }
  assert (Ca : complete_args cr) by (split; [discriminate|]; intros Ha; exists (ph_count pc); split; [reflexivity|]; apply P3, Ha).
  assert (Or : one_rate cr st) by (left; reflexivity).
  destruct (Avail_Props.C47_verdict_exact (o_clock secs k) (d_start d) (d_end d) cr st secs_pos Sm Ca Or) as (av & dct & E & _ & Hk & Hv & A01 & Hav). rewrite E. cbn [bind].
  destruct (Z.eqb_spec av 0) as [->|Na]; [exists 0, None; split; [reflexivity|exact I]|]. assert (av = 1) by lia. subst av. clear Na A01.
  pose proof (Avail_Props.C47_failed_channels_removed (o_clock secs k) (d_start d) (d_end d) cr st 1 dct secs_pos Sm Ca Or E) as Rm.
  set (rst := remove_unavailable dct st) in *.
  assert (Sel : forall g, In g rst -> select_id rst (sg_id g) = select_id st (sg_id g)).
  { intros g Ig. unfold rst. rewrite remove_select. apply Rm in Ig. destruct Ig as (Ig & Ok). assert (No : forall kv, In kv dct -> (snd kv =? 0) && String.eqb (sg_id g) (fst kv) = false).
    { intros [i v] Iv. cbn [fst snd]. destruct (Z.eqb_spec v 0) as [->|]; [|reflexivity]. destruct (String.eqb_spec (sg_id g) i) as [<-|]; [|reflexivity]. exfalso. destruct (Hv _ _ Iv) as (_ & Hi). apply Hi in Ok. discriminate. }
    clear - No. revert No. generalize (select_id st (sg_id g)). induction dct as [|kv dct IH]; intros l No; cbn [fold_left]; [reflexivity|]. rewrite (No kv (or_introl eq_refl)). apply IH. intros kv' I'. apply No. right. exact I'. }
  assert (Ne : rst <> []).
  { assert (X : exists g, In g rst); [|destruct X as (g & Ig); intros C; rewrite C in Ig; exact Ig]. destruct (proj1 Hav eq_refl) as (Nst & Q). destruct (all_channels cr).
    - destruct st as [|g st']; [contradiction|]. exists g. apply Rm. split; [left; reflexivity|]. apply (proj2 Q). exists g. split; [left; reflexivity|reflexivity].
    - destruct Q as (i & (g & Ig & <-) & Ok). exists g. apply Rm. auto. }
  assert (Chan : forall g, In g rst -> Forall (fun s0 => sg_delta s0 = D /\ sg_data s0 <> [] /\ (D | sg_start s0) /\ d_start d <= sg_start s0 /\ sg_end s0 <= d_end d) (select_id rst (sg_id g)) /\ channel_ok (d_start d) (d_end d) cr (select_id rst (sg_id g))).
  { intros g Ig. pose proof Ig as Ig'. apply Rm in Ig'. destruct Ig' as (Ig' & Ok). rewrite (Sel g Ig). split; [|exact Ok]. apply Forall_forall. intros h Ih. destruct Ok as (_ & _ & _ & Rt & _). specialize (Rt eq_refl).
    pose proof (proj1 (Forall_forall _ _) Rt h Ih) as Er. change (Some D = Some (sg_delta h)) in Er. assert (Ed : sg_delta h = D) by congruence. apply select_in in Ih. destruct Ih as (Ih & _). pose proof (proj1 (Forall_forall _ _) Fs h Ih) as (B1 & B2 & B3 & B4). specialize (B4 Ed). tauto. }
  assert (Fill : exists w, fill_gaps taper tiny secs k (d_start d) (d_end d) rst = Ret w /\ w <> [] /\ Forall (fun g => npts g = n) w).
  { unfold fill_gaps. destruct (o_gaps k || negb (o_full k)) eqn:Eg.
    - assert (Q : forall ids, (forall i, In i ids -> exists g, In g rst /\ sg_id g = i) -> exists w, map_out (fun i => Resample_Model.fill_channel taper (sqrt tiny) secs (d_start d) (d_end d) (select_id rst i)) ids = Ret w /\ length w = length ids /\ Forall (fun g => npts g = n) w).
      { induction ids as [|i ids IH]; intros Hi; [exists []; repeat split; constructor|]. destruct IH as (w & Ew & Lw & Fw); [intros j Ij; apply Hi; right; exact Ij|]. destruct (Hi i (or_introl eq_refl)) as (g & Ig & <-).
        destruct (Chan g Ig) as (C1 & C2).
        destruct (Resample_Props.C91_gaps_filled_partial taper (sqrt tiny) secs (o_rate k) (d_start d) (d_end d) (select_id rst (sg_id g)) T Tl G0 G1) as (o & Eo & _ & _ & No & _).
        - intros C. assert (X : In g (select_id rst (sg_id g))) by (apply select_in; auto). rewrite C in X. exact X.
        - apply C2.
        - exact C1.
        - cbn [map_out]. rewrite Eo. cbn [bind]. rewrite Ew. cbn [bind]. exists (o :: w). split; [reflexivity|]. cbn [length]. split; [lia|]. constructor; [exact No|exact Fw]. }
      destruct (Q (sorted_ids rst)) as (w & Ew & Lw & Fw).
      + intros i Ii. apply sorted_ids_in in Ii. destruct Ii as (g & Ig & Eg'). exists g. auto.
      + exists w. split; [exact Ew|]. split; [|exact Fw]. intros C. rewrite C in Lw. destruct rst as [|g r] eqn:Er; [contradiction|]. assert (X : In (sg_id g) (sorted_ids (g :: r))) by (apply sorted_ids_in; exists g; split; [left|]; reflexivity). destruct (sorted_ids (g :: r)); [destruct X|discriminate].
    - exists rst. split; [reflexivity|]. split; [exact Ne|]. apply Forall_forall. intros g Ig. destruct (Chan g Ig) as (C1 & C2). destruct C2 as (_ & _ & _ & _ & Fl & _). apply orb_false_iff in Eg. destruct Eg as (Eg1 & Eg2). apply negb_false_iff in Eg2. destruct (Fl Eg2) as (h & Eh & Sp).
      assert (g = h). { assert (X : In g (select_id rst (sg_id g))) by (apply select_in; auto). rewrite Eh in X. destruct X as [X|[]]; congruence. } subst h.
      rewrite Eh in C1. inversion C1 as [|? ? (X1 & X2 & X3 & X4 & X5) _]; subst. unfold n, n_window. fold D. assert (S0 : sg_start g = d_start d) by lia. assert (S1 : sg_end g = d_end d) by lia.
      rewrite <- S0, <- S1. unfold sg_end. rewrite X1. replace (sg_start g + (npts g - 1) * D - sg_start g) with ((npts g - 1) * D) by ring. rewrite Z.div_mul by lia. ring. }
  destruct Fill as (w & Ew & Nw & Fw). rewrite Ew. cbn [bind].
  destruct (onset_len tiny secs k (stw_samples (o_clock secs k) (ph_sta pc)) (ltw_samples (o_clock secs k) (ph_lta pc)) ts n w Ht Tr P1 P2 Nw Fw) as (o & Eo & Lo). rewrite Eo. cbn [bind].
  exists 1, (Some (o, w)). split; [reflexivity|]. split; [exact Lo|exact Fw].
Qed.
End Lens.

(** ** Numbers *)
Lemma numbers_some l : Forall is_number l -> exists r, numbers l = Some r /\ length r = length l /\ forall i, rd l i = option_map Some (rd r i).
Proof.
  induction 1 as [|x l Hx F IH]; [exists []; repeat split; intros; rewrite !rd_nil; reflexivity|]. destruct IH as (r & E & L & H). destruct x as [v|]; [|destruct (Hx eq_refl)]. cbn [numbers]. rewrite E. exists (v :: r). split; [reflexivity|]. split; [cbn [length]; lia|].
  intros i. rewrite !rd_cons. destruct (i =? 0); [reflexivity|apply H].
Qed.
Lemma all_numbers_some ls : Forall (Forall is_number) ls -> exists rs, all_numbers ls = Some rs.
Proof.
  induction 1 as [|x ls Hx F (rs & E)]; [exists []; reflexivity|]. destruct (numbers_some x Hx) as (r & Er & _). cbn [all_numbers]. rewrite Er, E. exists (r :: rs). reflexivity.
Qed.
Lemma fadd_numbers : forall a b, Forall is_number a -> Forall is_number b -> Forall is_number (add_lists a b).
Proof.
  induction a as [|x a IH]; intros [|y b] Fa Fb; cbn [add_lists]; try constructor.
  - inversion Fa as [|? ? Nx]; inversion Fb as [|? ? Ny]; subst. destruct x, y; cbn [fadd]; unfold is_number in *; congruence.
  - inversion Fa; inversion Fb; subst. apply IH; assumption.
Qed.
Lemma fsq_numbers a : Forall is_number a -> Forall is_number (map fsq a).
Proof. intros F. apply Forall_map. eapply Forall_impl; [|exact F]. intros [v|] H; cbn; unfold is_number in *; congruence. Qed.
Lemma combined_numbers mov stw ltw tp os : Forall (Forall is_number) os -> Forall (fun v => exists x, v = Some x /\ (mov <= x)%R) (combined_onset mov stw ltw tp os).
Proof.
  intros F. unfold combined_onset, clip_min. set (cs := match tp with Some _ => _ | None => _ end).
  assert (Fc : Forall (Forall is_number) cs).
  { unfold cs. destruct tp as [x|]; [|exact F]. apply Forall_map. eapply Forall_impl; [|exact F]. intros o Fo. unfold trim_taper_pad1.
    assert (P : forall a b l, Forall is_number l -> Forall is_number (PySlice.pyfill l a b (Some 1%R))).
    { intros a b l Fl. unfold PySlice.pyfill. cbv zeta. apply Forall_app. split; [|apply Forall_app; split].
      - rewrite Forall_forall in Fl |- *. intros y Iy. apply Fl. rewrite <- (firstn_skipn (Z.to_nat (PySlice.pylo (Z.of_nat (length l)) a)) l). apply in_or_app. left. exact Iy.
      - apply Forall_forall. intros y Iy. apply repeat_spec in Iy. subst. discriminate.
      - rewrite Forall_forall in Fl |- *. intros y Iy. apply Fl. match type of Iy with In _ (skipn ?m l) => rewrite <- (firstn_skipn m l) end. apply in_or_app. right. exact Iy. }
    apply P, P, Fo. }
  apply Forall_map. assert (Fn : Forall is_number (combine_components cs)).
  { destruct cs as [|o cs']; [constructor|]. unfold combine_components. apply Forall_map. inversion Fc as [|? ? Fo Fos]; subst.
    assert (G : forall os acc, Forall is_number acc -> Forall (Forall is_number) os -> Forall is_number (fold_left (fun acc x => add_lists acc (map fsq x)) os acc)).
    { clear. induction os as [|x os IH]; intros acc Fa Fo; cbn [fold_left]; [exact Fa|]. inversion Fo; subst. apply IH; [|assumption]. apply fadd_numbers; [exact Fa|apply fsq_numbers; assumption]. }
    eapply Forall_impl; [|apply G; [apply fsq_numbers, Fo|exact Fos]]. intros [v|] H; cbn; unfold is_number in *; congruence. }
  eapply Forall_impl; [|exact Fn]. intros [v|] H; [|destruct (H eq_refl)]. cbn [option_map]. exists (Rmax v mov). split; [reflexivity|apply Rmax_r].
Qed.
Lemma station_numbers taper tiny secs k d ts pc fl s av o w : (0 < tiny)%R -> o_python k = true -> station_onset taper tiny secs k d ts pc fl s = Ret (av, Some (o, w)) ->
  Forall (fun v => exists x, v = Some x /\ (o_floor k <= x)%R) o.
Proof.
  intros Ht Py H. unfold station_onset in H. cbv zeta in H. destruct (check_availability _ _ _ _ _) as [[v dct]| |]; cbn [bind] in H; try discriminate. destruct (v =? 0); [discriminate|].
  destruct (fill_gaps _ _ _ _ _ _ _) as [w0| |]; cbn [bind] in H; try discriminate. destruct (onset _ _ _ _ _ _ _) as [o0| |] eqn:E; cbn [bind] in H; try discriminate. assert (o0 = o) by congruence. subst o0. clear H. unfold onset in E.
  destruct (map_out _ w0) as [os| |] eqn:Em; cbn [bind] in E; try discriminate. apply map_out_all in Em.
  assert (Fo : Forall (Forall is_number) os).
  { clear E. induction Em as [|g x l l' Hx F IH]; constructor; [|exact IH]. unfold onset_fn in Hx. rewrite Py in Hx. eapply (StaLta_Props.C11_python_always_numbers tiny); [exact Ht|]. destruct (o_centred k); [right|left]; exact Hx. }
  destruct os as [|o1 os]; [discriminate|]. destruct (forallb _ os); [|discriminate]. match type of E with Ret ?x = _ => assert (Eo : o = x) by congruence end. rewrite Eo. apply combined_numbers, Fo.
Qed.
Lemma calculate_loops lowpass taper tiny secs k d ts r : calculate_onsets lowpass taper tiny secs k d ts = Ret r -> fold_out (phase_body lowpass taper tiny secs k d ts) (o_phases k) (mk_state [] [] [] []) = Ret r.
Proof.
  unfold calculate_onsets. destruct (fold_out _ _ _) as [m| |]; cbn [bind]; try discriminate. destruct (_ =? 0); [discriminate|]. destruct (l_onsets m); [discriminate|]. destruct (forallb _ _); [exact (fun H => H)|discriminate].
Qed.
Lemma onset_rows lowpass taper tiny secs k d ts r : calculate_onsets lowpass taper tiny secs k d ts = Ret r ->
  forall row, In row (l_onsets r) <-> exists ph s w av, In ph (o_phases k) /\ In s (d_stations d) /\ pair_result lowpass taper tiny secs k d ts ph s = Ret (av, Some (row, w)).
Proof.
  intros H row. destruct (phases_loop lowpass taper tiny secs k d ts _ _ _ (calculate_loops _ _ _ _ _ _ _ _ H)) as (A1 & A2 & _). rewrite A2. cbn [l_onsets app]. rewrite in_flat_map. split.
  - intros (ph & Ip & I2). apply in_flat_map in I2. destruct I2 as (s & Is & I3). unfold res_row in I3. destruct (got lowpass taper tiny secs k d ts ph s) as [av x] eqn:Eg. cbn [snd] in I3. destruct x as [[o w]|]; [|destruct I3]. destruct I3 as [<-|[]].
    exists ph, s, w, av. split; [exact Ip|]. split; [exact Is|]. rewrite (A1 ph s Ip Is). f_equal. exact Eg.
  - intros (ph & s & w & av & Ip & Is & E). exists ph. split; [exact Ip|]. apply in_flat_map. exists s. split; [exact Is|]. unfold res_row, got. rewrite E. left. reflexivity.
Qed.
Lemma dset_values {A} (P : A -> Prop) : forall (l : dict A) key v, Forall P (values l) -> P v -> Forall P (values (dset l key v)).
Proof.
  unfold values. induction l as [|[k0 v0] l IH]; intros key v F Hv; cbn [dset map snd] in *; [repeat constructor; exact Hv|]. inversion F; subst. destruct (String.eqb k0 key); cbn [map snd]; constructor; auto.
Qed.
Lemma no_rows_step ck on ph : forall sts st0, fst (fold_left (Lut_Model.onset_step ck on ph) sts st0) = [] ->
  fst st0 = [] /\ (Forall (eq 0) (values (snd st0)) -> Forall (eq 0) (values (snd (fold_left (Lut_Model.onset_step ck on ph) sts st0)))).
Proof.
  induction sts as [|s sts IH]; intros st0 H; cbn [fold_left] in *; [split; [exact H|exact (fun F => F)]|]. destruct (IH _ H) as (H1 & H2). unfold Lut_Model.onset_step in H1 at 1, H2 at 1. cbv zeta in H1, H2. destruct (ck s ph); cbn [fst snd] in *.
  - destruct (fst st0); discriminate.
  - split; [exact H1|]. intros F. apply H2. apply dset_values; [exact F|reflexivity].
Qed.
Lemma no_rows ck on sts : forall phs st0, fst (fold_left (fun st ph => fold_left (Lut_Model.onset_step ck on ph) sts st) phs st0) = [] ->
  fst st0 = [] /\ (Forall (eq 0) (values (snd st0)) -> Forall (eq 0) (values (snd (fold_left (fun st ph => fold_left (Lut_Model.onset_step ck on ph) sts st) phs st0)))).
Proof.
  induction phs as [|ph phs IH]; intros st0 H; cbn [fold_left] in *; [split; [exact H|exact (fun F => F)]|]. destruct (IH _ H) as (H1 & H2). destruct (no_rows_step ck on ph sts st0 H1) as (H3 & H4). split; [exact H3|]. intros F. apply H2, H4, F.
Qed.
Lemma zeros_sum l : Forall (eq 0) l -> fold_left Z.add l 0 = 0.
Proof. induction 1 as [|x l <- F IH]; cbn [fold_left]; [reflexivity|]. exact IH. Qed.
