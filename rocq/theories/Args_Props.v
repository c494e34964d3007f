(** C140: locate is run for what was asked for. *)
From Coq Require Import String.
From Coq Require Import ZArith QArith List Lia.
From Verif Require Import Lib Args_Model.
Import ListNotations.
Open Scope Z_scope.

(** With two times and no file, the events of that period; an error if it ends before it starts. *)
Theorem C140_period :
  forall utc s e a b, utc (Some s) = Ret a -> utc (Some e) = Ret b ->
  locate_args utc (Some s) (Some e) None = if b <? a then Raise TimeSpan else Ret (ByPeriod (Some a) (Some b)).
Proof. intros utc s e a b Ha Hb. unfold locate_args. rewrite Ha. cbn [bind]. rewrite Hb. cbn [bind]. destruct (b <? a); reflexivity. Qed.
Print Assumptions C140_period.
(** A run is for the file that was given or for a whole period, never for a period with one end. *)
Theorem C140_request :
  forall utc s e file r, locate_args utc s e file = Ret r ->
  (exists f, file = Some f /\ r = ByFile f) \/ (file = None /\ (s <> None \/ e <> None) /\ exists a b, utc s = Ret a /\ utc e = Ret b /\ a <= b /\ r = ByPeriod (Some a) (Some b)).
Proof.
  intros utc s e file r H. unfold locate_args in H. assert (D : (s = None /\ e = None) \/ (s <> None \/ e <> None)) by (destruct s, e; auto; right; (left; discriminate) || (right; discriminate)).
  destruct D as [[-> ->]|D].
  - cbn in H. destruct file as [f|]; [|discriminate]. injection H as <-. left. exists f. auto.
  - assert (H' : bind (utc s) (fun a => bind (utc e) (fun b => if b <? a then Raise TimeSpan else match file with Some f => Ret (ByFile f) | None => Ret (ByPeriod (Some a) (Some b)) end)) = Ret r).
    { destruct s, e; try (destruct D; congruence); destruct (utc _); cbn in *; try discriminate; destruct (utc _); cbn in *; try discriminate; destruct (_ <? _); cbn in *; try discriminate; destruct file; exact H. }
    destruct (utc s) as [a| |]; cbn in H'; try discriminate. destruct (utc e) as [b| |]; cbn in H'; try discriminate. destruct (Z.ltb_spec b a); [discriminate|]. destruct file as [f|]; injection H' as <-; [left; exists f; auto|].
    right. split; [reflexivity|]. split; [exact D|]. exists a, b. auto.
Qed.
Print Assumptions C140_request.
Theorem C140_nothing_given : forall utc, locate_args utc None None None = Raise RuntimeError.
Proof. reflexivity. Qed.
Print Assumptions C140_nothing_given.
(** "Must supply a starttime AND an endtime" is never said: a missing time is converted before it is looked at. If the conversion of [None] gives a time, the run goes ahead, up to or from that time. *)
Theorem C140_one_time_refuted :
  (forall utc s e file, (s <> None \/ e <> None) -> (forall v, utc v <> Raise RuntimeError) -> locate_args utc s e file <> Raise RuntimeError)
  /\ (forall utc s a now, utc (Some s) = Ret a -> utc None = Ret now -> a <= now -> locate_args utc (Some s) None None = Ret (ByPeriod (Some a) (Some now)))
  /\ (forall utc s a x, utc (Some s) = Ret a -> utc None = Raise x -> locate_args utc (Some s) None None = Raise x).
Proof.
  split; [|split].
  - intros utc s e file D N H. unfold locate_args in H.
    destruct s as [s|], e as [e|]; try (destruct D; congruence);
      (destruct (utc (Some s)) eqn:E1 || destruct (utc None) eqn:E1); cbn in H; try discriminate; try (injection H as ->; eapply N; eassumption);
      match goal with |- _ => idtac end;
      (destruct (utc (Some e)) eqn:E2 || destruct (utc None) eqn:E2); cbn in H; try discriminate; try (injection H as ->; eapply N; eassumption); destruct (_ <? _); cbn in H; try discriminate; destruct file; discriminate.
  - intros utc s a now Ha Hn L. unfold locate_args. rewrite Ha. cbn [bind]. rewrite Hn. cbn [bind]. destruct (Z.ltb_spec now a); [lia|reflexivity].
  - intros utc s a x Ha Hn. unfold locate_args. rewrite Ha. cbn [bind]. rewrite Hn. reflexivity.
Qed.
Print Assumptions C140_one_time_refuted.
(** The times next to a file are looked at, though they are not used. *)
Theorem C140_times_next_to_a_file :
  forall utc s e f a b, utc (Some s) = Ret a -> utc (Some e) = Ret b -> locate_args utc (Some s) (Some e) (Some f) = if b <? a then Raise TimeSpan else Ret (ByFile f).
Proof. intros utc s e f a b Ha Hb. unfold locate_args. rewrite Ha. cbn [bind]. rewrite Hb. cbn [bind]. destruct (b <? a); reflexivity. Qed.
Print Assumptions C140_times_next_to_a_file.
(** The picker has the threshold of its method: the one given for it, or the default. *)
Theorem C140_picker :
  forall k p, picker_init k = Ret p ->
  (p_method p = "percentile"%string /\ k_method k = Some "percentile"%string /\ threshold_read p = Ret (get (k_percentile k) 1%Q))
  \/ (p_method p = "MAD"%string /\ (k_method k = Some "MAD"%string \/ k_method k = None) /\ threshold_read p = Ret (get (k_mad k) 8%Q)).
Proof.
  intros k p H. unfold picker_init in H. destruct (String.eqb_spec (get (k_method k) "MAD"%string) "percentile") as [E|E]; [|destruct (String.eqb_spec (get (k_method k) "MAD"%string) "MAD") as [E'|E']; [|discriminate]]; cbn [bind] in H.
  - left. assert (p = mk_picker (get (k_method k) "MAD"%string) (Some (get (k_percentile k) 1%Q)) None) by (destruct (k_pick k) as [v|]; [destruct (Qeq_bool v 0)|]; congruence). subst p. unfold threshold_read. cbn. rewrite E. destruct (k_method k) as [m|]; cbn in E; [subst m; auto|discriminate].
  - right. assert (p = mk_picker (get (k_method k) "MAD"%string) None (Some (get (k_mad k) 8%Q))) by (destruct (k_pick k) as [v|]; [destruct (Qeq_bool v 0)|]; congruence). subst p. unfold threshold_read. cbn. rewrite E'. destruct (k_method k) as [m|]; cbn in E'; [subst m; auto|auto].
Qed.
Print Assumptions C140_picker.
(** A method that is changed afterwards finds no threshold: the other one was never set. *)
Theorem C140_method_changed :
  forall k p m, picker_init k = Ret p -> m = "percentile"%string \/ m = "MAD"%string -> m <> p_method p -> threshold_read (mk_picker m (p_percentile p) (p_mad p)) = Raise AttributeError.
Proof.
  intros k p m H Hm N. unfold picker_init in H. destruct (String.eqb_spec (get (k_method k) "MAD"%string) "percentile") as [E|E]; [|destruct (String.eqb_spec (get (k_method k) "MAD"%string) "MAD") as [E'|E']; [|discriminate]]; cbn [bind] in H.
  - assert (p = mk_picker (get (k_method k) "MAD"%string) (Some (get (k_percentile k) 1%Q)) None) by (destruct (k_pick k) as [v|]; [destruct (Qeq_bool v 0)|]; congruence). subst p. cbn in *. destruct Hm as [->| ->]; [congruence|reflexivity].
  - assert (p = mk_picker (get (k_method k) "MAD"%string) None (Some (get (k_mad k) 8%Q))) by (destruct (k_pick k) as [v|]; [destruct (Qeq_bool v 0)|]; congruence). subst p. cbn in *. destruct Hm as [->| ->]; [reflexivity|congruence].
Qed.
Print Assumptions C140_method_changed.
Example C140_method_changed_applies : picker_init (mk_pkw None None None None) = Ret (mk_picker "MAD" None (Some 8%Q)) /\ "percentile"%string <> "MAD"%string.
Proof. split; [reflexivity|discriminate]. Qed.
(** A picker is made for the two methods, or none given; another method is refused. *)
Theorem C140_methods :
  forall k, k_pick k = None -> ((exists p, picker_init k = Ret p) <-> k_method k = None \/ k_method k = Some "MAD"%string \/ k_method k = Some "percentile"%string)
  /\ (forall m, k_method k = Some m -> m <> "MAD"%string -> m <> "percentile"%string -> picker_init k = Raise ThresholdMethod).
Proof.
  intros k Hp. unfold picker_init. rewrite Hp. destruct (k_method k) as [m|]; cbn [get].
  - destruct (String.eqb_spec m "percentile") as [->|N]; [|destruct (String.eqb_spec m "MAD") as [->|N']]; cbn [bind]; (split; [split; [|eauto]|intros m' E A B; congruence]).
    + auto.
    + auto.
    + intros (p & E). discriminate.
    + intros [E|[E|E]]; congruence.
  - cbn. split; [split; eauto|discriminate].
Qed.
Print Assumptions C140_methods.
Example C140_methods_applies : picker_init (mk_pkw (Some "mean"%string) None None None) = Raise ThresholdMethod.
Proof. reflexivity. Qed.
(** The old [pick_threshold] is refused, except for the value 0, which is passed over. *)
Theorem C140_old_threshold :
  forall k v, k_pick k = Some v -> (~ (v == 0)%Q -> forall p, picker_init k <> Ret p) /\ ((v == 0)%Q -> picker_init k = picker_init (mk_pkw (k_method k) (k_percentile k) (k_mad k) None)).
Proof.
  intros k v Hv. unfold picker_init. rewrite Hv. cbn [k_method k_percentile k_mad k_pick]. split.
  - intros N p. destruct (if String.eqb _ _ then _ else _); cbn [bind]; try discriminate. destruct (Qeq_bool v 0) eqn:E; [apply Qeq_bool_eq in E; contradiction|discriminate].
  - intros Z. apply Qeq_bool_iff in Z. rewrite Z. reflexivity.
Qed.
Print Assumptions C140_old_threshold.
(** Times written as numbers of days; and a run with a start only, while [None] is day 20. *)
Definition ex_utc (v : option string) : outcome Z := match v with Some "2021-01-01"%string => Ret 1 | Some "2021-01-02"%string => Ret 2 | None => Ret 20 | _ => Raise TypeError end.
Example C140_applies :
  locate_args ex_utc (Some "2021-01-01"%string) (Some "2021-01-02"%string) None = Ret (ByPeriod (Some 1) (Some 2))
  /\ locate_args ex_utc (Some "2021-01-02"%string) (Some "2021-01-01"%string) None = Raise TimeSpan
  /\ locate_args ex_utc (Some "2021-01-01"%string) None None = Ret (ByPeriod (Some 1) (Some 20))
  /\ picker_init (mk_pkw None None (Some 5%Q) (Some 0%Q)) = Ret (mk_picker "MAD" None (Some 5%Q)).
Proof. repeat split; reflexivity. Qed.
