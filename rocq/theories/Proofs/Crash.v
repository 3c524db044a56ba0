(** * Crash.v: what the linter does with null entries. *)
From Coq Require Import Lia.
From Verif Require Import Model.Go Model.Types Model.Lint Spec.LintSpec Spec.CrashSpec Proofs.GoFacts Proofs.LintFacts.
Local Open Scope list_scope.

(** ** Loops *)
Lemma oiter_panics {A} (f : A -> outcome unit) l :
  oiter f l = Panic <-> exists before x after, l = before ++ x :: after /\ (forall y, In y before -> f y = Ok tt) /\ f x = Panic.
Proof.
  induction l as [|a l IH]; cbn [oiter].
  - split; [discriminate|]. intros ([|b before] & x & after & E & _); discriminate.
  - split.
    + destruct (f a) as [[]|e|] eqn:E; cbn [obind]; intro H; try discriminate.
      * apply IH in H as (before & x & after & -> & H1 & H2). exists (a :: before), x, after. split; [reflexivity|].
        split; [|exact H2]. intros y [<-|Hy]; auto.
      * exists [], a, l. split; [reflexivity|]. split; [intros y []|exact E].
    + intros ([|b before] & x & after & E & H1 & H2); injection E as -> ->.
      * rewrite H2. reflexivity.
      * rewrite (H1 b (or_introl eq_refl)). cbn [obind]. apply IH. exists before, x, after. split; [reflexivity|].
        split; [|exact H2]. intros y Hy. apply H1. right. exact Hy.
Qed.
Lemma ofold_panics {A S} (f : S -> A -> outcome S) l : forall s,
  ofold f l s = Panic <-> exists before x after s', l = before ++ x :: after /\ ofold f before s = Ok s' /\ f s' x = Panic.
Proof.
  induction l as [|a l IH]; intro s; cbn [ofold].
  - split; [discriminate|]. intros ([|b before] & x & after & s' & E & _); discriminate.
  - split.
    + destruct (f s a) as [s1|e|] eqn:E; cbn [obind]; intro H; try discriminate.
      * apply IH in H as (before & x & after & s' & -> & H1 & H2). exists (a :: before), x, after, s'. split; [reflexivity|].
        split; [|exact H2]. cbn [ofold]. rewrite E. exact H1.
      * exists [], a, l, s. split; [reflexivity|]. split; [reflexivity|exact E].
    + intros ([|b before] & x & after & s' & E & H1 & H2); injection E as -> ->.
      * cbn [ofold] in H1. injection H1 as ->. rewrite H2. reflexivity.
      * cbn [ofold] in H1. destruct (f s b) as [s1|e|] eqn:E; cbn [obind] in *; try discriminate.
        apply IH. exists before, x, after, s'. auto.
Qed.
Lemma somes {A} (l : list (option A)) : ~ In None l -> exists l', l = map Some l'.
Proof.
  induction l as [|[a|] l IH]; intro H.
  - exists []. reflexivity.
  - destruct IH as [l' ->]; [intro K; apply H; right; exact K|]. exists (a :: l'). reflexivity.
  - exfalso. apply H. left. reflexivity.
Qed.
Lemma no_none {A} (l : list A) : ~ In None (map Some l).
Proof. intro H. apply in_map_iff in H as (a & E & _). discriminate. Qed.
Lemma oseq_panics (m : outcome unit) {B} (k : outcome B) : (m ;;; k) = Panic <-> m = Panic \/ (m = Ok tt /\ k = Panic).
Proof.
  destruct m as [[]|e|]; cbn; split.
  - intro H. right. auto.
  - intros [H|[_ H]]; [discriminate|exact H].
  - discriminate.
  - intros [H|[H _]]; discriminate.
  - auto.
  - auto.
Qed.
Lemma refuse_panics b e : refuse b e = Panic <-> False.
Proof. split; [apply refuse_panic|tauto]. Qed.

(** ** One step *)
Lemma ports_good trusted ports :
  checkPorts ports trusted = Ok tt <->
  (trusted = false -> ~ In None ports /\ forall p, In (Some p) ports -> po_host p = 0%Z).
Proof.
  unfold checkPorts. rewrite oiter_ok. destruct trusted; simpl.
  - split; [discriminate|]. intros _ a _. reflexivity.
  - split.
    + intros H _. split.
      * intro N. apply H in N. discriminate.
      * intros p Hp. apply H in Hp. simpl in Hp. apply refuse_ok, negb_false_iff, Z.eqb_eq in Hp. exact Hp.
    + intros H. destruct (H eq_refl) as [N K]. intros [p|] Hp; [|contradiction]. simpl. apply refuse_ok, negb_false_iff, Z.eqb_eq. auto.
Qed.
Lemma mounts_good l :
  oiter checkMount l = Ok tt <-> ~ In None l /\ forall m, In (Some m) l -> ~ Reserved (vm_name m).
Proof.
  rewrite oiter_ok. split.
  - intro H. split.
    + intro N. apply H in N. discriminate.
    + intros m Hm. apply H in Hm. cbn in Hm. apply refuse_ok, reserved_false in Hm. exact Hm.
  - intros [N H] [m|] Hm; [|contradiction]. cbn. apply refuse_ok, reserved_false. auto.
Qed.
Lemma ports_stuck trusted ports :
  checkPorts ports trusted = Panic <->
  trusted = false /\ exists before, NullAfter before ports /\ Forall (fun p => po_host p = 0%Z) before.
Proof.
  unfold checkPorts. rewrite oiter_panics. split.
  - intros (before & x & after & E & H1 & H2). destruct trusted; [discriminate|]. split; [reflexivity|].
    destruct x as [x|]; [exfalso; exact (refuse_panic _ _ H2)|].
    destruct (somes before) as [b ->]; [intro N; apply H1 in N; discriminate|].
    exists b. split; [exists after; exact E|]. apply Forall_forall. intros p Hp. apply (in_map Some), H1 in Hp.
    cbn in Hp. apply refuse_ok, negb_false_iff, Z.eqb_eq in Hp. exact Hp.
  - intros (-> & b & [after ->] & H). exists (map Some b), None, after. split; [reflexivity|]. split; [|reflexivity].
    intros y Hy. apply in_map_iff in Hy as (p & <- & Hp). rewrite Forall_forall in H. cbn. apply refuse_ok, negb_false_iff, Z.eqb_eq. auto.
Qed.
Lemma mounts_stuck l :
  oiter checkMount l = Panic <-> exists before, NullAfter before l /\ Forall (fun m => ~ Reserved (vm_name m)) before.
Proof.
  rewrite oiter_panics. split.
  - intros (before & x & after & E & H1 & H2). destruct x as [x|]; [exfalso; exact (refuse_panic _ _ H2)|].
    destruct (somes before) as [b ->]; [intro N; apply H1 in N; discriminate|].
    exists b. split; [exists after; exact E|]. apply Forall_forall. intros p Hp. apply (in_map Some), H1 in Hp.
    cbn in Hp. apply refuse_ok, reserved_false in Hp. exact Hp.
  - intros (b & [after ->] & H). exists (map Some b), None, after. split; [reflexivity|]. split; [|reflexivity].
    intros y Hy. apply in_map_iff in Hy as (p & <- & Hp). rewrite Forall_forall in H. cbn. apply refuse_ok, reserved_false. auto.
Qed.

Lemma image_good c :
  (match ct_build c with None => isEmpty (ct_image c) | Some _ => false end) = false /\
  (match ct_build c with Some b => isEmpty (b_image b) | None => false end) = false <->
  match ct_build c with None => ct_image c <> "" | Some b => b_image b <> "" end.
Proof. destruct (ct_build c); rewrite isEmpty_false'; tauto. Qed.

Lemma container_ok trusted c : checkContainer c trusted = Ok tt <-> Seen trusted c /\ GoodContainer trusted c.
Proof.
  unfold checkContainer, GoodContainer, Unprivileged, Seen.
  rewrite !oseq_ok, !ok_tt, !refuse_ok, ports_good, mounts_good, !trusted_guard, !length_ltb_false, isEmpty_false'.
  rewrite <- image_good, negb_false_iff, isEmpty_spec. tauto.
Qed.
Lemma container_good trusted c : Seen trusted c -> (checkContainer c trusted = Ok tt <-> GoodContainer trusted c).
Proof. intro S. rewrite container_ok. tauto. Qed.
Lemma container_stuck trusted c : checkContainer c trusted = Panic <-> Stuck trusted c.
Proof.
  unfold checkContainer. rewrite !oseq_panics, !refuse_panics, !refuse_ok, ports_good, ports_stuck, mounts_stuck, !trusted_guard, !length_ltb_false, isEmpty_false'.
  rewrite negb_false_iff, isEmpty_spec. split.
  - intros [(T & b & N & F)|(P & [[]|(I1 & [[]|(I2 & [[]|(Nm & [[]|(U1 & [[]|(U2 & [[]|(U3 & [[]|(U4 & [[]|(U5 & [[]|(U6 & b & N & F)])])])])])])])])])].
    + exact (stuck_port _ _ b T N F).
    + apply (stuck_mount _ _ b N F); [|exact Nm|apply image_good; auto]. intro T. destruct (P T) as [P1 P2]. split; [exact P1|].
      repeat split; auto.
  - intros [b T N F|b N F U Nm I].
    + left. eauto.
    + right. apply image_good in I as [I1 I2]. split; [intro T; destruct (U T) as (U1 & U2 & U3 & U4 & U5 & U6 & U7 & U8); auto|].
      right. split; [exact I1|]. right. split; [exact I2|]. right. split; [exact Nm|].
      do 6 (right; split; [intro T; destruct (U T) as (U1 & U2 & U3 & U4 & U5 & U6 & U7 & U8); assumption|]). eauto.
Qed.

(** ** The lists *)
Lemma step_ok trusted names c names' :
  Seen trusted c ->
  (checkStep trusted names (Some c) = Ok names' <->
   names' = ct_name c :: names /\ ~ In (ct_name c) names /\ GoodContainer trusted c /\
   (forall d, In d (ct_depends c) -> In d names)).
Proof.
  intro Sn. unfold checkStep. cbn [deref obind].
  rewrite !oseq_ok, !ok_tt, refuse_ok, checkDeps_ok, (container_good _ _ Sn).
  rewrite <- not_true_iff_false, smem_spec. split.
  - intros (H1 & H2 & H3 & E). injection E as <-. split; [reflexivity|]. split; [exact H1|]. split; [exact H2|]. intros d Hd.
    destruct (H3 d Hd) as [[<-|Hin] Hne]; [congruence|exact Hin].
  - intros (-> & H1 & H2 & H3). split; [exact H1|]. split; [exact H2|]. split; [|reflexivity]. intros d Hd. split; [right; auto|].
    intros ->. exact (H1 (H3 _ Hd)).
Qed.
Lemma service_ok trusted names c names' :
  Seen trusted c ->
  (checkService trusted names (Some c) = Ok names' <->
   names' = ct_name c :: names /\ ~ In (ct_name c) names /\ GoodContainer trusted c).
Proof.
  intro Sn. unfold checkService. cbn [deref obind].
  rewrite !oseq_ok, !ok_tt, refuse_ok, (container_good _ _ Sn).
  rewrite <- not_true_iff_false, smem_spec. split.
  - intros (H1 & H2 & E). injection E as <-. auto.
  - intros (-> & H1 & H2). auto.
Qed.

Lemma all_steps_ok trusted steps : forall names names',
  Forall (Seen trusted) steps ->
  (ofold (checkStep trusted) (map Some steps) names = Ok names' <->
   names' = rev (map ct_name steps) ++ names /\ Forall (GoodContainer trusted) steps /\
   (NoDup (map ct_name steps) /\ forall x, In x names -> ~ In x (map ct_name steps)) /\ DepsEarlier names steps).
Proof.
  induction steps as [|c steps IH]; intros names names' Hn; cbn [map ofold].
  - split.
    + intro E. injection E as <-. split; [reflexivity|]. split; [constructor|]. split; [split; [constructor|auto]|]. intros b s a d E. destruct b; discriminate.
    + intros (-> & _). reflexivity.
  - inversion Hn as [|? ? Hc Hn']; subst. rewrite obind_ok. split.
    + intros (n1 & H1 & H2). apply (step_ok _ _ _ _ Hc) in H1 as (-> & D1 & D2 & D3).
      apply (IH _ _ Hn') in H2 as (-> & G & (ND & Dj) & De). split; [|split; [|split]].
      * cbn [rev]. rewrite <- app_assoc. reflexivity.
      * constructor; assumption.
      * split.
        -- constructor; [|exact ND]. apply Dj. left. reflexivity.
        -- intros x Hx [E|Hin]; [congruence|]. exact (Dj x (or_intror Hx) Hin).
      * intros b s a d E Hd. destruct b as [|b0 b].
        -- injection E as <- <-. left. auto.
        -- injection E as <- Est. destruct (De b s a d Est Hd) as [[<-|Hin]|Hin]; simpl; auto.
    + intros (-> & G & (ND & Dj) & De). inversion G; subst. inversion ND; subst.
      exists (ct_name c :: names). split.
      * apply (step_ok _ _ _ _ Hc). split; [reflexivity|]. split; [|split; [assumption|]].
        -- intro Hin. exact (Dj _ Hin (or_introl eq_refl)).
        -- intros d Hd. destruct (De [] c steps d eq_refl Hd) as [Hin|[]]. exact Hin.
      * apply (IH _ _ Hn'). split; [cbn [rev]; rewrite <- app_assoc; reflexivity|]. split; [assumption|]. split.
        -- split; [assumption|]. intros x [<-|Hx] Hin; [contradiction|]. exact (Dj x Hx (or_intror Hin)).
        -- intros b s a d -> Hd. destruct (De (c :: b) s a d eq_refl Hd) as [Hin|[<-|Hin]]; simpl; auto.
Qed.
Lemma all_services_ok trusted steps : forall names names',
  Forall (Seen trusted) steps ->
  (ofold (checkService trusted) (map Some steps) names = Ok names' <->
   names' = rev (map ct_name steps) ++ names /\ Forall (GoodContainer trusted) steps /\
   (NoDup (map ct_name steps) /\ forall x, In x names -> ~ In x (map ct_name steps))).
Proof.
  induction steps as [|c steps IH]; intros names names' Hn; cbn [map ofold].
  - split.
    + intro E. injection E as <-. repeat split; try constructor; auto.
    + intros (-> & _). reflexivity.
  - inversion Hn as [|? ? Hc Hn']; subst. rewrite obind_ok. split.
    + intros (n1 & H1 & H2). apply (service_ok _ _ _ _ Hc) in H1 as (-> & D1 & D2).
      apply (IH _ _ Hn') in H2 as (-> & G & (ND & Dj)). split; [|split].
      * cbn [rev]. rewrite <- app_assoc. reflexivity.
      * constructor; assumption.
      * split.
        -- constructor; [|exact ND]. apply Dj. left. reflexivity.
        -- intros x Hx [E|Hin]; [congruence|]. exact (Dj x (or_intror Hx) Hin).
    + intros (-> & G & (ND & Dj)). inversion G; subst. inversion ND; subst.
      exists (ct_name c :: names). split.
      * apply (service_ok _ _ _ _ Hc). split; [reflexivity|]. split; [|assumption].
        intro Hin. exact (Dj _ Hin (or_introl eq_refl)).
      * apply (IH _ _ Hn'). split; [cbn [rev]; rewrite <- app_assoc; reflexivity|]. split; [assumption|].
        split; [assumption|]. intros x [<-|Hx] Hin; [contradiction|]. exact (Dj x Hx (or_intror Hin)).
Qed.


Lemma step_some trusted names o names' : checkStep trusted names o = Ok names' -> exists c, o = Some c /\ Seen trusted c.
Proof.
  destruct o as [c|]; [|discriminate]. unfold checkStep. cbn [deref obind]. rewrite !oseq_ok, !ok_tt, container_ok. intros (_ & [H _] & _). eauto.
Qed.
Lemma service_some trusted names o names' : checkService trusted names o = Ok names' -> exists c, o = Some c /\ Seen trusted c.
Proof.
  destruct o as [c|]; [|discriminate]. unfold checkService. cbn [deref obind]. rewrite !oseq_ok, !ok_tt, container_ok. intros (_ & [H _] & _). eauto.
Qed.
Lemma fold_some (f : list string -> option Container -> outcome (list string)) (P : Container -> Prop) :
  (forall n o n', f n o = Ok n' -> exists c, o = Some c /\ P c) ->
  forall l n n', ofold f l n = Ok n' -> exists steps, l = map Some steps /\ Forall P steps.
Proof.
  intro H. induction l as [|o l IH]; intros n n' E.
  - exists []. split; [reflexivity|constructor].
  - cbn [ofold] in E. apply obind_ok in E as (n1 & E1 & E2). apply H in E1 as (c & -> & Hc). apply IH in E2 as (steps & -> & Hs).
    exists (c :: steps). split; [reflexivity|constructor; assumption].
Qed.
Lemma step_stuck trusted names o :
  checkStep trusted names o = Panic <-> o = None \/ exists c, o = Some c /\ Stuck trusted c /\ ~ In (ct_name c) names.
Proof.
  destruct o as [c|]; cbn [checkStep deref obind].
  - rewrite !oseq_panics, refuse_panics, refuse_ok, container_stuck, <- not_true_iff_false, smem_spec. split.
    + intros [[]|(N & [H|(_ & [H|(_ & H)])])]; [right; eauto|exfalso; exact (checkDeps_panic _ _ H)|discriminate].
    + intros [H|(d & E & H & N)]; [discriminate|]. injection E as <-. right. split; [exact N|]. left. exact H.
  - split; auto.
Qed.
Lemma service_stuck trusted names o :
  checkService trusted names o = Panic <-> o = None \/ exists c, o = Some c /\ Stuck trusted c /\ ~ In (ct_name c) names.
Proof.
  destruct o as [c|]; cbn [checkService deref obind].
  - rewrite !oseq_panics, refuse_panics, refuse_ok, container_stuck, <- not_true_iff_false, smem_spec. split.
    + intros [[]|(N & [H|(_ & H)])]; [right; eauto|discriminate].
    + intros [H|(d & E & H & N)]; [discriminate|]. injection E as <-. right. split; [exact N|]. left. exact H.
  - split; auto.
Qed.
Lemma passes_ok trusted p steps services vols :
  pi_steps p = map Some steps -> pi_services p = map Some services -> pi_volumes p = map Some vols ->
  Forall (Seen trusted) (steps ++ services) ->
  (checkPipeline p trusted = Ok tt <-> WellFormed trusted p steps services vols).
Proof.
  intros Es Ev Evol Hn. unfold checkPipeline, WellFormed. fold (cloneNames p).
  apply Forall_app in Hn as [Hn1 Hn2].
  rewrite !oseq_ok, !ok_tt, checkPlatform_ok, (checkVolumes_ok _ _ _ Evol), Es, Ev, obind_ok.
  assert (Hcl : NoDup (cloneNames p)) by (unfold cloneNames; destruct (cl_disable _); repeat constructor; auto).
  rewrite Forall_app, map_app, !NoDup_app_iff. split.
  - intros (H1 & H2 & n1 & H3 & H4). apply (all_steps_ok _ _ _ _ Hn1) in H3 as (-> & G & (ND & Dj) & De).
    rewrite obind_ok in H4. destruct H4 as (n2 & H4 & _). apply (all_services_ok _ _ _ _ Hn2) in H4 as (_ & G2 & ND2 & Dj2).
    split; [exact H2|]. split; [exact H1|]. split; [split; assumption|]. split; [|exact De].
    split; [exact Hcl|]. split; [split; [exact ND|split; [exact ND2|]]|].
    + intros x Hx Hin. apply (Dj2 x); [|exact Hin]. apply in_or_app. left. apply in_rev. rewrite rev_involutive. exact Hx.
    + intros x Hx Hin. apply in_app_or in Hin as [Hin|Hin]; [exact (Dj x Hx Hin)|].
      apply (Dj2 x); [apply in_or_app; right; exact Hx|exact Hin].
  - intros (H1 & H2 & (G & G2) & (_ & (ND & ND2 & Dj12) & Djc) & De). split; [exact H2|]. split; [exact H1|].
    eexists. split.
    + apply (all_steps_ok _ _ _ _ Hn1). split; [reflexivity|]. split; [exact G|]. split; [split; [exact ND|]|exact De].
      intros x Hx Hin. apply (Djc x Hx), in_or_app. auto.
    + rewrite obind_ok. eexists. split; [|reflexivity]. apply (all_services_ok _ _ _ _ Hn2). split; [reflexivity|].
      split; [exact G2|]. split; [exact ND2|]. intros x Hx Hin. apply in_app_or in Hx as [Hx|Hx].
      * apply in_rev in Hx. exact (Dj12 x Hx Hin).
      * apply (Djc x Hx), in_or_app. auto.
Qed.


Lemma volumes_ok trusted p : checkVolumes p trusted = Ok tt <-> exists vols, pi_volumes p = map Some vols /\ Forall (GoodVolume trusted) vols.
Proof.
  split.
  - intro H. destruct (somes (pi_volumes p)) as [vols E].
    { intro N. unfold checkVolumes in H. apply (proj1 (oiter_ok _ _)) with (a := None) in H; [discriminate|exact N]. }
    exists vols. split; [exact E|]. apply (checkVolumes_ok _ _ _ E), H.
  - intros (vols & E & H). apply (checkVolumes_ok _ _ _ E), H.
Qed.
Lemma volumes_stuck trusted p : checkVolumes p trusted = Panic <-> exists vols, NullAfter vols (pi_volumes p) /\ Forall (GoodVolume trusted) vols.
Proof.
  unfold checkVolumes. rewrite oiter_panics. split.
  - intros (before & x & after & E & H1 & H2). destruct x as [v|].
    { exfalso. revert H2. unfold checkVolume. cbn [deref obind]. destruct (vo_empty v) as [e|], (vo_host v) as [h|];
      repeat first [discriminate|apply refuse_panic|apply oseq_np]. }
    destruct (somes before) as [b ->]; [intro N; apply H1 in N; discriminate|].
    exists b. split; [exists after; exact E|]. apply Forall_forall. intros v Hv. apply checkVolume_ok, H1, in_map, Hv.
  - intros (b & [after ->] & H). exists (map Some b), None, after. split; [reflexivity|]. split; [|reflexivity].
    intros y Hy. apply in_map_iff in Hy as (v & <- & Hv). rewrite Forall_forall in H. apply checkVolume_ok. auto.
Qed.

(** The linter accepts exactly this. *)
Theorem accepts p trusted : Lint (RPipeline p) trusted = Ok tt <-> exists steps services vols,
  pi_steps p = map Some steps /\ pi_services p = map Some services /\ pi_volumes p = map Some vols /\
  Passes trusted p steps services vols.
Proof.
  cbn [Lint]. split.
  - intro H. assert (H' := H). unfold checkPipeline in H. rewrite !oseq_ok, !ok_tt, obind_ok in H. destruct H as (Hv & _ & n1 & H1 & H2).
    rewrite obind_ok in H2. destruct H2 as (n2 & H2 & _).
    apply volumes_ok in Hv as (vols & Ev & _).
    apply (fold_some _ _ (step_some trusted)) in H1 as (steps & Es & Ss).
    apply (fold_some _ _ (service_some trusted)) in H2 as (services & Esv & Ssv).
    exists steps, services, vols. do 3 (split; [assumption|]).
    assert (S : Forall (Seen trusted) (steps ++ services)) by (apply Forall_app; auto).
    split; [|exact S]. apply (passes_ok _ _ _ _ _ Es Esv Ev S), H'.
  - intros (steps & services & vols & Es & Esv & Ev & W & S). apply (passes_ok _ _ _ _ _ Es Esv Ev S), W.
Qed.

Lemma after_names trusted names before l :
  (exists x after, l = map Some before ++ x :: after /\ (x = None \/ exists c, x = Some c /\ Stuck trusted c /\ ~ In (ct_name c) (rev (map ct_name before) ++ names))) <->
  StuckAfter trusted names before l.
Proof.
  assert (In' : forall x, In x (rev (map ct_name before) ++ names) <-> In x (names ++ map ct_name before)).
  { intro x. rewrite !in_app_iff, <- in_rev. tauto. }
  unfold StuckAfter, NullAfter. split.
  - intros (x & after & -> & [->|(c & -> & S & N)]); [left; eauto|]. right. exists c, after. rewrite In' in N. auto.
  - intros [[after ->]|(c & after & -> & S & N)].
    + exists None, after. auto.
    + exists (Some c), after. split; [reflexivity|]. right. exists c. rewrite In'. auto.
Qed.
Lemma stuck_after_steps trusted l names :
  ofold (checkStep trusted) l names = Panic <->
  exists before, StuckAfter trusted names before l /\ Forall (Seen trusted) before /\
    ofold (checkStep trusted) (map Some before) names = Ok (rev (map ct_name before) ++ names).
Proof.
  rewrite ofold_panics. split.
  - intros (b & x & after & n & E & H1 & H2). assert (K := H1). apply (fold_some _ _ (step_some trusted)) in K as (before & -> & S).
    assert (K := H1). apply (all_steps_ok _ _ _ _ S) in K as (-> & _). exists before. split; [|auto].
    apply after_names. exists x, after. split; [exact E|]. apply step_stuck, H2.
  - intros (before & H & _ & O). apply after_names in H as (x & after & E & H). exists (map Some before), x, after. eexists.
    split; [exact E|]. split; [exact O|]. apply step_stuck, H.
Qed.
Lemma stuck_after_services trusted l names :
  ofold (checkService trusted) l names = Panic <->
  exists before, StuckAfter trusted names before l /\ Forall (Seen trusted) before /\
    ofold (checkService trusted) (map Some before) names = Ok (rev (map ct_name before) ++ names).
Proof.
  rewrite ofold_panics. split.
  - intros (b & x & after & n & E & H1 & H2). assert (K := H1). apply (fold_some _ _ (service_some trusted)) in K as (before & -> & S).
    assert (K := H1). apply (all_services_ok _ _ _ _ S) in K as (-> & _). exists before. split; [|auto].
    apply after_names. exists x, after. split; [exact E|]. apply service_stuck, H2.
  - intros (before & H & _ & O). apply after_names in H as (x & after & E & H). exists (map Some before), x, after. eexists.
    split; [exact E|]. split; [exact O|]. apply service_stuck, H.
Qed.
Lemma stuck_names trusted names names' before l : (forall x, In x names <-> In x names') ->
  StuckAfter trusted names before l -> StuckAfter trusted names' before l.
Proof.
  intros E [H|(c & after & -> & S & N)]; [left; exact H|]. right. exists c, after. split; [reflexivity|]. split; [exact S|].
  rewrite in_app_iff in *. rewrite <- E. exact N.
Qed.

(** The same pipeline with these steps and services only. *)
Definition cut (p : Pipeline) (steps services : list Container) : Pipeline :=
  {| pi_version := pi_version p; pi_kind := pi_kind p; pi_type := pi_type p; pi_name := pi_name p;
     pi_clone := pi_clone p; pi_concurrency := pi_concurrency p; pi_depends := pi_depends p; pi_node := pi_node p;
     pi_platform := pi_platform p; pi_pull_secrets := pi_pull_secrets p; pi_services := map Some services; pi_steps := map Some steps;
     pi_trigger := pi_trigger p; pi_volumes := pi_volumes p; pi_workspace := pi_workspace p |}.

Theorem crashes p trusted : Lint (RPipeline p) trusted = Panic <-> Crashes trusted p.
Proof.
  cbn [Lint]. unfold checkPipeline. fold (cloneNames p). rewrite !oseq_panics. split.
  - intros [H|(Hv & [H|(Hp & H)])].
    + apply volumes_stuck in H as (vols & N & F). exact (crash_volume _ _ vols N F).
    + exfalso. exact (checkPlatform_panic _ H).
    + assert (V := Hv). apply volumes_ok in V as (vols & Ev & Gv).
      destruct (ofold (checkStep trusted) (pi_steps p) (cloneNames p)) as [n1|e|] eqn:E1; cbn [obind] in H; [|discriminate|].
      * destruct (ofold (checkService trusted) (pi_services p) n1) as [n2|e|] eqn:E2; cbn [obind] in H; try discriminate. clear H.
        assert (K := E1). apply (fold_some _ _ (step_some trusted)) in K as (steps & Es & Ss).
        assert (K := E1). rewrite Es in K. apply (all_steps_ok _ _ _ _ Ss) in K as (-> & _).
        apply stuck_after_services in E2 as (services & St & Sv & O).
        apply (crash_service _ _ vols steps services Ev Es).
        { revert St. apply stuck_names. intro x. rewrite !in_app_iff, <- in_rev. tauto. }
        assert (SS : Forall (Seen trusted) (steps ++ services)) by (apply Forall_app; auto). split; [|exact SS].
        apply (passes_ok trusted (cut p steps services) steps services vols eq_refl eq_refl Ev SS).
        unfold checkPipeline. cbn [cut pi_volumes pi_steps pi_services pi_platform pi_clone]. fold (cloneNames p).
        change (checkVolumes (cut p steps services) trusted) with (checkVolumes p trusted). rewrite Hv, Hp. cbn [obind].
        rewrite <- Es, E1. cbn [obind]. rewrite O. reflexivity.
      * apply stuck_after_steps in E1 as (steps & St & Ss & O). clear H.
        apply (crash_step _ _ vols steps Ev St).
        assert (SS : Forall (Seen trusted) (steps ++ [])) by (rewrite app_nil_r; auto). split; [|exact SS].
        apply (passes_ok trusted (cut p steps []) steps [] vols eq_refl eq_refl Ev SS).
        unfold checkPipeline. cbn [cut pi_volumes pi_steps pi_services pi_platform pi_clone]. fold (cloneNames p).
        change (checkVolumes (cut p steps []) trusted) with (checkVolumes p trusted). rewrite Hv, Hp. cbn [obind].
        rewrite O. reflexivity.
  - intros [vols N F|vols steps Ev St [W SS]|vols steps services Ev Es St [W SS]].
    + left. apply volumes_stuck. eauto.
    + right. apply (passes_ok trusted (cut p steps []) steps [] vols eq_refl eq_refl Ev SS) in W.
      unfold checkPipeline in W. cbn [cut pi_volumes pi_steps pi_services pi_platform pi_clone] in W. fold (cloneNames p) in W.
      change (checkVolumes (cut p steps []) trusted) with (checkVolumes p trusted) in W.
      rewrite !oseq_ok, !ok_tt, obind_ok in W. destruct W as (Hv & Hp & n1 & H1 & _). split; [exact Hv|]. right. split; [exact Hp|].
      rewrite app_nil_r in SS. assert (K := H1). apply (all_steps_ok _ _ _ _ SS) in K as (-> & _).
      assert (P : ofold (checkStep trusted) (pi_steps p) (cloneNames p) = Panic) by (apply stuck_after_steps; eauto).
      rewrite P. reflexivity.
    + right. apply (passes_ok trusted (cut p steps services) steps services vols eq_refl eq_refl Ev SS) in W.
      unfold checkPipeline in W. cbn [cut pi_volumes pi_steps pi_services pi_platform pi_clone] in W. fold (cloneNames p) in W.
      change (checkVolumes (cut p steps services) trusted) with (checkVolumes p trusted) in W.
      rewrite !oseq_ok, !ok_tt, obind_ok in W. destruct W as (Hv & Hp & n1 & H1 & H2). split; [exact Hv|]. right. split; [exact Hp|].
      rewrite obind_ok in H2. destruct H2 as (n2 & H2 & _). apply Forall_app in SS as [S1 S2].
      assert (K := H1). apply (all_steps_ok _ _ _ _ S1) in K as (-> & _).
      rewrite Es, H1. cbn [obind]. assert (K := H2). apply (all_services_ok _ _ _ _ S2) in K as (-> & _).
      assert (P : ofold (checkService trusted) (pi_services p) (rev (map ct_name steps) ++ cloneNames p) = Panic).
      { apply stuck_after_services. exists services. split; [|auto]. revert St. apply stuck_names. intro x.
        rewrite !in_app_iff, <- in_rev. tauto. }
      rewrite P. reflexivity.
Qed.
Lemma accepted_ok trusted r : Lint r trusted = Ok tt <-> Accepted trusted r.
Proof.
  destruct r; [apply validateCron_ok|apply accepts|apply validateSecret_ok|apply validateSignature_ok|apply validateRegistry_ok].
Qed.
