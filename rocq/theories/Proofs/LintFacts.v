(** * LintFacts.v *)
From Coq Require Import Lia.
From Verif Require Import Model.Go Model.Types Model.Lint Spec.LintSpec Proofs.GoFacts.

Lemma refuse_ok b e u : refuse b e = Ok u <-> b = false.
Proof. destruct b, u; simpl; split; congruence. Qed.
Lemma refuse_err b e e' : refuse b e = Err e' <-> b = true /\ e' = e.
Proof. destruct b; simpl; split; intuition congruence. Qed.
Lemma refuse_panic b e : refuse b e <> Panic.
Proof. destruct b; discriminate. Qed.
Lemma oseq_ok {A} (m : outcome A) {B} (k : outcome B) b : (m ;;; k) = Ok b <-> (exists a, m = Ok a) /\ k = Ok b.
Proof. rewrite obind_ok. split; [intros (a & H & K); eauto|intros ((a & H) & K); eauto]. Qed.
Lemma oseq_err {A} (m : outcome A) {B} (k : outcome B) e :
  (m ;;; k) = Err e <-> m = Err e \/ ((exists a, m = Ok a) /\ k = Err e).
Proof. rewrite obind_err. split; [intros [H|(a & H & K)]; eauto|intros [H|((a & H) & K)]; eauto]. Qed.
Lemma oseq_np {A} (m : outcome A) {B} (k : outcome B) : m <> Panic -> k <> Panic -> (m ;;; k) <> Panic.
Proof. destruct m; simpl; auto; discriminate. Qed.
Lemma ok_tt (m : outcome unit) : (exists a, m = Ok a) <-> m = Ok tt.
Proof. split; [intros [[] H]; exact H|eauto]. Qed.

Lemma smem_spec x l : smem x l = true <-> In x l.
Proof. apply smem_In. Qed.
Lemma isEmpty_spec s : isEmpty s = true <-> s = "".
Proof. destruct s; simpl; split; congruence. Qed.
Lemma isEmpty_false' s : isEmpty s = false <-> s <> "".
Proof. destruct s; simpl; split; congruence. Qed.
Lemma length_ltb {A} (l : list A) : Nat.ltb 0 (length l) = true <-> l <> [].
Proof. unfold Nat.ltb. destruct l; simpl; split; intro H; congruence. Qed.
Lemma length_ltb_false {A} (l : list A) : Nat.ltb 0 (length l) = false <-> l = [].
Proof. unfold Nat.ltb. destruct l; simpl; split; intro H; congruence. Qed.
Lemma trusted_guard t b : negb t && b = false <-> (t = false -> b = false).
Proof. destruct t, b; simpl; intuition congruence. Qed.

Lemma oiter_err {A} (f : A -> outcome unit) l e : oiter f l = Err e -> exists a, In a l /\ f a = Err e.
Proof.
  induction l as [|a l IH]; cbn [oiter]; [discriminate|]. rewrite oseq_err. intros [H|[_ H]].
  - exists a. split; [left; reflexivity|exact H].
  - destruct (IH H) as (b & Hb & E). exists b. split; [right; exact Hb|exact E].
Qed.

Lemma Forall_and_iff' {A} (P Q : A -> Prop) l : Forall (fun x => P x /\ Q x) l <-> Forall P l /\ Forall Q l.
Proof. rewrite !Forall_forall. split; [intro H; split; intros x Hx; apply H, Hx|intros [H1 H2] x Hx; auto]. Qed.
Lemma Forall_iff' {A} (P Q : A -> Prop) l : (forall x, P x <-> Q x) -> (Forall P l <-> Forall Q l).
Proof. intro H. rewrite !Forall_forall. split; intros K x Hx; apply H, K, Hx. Qed.

(** ** Platform *)
Lemma name_guard v l : negb (isEmpty v) && negb (smem v l) = false <-> In v ("" :: l).
Proof.
  rewrite andb_false_iff, !negb_false_iff, isEmpty_spec, smem_spec. simpl. intuition congruence.
Qed.
Lemma checkPlatform_ok p : checkPlatform p = Ok tt <-> SupportedPlatform p.
Proof.
  unfold checkPlatform, SupportedPlatform. rewrite oseq_ok, ok_tt, !refuse_ok, !name_guard. reflexivity.
Qed.
Lemma checkPlatform_err p e :
  checkPlatform p = Err e ->
  (~ In (pl_os p) [""; "linux"; "windows"] /\ e = ("linter: unsupported os: " +++ pl_os p)%string) \/
  (~ In (pl_arch p) [""; "arm"; "arm64"; "amd64"; "ppc64le"; "s390x"] /\
   e = ("linter: unsupported architecture: " +++ pl_arch p)%string).
Proof.
  unfold checkPlatform. rewrite oseq_err, !refuse_err. intros [[H ->]|[_ [H ->]]]; [left|right]; split; try reflexivity;
    intro Hin; apply (name_guard _ osNames) in Hin || apply (name_guard _ archNames) in Hin; congruence.
Qed.
Lemma checkPlatform_panic p : checkPlatform p <> Panic.
Proof. unfold checkPlatform. destruct (negb _ && _); simpl; [discriminate|]. apply refuse_panic. Qed.

(** ** Containers *)
Lemma reserved_spec n : reservedVolume n = true <-> Reserved n.
Proof. apply smem_spec. Qed.
Lemma reserved_false n : reservedVolume n = false <-> ~ Reserved n.
Proof. rewrite <- reserved_spec. symmetry. apply not_true_iff_false. Qed.

Lemma oiter_deref {A} (f : A -> outcome unit) l :
  ~ In None l ->
  (oiter (fun o => a <- deref o ;; f a) l = Ok tt <-> forall a, In (Some a) l -> f a = Ok tt).
Proof.
  intro Hn. rewrite oiter_ok. split.
  - intros H a Ha. apply (H (Some a)) in Ha. exact Ha.
  - intros H [a|] Ha; [apply H, Ha|contradiction].
Qed.

Lemma checkPorts_ok trusted ports :
  ~ In None ports ->
  (checkPorts ports trusted = Ok tt <-> (trusted = false -> forall p, In (Some p) ports -> po_host p = 0%Z)).
Proof.
  intro Hn. unfold checkPorts. rewrite oiter_ok. destruct trusted; simpl.
  - split; [discriminate|]. intros _ a _. reflexivity.
  - split.
    + intros H _ p Hp. apply H in Hp. simpl in Hp. apply refuse_ok, negb_false_iff, Z.eqb_eq in Hp. exact Hp.
    + intros H [p|] Hp; [|contradiction]. simpl. apply refuse_ok, negb_false_iff, Z.eqb_eq. auto.
Qed.

Lemma checkContainer_ok trusted c :
  ~ In None (ct_ports c) -> ~ In None (ct_volumes c) ->
  (checkContainer c trusted = Ok tt <-> GoodContainer trusted c).
Proof.
  intros Hp Hv. unfold checkContainer, GoodContainer, Unprivileged.
  rewrite !oseq_ok, !ok_tt, !refuse_ok, (checkPorts_ok _ _ Hp), !trusted_guard, !length_ltb_false, isEmpty_false'.
  assert (Hm : oiter checkMount (ct_volumes c) = Ok tt <->
               (forall m, In (Some m) (ct_volumes c) -> ~ Reserved (vm_name m))).
  { unfold checkMount. rewrite (oiter_deref (fun m => refuse (reservedVolume (vm_name m)) _) _ Hv).
    split; intros H m Hm; specialize (H m Hm); [apply refuse_ok, reserved_false in H; exact H|].
    apply refuse_ok, reserved_false, H. }
  rewrite Hm, negb_false_iff, isEmpty_spec.
  assert (Hi : (match ct_build c with None => isEmpty (ct_image c) | Some _ => false end) = false /\
               (match ct_build c with Some b => isEmpty (b_image b) | None => false end) = false <->
               match ct_build c with None => ct_image c <> "" | Some b => b_image b <> "" end).
  { destruct (ct_build c); rewrite isEmpty_false'; tauto. }
  tauto.
Qed.

Lemma checkContainer_err trusted c e :
  checkContainer c trusted = Err e -> ContainerProblem trusted c e.
Proof.
  unfold checkContainer. intro H.
  rewrite oseq_err in H. destruct H as [H|[_ H]].
  { apply oiter_err in H as (o & Ho & E). unfold checkPort in E. destruct trusted; [discriminate|].
    destruct o as [p|]; [|discriminate]. simpl in E. apply refuse_err in E as [E ->].
    apply negb_true_iff, Z.eqb_neq in E. eapply CP_port; eauto. }
  rewrite oseq_err in H. destruct H as [H|[_ H]].
  { apply refuse_err in H as [H ->]. destruct (ct_build c) eqn:B; [discriminate|]. apply CP_image; [exact B|].
    apply isEmpty_spec, H. }
  rewrite oseq_err in H. destruct H as [H|[_ H]].
  { apply refuse_err in H as [H ->]. destruct (ct_build c) eqn:B; [|discriminate]. eapply CP_build; [exact B|].
    apply isEmpty_spec, H. }
  rewrite oseq_err in H. destruct H as [H|[_ H]].
  { apply refuse_err in H as [H ->]. apply CP_name, isEmpty_spec, H. }
  rewrite oseq_err in H. destruct H as [H|[_ H]].
  { apply refuse_err in H as [H ->]. apply andb_true_iff in H as [T H]. apply negb_true_iff in T. apply CP_privileged; auto. }
  rewrite oseq_err in H. destruct H as [H|[_ H]].
  { apply refuse_err in H as [H ->]. apply andb_true_iff in H as [T H]. apply negb_true_iff in T. apply length_ltb in H.
    apply CP_devices; auto. }
  rewrite oseq_err in H. destruct H as [H|[_ H]].
  { apply refuse_err in H as [H ->]. apply andb_true_iff in H as [T H]. apply negb_true_iff in T. apply length_ltb in H.
    apply CP_dns; auto. }
  rewrite oseq_err in H. destruct H as [H|[_ H]].
  { apply refuse_err in H as [H ->]. apply andb_true_iff in H as [T H]. apply negb_true_iff in T. apply length_ltb in H.
    apply CP_dns_search; auto. }
  rewrite oseq_err in H. destruct H as [H|[_ H]].
  { apply refuse_err in H as [H ->]. apply andb_true_iff in H as [T H]. apply negb_true_iff in T. apply length_ltb in H.
    apply CP_extra_hosts; auto. }
  rewrite oseq_err in H. destruct H as [H|[_ H]].
  { apply refuse_err in H as [H ->]. apply andb_true_iff in H as [T H]. apply negb_true_iff in T, H. apply isEmpty_false' in H.
    apply CP_network; auto. }
  apply oiter_err in H as (o & Ho & E). destruct o as [m|]; [|discriminate]. simpl in E.
  apply refuse_err in E as [E ->]. apply CP_mount; [exact Ho|apply reserved_spec, E].
Qed.
Lemma checkContainer_panic trusted c :
  ~ In None (ct_ports c) -> ~ In None (ct_volumes c) -> checkContainer c trusted <> Panic.
Proof.
  intros Hp Hv. unfold checkContainer.
  assert (P1 : checkPorts (ct_ports c) trusted <> Panic).
  { apply oiter_panic. intros o Ho. unfold checkPort. destruct trusted; [discriminate|].
    destruct o; [apply refuse_panic|contradiction]. }
  assert (P2 : oiter checkMount (ct_volumes c) <> Panic).
  { apply oiter_panic. intros o Ho. destruct o; [apply refuse_panic|contradiction]. }
  repeat first [exact P1|exact P2|apply refuse_panic|apply oseq_np].
Qed.

(** ** Volumes *)
Lemma checkVolume_ok trusted v : checkVolume trusted (Some v) = Ok tt <-> GoodVolume trusted v.
Proof.
  unfold checkVolume, GoodVolume, UnprivilegedVolume. cbn [deref obind].
  rewrite !oseq_ok, !ok_tt, refuse_ok, reserved_false.
  assert (E1 : (match vo_empty v with
                | Some e => refuse (negb trusted && String.eqb (ve_medium e) "memory")
                              "linter: untrusted repositories cannot mount in-memory volumes"
                | None => Ok tt end) = Ok tt <->
               (trusted = false -> forall e, vo_empty v = Some e -> ve_medium e <> "memory")).
  { destruct (vo_empty v) as [e|]; [|split; [discriminate|reflexivity]]. rewrite refuse_ok, trusted_guard, String.eqb_neq.
    split; [intros H T e' [= <-]; auto|intros H T; exact (H T e eq_refl)]. }
  assert (E2 : (match vo_host v with
                | Some _ => refuse (negb trusted) "linter: untrusted repositories cannot mount host volumes"
                | None => Ok tt end) = Ok tt <-> (trusted = false -> vo_host v = None)).
  { destruct (vo_host v) as [h|]; [|tauto]. rewrite refuse_ok. destruct trusted; simpl; split; intro H; try reflexivity;
      try discriminate. discriminate (H eq_refl). }
  rewrite E1, E2. tauto.
Qed.
Lemma checkVolumes_ok trusted p vols :
  pi_volumes p = map Some vols -> (checkVolumes p trusted = Ok tt <-> Forall (GoodVolume trusted) vols).
Proof.
  intro E. unfold checkVolumes. rewrite E, oiter_ok, Forall_forall. split.
  - intros H v Hv. apply checkVolume_ok, H, in_map, Hv.
  - intros H o Ho. apply in_map_iff in Ho as (v & <- & Hv). apply checkVolume_ok, H, Hv.
Qed.
Lemma checkVolumes_panic trusted p vols : pi_volumes p = map Some vols -> checkVolumes p trusted <> Panic.
Proof.
  intro E. unfold checkVolumes. rewrite E. apply oiter_panic. intros o Ho. apply in_map_iff in Ho as (v & <- & _).
  unfold checkVolume. cbn [deref obind]. destruct (vo_empty v) as [e|], (vo_host v) as [h|];
    repeat first [discriminate|apply refuse_panic|apply oseq_np].
Qed.
Lemma checkVolumes_err trusted p steps services vols e :
  pi_volumes p = map Some vols -> checkVolumes p trusted = Err e -> Problem trusted p steps services vols e.
Proof.
  intros E H. unfold checkVolumes in H. rewrite E in H. apply oiter_err in H as (o & Ho & H).
  apply in_map_iff in Ho as (v & <- & Hv). unfold checkVolume in H. cbn [deref obind] in H.
  rewrite !oseq_err in H. destruct H as [H|[_ [H|[_ H]]]].
  - destruct (vo_empty v) as [ed|] eqn:Ee; [|discriminate]. apply refuse_err in H as [H ->].
    apply andb_true_iff in H as [T H]. apply negb_true_iff in T. apply String.eqb_eq in H. eapply P_memory; eauto.
  - destruct (vo_host v) as [h|] eqn:Eh; [|discriminate]. apply refuse_err in H as [H ->]. apply negb_true_iff in H.
    eapply P_host; eauto.
  - apply refuse_err in H as [H ->]. apply P_volume; [exact Hv|apply reserved_spec, H].
Qed.

(** ** Steps *)
Lemma checkDeps_ok c names :
  checkDeps c names = Ok tt <-> (forall d, In d (ct_depends c) -> In d names /\ d <> ct_name c).
Proof.
  unfold checkDeps. rewrite oiter_ok. split; intros H d Hd; specialize (H d Hd).
  - rewrite oseq_ok, ok_tt, !refuse_ok, negb_false_iff, smem_spec, String.eqb_neq in H. intuition congruence.
  - rewrite oseq_ok, ok_tt, !refuse_ok, negb_false_iff, smem_spec, String.eqb_neq. intuition congruence.
Qed.
Lemma checkDeps_panic c names : checkDeps c names <> Panic.
Proof.
  apply oiter_panic. intros d _. apply oseq_np; apply refuse_panic.
Qed.

Definition NullFree (c : Container) : Prop := ~ In None (ct_ports c) /\ ~ In None (ct_volumes c).

Lemma checkStep_ok trusted names c names' :
  NullFree c ->
  (checkStep trusted names (Some c) = Ok names' <->
   names' = ct_name c :: names /\ ~ In (ct_name c) names /\ GoodContainer trusted c /\
   (forall d, In d (ct_depends c) -> In d names)).
Proof.
  intros [Hp Hv]. unfold checkStep. cbn [deref obind].
  rewrite !oseq_ok, !ok_tt, refuse_ok, checkDeps_ok, (checkContainer_ok _ _ Hp Hv).
  rewrite <- not_true_iff_false, smem_spec. split.
  - intros (H1 & H2 & H3 & E). injection E as <-. split; [reflexivity|]. split; [exact H1|]. split; [exact H2|]. intros d Hd.
    destruct (H3 d Hd) as [[<-|Hin] Hne]; [congruence|exact Hin].
  - intros (-> & H1 & H2 & H3). split; [exact H1|]. split; [exact H2|]. split; [|reflexivity]. intros d Hd. split; [right; auto|].
    intros ->. exact (H1 (H3 _ Hd)).
Qed.
Lemma checkService_ok trusted names c names' :
  NullFree c ->
  (checkService trusted names (Some c) = Ok names' <->
   names' = ct_name c :: names /\ ~ In (ct_name c) names /\ GoodContainer trusted c).
Proof.
  intros [Hp Hv]. unfold checkService. cbn [deref obind].
  rewrite !oseq_ok, !ok_tt, refuse_ok, (checkContainer_ok _ _ Hp Hv).
  rewrite <- not_true_iff_false, smem_spec. split.
  - intros (H1 & H2 & E). injection E as <-. auto.
  - intros (-> & H1 & H2). auto.
Qed.

Lemma steps_ok trusted steps : forall names names',
  Forall NullFree steps ->
  (ofold (checkStep trusted) (map Some steps) names = Ok names' <->
   names' = rev (map ct_name steps) ++ names /\ Forall (GoodContainer trusted) steps /\
   (NoDup (map ct_name steps) /\ forall x, In x names -> ~ In x (map ct_name steps)) /\ DepsEarlier names steps).
Proof.
  induction steps as [|c steps IH]; intros names names' Hn; cbn [map ofold].
  - split.
    + intro E. injection E as <-. split; [reflexivity|]. split; [constructor|]. split; [split; [constructor|auto]|]. intros b s a d E. destruct b; discriminate.
    + intros (-> & _). reflexivity.
  - inversion Hn as [|? ? Hc Hn']; subst. rewrite obind_ok. split.
    + intros (n1 & H1 & H2). apply (checkStep_ok _ _ _ _ Hc) in H1 as (-> & D1 & D2 & D3).
      apply (IH _ _ Hn') in H2 as (-> & G & (ND & Dj) & De). split; [|split; [|split]].
      * cbn [rev]. rewrite <- app_assoc. reflexivity.
      * constructor; assumption.
      * split.
        -- constructor; [|exact ND]. apply Dj. left. reflexivity.
        -- intros x Hx [E|Hin]; [congruence|]. exact (Dj x (or_intror Hx) Hin).
      * intros b s a d E Hd. destruct b as [|b0 b].
        -- injection E as <- <-. left. auto.
        -- injection E as <- Est. destruct (De b s a d Est Hd) as [[<-|Hin]|Hin]; simpl; auto.
    + intros (-> & G & (ND & Dj) & De). inversion G; subst. inversion ND; subst.
      exists (ct_name c :: names). split.
      * apply (checkStep_ok _ _ _ _ Hc). split; [reflexivity|]. split; [|split; [assumption|]].
        -- intro Hin. exact (Dj _ Hin (or_introl eq_refl)).
        -- intros d Hd. destruct (De [] c steps d eq_refl Hd) as [Hin|[]]. exact Hin.
      * apply (IH _ _ Hn'). split; [cbn [rev]; rewrite <- app_assoc; reflexivity|]. split; [assumption|]. split.
        -- split; [assumption|]. intros x [<-|Hx] Hin; [contradiction|]. exact (Dj x Hx (or_intror Hin)).
        -- intros b s a d -> Hd. destruct (De (c :: b) s a d eq_refl Hd) as [Hin|[<-|Hin]]; simpl; auto.
Qed.
Lemma services_ok trusted steps : forall names names',
  Forall NullFree steps ->
  (ofold (checkService trusted) (map Some steps) names = Ok names' <->
   names' = rev (map ct_name steps) ++ names /\ Forall (GoodContainer trusted) steps /\
   (NoDup (map ct_name steps) /\ forall x, In x names -> ~ In x (map ct_name steps))).
Proof.
  induction steps as [|c steps IH]; intros names names' Hn; cbn [map ofold].
  - split.
    + intro E. injection E as <-. repeat split; try constructor; auto.
    + intros (-> & _). reflexivity.
  - inversion Hn as [|? ? Hc Hn']; subst. rewrite obind_ok. split.
    + intros (n1 & H1 & H2). apply (checkService_ok _ _ _ _ Hc) in H1 as (-> & D1 & D2).
      apply (IH _ _ Hn') in H2 as (-> & G & (ND & Dj)). split; [|split].
      * cbn [rev]. rewrite <- app_assoc. reflexivity.
      * constructor; assumption.
      * split.
        -- constructor; [|exact ND]. apply Dj. left. reflexivity.
        -- intros x Hx [E|Hin]; [congruence|]. exact (Dj x (or_intror Hx) Hin).
    + intros (-> & G & (ND & Dj)). inversion G; subst. inversion ND; subst.
      exists (ct_name c :: names). split.
      * apply (checkService_ok _ _ _ _ Hc). split; [reflexivity|]. split; [|assumption].
        intro Hin. exact (Dj _ Hin (or_introl eq_refl)).
      * apply (IH _ _ Hn'). split; [cbn [rev]; rewrite <- app_assoc; reflexivity|]. split; [assumption|].
        split; [assumption|]. intros x [<-|Hx] Hin; [contradiction|]. exact (Dj x Hx (or_intror Hin)).
Qed.

Lemma NoDup_app_iff {A} (l l' : list A) :
  NoDup (l ++ l') <-> NoDup l /\ NoDup l' /\ (forall x, In x l -> ~ In x l').
Proof.
  induction l as [|a l IH]; simpl.
  - split; [intro H; repeat split; auto; constructor|tauto].
  - rewrite !NoDup_cons_iff, IH, in_app_iff. split.
    + intros (H1 & H2 & H3 & H4). repeat split; auto. intros x [<-|Hx]; auto.
    + intros ((H1 & H2) & H3 & H4). repeat split; auto. intros [H|H]; auto. exact (H4 a (or_introl eq_refl) H).
Qed.

Theorem checkPipeline_ok trusted p steps services vols :
  NoNulls p steps services vols ->
  (checkPipeline p trusted = Ok tt <-> WellFormed trusted p steps services vols).
Proof.
  intros (Es & Ev & Evol & Hn). unfold checkPipeline, WellFormed. fold (cloneNames p).
  apply Forall_app in Hn as [Hn1 Hn2].
  rewrite !oseq_ok, !ok_tt, checkPlatform_ok, (checkVolumes_ok _ _ _ Evol), Es, Ev, obind_ok.
  assert (Hcl : NoDup (cloneNames p)) by (unfold cloneNames; destruct (cl_disable _); repeat constructor; auto).
  rewrite Forall_app, map_app, !NoDup_app_iff. split.
  - intros (H1 & H2 & n1 & H3 & H4). apply (steps_ok _ _ _ _ Hn1) in H3 as (-> & G & (ND & Dj) & De).
    rewrite obind_ok in H4. destruct H4 as (n2 & H4 & _). apply (services_ok _ _ _ _ Hn2) in H4 as (_ & G2 & ND2 & Dj2).
    split; [exact H2|]. split; [exact H1|]. split; [split; assumption|]. split; [|exact De].
    split; [exact Hcl|]. split; [split; [exact ND|split; [exact ND2|]]|].
    + intros x Hx Hin. apply (Dj2 x); [|exact Hin]. apply in_or_app. left. apply in_rev. rewrite rev_involutive. exact Hx.
    + intros x Hx Hin. apply in_app_or in Hin as [Hin|Hin]; [exact (Dj x Hx Hin)|].
      apply (Dj2 x); [apply in_or_app; right; exact Hx|exact Hin].
  - intros (H1 & H2 & (G & G2) & (_ & (ND & ND2 & Dj12) & Djc) & De). split; [exact H2|]. split; [exact H1|].
    eexists. split.
    + apply (steps_ok _ _ _ _ Hn1). split; [reflexivity|]. split; [exact G|]. split; [split; [exact ND|]|exact De].
      intros x Hx Hin. apply (Djc x Hx), in_or_app. auto.
    + rewrite obind_ok. eexists. split; [|reflexivity]. apply (services_ok _ _ _ _ Hn2). split; [reflexivity|].
      split; [exact G2|]. split; [exact ND2|]. intros x Hx Hin. apply in_app_or in Hx as [Hx|Hx].
      * apply in_rev in Hx. exact (Dj12 x Hx Hin).
      * apply (Djc x Hx), in_or_app. auto.
Qed.

(** ** Errors name a real defect *)
Lemma checkDeps_err c names e :
  checkDeps c names = Err e ->
  (exists d, In d (ct_depends c) /\ ~ In d names /\ e = ErrMissingDependency) \/
  (In (ct_name c) (ct_depends c) /\ e = ErrCyclicalDependency).
Proof.
  intro H. apply oiter_err in H as (d & Hd & H). rewrite oseq_err, !refuse_err in H.
  destruct H as [[H ->]|[_ [H ->]]].
  - left. exists d. rewrite negb_true_iff, <- not_true_iff_false, smem_spec in H. auto.
  - right. apply String.eqb_eq in H. subst. auto.
Qed.

Lemma not_NoDup_app_in {A} (x : A) l l' : In x l -> In x l' -> ~ NoDup (l ++ l').
Proof. intros H H' N. apply NoDup_app_iff in N as (_ & _ & N). exact (N x H H'). Qed.

Lemma steps_err trusted p services vols e : forall todo done_ names,
  Forall NullFree todo ->
  (forall x, In x names -> In x (cloneNames p ++ map ct_name done_)) ->
  (forall x, In x (cloneNames p ++ map ct_name done_) -> In x names) ->
  ofold (checkStep trusted) (map Some todo) names = Err e ->
  Problem trusted p (done_ ++ todo) services vols e.
Proof.
  induction todo as [|c todo IH]; intros done_ names Hn Hsub Hsup; cbn [map ofold]; [discriminate|].
  inversion Hn as [|? ? Hc Hn']; subst. rewrite obind_err. intros [H|(n1 & H & K)].
  - unfold checkStep in H. cbn [deref obind] in H. rewrite !oseq_err in H. destruct H as [H|[_ [H|[_ [H|[_ H]]]]]].
    + apply refuse_err in H as [H ->]. apply smem_spec, Hsub in H. apply P_duplicate.
      rewrite !map_app. cbn [map]. rewrite !app_assoc, <- app_assoc. apply (not_NoDup_app_in (ct_name c)); [exact H|].
      left. reflexivity.
    + apply checkContainer_err in H. apply P_container with c; [|exact H]. rewrite !in_app_iff. simpl. auto.
    + apply checkDeps_err in H as [(d & Hd & Nd & ->)|[H ->]].
      * apply (P_missing _ _ _ _ _ done_ c todo d); auto.
        -- intros ->. apply Nd. left. reflexivity.
        -- intro Hin. apply Nd. right. apply Hsup, in_or_app. auto.
        -- intro Hin. apply Nd. right. apply Hsup, in_or_app. auto.
      * apply (P_cycle _ _ _ _ _ c); [|exact H]. apply in_or_app. right. left. reflexivity.
    + discriminate.
  - apply (checkStep_ok _ _ _ _ Hc) in H as (-> & _).
    replace (done_ ++ c :: todo) with ((done_ ++ [c]) ++ todo) by (rewrite <- app_assoc; reflexivity).
    apply IH with (ct_name c :: names); auto.
    + intros x [<-|Hx]; rewrite map_app, !in_app_iff; simpl; auto. apply Hsub, in_app_iff in Hx. tauto.
    + intros x. rewrite map_app, !in_app_iff. simpl. intros [Hx|[Hx|[<-|[]]]]; auto; right; apply Hsup, in_app_iff; auto.
Qed.
Lemma services_err trusted p steps vols e : forall todo done_ names,
  Forall NullFree todo ->
  (forall x, In x names -> In x (cloneNames p ++ map ct_name (steps ++ done_))) ->
  ofold (checkService trusted) (map Some todo) names = Err e ->
  Problem trusted p steps (done_ ++ todo) vols e.
Proof.
  induction todo as [|c todo IH]; intros done_ names Hn Hsub; cbn [map ofold]; [discriminate|].
  inversion Hn as [|? ? Hc Hn']; subst. rewrite obind_err. intros [H|(n1 & H & K)].
  - unfold checkService in H. cbn [deref obind] in H. rewrite !oseq_err in H. destruct H as [H|[_ [H|[_ H]]]].
    + apply refuse_err in H as [H ->]. apply smem_spec, Hsub in H. apply P_duplicate.
      replace (steps ++ done_ ++ c :: todo) with ((steps ++ done_) ++ c :: todo) by (rewrite app_assoc; reflexivity).
      rewrite (map_app _ (steps ++ done_)), app_assoc. cbn [map]. apply (not_NoDup_app_in (ct_name c)); [exact H|].
      left. reflexivity.
    + apply checkContainer_err in H. apply P_container with c; [|exact H]. rewrite !in_app_iff. simpl. auto.
    + discriminate.
  - apply (checkService_ok _ _ _ _ Hc) in H as (-> & _).
    replace (done_ ++ c :: todo) with ((done_ ++ [c]) ++ todo) by (rewrite <- app_assoc; reflexivity).
    apply IH with (ct_name c :: names); auto.
    intros x [<-|Hx]; rewrite !map_app, !in_app_iff; simpl; auto 6. apply Hsub in Hx.
    rewrite map_app, !in_app_iff in Hx. tauto.
Qed.
Theorem checkPipeline_err trusted p steps services vols e :
  NoNulls p steps services vols -> checkPipeline p trusted = Err e -> Problem trusted p steps services vols e.
Proof.
  intros (Es & Ev & Evol & Hn). apply Forall_app in Hn as [Hn1 Hn2]. unfold checkPipeline. fold (cloneNames p).
  rewrite oseq_err. intros [H|[_ H]]; [eapply checkVolumes_err; eauto|].
  rewrite oseq_err in H. destruct H as [H|[_ H]].
  { apply checkPlatform_err in H as [[N ->]|[N ->]]; [apply P_os|apply P_arch]; exact N. }
  rewrite Es, Ev in H. rewrite obind_err in H. destruct H as [H|(n1 & H & K)].
  { apply (steps_err _ _ _ _ _ steps [] (cloneNames p)); auto; intros x; rewrite app_nil_r; auto. }
  apply (steps_ok _ _ _ _ Hn1) in H as (-> & _). rewrite obind_err in K. destruct K as [K|(n2 & _ & K)]; [|discriminate].
  apply (services_err _ p steps vols _ services [] _ Hn2) in K; [exact K|].
  intros x. rewrite app_nil_r, !in_app_iff, <- in_rev. tauto.
Qed.

(** ** No crash without null entries *)
Lemma ofold_np {A S} (f : S -> A -> outcome S) l : forall s,
  (forall s a, In a l -> f s a <> Panic) -> ofold f l s <> Panic.
Proof.
  induction l as [|a l IH]; intros s H; cbn [ofold]; [discriminate|].
  destruct (f s a) eqn:E; simpl; [|discriminate|]; [|exfalso; exact (H s a (or_introl eq_refl) E)].
  apply IH. intros. apply H. right. assumption.
Qed.
Theorem checkPipeline_np trusted p steps services vols :
  NoNulls p steps services vols -> checkPipeline p trusted <> Panic.
Proof.
  intros (Es & Ev & Evol & Hn). apply Forall_app in Hn as [Hn1 Hn2]. unfold checkPipeline.
  apply oseq_np; [eapply checkVolumes_panic; eauto|]. apply oseq_np; [apply checkPlatform_panic|].
  rewrite Es, Ev. rewrite Forall_forall in Hn1, Hn2.
  match goal with |- obind ?m _ <> _ => assert (P : m <> Panic); [|destruct m eqn:E; [|discriminate|contradiction]] end.
  - apply ofold_np. intros s a Ha. apply in_map_iff in Ha as (c & <- & Hc). destruct (Hn1 c Hc).
    unfold checkStep. cbn [deref obind]. apply oseq_np; [apply refuse_panic|]. apply oseq_np; [apply checkContainer_panic; auto|].
    apply oseq_np; [apply checkDeps_panic|discriminate].
  - cbn [obind].
    match goal with |- obind ?m _ <> _ => assert (P2 : m <> Panic); [|destruct m eqn:E2; [discriminate|discriminate|contradiction]] end.
    apply ofold_np. intros s a' Ha. apply in_map_iff in Ha as (c & <- & Hc). destruct (Hn2 c Hc).
    unfold checkService. cbn [deref obind]. apply oseq_np; [apply refuse_panic|]. apply oseq_np; [apply checkContainer_panic; auto|].
    discriminate.
Qed.

(** ** The step graph *)
Lemma Path_last {A} (R : A -> A -> Prop) a b : Path R a b -> exists c, R c b.
Proof. induction 1; eauto. Qed.
Lemma measure_acyclic {A} (R : A -> A -> Prop) (f : A -> nat) :
  (forall a b, R a b -> (exists c, R b c) -> f b < f a) -> Acyclic R.
Proof.
  intros Hm a Hp.
  assert (G : forall x y, Path R x y -> (exists c, R y c) -> f y < f x).
  { induction 1 as [x y Hxy|x y z Hxy Hyz IH]; intro Hc; [auto|].
    assert (exists c, R y c) as Hy by (inversion Hyz; subst; eauto).
    specialize (Hm _ _ Hxy Hy). specialize (IH Hc). lia. }
  assert (exists c, R a c) as Ha by (inversion Hp; subst; eauto).
  specialize (G _ _ Hp Ha). lia.
Qed.

Fixpoint indexOf (x : string) (l : list string) : nat :=
  match l with [] => 0 | y :: l' => if String.eqb x y then 0 else S (indexOf x l') end.
Lemma indexOf_app x l l' : In x l -> indexOf x (l ++ l') = indexOf x l.
Proof.
  induction l as [|y l IH]; simpl; [contradiction|]. intro H. destruct (String.eqb_spec x y) as [->|N]; [reflexivity|].
  destruct H as [->|H]; [contradiction|]. rewrite IH by exact H. reflexivity.
Qed.
Lemma indexOf_here x l l' : ~ In x l -> indexOf x (l ++ x :: l') = length l.
Proof.
  induction l as [|y l IH]; simpl; intro H; [rewrite String.eqb_refl; reflexivity|].
  destruct (String.eqb_spec x y) as [->|N]; [exfalso; auto|]. rewrite IH by auto. reflexivity.
Qed.
Lemma indexOf_lt x l : In x l -> indexOf x l < length l.
Proof.
  induction l as [|y l IH]; simpl; [contradiction|]. intro H. destruct (String.eqb_spec x y) as [->|N]; [lia|].
  destruct H as [->|H]; [contradiction|]. specialize (IH H). lia.
Qed.

(** Names listed without repetition, each depending only on names listed before it: acyclic. *)
Lemma ordered_acyclic {T} (name : T -> string) (deps : T -> list string) (base : list string) (l : list T) :
  NoDup (base ++ map name l) ->
  (forall before s after d, l = before ++ s :: after -> In d (deps s) -> In d base \/ In d (map name before)) ->
  Acyclic (fun a b => exists c, In c l /\ name c = a /\ In b (deps c)).
Proof.
  intros ND De. apply measure_acyclic with (f := fun x => indexOf x (base ++ map name l)).
  intros a b (c & Hc & <- & Hb) _. apply in_split in Hc as (l1 & l2 & ->).
  rewrite map_app, app_assoc in *. cbn [map] in *.
  assert (Nc : ~ In (name c) (base ++ map name l1)).
  { apply NoDup_remove_2 in ND. intro H. apply ND, in_or_app. auto. }
  rewrite (indexOf_here _ _ _ Nc).
  assert (Hin : In b (base ++ map name l1)) by (apply in_or_app; exact (De l1 c l2 b eq_refl Hb)).
  rewrite indexOf_app by exact Hin. apply indexOf_lt, Hin.
Qed.

Lemma NoDup_app_r {A} (l l' : list A) : NoDup (l ++ l') -> NoDup l'.
Proof. intro H. apply NoDup_app_iff in H. tauto. Qed.
Lemma NoDup_app_l {A} (l l' : list A) : NoDup (l ++ l') -> NoDup l.
Proof. intro H. apply NoDup_app_iff in H. tauto. Qed.

Theorem step_graph trusted p steps services vols :
  NoNulls p steps services vols -> checkPipeline p trusted = Ok tt ->
  Acyclic (DependsOn steps) /\
  (forall s d, In s steps -> In d (ct_depends s) ->
     In d (map ct_name steps) \/ (d = "clone" /\ cl_disable (pi_clone p) = false)) /\
  (forall before s after d, steps = before ++ s :: after -> In d (ct_depends s) ->
     In d (map ct_name before) \/ (d = "clone" /\ cl_disable (pi_clone p) = false)) /\
  NoDup (map ct_name steps).
Proof.
  intros Hn H. apply (checkPipeline_ok _ _ _ _ _ Hn) in H as (_ & _ & _ & ND & De).
  assert (Hc : forall d, In d (cloneNames p) -> d = "clone" /\ cl_disable (pi_clone p) = false).
  { unfold cloneNames. intro d. destruct (cl_disable (pi_clone p)); simpl; [contradiction|]. intros [<-|[]]. auto. }
  rewrite map_app, app_assoc in ND. apply NoDup_app_l in ND.
  split; [exact (ordered_acyclic ct_name ct_depends _ _ ND De)|].
  assert (De' : forall before s after d, steps = before ++ s :: after -> In d (ct_depends s) ->
     In d (map ct_name before) \/ (d = "clone" /\ cl_disable (pi_clone p) = false)).
  { intros b s a d E Hd. destruct (De b s a d E Hd); auto. }
  split; [|split; [exact De'|exact (NoDup_app_r _ _ ND)]].
  intros s d Hs Hd. apply in_split in Hs as (l1 & l2 & E). destruct (De' l1 s l2 d E Hd) as [Hin|Hin]; [left|auto].
  subst. rewrite map_app, in_app_iff. auto.
Qed.

(** ** Untrusted safety and trust *)
Theorem untrusted_safe p steps services vols :
  NoNulls p steps services vols -> checkPipeline p false = Ok tt ->
  Forall Unprivileged (steps ++ services) /\ Forall UnprivilegedVolume vols.
Proof.
  intros Hn H. apply (checkPipeline_ok _ _ _ _ _ Hn) in H as (_ & Hv & Hc & _). split.
  - eapply Forall_impl; [|exact Hc]. intros c (_ & _ & _ & G). auto.
  - eapply Forall_impl; [|exact Hv]. intros v (_ & G). auto.
Qed.
Theorem trust_iff p steps services vols :
  NoNulls p steps services vols ->
  (checkPipeline p false = Ok tt <->
   checkPipeline p true = Ok tt /\ Forall Unprivileged (steps ++ services) /\ Forall UnprivilegedVolume vols).
Proof.
  intros Hn. rewrite !(checkPipeline_ok _ _ _ _ _ Hn). unfold WellFormed.
  assert (E1 : Forall (GoodVolume false) vols <-> Forall (GoodVolume true) vols /\ Forall UnprivilegedVolume vols).
  { rewrite <- Forall_and_iff'. apply Forall_iff'. intro v. unfold GoodVolume. intuition congruence. }
  assert (E2 : Forall (GoodContainer false) (steps ++ services) <->
               Forall (GoodContainer true) (steps ++ services) /\ Forall Unprivileged (steps ++ services)).
  { rewrite <- Forall_and_iff'. apply Forall_iff'. intro c. unfold GoodContainer. intuition congruence. }
  tauto.
Qed.

(** ** Manifests *)
Lemma checkPipelineDeps_ok p names :
  checkPipelineDeps p names = Ok tt <-> (forall d, In d (pi_depends p) -> In d names /\ d <> pi_name p).
Proof.
  unfold checkPipelineDeps. rewrite oiter_ok. split; intros H d Hd; specialize (H d Hd).
  - rewrite oseq_ok, ok_tt, !refuse_ok, negb_false_iff, smem_spec, String.eqb_neq in H. intuition congruence.
  - rewrite oseq_ok, ok_tt, !refuse_ok, negb_false_iff, smem_spec, String.eqb_neq. intuition congruence.
Qed.
Lemma docker_test p :
  (String.eqb (pi_kind p) "pipeline" || isEmpty (pi_kind p)) &&
  (isEmpty (pi_type p) || String.eqb (pi_type p) "docker") = true <-> DockerPipeline p.
Proof.
  unfold DockerPipeline. rewrite andb_true_iff, !orb_true_iff, !isEmpty_spec, !String.eqb_eq. tauto.
Qed.
Lemma checkManifestResource_ok p names names' :
  checkManifestResource names (RPipeline p) = Ok names' <->
  names' = pi_name p :: names /\ ~ In (pi_name p) names /\ (forall d, In d (pi_depends p) -> In d names) /\
  (DockerPipeline p -> SupportedPlatform (pi_platform p)).
Proof.
  unfold checkManifestResource. rewrite !oseq_ok, !ok_tt, refuse_ok, checkPipelineDeps_ok, <- not_true_iff_false, smem_spec.
  assert (E : (if (String.eqb (pi_kind p) "pipeline" || isEmpty (pi_kind p)) &&
                  (isEmpty (pi_type p) || String.eqb (pi_type p) "docker")
               then checkPlatform (pi_platform p) else Ok tt) = Ok tt <->
              (DockerPipeline p -> SupportedPlatform (pi_platform p))).
  { rewrite <- docker_test. destruct (_ && _).
    - rewrite checkPlatform_ok. tauto.
    - split; [discriminate|reflexivity]. }
  rewrite E. split.
  - intros (H1 & H2 & H3 & [= <-]). split; [reflexivity|]. split; [exact H1|]. split; [|exact H3].
    intros d Hd. destruct (H2 d Hd) as [[<-|Hin] N]; [contradiction|exact Hin].
  - intros (-> & H1 & H2 & H3). split; [exact H1|]. split; [|auto]. intros d Hd. split; [right; auto|].
    intros ->. exact (H1 (H2 _ Hd)).
Qed.

Lemma manifest_ok : forall rs names names',
  ofold checkManifestResource rs names = Ok names' <->
  names' = rev (map pi_name (pipelinesOf rs)) ++ names /\
  (NoDup (map pi_name (pipelinesOf rs)) /\ forall x, In x names -> ~ In x (map pi_name (pipelinesOf rs))) /\
  (forall before p after d, pipelinesOf rs = before ++ p :: after -> In d (pi_depends p) ->
     In d names \/ In d (map pi_name before)) /\
  Forall (fun p => DockerPipeline p -> SupportedPlatform (pi_platform p)) (pipelinesOf rs).
Proof.
  induction rs as [|r rs IH]; intros names names'; cbn [ofold].
  - cbn. split.
    + intros [= <-]. split; [reflexivity|]. split; [split; [constructor|auto]|]. split; [|constructor].
      intros b p a d E. destruct b; discriminate.
    + intros (-> & _). reflexivity.
  - destruct r as [c|p|s|s|g];
      try (change (checkManifestResource names _) with (Ok names : outcome (list string)); cbn [obind pipelinesOf]; apply IH).
    rewrite obind_ok. cbn [pipelinesOf map]. split.
    + intros (n1 & H1 & H2). apply checkManifestResource_ok in H1 as (-> & D1 & D2 & D3).
      apply IH in H2 as (-> & (ND & Dj) & De & Pl). split; [cbn [rev]; rewrite <- app_assoc; reflexivity|].
      split; [split|split].
      * constructor; [apply Dj; left; reflexivity|exact ND].
      * intros x Hx [E|Hin]; [congruence|]. exact (Dj x (or_intror Hx) Hin).
      * intros b q a d E Hd. destruct b as [|b0 b].
        -- injection E as <- <-. left. auto.
        -- injection E as <- E. destruct (De b q a d E Hd) as [[<-|Hin]|Hin]; simpl; auto.
      * constructor; assumption.
    + intros (-> & (ND & Dj) & De & Pl). inversion ND; subst. inversion Pl; subst.
      exists (pi_name p :: names). split.
      * apply checkManifestResource_ok. split; [reflexivity|]. split; [|split; [|assumption]].
        -- intro Hin. exact (Dj _ Hin (or_introl eq_refl)).
        -- intros d Hd. destruct (De [] p _ d eq_refl Hd) as [Hin|[]]. exact Hin.
      * apply IH. split; [cbn [rev]; rewrite <- app_assoc; reflexivity|]. split; [split; [assumption|]|split; [|assumption]].
        -- intros x [<-|Hx] Hin; [contradiction|]. exact (Dj x Hx (or_intror Hin)).
        -- intros b q a d E Hd. destruct (De (p :: b) q a d) as [Hin|[<-|Hin]]; [cbn; rewrite E; reflexivity|exact Hd|..]; simpl; auto.
Qed.
Theorem lintManifest_ok m trusted :
  lintManifest m trusted = Ok tt <-> GoodManifest (pipelinesOf (mf_resources m)).
Proof.
  unfold lintManifest, GoodManifest. rewrite obind_ok. split.
  - intros (n & H & _). apply manifest_ok in H as (_ & (ND & _) & De & Pl). split; [exact ND|]. split; [|exact Pl].
    intros b p a d E Hd. destruct (De b p a d E Hd) as [[]|H]. exact H.
  - intros (ND & De & Pl). eexists. split; [|reflexivity]. apply manifest_ok. split; [reflexivity|].
    split; [split; [exact ND|intros x []]|]. split; [|exact Pl]. intros b p a d E Hd. right. eauto.
Qed.
Theorem manifest_graph m trusted :
  lintManifest m trusted = Ok tt -> Acyclic (PipelineDependsOn (pipelinesOf (mf_resources m))).
Proof.
  intro H. apply lintManifest_ok in H as (ND & De & _).
  apply (ordered_acyclic pi_name pi_depends []); [exact ND|]. intros b p a d E Hd. right. eauto.
Qed.
Theorem manifest_np m trusted : lintManifest m trusted <> Panic.
Proof.
  unfold lintManifest.
  match goal with |- obind ?m _ <> _ => assert (P : m <> Panic); [|destruct m eqn:E; [discriminate|discriminate|contradiction]] end.
  apply ofold_np. intros s r _. destruct r; try discriminate. unfold checkManifestResource.
  apply oseq_np; [apply refuse_panic|]. apply oseq_np.
  - apply oiter_panic. intros d _. apply oseq_np; apply refuse_panic.
  - apply oseq_np; [destruct (_ && _); [apply checkPlatform_panic|discriminate]|discriminate].
Qed.

Lemma manifest_err e : forall rs done_ names,
  (forall x, In x names <-> In x (map pi_name done_)) ->
  ofold checkManifestResource rs names = Err e -> ManifestProblem (done_ ++ pipelinesOf rs) e.
Proof.
  induction rs as [|r rs IH]; intros done_ names Hs; cbn [ofold]; [discriminate|].
  destruct r as [c|p|s|s|g];
    try (change (checkManifestResource names _) with (Ok names : outcome (list string)); cbn [obind pipelinesOf]; apply IH, Hs).
  cbn [pipelinesOf]. rewrite obind_err. intros [H|(n1 & H & K)].
  - unfold checkManifestResource in H. rewrite !oseq_err in H. destruct H as [H|[_ [H|[_ [H|[_ H]]]]]].
    + apply refuse_err in H as [H ->]. apply smem_spec, Hs in H. apply MP_duplicate. rewrite map_app. cbn [map].
      apply (not_NoDup_app_in (pi_name p)); [exact H|left; reflexivity].
    + apply oiter_err in H as (d & Hd & H). rewrite oseq_err, !refuse_err in H. destruct H as [[H ->]|[_ [H ->]]].
      * rewrite negb_true_iff, <- not_true_iff_false, smem_spec in H.
        apply (MP_missing _ done_ p (pipelinesOf rs) d); auto.
        -- intros ->. apply H. left. reflexivity.
        -- intro Hin. apply H. right. apply Hs, Hin.
      * apply String.eqb_eq in H. subst d. apply (MP_self _ p); [|exact Hd]. apply in_or_app. right. left. reflexivity.
    + destruct (_ && _) eqn:D in H; [|discriminate]. apply docker_test in D.
      apply checkPlatform_err in H as [[N ->]|[N ->]]; [apply MP_os|apply MP_arch]; auto; apply in_or_app; right; left; reflexivity.
    + discriminate.
  - apply checkManifestResource_ok in H as (-> & _).
    replace (done_ ++ p :: pipelinesOf rs) with ((done_ ++ [p]) ++ pipelinesOf rs) by (rewrite <- app_assoc; reflexivity).
    apply IH with (pi_name p :: names); [|exact K]. intro x. rewrite map_app, in_app_iff. simpl. rewrite Hs. tauto.
Qed.
Theorem lintManifest_err m trusted e :
  lintManifest m trusted = Err e -> ManifestProblem (pipelinesOf (mf_resources m)) e.
Proof.
  unfold lintManifest. rewrite obind_err. intros [H|(n & _ & H)]; [|discriminate].
  apply (manifest_err e _ [] []); [reflexivity|exact H].
Qed.
Lemma ManifestProblem_bad ps e : ManifestProblem ps e -> ~ GoodManifest ps.
Proof.
  intros H (ND & De & Pl). rewrite Forall_forall in Pl. destruct H as [H|b p a d E Hd N1 N2|p Hp Hd|p Hp D N|p Hp D N].
  - exact (H ND).
  - exact (N2 (De b p a d E Hd)).
  - apply in_split in Hp as (l1 & l2 & ->). specialize (De l1 p l2 _ eq_refl Hd).
    rewrite map_app in ND. cbn [map] in ND. apply NoDup_remove_2 in ND. apply ND, in_or_app. auto.
  - exact (N (proj1 (Pl p Hp D))).
  - exact (N (proj2 (Pl p Hp D))).
Qed.
Theorem manifest_never_cyclical m trusted :
  lintManifest m trusted <> Err "linter: cyclical pipeline dependency detected".
Proof.
  intro H. apply lintManifest_err in H. remember "linter: cyclical pipeline dependency detected" as e eqn:E.
  destruct H; try discriminate E; simpl in E; discriminate E.
Qed.

(** ** Validate *)
Lemma validateCron_ok c : validateCron c = Ok tt <-> cr_branch c <> "".
Proof. unfold validateCron. rewrite refuse_ok. apply isEmpty_false'. Qed.
Lemma validateSecret_ok s : validateSecret s = Ok tt <-> se_data s <> "" \/ se_get_path s <> "" \/ se_get_name s <> "".
Proof.
  unfold validateSecret. rewrite refuse_ok, !andb_false_iff, !isEmpty_false'. tauto.
Qed.
Lemma validateSignature_ok s : validateSignature s = Ok tt <-> si_hmac s <> "".
Proof. unfold validateSignature. rewrite refuse_ok. apply isEmpty_false'. Qed.
Lemma validateRegistry_ok r : validateRegistry r = Ok tt <-> rg_data r <> [].
Proof. unfold validateRegistry. rewrite refuse_ok. destruct (rg_data r); simpl; split; congruence. Qed.

(** ** More consequences *)
Lemma ContainerProblem_bad trusted c e : ContainerProblem trusted c e -> ~ GoodContainer trusted c.
Proof.
  intros H (G1 & G2 & G3 & G4).
  destruct H as [B H|b B H|H|p T Hp H|T H|T H|T H|T H|T H|T H|m Hm H];
    try (destruct (G4 T) as (U1 & U2 & U3 & U4 & U5 & U6 & U7)); try (rewrite B in G2); try contradiction; try congruence.
  - exact (H (U7 p Hp)).
  - exact (G3 m Hm H).
Qed.
Theorem Problem_bad trusted p steps services vols e :
  Problem trusted p steps services vols e -> ~ WellFormed trusted p steps services vols.
Proof.
  intros H (Pl & Vo & Co & ND & De). rewrite Forall_forall in Vo, Co.
  destruct H as [c e Hc H|H|H|v ed Hv T E H|v h Hv T E|v Hv H|H|b s a d E Hd N1 N2 N3|s Hs Hd].
  - exact (ContainerProblem_bad _ _ _ H (Co c Hc)).
  - exact (H (proj1 Pl)).
  - exact (H (proj2 Pl)).
  - destruct (Vo v Hv) as [_ U]. destruct (U T) as [_ U2]. exact (U2 _ E H).
  - destruct (Vo v Hv) as [_ U]. destruct (U T) as [U1 _]. congruence.
  - exact (proj1 (Vo v Hv) H).
  - exact (H ND).
  - destruct (De b s a d E Hd); contradiction.
  - apply in_split in Hs as (l1 & l2 & ->). destruct (De l1 s l2 _ eq_refl Hd) as [Hin|Hin].
    + rewrite <- app_assoc, map_app in ND. cbn [app map] in ND. rewrite app_assoc in ND. apply NoDup_remove_2 in ND.
      apply ND. rewrite !in_app_iff. auto.
    + rewrite <- app_assoc, map_app in ND. cbn [app map] in ND. rewrite app_assoc in ND. apply NoDup_remove_2 in ND.
      apply ND. rewrite !in_app_iff. auto.
Qed.

Lemma refuse_mono b b' e : (b = false -> b' = false) -> refuse b e = Ok tt -> refuse b' e = Ok tt.
Proof. rewrite !refuse_ok. auto. Qed.
Lemma checkContainer_mono c : checkContainer c false = Ok tt -> checkContainer c true = Ok tt.
Proof.
  unfold checkContainer. rewrite !oseq_ok, !ok_tt, !refuse_ok. intros H.
  split; [apply oiter_ok; reflexivity|]. cbn [negb andb]. tauto.
Qed.
Lemma checkVolumes_mono p : checkVolumes p false = Ok tt -> checkVolumes p true = Ok tt.
Proof.
  unfold checkVolumes. rewrite !oiter_ok. intros H o Ho. specialize (H o Ho). destruct o as [v|]; [|discriminate].
  apply checkVolume_ok in H. apply checkVolume_ok. destruct H as [H _]. split; [exact H|discriminate].
Qed.
Lemma ofold_mono {A S} (f g : S -> A -> outcome S) l :
  (forall s a s', f s a = Ok s' -> g s a = Ok s') -> forall s s', ofold f l s = Ok s' -> ofold g l s = Ok s'.
Proof.
  intro H. induction l as [|a l IH]; intros s s'; cbn [ofold]; [auto|]. rewrite !obind_ok. intros (s1 & H1 & H2).
  exists s1. auto.
Qed.
Theorem lint_trust_monotone r : Lint r false = Ok tt -> Lint r true = Ok tt.
Proof.
  destruct r as [c|p|s|s|g]; cbn [Lint]; auto. unfold checkPipeline. rewrite !oseq_ok, !ok_tt, !obind_ok.
  intros (Hv & Hp & n1 & H1 & H2). split; [apply checkVolumes_mono, Hv|]. split; [exact Hp|]. exists n1. split.
  - revert H1. apply ofold_mono. intros s [c|] s'; [|discriminate]. unfold checkStep. cbn [deref obind].
    rewrite !oseq_ok, !ok_tt. intros (A & B & C & D). split; [exact A|]. split; [apply checkContainer_mono, B|auto].
  - rewrite obind_ok in *. destruct H2 as (n2 & H2 & E). exists n2. split; [|exact E]. revert H2. apply ofold_mono.
    intros s [c|] s'; [|discriminate]. unfold checkService. cbn [deref obind].
    rewrite !oseq_ok, !ok_tt. intros (A & B & C). split; [exact A|]. split; [apply checkContainer_mono, B|auto].
Qed.
Lemma lintManifest_trust m t t' : lintManifest m t = lintManifest m t'.
Proof. reflexivity. Qed.

Lemma ContainerProblem_not_cyclical trusted c : ~ ContainerProblem trusted c "linter: cyclical step dependency detected".
Proof.
  intro H. remember "linter: cyclical step dependency detected" as e eqn:E.
  destruct H; simpl in E; discriminate E.
Qed.
Theorem cyclical_step_error p trusted steps services vols :
  NoNulls p steps services vols ->
  checkPipeline p trusted = Err "linter: cyclical step dependency detected" ->
  exists s, In s steps /\ In (ct_name s) (ct_depends s).
Proof.
  intros Hn H. apply (checkPipeline_err _ _ _ _ _ _ Hn) in H.
  remember "linter: cyclical step dependency detected" as e eqn:E.
  destruct H; try (simpl in E; discriminate E); eauto.
  subst. exfalso. eapply ContainerProblem_not_cyclical; eauto.
Qed.

Theorem lint_np r trusted :
  (forall p, r = RPipeline p -> exists steps services vols, NoNulls p steps services vols) -> Lint r trusted <> Panic.
Proof.
  intro H. destruct r as [c|p|s|s|g]; cbn [Lint]; try apply refuse_panic.
  destruct (H p eq_refl) as (steps & services & vols & Hn). eapply checkPipeline_np, Hn.
Qed.

(** A null step: the linter crashes on it unless an earlier step is refused. *)
Lemma ofold_app {A S} (f : S -> A -> outcome S) l l' s : ofold f (l ++ l') s = (s' <- ofold f l s ;; ofold f l' s').
Proof.
  revert s. induction l as [|a l IH]; intro s; cbn [ofold app obind]; [reflexivity|].
  destruct (f s a); cbn [obind]; auto.
Qed.
Theorem nil_step_panics p trusted steps services vols l2 :
  pi_volumes p = map Some vols -> Forall NullFree steps ->
  WellFormed trusted p steps services vols ->
  pi_steps p = map Some steps ++ None :: l2 -> checkPipeline p trusted = Panic.
Proof.
  intros Ev Hn (Hp & Hv & Hc & ND & De) E. apply checkPlatform_ok in Hp. apply (checkVolumes_ok _ _ _ Ev) in Hv.
  unfold checkPipeline. fold (cloneNames p).
  rewrite Hv, Hp. cbn [obind]. rewrite E, ofold_app.
  assert (H : ofold (checkStep trusted) (map Some steps) (cloneNames p) = Ok (rev (map ct_name steps) ++ cloneNames p)).
  { apply (steps_ok _ _ _ _ Hn). split; [reflexivity|]. apply Forall_app in Hc as [Hc _]. split; [exact Hc|].
    rewrite map_app, app_assoc in ND. apply NoDup_app_l, NoDup_app_iff in ND. tauto. }
  rewrite H. reflexivity.
Qed.
