(** * AcceptedFacts.v: what the lint command accepts, the compile command compiles. *)
From Coq Require Import Lia.
From Verif Require Import Model.Go Model.Types Model.RawParse Model.Cond Model.Lint Model.Engine Model.Image Model.Dind Model.Compiler Model.Main
  Spec.LintSpec Spec.ImageSpec Spec.CompileSpec Spec.TransformSpec Spec.MainSpec Spec.AcceptedSpec
  Proofs.GoFacts Proofs.LintFacts Proofs.ImageFacts Proofs.CompilePure Proofs.CompileSteps Proofs.CompileWhole Proofs.CompileGraph
  Proofs.CompileMore Proofs.MainFacts Proofs.MainCompile.

(** ** No nulls *)
Lemma all_some {A} (l : list (option A)) : ~ In None l -> exists l', l = map Some l'.
Proof.
  induction l as [|[a|] l IH]; intro H; [exists []; reflexivity| |exfalso; apply H; left; reflexivity].
  destruct IH as [l' ->]; [intro X; apply H; right; exact X|]. exists (a :: l'). reflexivity.
Qed.
Lemma map_some_no_none {A} (l : list A) : ~ In None (map Some l).
Proof. intro H. apply in_map_iff in H as (x & E & _). discriminate. Qed.

Lemma container_entries trusted c : checkContainer c trusted = Ok tt ->
  ~ In None (ct_volumes c) /\ (trusted = false -> ~ In None (ct_ports c)).
Proof.
  unfold checkContainer. rewrite !oseq_ok. intros H. split.
  - destruct H as (_ & _ & _ & _ & _ & _ & _ & _ & _ & _ & H). rewrite oiter_ok, Forall_forall in H. intro X. specialize (H _ X). discriminate.
  - intros ->. destruct H as [[[] H] _]. unfold checkPorts in H. rewrite oiter_ok, Forall_forall in H. intro X. specialize (H _ X). discriminate.
Qed.
Definition Entries (trusted : bool) (l : list (option Container)) : Prop :=
  ~ In None l /\ forall c, In (Some c) l -> ~ In None (ct_volumes c) /\ (trusted = false -> ~ In None (ct_ports c)).
Lemma fold_entries (f : list string -> option Container -> outcome (list string)) trusted l :
  (forall names o r, f names o = Ok r -> exists c, o = Some c /\ checkContainer c trusted = Ok tt) ->
  forall names r, ofold f l names = Ok r -> Entries trusted l.
Proof.
  intro F. induction l as [|o l IH]; intros names r H; [split; [intros []|intros c []]|].
  cbn [ofold] in H. rewrite obind_ok in H. destruct H as (n1 & H1 & H). destruct (F _ _ _ H1) as (c & -> & Hc).
  apply container_entries in Hc. destruct (IH _ _ H) as [G1 G2]. split.
  - intros [X|X]; [discriminate|exact (G1 X)].
  - intros c' [X|X]; [injection X as <-; exact Hc|exact (G2 _ X)].
Qed.
Lemma accepted_entries p trusted : Lint (RPipeline p) trusted = Ok tt -> NoNullEntries p /\ (trusted = false -> NoNullPorts p).
Proof.
  cbn [Lint]. unfold checkPipeline. rewrite oseq_ok, ok_tt. intros (HV & H). rewrite oseq_ok in H. destruct H as (_ & H).
  rewrite obind_ok in H. destruct H as (n1 & H1 & H). rewrite obind_ok in H. destruct H as (n2 & H2 & _).
  apply (fold_entries _ trusted) in H1 as [S1 S2].
  2:{ intros names [c|] r E; [|discriminate]. exists c. split; [reflexivity|]. unfold checkStep in E. cbn [deref obind] in E.
      rewrite !oseq_ok, !ok_tt in E. tauto. }
  apply (fold_entries _ trusted) in H2 as [V1 V2].
  2:{ intros names [c|] r E; [|discriminate]. exists c. split; [reflexivity|]. unfold checkService in E. cbn [deref obind] in E.
      rewrite !oseq_ok, !ok_tt in E. tauto. }
  assert (B : forall c, In (Some c) (pi_steps p ++ pi_services p) -> ~ In None (ct_volumes c) /\ (trusted = false -> ~ In None (ct_ports c))).
  { intros c Hc. apply in_app_iff in Hc as [Hc|Hc]; [apply S2, Hc|apply V2, Hc]. }
  split; [split; [exact S1|]; split; [exact V1|]; split|].
  - unfold checkVolumes in HV. rewrite oiter_ok, Forall_forall in HV. intro X. specialize (HV _ X). discriminate.
  - intros c Hc. apply B, Hc.
  - intros T c Hc. apply (B c Hc), T.
Qed.

Lemma entries_nonulls p : NoNullEntries p -> NoNullPorts p -> exists steps services vols, NoNulls p steps services vols.
Proof.
  intros (E1 & E2 & E3 & E4) E5. destruct (all_some _ E1) as [steps S]. destruct (all_some _ E2) as [services V]. destruct (all_some _ E3) as [vols L].
  exists steps, services, vols. repeat (split; [assumption|]). apply Forall_forall. intros c Hc.
  assert (X : In (Some c) (pi_steps p ++ pi_services p)) by (rewrite S, V, <- map_app; apply in_map, Hc). split; [apply E5, X|apply E4, X].
Qed.
Lemma nonulls_complete p steps services vols : NoNulls p steps services vols -> Complete p steps services vols.
Proof.
  intros (N1 & N2 & N3 & N4). apply Forall_app in N4 as [N4 N5]. repeat (split; [assumption|]). split; [|exact N5].
  eapply Forall_impl; [|exact N4]. intros c Hc _. exact Hc.
Qed.

(** ** What is compiled from a safe pipeline; cloning may have been turned off since it was checked. *)
Section Safe.
  Variable w : World.
  Variables (c : Compiler) (hostDir : option string) (hostMount : bool) (p : Pipeline) (n : nat) (spec : Spec).
  Hypothesis HS : Standard w c hostDir hostMount.
  Hypothesis HK : Compiled w c p n spec.
  Variables (steps services : list Container) (vols : list Volume).
  Hypothesis HN : NoNulls p steps services vols.
  Hypothesis HU : forall src, In src (steps ++ services) -> Unprivileged src.
  Hypothesis HV : forall v, In v vols -> UnprivilegedVolume v.

  Lemma origin_source o : In o (origins p) ->
    match o with FromClone => True | FromService src => In src services | FromStep src => In src steps end.
  Proof using HN.
    rewrite (nonulls_origins _ _ _ _ HN). intro Ho. apply in_app_iff in Ho as [Ho|Ho].
    - destruct (cl_disable _); [destruct Ho|]. destruct Ho as [<-|[]]. exact I.
    - apply in_app_iff in Ho as [Ho|Ho]; apply in_map_iff in Ho as (y & <- & Hy); exact Hy.
  Qed.
  Lemma safe_steps : Forall NoHostAccess (sp_steps spec).
  Proof using HS HK HN HU.
    eapply Forall2_right; [|exact (steps_fields _ _ _ _ _ _ _ HS HK)]. intros o s Ho H. apply origin_source in Ho.
    assert (Car : forall src, In src (steps ++ services) -> Carried src s -> NoHostAccess s).
    { intros src Hin (H1 & H2 & H3 & H4 & _ & H6 & _ & _ & _ & _ & H11 & _). destruct (HU _ Hin) as (U1 & U2 & U3 & U4 & U5 & U6 & U7).
      unfold NoHostAccess. rewrite H1, H2, H3, H4, H6, H11. repeat split; auto. apply Forall_forall. intros q Hq.
      apply in_map_iff in Hq as (q' & <- & Hq). cbn. apply U7. unfold present in Hq. apply in_flat_map in Hq as ([z|] & Hz & Hq); [|destruct Hq].
      destruct Hq as [<-|[]]. exact Hz. }
    destruct o as [|src|src]; cbn [RightFields] in H.
    - destruct H as (H1 & H2 & H3 & H4 & _ & H6 & _ & _ & _ & _ & H11 & _). unfold NoHostAccess. rewrite H1, H2, H3, H4, H6, H11. repeat split. constructor.
    - apply (Car src); [|exact H]. apply in_or_app. auto.
    - assert (Hin : In src (steps ++ services)) by (apply in_or_app; auto).
      destruct (ct_build src); [|exact (Car _ Hin H)]. destruct H as (H1 & H2 & H3 & H4 & _ & H6 & _ & _ & _ & _ & H11 & _).
      destruct (HU _ Hin) as (U1 & U2 & U3 & U4 & U5 & U6 & U7). unfold NoHostAccess. rewrite H1, H2, H3, H4, H6, H11. repeat split; auto.
  Qed.
  Lemma both_steps {P Q : Origin -> Step -> Prop} l l' : Forall2 P l l' -> Forall2 Q l l' -> Forall2 (fun o s => P o s /\ Q o s) l l'.
  Proof using. intros H. induction H; intro G; inversion G; subst; constructor; auto. Qed.
  Lemma safe_privileged t : In t (sp_steps spec) -> ds_privileged (st_docker t) = true ->
    exists src f, In src (steps ++ services) /\ ct_name src = stepName t /\ co_privileged c = Some f /\ f src = true.
  Proof using HS HK HN HU.
    pose proof (both_steps _ _ (steps_named _ _ _ _ _ _ _ HS HK) (steps_privileged _ _ _ _ _ _ _ HS HK)) as F.
    intros Ht Hp. apply in_split in Ht as (l1 & l2 & E). rewrite E in F. apply Forall2_split_r in F as (o1 & o & o2 & EO & _ & [[N _] P] & _).
    assert (Ho : In o (origins p)) by (rewrite EO; apply in_or_app; right; left; reflexivity). apply origin_source in Ho.
    apply P in Hp. destruct o as [|src|src]; [destruct Hp| |].
    - destruct Hp as [X|(f & Y & Z)]; [destruct (HU src) as [U _]; [apply in_or_app; auto|congruence]|].
      exists src, f. split; [apply in_or_app; auto|]. split; [symmetry; apply N|auto].
    - destruct Hp as [[X _]|(f & Y & Z)]; [destruct (HU src) as [U _]; [apply in_or_app; auto|congruence]|].
      exists src, f. split; [apply in_or_app; auto|]. split; [symmetry; apply N|auto].
  Qed.
  Lemma safe_socket t : In t (sp_steps spec) -> MountsSocket t ->
    exists src b, In src steps /\ ct_name src = stepName t /\ ct_build src = Some b.
  Proof using HS HK HN.
    pose proof (both_steps _ _ (steps_named _ _ _ _ _ _ _ HS HK) (steps_socket _ _ _ _ _ _ _ HS HK)) as F.
    intros Ht Hp. apply in_split in Ht as (l1 & l2 & E). rewrite E in F. apply Forall2_split_r in F as (o1 & o & o2 & EO & _ & [[N _] P] & _).
    assert (Ho : In o (origins p)) by (rewrite EO; apply in_or_app; right; left; reflexivity). apply origin_source in Ho.
    apply P in Hp as (src & b & -> & Eb). exists src, b. split; [exact Ho|]. split; [symmetry; apply N|exact Eb].
  Qed.
  Lemma safe_volumes : hostDir = None -> exists d, sp_docker spec = Some d /\
    forall v h, In v (dc_volumes d) -> ev_host v = Some h ->
      HasBuild p /\ md_name (ev_meta v) = "_docker_socket" /\ h = "/var/run/docker.sock".
  Proof using HS HK HN HV.
    intro HD. destruct HK as (n' & HK'). destruct (volumes_ok _ _ _ _ _ _ _ _ HS HK') as (d & E & sock & S1 & S2 & F). exists d. split; [exact E|].
    intros v h Hv Hh. apply in_split in Hv as (l1 & l2 & Ev). rewrite Ev in F. apply Forall2_split_r in F as (o1 & o & o2 & EO & _ & Fo & _).
    rewrite HD in EO.
    assert (Ho : In o (VWorkspace :: [] ++ map VDeclared (present (pi_volumes p)) ++ sock)) by (rewrite EO; apply in_or_app; right; left; reflexivity).
    destruct Ho as [<-|Ho]; [destruct Fo as [(_ & _ & X) _]; congruence|]. cbn in Ho. apply in_app_iff in Ho as [Ho|Ho].
    - apply in_map_iff in Ho as (x & <- & Hx). destruct HN as (_ & _ & N3 & _). rewrite N3, somes_map in Hx. destruct (HV _ Hx) as [U _].
      destruct Fo as [[_ X] _]. rewrite U in X. destruct (vo_empty x); destruct X as [_ X]; congruence.
    - assert (DP : HasBuild p \/ ~ HasBuild p).
      { destruct HN as (N1 & _). unfold HasBuild. rewrite N1, somes_map. pose proof (rename_build w p steps 0) as RB.
        destruct (Nat.ltb 0 (length (renamesOf (w_rnd w) (positions (stepDraws p) 0 steps) []))); [left; apply RB; reflexivity|right; rewrite <- RB; discriminate]. }
      destruct DP as [DP|DP]; [|rewrite (S2 DP) in Ho; destruct Ho]. rewrite (S1 DP) in Ho. destruct Ho as [<-|[]].
      destruct Fo as [(X & _ & Y) _]. split; [exact DP|]. split; [exact X|congruence].
  Qed.
End Safe.

(** ** The command *)
Lemma Forall2_in_right {A B} (P : A -> B -> Prop) l l' y : Forall2 P l l' -> In y l' -> exists x, In x l /\ P x y.
Proof.
  intro F. induction F as [|a b l l' H F IH]; intros []; [subst; exists a; split; [left; reflexivity|exact H]|].
  destruct (IH H0) as (x & Hx & Px). exists x. split; [right; exact Hx|exact Px].
Qed.

Theorem accepted_contained mc fl c p q auths base spec clone :
  Lint (RPipeline p) false = Ok tt -> (if clone : bool then q = p else WithoutClone p q) ->
  CommandCompiler mc fl c -> Compiled (mc_world mc) c q 0 base -> Finished mc fl auths base spec ->
  Contained mc fl p spec.
Proof.
  intros HL HQ (HS & _ & (priv & EP & HP) & _) HK HF.
  destruct (accepted_entries _ _ HL) as [HE HO]. destruct (entries_nonulls _ HE (HO eq_refl)) as (steps & services & vols & HN).
  destruct (untrusted_safe _ _ _ _ HN HL) as [HU HV]. rewrite Forall_forall in HU, HV.
  assert (HQS : pi_steps q = pi_steps p /\ pi_services q = pi_services p /\ pi_volumes q = pi_volumes p).
  { destruct clone; [subst; auto|]. destruct HQ as (_ & _ & _ & _ & _ & _ & _ & _ & _ & _ & _ & _ & Q1 & Q2 & _ & Q3 & _). auto. }
  destruct HQS as (Q1 & Q2 & Q3).
  assert (HNq : NoNulls q steps services vols) by (unfold NoNulls; rewrite Q1, Q2, Q3; exact HN).
  assert (HB : HasBuild q -> HasBuild p) by (unfold HasBuild; rewrite Q1; auto).
  destruct HN as (N1 & N2 & N3 & _).
  assert (HI : forall src, In src (steps ++ services) -> In (Some src) (pi_steps p ++ pi_services p)) by (intros; rewrite N1, N2, <- map_app; apply in_map; assumption).
  pose proof (safe_steps _ _ _ _ _ _ _ HS HK _ _ _ HNq HU) as A1.
  pose proof (safe_privileged _ _ _ _ _ _ _ HS HK _ _ _ HNq HU) as A2.
  pose proof (safe_socket _ _ _ _ _ _ _ HS HK _ _ _ HNq) as A3.
  destruct (safe_volumes _ _ _ _ _ _ _ HS HK _ _ _ HNq HV eq_refl) as (d & ED & A4).
  destruct HF as (d' & fv & added & secrets & _ & _ & _ & _ & _ & _ & ED' & EB & FV & FA & FS).
  rewrite ED in ED'. injection ED' as <-. split; [|split].
  - apply Forall_forall. intros t Ht. destruct (Forall2_in_right _ _ _ _ FS Ht) as (s & Hs & R).
    rewrite Forall_forall in A1. destruct (A1 _ Hs) as (B1 & B2 & B3 & B4 & B5 & B6).
    destruct R as (_ & _ & _ & _ & R5 & (_ & _ & D3 & D4 & D5 & _ & D7 & _ & D9 & _) & _).
    unfold NoHostAccess. rewrite D3, D4, D5, D7, D9, R5. repeat split; assumption.
  - intros t Ht Hp. destruct (Forall2_in_right _ _ _ _ FS Ht) as (s & Hs & R).
    destruct R as ((_ & _ & M3 & _) & _ & _ & _ & _ & (_ & _ & _ & _ & _ & _ & _ & _ & _ & D10 & _) & _).
    rewrite D10 in Hp. destruct (A2 _ Hs Hp) as (src & f & I1 & I2 & I3 & I4). exists src. split; [apply HI, I1|].
    split; [unfold stepName; rewrite M3; exact I2|]. rewrite EP in I3. injection I3 as <-. rewrite HP in I4. apply DindFunc_iff in I4. exact I4.
  - eexists. exists added. split; [exact EB|]. split; [|split].
    + eapply Forall2_weaken; [|exact FA]. intros v kv (_ & _ & _ & X). exact X.
    + intros v h Hv Hh. cbn in Hv. apply in_app_iff in Hv as [Hv|Hv]; [right|left; exact Hv].
      destruct (Forall2_in_right _ _ _ _ FV Hv) as (v' & Hv' & _ & X & (_ & _ & M3 & _) & _). rewrite X in Hh.
      destruct (A4 _ _ Hv' Hh) as (Y1 & Y2 & Y3). split; [apply HB, Y1|]. split; [congruence|exact Y3].
    + intros t m Ht Hm Em. destruct (Forall2_in_right _ _ _ _ FS Ht) as (s & Hs & R).
      destruct R as ((_ & _ & M3 & _) & _ & _ & _ & _ & _ & _ & _ & _ & _ & _ & _ & _ & _ & _ & RV & _).
      rewrite RV in Hm. apply in_app_iff in Hm as [Hm|Hm].
      * right. destruct (A3 s Hs) as (src & b & I1 & I2 & I3); [exists m; auto|]. exists src, b.
        split; [rewrite N1; apply in_map, I1|]. split; [unfold stepName; rewrite M3; exact I2|exact I3].
      * left. apply in_map_iff in Hm as ((v, kv) & <- & Hc). cbn. apply in_combine_l in Hc. apply in_map_iff. exists v. auto.
Qed.

(** ** The graph *)
Lemma without_clone_accepted p q steps services vols : NoNulls p steps services vols -> Lint (RPipeline p) false = Ok tt -> WithoutClone p q ->
  (cl_disable (pi_clone p) = true \/ forall c, In c steps -> ~ In "clone" (ct_depends c)) -> Lint (RPipeline q) false = Ok tt.
Proof.
  intros HN HL HQ HD. destruct HQ as (D & _ & _ & _ & _ & _ & _ & _ & _ & _ & Q0 & _ & Q1 & Q2 & _ & Q3 & _).
  assert (HNq : NoNulls q steps services vols) by (unfold NoNulls; rewrite Q1, Q2, Q3; exact HN).
  apply (checkPipeline_ok _ _ _ _ _ HNq). apply (checkPipeline_ok _ _ _ _ _ HN) in HL as (W1 & W2 & W3 & W4 & W5).
  unfold WellFormed. rewrite Q0. split; [exact W1|]. split; [exact W2|]. split; [exact W3|]. unfold cloneNames in *. rewrite D. split.
  - destruct (cl_disable (pi_clone p)); [exact W4|]. cbn in W4. apply NoDup_cons_iff in W4. apply W4.
  - intros b s a d E Hd. destruct (W5 b s a d E Hd) as [X|X]; [left|right; exact X].
    destruct (cl_disable (pi_clone p)); [exact X|]. destruct X as [<-|[]]. destruct HD as [HD|HD]; [discriminate|].
    exfalso. apply (HD s); [rewrite E; apply in_or_app; right; left; reflexivity|exact Hd].
Qed.
Lemma finished_graph mc fl mounts l l' : Forall2 (FinishedStep mc fl mounts) l l' ->
  map stepName l' = map stepName l /\ map st_depends l' = map st_depends l.
Proof.
  intro F. induction F as [|s t l l' R _ [IH1 IH2]]; [auto|]. cbn. rewrite IH1, IH2.
  destruct R as ((_ & _ & M & _) & _ & _ & D & _). unfold stepName. rewrite M, D. auto.
Qed.
Lemma same_graph l l' : map stepName l' = map stepName l -> map st_depends l' = map st_depends l -> Executable l -> Executable l'.
Proof.
  intros EN ED (E1 & E2 & E3).
  assert (SP : forall b s a, l' = b ++ s :: a -> exists b' s' a', l = b' ++ s' :: a' /\ map stepName b' = map stepName b /\
    stepName s' = stepName s /\ st_depends s' = st_depends s).
  { clear E1 E2 E3. intros b. revert l l' EN ED. induction b as [|x b IH]; intros [|y l] [|y' l'] EN ED s a E; cbn in *; try discriminate.
    - injection E as -> ->. injection EN as EN1 EN2. injection ED as ED1 ED2. exists [], y, l. auto.
    - injection E as -> E. injection EN as EN1 EN2. injection ED as ED1 ED2. destruct (IH l l' EN2 ED2 s a E) as (b' & s' & a' & -> & X & Y & Z).
      exists (y :: b'), s', a'. cbn. rewrite X, EN1. auto. }
  split; [|split; [rewrite EN; exact E2|]].
  - intros b s a d E Hd. destruct (SP b s a E) as (b' & s' & a' & E' & X & Y & Z). rewrite <- X. apply (E1 b' s' a' d E'). rewrite Z. exact Hd.
  - assert (DP : forall x y, StepDependsOn l' x y -> StepDependsOn l x y).
    { intros x y (s & Hs & N & Hd). apply in_split in Hs as (b & a & E). destruct (SP b s a E) as (b' & s' & a' & E' & X & Y & Z).
      exists s'. split; [rewrite E'; apply in_or_app; right; left; reflexivity|]. rewrite Y, Z. auto. }
    intros x Hx. apply (E3 x). clear - DP Hx. assert (G : forall y z, Path (StepDependsOn l') y z -> Path (StepDependsOn l) y z).
    { intros y z H. induction H; [apply Path_one|eapply Path_step]; eauto. }
    apply G, Hx.
Qed.
Theorem accepted_graph mc fl c p q auths base spec clone :
  Lint (RPipeline p) false = Ok tt -> (if clone : bool then q = p else WithoutClone p q) ->
  CommandCompiler mc fl c -> Compiled (mc_world mc) c q 0 base -> Finished mc fl auths base spec ->
  NobodyWaits clone p -> Executable (sp_steps spec).
Proof.
  intros HL HQ (HS & _) HK HF [HW1 HW2].
  destruct (accepted_entries _ _ HL) as [HE HO]. destruct (entries_nonulls _ HE (HO eq_refl)) as (steps & services & vols & HN).
  assert (HX : NoNulls q steps services vols /\ Lint (RPipeline q) false = Ok tt).
  { destruct clone; [subst q; auto|]. pose proof HQ as (_ & _ & _ & _ & _ & _ & _ & _ & _ & _ & _ & _ & Q1 & Q2 & _ & Q3 & _).
    split; [unfold NoNulls; rewrite Q1, Q2, Q3; exact HN|]. eapply without_clone_accepted; [exact HN|exact HL|exact HQ|].
    destruct HN as (N1 & _). destruct HW2 as [X|[X|X]]; [discriminate|left; exact X|right]. intros c' Hc. apply X. rewrite N1. apply in_map, Hc. }
  destruct HX as [HNq HLq]. destruct HF as (d' & fv & added & secrets & _ & _ & _ & _ & _ & _ & _ & _ & _ & _ & FS).
  destruct (finished_graph _ _ _ _ _ FS) as [G1 G2]. apply (same_graph _ _ G1 G2).
  apply (graph_ok _ _ _ _ _ _ _ HS HK _ _ _ _ HNq HLq). destruct HN as (_ & N2 & _).
  apply Forall_forall. intros s Hs. apply HW1. rewrite N2. apply in_map, Hs.
Qed.

Theorem accepted_compiles mc name clone fl f fs :
  Orders mc -> NoDup (mkeys (cf_env fl)) -> NoDup (mkeys (cf_label fl)) ->
  x_status (run mc (ALint false f) fs) = 0%Z ->
  let x := run mc (ACompile name clone fl f) fs in
  exists content m, fs f = Some content /\ parse (mc_decoder mc) content = Ok m /\
  (x_status x = 0%Z \/ x_status x = 1%Z) /\
  (x_status x = 0%Z <-> exists p auths, Selected name (mf_resources m) p /\ Forall2 RegistryOf (cf_registry fl) auths) /\
  (x_status x = 0%Z -> exists p spec, Selected name (mf_resources m) p /\ x_stdout x = mc_specJSON mc spec /\ Contained mc fl p spec /\
     (NobodyWaits clone p -> Executable (sp_steps spec))).
Proof.
  intros HO H1 H2 HX x. destruct (fs f) as [content|] eqn:Ef.
  2:{ pose proof (proj2 (proj2 (streams mc (ALint false f) fs)) Ef) as Y. rewrite HX in Y. discriminate. }
  destruct (lint_result mc false f fs content Ef) as (_ & _ & L). apply L in HX as (m & EM & HA). rewrite Forall_forall in HA.
  exists content, m. split; [reflexivity|]. split; [exact EM|].
  destruct (compile_result mc name clone fl f fs content m HO H1 H2 Ef EM) as (_ & C0 & C1 & C2 & C3). fold x in C0, C1, C2, C3.
  assert (HC : forall p, Selected name (mf_resources m) p -> Lint (RPipeline p) false = Ok tt /\ exists steps services vols, Complete p steps services vols).
  { intros p (b & a & E & _). assert (A : Lint (RPipeline p) false = Ok tt) by (apply HA; rewrite E; apply in_or_app; right; left; reflexivity).
    split; [exact A|]. destruct (accepted_entries _ _ A) as [X Y]. destruct (entries_nonulls _ X (Y eq_refl)) as (ss & sv & vs & N).
    exists ss, sv, vs. apply nonulls_complete, N. }
  assert (CI : x_status x = 0%Z <-> exists p auths, Selected name (mf_resources m) p /\ Forall2 RegistryOf (cf_registry fl) auths).
  { rewrite C0. split; [intros (p & au & X & _); eauto|]. intros (p & au & X). exists p, au. split; [exact X|]. apply HC, X. }
  split; [|split; [exact CI|]].
  - assert (S : x_status x = 0%Z \/ x_status x = 1%Z \/ x_status x = 2%Z).
    { destruct (Z.eq_dec (x_status x) 0) as [E|E]; [auto|]. right.
      destruct (proj1 (proj2 (streams mc (ACompile name clone fl f) fs)) E) as (_ & _ & [[X _]|[X _]]); fold x in X; auto. }
    destruct S as [S|[S|S]]; [auto|auto|]. apply C2 in S as (p & au & [X _] & Y). destruct (Y (proj2 (HC _ X))).
  - intro E. pose proof (proj1 CI E) as (p & au & X). destruct (C3 _ _ X E) as (q & c & base & spec & Q & CC & K & F & O).
    exists p, spec. split; [apply X|]. split; [exact O|]. split; [eapply accepted_contained|eapply accepted_graph]; [apply HC, X|exact Q|exact CC|exact K|exact F|apply HC, X|exact Q|exact CC|exact K|exact F].
Qed.
