(** * CompileGraph.v: the dependency graph, untrusted pipelines and images of a compiled spec. *)
From Coq Require Import Lia Sorting.Permutation.
From Verif Require Import Model.Go Model.Types Model.Cond Model.Lint Model.Engine Model.Image Model.Quote
  Model.Script Model.Path Model.Encode Model.Compiler Spec.LintSpec Spec.ImageSpec Spec.CompileSpec
  Proofs.GoFacts Proofs.MapFacts Proofs.LintFacts Proofs.ImageFacts Proofs.CompilePure Proofs.CompileFacts
  Proofs.CompileSteps Proofs.CompileWhole.

Lemma complete_det p steps services vols steps' services' vols' :
  NoNulls p steps services vols -> Complete p steps' services' vols' -> steps' = steps /\ services' = services /\ vols' = vols.
Proof.
  intros (N1 & N2 & N3 & _) (C1 & C2 & C3 & _). rewrite N1 in C1. rewrite N2 in C2. rewrite N3 in C3.
  apply (f_equal present) in C1, C2, C3. rewrite !somes_map in *. auto.
Qed.
Lemma nonulls_origins p steps services vols : NoNulls p steps services vols ->
  origins p = (if cl_disable (pi_clone p) then [] else [FromClone]) ++ map FromService services ++ map FromStep steps.
Proof. intros (N1 & N2 & _). unfold origins. rewrite N1, N2, !somes_map. reflexivity. Qed.

Definition originName (o : Origin) : string :=
  match o with FromClone => "clone" | FromService c | FromStep c => ct_name c end.
Lemma split_step (A : list Origin) steps : forall before src after,
  Forall (fun o => match o with FromStep _ => False | _ => True end) A ->
  A ++ map FromStep steps = before ++ FromStep src :: after ->
  exists sb sa, steps = sb ++ src :: sa /\ before = A ++ map FromStep sb.
Proof.
  induction A as [|o A IH]; intros before src after H E; cbn in E.
  - clear H. revert before E. induction steps as [|s ss IHs]; intros [|b before] E; cbn in E; try discriminate.
    + injection E as -> E. exists [], ss. auto.
    + injection E as <- E. destruct (IHs _ E) as (sb & sa & -> & ->). exists (s :: sb), sa. auto.
  - inversion H as [|o' A' Ho HA]; subst. destruct before as [|b before]; cbn in E.
    + injection E as -> _. contradiction.
    + injection E as <- E. destruct (IH _ _ _ HA E) as (sb & sa & -> & ->). exists sb, sa. auto.
Qed.

Section Graph.
  Variable w : World.
  Variables (c : Compiler) (hostDir : option string) (hostMount : bool) (p : Pipeline) (n : nat) (spec : Spec).
  Hypothesis HS : Standard w c hostDir hostMount.
  Hypothesis HK : Compiled w c p n spec.
  Variables (trusted : bool) (steps services : list Container) (vols : list Volume).
  Hypothesis HN : NoNulls p steps services vols.
  Hypothesis HL : Lint (RPipeline p) trusted = Ok tt.

  Lemma compiled_names : map stepName (sp_steps spec) = map originName (origins p).
  Proof using HS HK.
    symmetry. apply Forall2_map_eq. eapply Forall2_weaken; [|exact (steps_named _ _ _ _ _ _ _ HS HK)].
    intros [|s|s] t [[H _] _]; cbn; congruence.
  Qed.

  Theorem graph_ok : Forall (fun s => ct_depends s = []) services -> Executable (sp_steps spec).
  Proof using HS HK HN HL.
    intro ND. pose proof (proj1 (checkPipeline_ok _ _ _ _ _ HN) HL) as (_ & _ & _ & NDn & De).
    assert (NDs : NoDup (map stepName (sp_steps spec))).
    { rewrite compiled_names, (nonulls_origins _ _ _ _ HN), !map_app, !map_map.
      change (map (fun x => originName (FromService x)) services) with (map ct_name services).
      change (map (fun x => originName (FromStep x)) steps) with (map ct_name steps).
      rewrite map_app in NDn. eapply Permutation_NoDup; [|exact NDn]. unfold cloneNames.
      destruct (cl_disable (pi_clone p)); cbn; [|constructor]; apply Permutation_app_comm. }
    assert (Ear : forall before s after d, sp_steps spec = before ++ s :: after -> In d (st_depends s) -> In d (map stepName before)).
    { intros before s after d E Hd.
      pose proof (steps_named _ _ _ _ _ _ _ HS HK) as FN. pose proof (steps_depend _ _ _ _ _ _ _ HS HK) as FD.
      rewrite E in FN, FD.
      assert (FB : Forall2 (fun o s => RightName o s /\ RightDepends p o s) (origins p) (before ++ s :: after)).
      { clear - FN FD. revert FD. induction FN as [|o x os xs H _ IH]; intro FD; inversion FD; subst; constructor; auto. }
      apply Forall2_split_r in FB as (ob & o & oa & EO & Fb & [_ Fo] & _).
      assert (Nb : map stepName before = map originName ob).
      { symmetry. apply Forall2_map_eq. eapply Forall2_weaken; [|exact Fb]. intros [|x|x] t [[[H _] _] _]; cbn; congruence. }
      rewrite Nb. rewrite (nonulls_origins _ _ _ _ HN) in EO.
      assert (HCl : cl_disable (pi_clone p) = false -> o <> FromClone -> In "clone" (map originName ob)).
      { intros D No. rewrite D in EO. destruct ob as [|x ob]; cbn in EO; [injection EO as <- _; congruence|]. injection EO as <- _. left. reflexivity. }
      assert (HW : st_depends s = declared o \/ (cl_disable (pi_clone p) = false /\ st_depends s = declared o ++ ["clone"] /\ o <> FromClone)).
      { destruct Fo as [F1 F2].
        assert (DP : {Parallel p} + {~ Parallel p}).
        { destruct HN as (N1 & _). pose proof (serial_iff p steps N1) as SI. destruct (serial steps); [right|left; apply SI; reflexivity]. intro X. apply SI in X. discriminate. }
        destruct DP as [DP|DP]; [|left; auto]. destruct (cl_disable (pi_clone p)) eqn:D; [left; auto|]. specialize (F1 (conj DP eq_refl)).
        destruct o as [|x|x]; cbn [declared].
        - left. exact F1.
        - right. split; [reflexivity|]. split; [exact F1|discriminate].
        - destruct F1 as [F1 F3]. destruct (ct_depends x) eqn:Ex; [right; split; [reflexivity|]; split; [apply F1; reflexivity|discriminate]|left; apply F3; discriminate]. }
      assert (HD : In d (declared o) -> In d (map originName ob)).
      { destruct o as [|x|x]; cbn [declared]; [intros []| |].
        - intro X. exfalso. assert (Hx : In (FromService x) (origins p)) by (rewrite (nonulls_origins _ _ _ _ HN), EO; apply in_or_app; right; left; reflexivity).
          rewrite (nonulls_origins _ _ _ _ HN) in Hx. apply in_app_iff in Hx as [Hx|Hx]; [destruct (cl_disable (pi_clone p)); cbn in Hx; intuition discriminate|].
          apply in_app_iff in Hx as [Hx|Hx]; apply in_map_iff in Hx as (y & Ey & Hy); [|discriminate]. injection Ey as ->.
          rewrite Forall_forall in ND. rewrite (ND _ Hy) in X. exact X.
        - intro X. rewrite app_assoc in EO. apply split_step in EO as (sb & sa & ES & EB).
          + destruct (De sb x sa d ES X) as [Y|Y].
            * unfold cloneNames in Y. destruct (cl_disable (pi_clone p)) eqn:D; [destruct Y|]. destruct Y as [<-|[]]. apply HCl; [reflexivity|discriminate].
            * rewrite EB, map_app, map_map. apply in_or_app. right. exact Y.
          + apply Forall_app. split; [destruct (cl_disable _); repeat constructor|]. apply Forall_forall. intros y Hy. apply in_map_iff in Hy as (z & <- & _). exact I. }
      destruct HW as [HW|(D & HW & No)]; rewrite HW in Hd; [exact (HD Hd)|]. apply in_app_iff in Hd as [Hd|[<-|[]]]; [exact (HD Hd)|exact (HCl D No)]. }
    split; [exact Ear|]. split; [exact NDs|].
    apply (ordered_acyclic stepName st_depends [] (sp_steps spec)); [exact NDs|]. intros. right. eapply Ear; eassumption.
  Qed.

  Theorem untrusted_steps : trusted = false -> Forall NoHostAccess (sp_steps spec).
  Proof using HS HK HN HL.
    intro T. subst trusted. destruct (untrusted_safe _ _ _ _ HN HL) as [HU _]. rewrite Forall_forall in HU.
    eapply Forall2_right; [|exact (steps_fields _ _ _ _ _ _ _ HS HK)]. intros o s Ho H.
    assert (Car : forall src, In src (steps ++ services) -> Carried src s -> NoHostAccess s).
    { intros src Hin (H1 & H2 & H3 & H4 & _ & H6 & _ & _ & _ & _ & H11 & _). destruct (HU _ Hin) as (U1 & U2 & U3 & U4 & U5 & U6 & U7).
      unfold NoHostAccess. rewrite H1, H2, H3, H4, H6, H11. repeat split; auto. apply Forall_forall. intros q Hq.
      apply in_map_iff in Hq as (q' & <- & Hq). cbn. apply U7. unfold present in Hq. apply in_flat_map in Hq as ([z|] & Hz & Hq); [|destruct Hq].
      destruct Hq as [<-|[]]. exact Hz. }
    rewrite (nonulls_origins _ _ _ _ HN) in Ho. destruct o as [|src|src]; cbn [RightFields] in H.
    - destruct H as (H1 & H2 & H3 & H4 & _ & H6 & _ & _ & _ & _ & H11 & _). unfold NoHostAccess. rewrite H1, H2, H3, H4, H6, H11. repeat split. constructor.
    - apply (Car src); [|exact H]. apply in_app_iff in Ho as [Ho|Ho]; [destruct (cl_disable _); cbn in Ho; intuition discriminate|].
      apply in_app_iff in Ho as [Ho|Ho]; apply in_map_iff in Ho as (y & Ey & Hy); [|discriminate]. injection Ey as ->. apply in_or_app. auto.
    - assert (Hin : In src (steps ++ services)).
      { apply in_app_iff in Ho as [Ho|Ho]; [destruct (cl_disable _); cbn in Ho; intuition discriminate|].
        apply in_app_iff in Ho as [Ho|Ho]; apply in_map_iff in Ho as (y & Ey & Hy); [discriminate|]. injection Ey as ->. apply in_or_app. auto. }
      destruct (ct_build src); [|exact (Car _ Hin H)]. destruct H as (H1 & H2 & H3 & H4 & _ & H6 & _ & _ & _ & _ & H11 & _).
      destruct (HU _ Hin) as (U1 & U2 & U3 & U4 & U5 & U6 & U7). unfold NoHostAccess. rewrite H1, H2, H3, H4, H6, H11. repeat split; auto.
  Qed.

  Theorem untrusted_privileged : trusted = false -> co_privileged c = None -> Forall (fun s => ds_privileged (st_docker s) = false) (sp_steps spec).
  Proof using HS HK HN HL.
    intros T NP. subst trusted. destruct (untrusted_safe _ _ _ _ HN HL) as [HU _]. rewrite Forall_forall in HU.
    eapply Forall2_right; [|exact (steps_privileged _ _ _ _ _ _ _ HS HK)]. intros o s Ho H. apply not_true_is_false. intro X. apply H in X.
    rewrite (nonulls_origins _ _ _ _ HN) in Ho. rewrite NP in X. destruct o as [|src|src]; [exact X| |].
    - destruct X as [X|(f & Y & _)]; [|discriminate]. apply in_app_iff in Ho as [Ho|Ho]; [destruct (cl_disable _); cbn in Ho; intuition discriminate|].
      apply in_app_iff in Ho as [Ho|Ho]; apply in_map_iff in Ho as (y & Ey & Hy); [|discriminate]. injection Ey as ->.
      destruct (HU src) as (U & _); [apply in_or_app; auto|congruence].
    - destruct X as [[X _]|(f & Y & _)]; [|discriminate]. apply in_app_iff in Ho as [Ho|Ho]; [destruct (cl_disable _); cbn in Ho; intuition discriminate|].
      apply in_app_iff in Ho as [Ho|Ho]; apply in_map_iff in Ho as (y & Ey & Hy); [discriminate|]. injection Ey as ->.
      destruct (HU src) as (U & _); [apply in_or_app; auto|congruence].
  Qed.

  Theorem untrusted_volumes : trusted = false -> hostDir = None ->
    exists d, sp_docker spec = Some d /\
    forall v h, In v (dc_volumes d) -> ev_host v = Some h ->
      HasBuild p /\ md_name (ev_meta v) = "_docker_socket" /\ h = "/var/run/docker.sock".
  Proof using HS HK HN HL.
    intros T HD. subst trusted. destruct (untrusted_safe _ _ _ _ HN HL) as [_ HU]. rewrite Forall_forall in HU.
    destruct HK as (n' & HK'). destruct (volumes_ok _ _ _ _ _ _ _ _ HS HK') as (d & E & sock & S1 & S2 & F). exists d. split; [exact E|].
    intros v h Hv Hh. apply in_split in Hv as (l1 & l2 & Ev). rewrite Ev in F. apply Forall2_split_r in F as (o1 & o & o2 & EO & _ & Fo & _).
    rewrite HD in EO.
    assert (Ho : In o (VWorkspace :: [] ++ map VDeclared (present (pi_volumes p)) ++ sock)) by (rewrite EO; apply in_or_app; right; left; reflexivity).
    destruct Ho as [<-|Ho]; [destruct Fo as [(_ & _ & X) _]; congruence|]. cbn in Ho. apply in_app_iff in Ho as [Ho|Ho].
    - apply in_map_iff in Ho as (x & <- & Hx). destruct HN as (_ & _ & N3 & _). rewrite N3, somes_map in Hx. destruct (HU _ Hx) as [U _].
      destruct Fo as [[_ X] _]. rewrite U in X. destruct (vo_empty x); destruct X as [_ X]; congruence.
    - assert (DP : HasBuild p \/ ~ HasBuild p).
      { destruct HN as (N1 & _). unfold HasBuild. rewrite N1, somes_map. pose proof (rename_build w p steps 0) as RB.
        destruct (Nat.ltb 0 (length (renamesOf (w_rnd w) (positions (stepDraws p) 0 steps) []))); [left; apply RB; reflexivity|right; rewrite <- RB; discriminate]. }
      destruct DP as [DP|DP]; [|rewrite (S2 DP) in Ho; destruct Ho]. rewrite (S1 DP) in Ho. destruct Ho as [<-|[]].
      destruct Fo as [(X & _ & Y) _]. split; [exact DP|]. split; [exact X|congruence].
  Qed.
End Graph.

(** ** Images *)
Section Images.
  Variable w : World.
  Let av := w_available w.
  Hypothesis HO : OrderOk w.

  Lemma renameImage_none (rn : smap string) : forall img, (forall k v, In (k, v) rn -> MatchTag av img k = false) -> renameImage av rn img = img.
  Proof using.
    induction rn as [|[k v] rn IH]; intros img H; cbn; [reflexivity|]. rewrite (H k v) by (left; reflexivity).
    apply IH. intros k' v' Hin. apply (H k' v'). right. exact Hin.
  Qed.
  Lemma renameImage_one (rn : smap string) k v : forall img,
    In (k, v) rn -> MatchTag av img k = true ->
    (forall k' v', In (k', v') rn -> MatchTag av img k' = true -> v' = v) ->
    (forall k' v', In (k', v') rn -> MatchTag av (Expand av (Trim av img +++ ":" +++ v)%string) k' = false) ->
    renameImage av rn img = Expand av (Trim av img +++ ":" +++ v)%string.
  Proof using.
    induction rn as [|[k1 v1] rn IH]; intros img Hin M U C; [destruct Hin|]. cbn.
    destruct (MatchTag av img k1) eqn:E.
    - rewrite (U k1 v1 (or_introl eq_refl) E). apply renameImage_none. intros k' v' H'. apply (C k' v'). right. exact H'.
    - apply IH; [|exact M| |].
      + destruct Hin as [[= -> ->]|Hin]; [congruence|exact Hin].
      + intros k' v' H'. apply (U k' v'). right. exact H'.
      + intros k' v' H'. apply (C k' v'). right. exact H'.
  Qed.
  Lemma match_trim a b : MatchTag av a b = true -> Trim av a = Trim av b.
  Proof using. unfold MatchTag. rewrite String.eqb_eq. intro E. rewrite <- (Trim_Expand av a), <- (Trim_Expand av b), E. reflexivity. Qed.

  (** The entries of the map of built images. *)
  Definition buildsAt (q : list (nat * Container)) : smap string :=
    flat_map (fun x => match ct_build (snd x) with Some b => [(b_image b, w_rnd w (fst x))] | None => [] end) q.
  Lemma renames_sub q : forall rn k v, In (k, v) (renamesOf (w_rnd w) q rn) -> In (k, v) rn \/ In (k, v) (buildsAt q).
  Proof using.
    induction q as [|[pos src] q IH]; intros rn k v H; cbn [renamesOf] in H; [auto|]. apply IH in H. unfold buildsAt. cbn [flat_map fst snd].
    destruct H as [H|H]; [|right; apply in_or_app; right; exact H]. unfold renameOf in H. cbn [fst snd] in H. destruct (ct_build src); [|auto].
    assert (X : In (k, v) rn \/ (k, v) = (b_image b, w_rnd w pos)).
    { clear IH. induction rn as [|[k1 v1] rn IH]; cbn in H; [destruct H as [H|[]]; auto|]. destruct (String.eqb (b_image b) k1).
      - destruct H as [H|H]; [auto|left; right; exact H].
      - destruct H as [H|H]; [left; left; exact H|]. destruct (IH H); [left; right; assumption|auto]. }
    destruct X as [X|X]; [auto|]. right. apply in_or_app. left. left. symmetry. exact X.
  Qed.
  Lemma renames_all q : forall rn k, In k (mkeys rn) \/ In k (mkeys (buildsAt q)) -> In k (mkeys (renamesOf (w_rnd w) q rn)).
  Proof using.
    induction q as [|[pos src] q IH]; intros rn k H; cbn [renamesOf]; [destruct H as [H|[]]; exact H|]. apply IH.
    unfold buildsAt in H. cbn [flat_map] in H. unfold mkeys in H. rewrite map_app, in_app_iff in H. unfold renameOf. cbn [fst snd] in *.
    destruct (ct_build src) as [b|]; [|cbn in H; unfold mkeys; tauto].
    rewrite In_mkeys_mset. cbn in H. unfold mkeys. intuition auto.
  Qed.

  Variables (c : Compiler) (hostDir : option string) (hostMount : bool) (p : Pipeline) (n : nat) (spec : Spec).
  Hypothesis HS : Standard w c hostDir hostMount.
  Hypothesis HK : Compiled w c p n spec.

  Section Pure.
  Variables (steps services : list Container) (vols : list Volume).
  Hypothesis HC : Complete p steps services vols.
  Let q := positions (stepDraws p) (nSteps c hostDir p services vols n) steps.
  Let rn := renamesOf (w_rnd w) q [].

  Lemma image_shape : Forall2 (fun o s => exists i,
      ds_image (st_docker s) = renameImage av (w_ord w i rn) (asked w p o) /\
      match o with FromStep src => exists pos, In (pos, src) q /\ md_uid (st_meta s) = w_rnd w pos | _ => True end)
    (origins p) (sp_steps (pure w c hostDir hostMount p steps services vols n)).
  Proof using HC.
    unfold pure, pureSpec. cbn [specOf sp_steps]. change (pureRename _ _ _ _ _ _ _ _) with rn.
    assert (A : Forall2 (fun o s => ds_image (st_docker s) = asked w p o /\
       match o with FromStep src => exists pos, In (pos, src) q /\ md_uid (st_meta s) = w_rnd w pos | _ => True end)
      (origins p) (pureSteps (w_rnd w) (w_glob w) (w_available w) (w_isPrintHigh w) (w_formatFloat w) (w_toJSON w) c hostDir hostMount p steps services vols n)).
    { rewrite (origins_complete _ _ _ _ HC). unfold pureSteps. apply Forall2_app; [|apply Forall2_app].
      - unfold pureCloneSteps. destruct (cl_disable (pi_clone p)); repeat constructor.
      - unfold pureServiceSteps. apply at_all. intros src uid _. split; [reflexivity|exact I].
      - unfold purePipelineSteps. fold q. assert (Q : map snd q = steps) by apply positions_snd. rewrite <- Q at 1. rewrite map_map.
        assert (S : forall x, In x q -> In x q) by auto. revert S. generalize q at 1 4 5. intro l. clear Q.
        induction l as [|[pos src] l IH]; intro S; constructor.
        + unfold at_. cbn [fst snd]. split; [unfold pipelineStep, baseStep, asked; destruct (ct_build src); reflexivity|].
          exists pos. split; [apply S; left; reflexivity|unfold pipelineStep, baseStep; destruct (ct_build src); reflexivity].
        + apply IH. intros x Hx. apply S. right. exact Hx. }
    revert A. generalize (origins p). intro os. set (ss := pureSteps _ _ _ _ _ _ _ _ _ _ _ _ _ _). clearbody ss. generalize 0.
    revert os. induction ss as [|s ss IH]; intros os i A; inversion A as [|o s' os' ss' [A1 A2] A3 E1 E2]; subst; cbn [renameSteps]; constructor.
    - exists i. split; [cbn; f_equal; exact A1|exact A2].
    - exact (IH _ (S i) A3).
  Qed.
  Lemma builds_q : builds (origins p) = mkeys (buildsAt q).
  Proof using HC.
    rewrite (origins_complete _ _ _ _ HC). unfold builds. rewrite !flat_map_app.
    replace (flat_map _ (if cl_disable (pi_clone p) then [] else [FromClone])) with (@nil string) by (destruct (cl_disable _); reflexivity).
    replace (flat_map _ (map FromService services)) with (@nil string) by (clear; induction services; [reflexivity|assumption]). cbn [app].
    assert (Q : map snd q = steps) by apply positions_snd. rewrite <- Q. clear Q. unfold buildsAt, mkeys.
    generalize q. intro l. induction l as [|[pos src] l IH]; [reflexivity|]. cbn [map flat_map fst snd]. rewrite map_app, IH. destruct (ct_build src); reflexivity.
  Qed.
  End Pure.

  Theorem images_asked : Forall2 (fun o s =>
      (forall k, In k (builds (origins p)) -> MatchTag av (asked w p o) k = false) -> ds_image (st_docker s) = asked w p o)
    (origins p) (sp_steps spec).
  Proof using HO HS HK.
    destruct (compiled_pure _ _ _ _ _ _ _ HS HK) as (steps & services & vols & HC & ->).
    eapply Forall2_weaken; [|exact (image_shape _ _ _ HC)]. intros o s (i & E & _) H. rewrite E. apply renameImage_none.
    intros k v Hin. apply H. rewrite (builds_q _ _ _ HC). eapply Permutation_in in Hin; [|symmetry; apply HO].
    apply renames_sub in Hin as [[]|Hin]. apply (in_map fst) in Hin. exact Hin.
  Qed.

  (** No two build sections name the same image, and no build section names an image by the
      generated name of another. *)
  Definition DistinctBuilds : Prop := NoDup (map (Expand av) (builds (origins p))).
  Definition NoAliasClash : Prop := forall k k' s, In k (builds (origins p)) -> In k' (builds (origins p)) -> In s (sp_steps spec) ->
    MatchTag av (Trim av k +++ ":" +++ md_uid (st_meta s))%string k' = false.

  Theorem images_built : DistinctBuilds -> NoAliasClash ->
    forall o s src b t, In (o, s) (combine (origins p) (sp_steps spec)) -> In (FromStep src, t) (combine (origins p) (sp_steps spec)) ->
      ct_build src = Some b -> MatchTag av (asked w p o) (b_image b) = true ->
      ds_image (st_docker s) = Expand av (Trim av (b_image b) +++ ":" +++ md_uid (st_meta t))%string.
  Proof using HO HS HK.
    unfold DistinctBuilds, NoAliasClash.
    destruct (compiled_pure _ _ _ _ _ _ _ HS HK) as (steps & services & vols & HC & ->).
    set (ss := sp_steps (pure w c hostDir hostMount p steps services vols n)).
    pose proof (image_shape _ _ _ HC) as F. fold ss in F. set (q := positions (stepDraws p) (nSteps c hostDir p services vols n) steps) in *.
    intros DB NC o s src b t Hs Ht Hb HM.
    assert (FI : forall o s, In (o, s) (combine (origins p) ss) -> exists i, ds_image (st_docker s) = renameImage av (w_ord w i (renamesOf (w_rnd w) q [])) (asked w p o) /\
      match o with FromStep src => exists pos, In (pos, src) q /\ md_uid (st_meta s) = w_rnd w pos | _ => True end).
    { clear - F. induction F as [|o s os ss H _ IH]; intros o' s' Hin; [destruct Hin|]. destruct Hin as [[= <- <-]|Hin]; [exact H|exact (IH _ _ Hin)]. }
    destruct (FI _ _ Ht) as (_ & _ & pos & Hpos & Hu). destruct (FI _ _ Hs) as (i & E & _). rewrite E. clear E F.
    assert (Bq : In (b_image b, w_rnd w pos) (buildsAt q)) by (apply in_flat_map; exists (pos, src); split; [exact Hpos|]; cbn; rewrite Hb; left; reflexivity).
    pose proof (builds_q _ _ _ HC) as BQ. fold q in BQ. rewrite BQ in *.
    assert (NDk : NoDup (mkeys (buildsAt q))) by (apply NoDup_map_inv in DB; exact DB).
    assert (Inj : forall k v k' v', In (k, v) (buildsAt q) -> In (k', v') (buildsAt q) -> Expand av k = Expand av k' -> v = v').
    { intros k v k' v' H1 H2 EE. assert (k = k').
      { clear - DB H1 H2 EE. apply (in_map fst) in H1, H2. cbn in H1, H2. unfold mkeys in DB. revert DB H1 H2. generalize (map fst (buildsAt q)). intro l.
        induction l as [|x l IH]; cbn; [intros _ []|]. intros ND H1 H2. apply NoDup_cons_iff in ND as [Nx ND].
        destruct H1 as [<-|H1], H2 as [<-|H2]; [reflexivity| | |exact (IH ND H1 H2)].
        - exfalso. apply Nx. rewrite EE. apply in_map. exact H2.
        - exfalso. apply Nx. rewrite <- EE. apply in_map. exact H1. }
      subst k'. apply (mget_unique k v _ NDk) in H1. apply (mget_unique k v' _ NDk) in H2. congruence. }
    set (rn := renamesOf (w_rnd w) q []).
    assert (Sub : forall k v, In (k, v) (w_ord w i rn) -> In (k, v) (buildsAt q)).
    { intros k v H. eapply Permutation_in in H; [|symmetry; apply HO]. apply renames_sub in H as [[]|H]. exact H. }
    assert (Has : In (b_image b, w_rnd w pos) (w_ord w i rn)).
    { eapply Permutation_in; [apply HO|]. assert (Hk : In (b_image b) (mkeys rn)) by (apply renames_all; right; apply (in_map fst) in Bq; exact Bq).
      apply in_map_iff in Hk as ([k v] & Ek & Hk). cbn in Ek. subst k. pose proof Hk as Hk'. apply renames_sub in Hk' as [[]|Hk'].
      rewrite (Inj _ _ _ _ Bq Hk' eq_refl). exact Hk. }
    rewrite (renameImage_one _ (b_image b) (w_rnd w pos)); [|exact Has|exact HM| |].
    - rewrite (match_trim _ _ HM), Hu. reflexivity.
    - intros k' v' Hin HM'. apply Sub in Hin. symmetry. apply (Inj _ _ _ _ Bq Hin). unfold MatchTag in HM, HM'. apply String.eqb_eq in HM, HM'. congruence.
    - intros k' v' Hin. apply Sub in Hin. rewrite (match_trim _ _ HM), <- Hu. apply (in_map fst) in Hin, Bq.
      assert (X := NC _ _ t Bq Hin (in_combine_r _ _ _ _ Ht)). unfold MatchTag in *. rewrite Expand_idem. exact X.
  Qed.
End Images.
