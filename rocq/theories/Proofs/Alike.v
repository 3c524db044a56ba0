(** * Alike.v: a container is compiled alike wherever it stands. *)
From Coq Require Import Lia Sorting.Permutation.
From Verif Require Import Model.Go Model.Types Model.Cond Model.Engine Model.Image Model.Quote
  Model.Script Model.Path Model.Encode Model.Compiler Spec.CompileSpec Spec.AlikeSpec Proofs.GoFacts Proofs.CompilePure Proofs.CompileFacts Proofs.Grow.

Lemma Forall2_nth {A B} (R : A -> B -> Prop) l l' : Forall2 R l l' -> forall i a b, nth_error l i = Some a -> nth_error l' i = Some b -> R a b.
Proof. induction 1 as [|x y l l' H _ IH]; intros [|i] a b Ha Hb; cbn in *; try discriminate; [congruence|eauto]. Qed.
Lemma Forall2_mapr {A B C} (R : A -> C -> Prop) (f : B -> C) l l' : Forall2 (fun a b => R a (f b)) l l' -> Forall2 R l (map f l').
Proof. induction 1; cbn; constructor; auto. Qed.
Lemma Forall2_mapl {A B C} (R : C -> B -> Prop) (f : A -> C) l l' : Forall2 (fun a b => R (f a) b) l l' -> Forall2 R (map f l) l'.
Proof. induction 1; cbn; constructor; auto. Qed.
Lemma positions_snd dr l : forall n, Forall2 (fun a q => snd q = a) l (positions dr n l).
Proof. induction l as [|x l IH]; intro n; cbn; constructor; auto. Qed.
Lemma Forall2_weaken {A B} (R S : A -> B -> Prop) l l' : (forall a b, R a b -> S a b) -> Forall2 R l l' -> Forall2 S l l'.
Proof. intros H. induction 1; constructor; auto. Qed.

Section Alike.
  Variables (w : World) (c : Compiler) (hostDir : option string) (hostMount : bool).
  Hypothesis HS : Standard w c hostDir hostMount.
  Hypothesis HO : OrderOk w.
  Let glob := w_glob w. Let available := w_available w. Let ip := w_isPrintHigh w. Let ff := w_formatFloat w. Let tj := w_toJSON w.

  Definition made (ns : string) (p : Pipeline) (ser : bool) (o : Origin) (uid : string) : Step :=
    match o with
    | FromClone => cloneStep glob available ip ff tj ns p c hostMount (createWorkspace p) uid
    | FromService x => serviceStep glob available ip ff tj ns p c hostMount (createWorkspace p) ser x uid
    | FromStep x => pipelineStep glob available ip ff tj ns p c hostMount (createWorkspace p) ser x uid
    end.
  Lemma renamed_image rn l : forall i k s, nth_error (renameSteps available (w_ord w) i rn l) k = Some s ->
    exists t, nth_error l k = Some t /\ s = set_docker (set_image (renameImage available (w_ord w (i + k) rn) (ds_image (st_docker t))) (st_docker t)) t.
  Proof using.
    induction l as [|x l IH]; intros i [|k] s H; cbn in H; try discriminate.
    - injection H as <-. exists x. rewrite Nat.add_0_r. auto.
    - destruct (IH _ _ _ H) as (t & Ht & ->). exists t. rewrite <- Nat.add_succ_comm. auto.
  Qed.
  Lemma made_all p steps services vols n : Complete p steps services vols ->
    Forall2 (fun o s => exists uid, s = made (w_rnd w n) p (serial steps) o uid) (origins p)
      (pureSteps (w_rnd w) glob available ip ff tj c hostDir hostMount p steps services vols n).
  Proof using.
    intros (H1 & H2 & _). unfold origins, pureSteps. rewrite H1, H2, !somes_map.
    apply Forall2_app; [|apply Forall2_app].
    - unfold pureCloneSteps. destruct (cl_disable (pi_clone p)); constructor; [|constructor]. eexists. reflexivity.
    - apply Forall2_mapl, Forall2_mapr. eapply Forall2_weaken; [|apply positions_snd]. intros a q <-. eexists. reflexivity.
    - apply Forall2_mapl, Forall2_mapr. eapply Forall2_weaken; [|apply positions_snd]. intros a q <-. eexists. reflexivity.
  Qed.
  Definition plain (o : Origin) : Prop := match o with FromStep x => ct_build x = None | _ => True end.
  Ltac fields := cbn [st_meta md_name md_labels st_detach st_depends st_devices st_envs st_files st_ignore_err st_ignore_stderr st_ignore_stdout
    st_resources st_policy st_secrets st_volumes st_working_dir st_docker ds_args ds_command ds_dns ds_dns_search ds_extra_hosts ds_image
    ds_network ds_networks ds_ports ds_privileged ds_pull ds_user set_detach set_files set_envs set_docker set_pull].
  Ltac given := let H := fresh in intro H;
    repeat match goal with H : _ /\ _ |- _ => destruct H end; repeat match goal with E : _ = _ |- _ => rewrite ?E; clear E end.
  Ltac same := repeat match goal with |- _ /\ _ => split end; reflexivity.
  Lemma placed_alike ws x s t : Alike s t -> Alike (placed hostMount ws x s) (placed hostMount ws x t).
  Proof using.
    unfold Alike, AlikeButImage, placed. cbv zeta. fields.
    given. same.
  Qed.
  Lemma adjusted_alike x deps s t : Alike s t -> Alike (adjusted c x deps s) (adjusted c x deps t).
  Proof using.
    unfold Alike, AlikeButImage, adjusted. cbv zeta. fields.
    given. same.
  Qed.
  Lemma plain_alike ns ns' p q x u v : pi_platform q = pi_platform p ->
    Alike (plainStep glob available ip ff tj ns p x u) (plainStep glob available ip ff tj ns' q x v).
  Proof using.
    intro H. unfold Alike, AlikeButImage, plainStep, stepMeta, argsOf, commandOf, fileMountsOf, scriptEnv. cbv zeta. fields. rewrite H. same.
  Qed.
  Lemma detach_alike s t : Alike s t -> Alike (set_detach true s) (set_detach true t).
  Proof using.
    unfold Alike, AlikeButImage. cbv zeta. fields.
    given. same.
  Qed.
  Lemma clone_alike ns ns' p q u v : pi_platform q = pi_platform p -> pi_clone q = pi_clone p ->
    Alike (cloneBase glob available ip ff tj ns p c u) (cloneBase glob available ip ff tj ns' q c v).
  Proof using.
    intros H H'. assert (E : createClone q = createClone p) by (unfold createClone, cloneImage; rewrite H; reflexivity).
    pose proof (plain_alike ns ns' p q (createClone p) u v H) as A. unfold cloneBase, cloneEnv. rewrite E, H'. revert A.
    generalize (plainStep glob available ip ff tj ns p (createClone p) u) (plainStep glob available ip ff tj ns' q (createClone p) v). intros s t.
    unfold Alike, AlikeButImage. cbv zeta. fields.
    given. same.
  Qed.
  Lemma workspace_same p q : pi_platform q = pi_platform p -> pi_workspace q = pi_workspace p -> createWorkspace q = createWorkspace p.
  Proof using. intros A B. unfold createWorkspace. rewrite ?A, ?B. reflexivity. Qed.
  Lemma made_alike ns ns' p q ser o uid uid' : pi_platform q = pi_platform p -> pi_workspace q = pi_workspace p -> pi_clone q = pi_clone p -> plain o ->
    Alike (made ns p ser o uid) (made ns' q ser o uid').
  Proof using.
    intros H1 H2 H3 Hb. unfold made. rewrite (workspace_same p q H1 H2). destruct o as [|x|x]; cbn [plain] in Hb.
    - unfold cloneStep. replace (createClone q) with (createClone p) by (unfold createClone, cloneImage; rewrite H1; reflexivity).
      apply placed_alike, clone_alike; assumption.
    - unfold serviceStep. rewrite H3. apply adjusted_alike, placed_alike, detach_alike, plain_alike, H1.
    - unfold pipelineStep, baseStep. rewrite Hb, H3. apply adjusted_alike, placed_alike, plain_alike, H1.
  Qed.

  Lemma step_of p n a : Compiled w c p n a -> forall i o s, nth_error (origins p) i = Some o -> nth_error (sp_steps a) i = Some s ->
    exists steps uid image, pi_steps p = map Some steps /\
      s = set_docker (set_image image (st_docker (made (w_rnd w n) p (serial steps) o uid))) (made (w_rnd w n) p (serial steps) o uid) /\
      (~ HasBuild p -> image = ds_image (st_docker (made (w_rnd w n) p (serial steps) o uid))).
  Proof using HS HO.
    intros K i o s Ho Hs. destruct (compiled_pure _ _ _ _ _ _ _ HS K) as (steps & services & vols & HC & ->).
    pose proof (made_all p steps services vols n HC) as F. cbn [pure pureSpec specOf sp_steps] in Hs.
    destruct (renamed_image _ _ _ _ _ Hs) as (t & Ht & ->). destruct (Forall2_nth _ _ _ F _ _ _ Ho Ht) as (uid & ->).
    exists steps, uid. eexists. split; [apply HC|]. split; [reflexivity|]. intro NB.
    replace (pureRename (w_rnd w) c hostDir p steps services vols n) with (@nil (string * string)).
    - rewrite (Permutation_nil (HO (0 + i) [])). reflexivity.
    - unfold pureRename. symmetry. apply renamesOf_plain, Forall_forall. intros x Hx. destruct (ct_build x) as [b|] eqn:E; [|reflexivity].
      exfalso. apply NB. exists x, b. destruct HC as (H1 & _). rewrite H1, somes_map. auto.
  Qed.

  Lemma image_aside x y s t : Alike s t -> AlikeButImage (set_docker (set_image x (st_docker s)) s) (set_docker (set_image y (st_docker t)) t).
  Proof using. intros [A _]. exact A. Qed.

  Lemma alike_image p q n m a b : SamePlace p q -> Compiled w c p n a -> Compiled w c q m b -> forall i j o s t,
    nth_error (origins p) i = Some o -> nth_error (origins q) j = Some o -> ~ IsBuild o ->
    nth_error (sp_steps a) i = Some s -> nth_error (sp_steps b) j = Some t ->
    AlikeButImage s t /\ (~ HasBuild p -> ~ HasBuild q -> Alike s t).
  Proof using HS HO.
    intros (P1 & P2 & P3 & P4) Ka Kb i j o s t Hi Hj NB Hs Ht.
    destruct (step_of _ _ _ Ka _ _ _ Hi Hs) as (ps & u & x & Ep & -> & Ix). destruct (step_of _ _ _ Kb _ _ _ Hj Ht) as (qs & v & y & Eq & -> & Iy).
    rewrite (serial_iff _ _ _ _ Ep Eq P4) in *.
    assert (A : Alike (made (w_rnd w n) p (serial ps) o u) (made (w_rnd w m) q (serial ps) o v)).
    { apply made_alike; auto. unfold plain. destruct o as [| |k]; auto. destruct (ct_build k) eqn:E; [|reflexivity].
      exfalso. apply NB. eexists. eexists. split; [reflexivity|exact E]. }
    split; [apply image_aside, A|]. intros Np Nq. split; [apply image_aside, A|]. rewrite (Ix Np), (Iy Nq). exact (proj2 A).
  Qed.

  (** Build steps *)
  Definition SameButAlias (e f : smap string) : Prop :=
    map fst e = map fst f /\ forall k, k <> "DOCKER_BUILD_IMAGE_ALIAS" -> mget k e = mget k f.
  Lemma mset_fst (k v v' : string) : forall e f, map fst e = map fst f -> map fst (mset k v e) = map fst (mset k v' f).
  Proof using.
    induction e as [|[a x] e IH]; intros [|[b y] f] H; cbn in *; try discriminate; [reflexivity|]. injection H as <- H.
    destruct (String.eqb k a); cbn; f_equal; auto.
  Qed.
  Lemma mset_alias k v v' e f : SameButAlias e f -> (v = v' \/ k = "DOCKER_BUILD_IMAGE_ALIAS") -> SameButAlias (mset k v e) (mset k v' f).
  Proof using.
    intros [H1 H2] D. split; [apply mset_fst, H1|]. intros j Hj. rewrite !mget_mset. destruct (String.eqb j k) eqn:E; [|auto].
    apply String.eqb_eq in E as ->. destruct D as [->|D]; [reflexivity|contradiction].
  Qed.
  Lemma msets_alias l l' : Forall2 (fun x y => fst x = fst y /\ (snd x = snd y \/ fst x = "DOCKER_BUILD_IMAGE_ALIAS")) l l' ->
    forall e f, SameButAlias e f -> SameButAlias (msets l e) (msets l' f).
  Proof using.
    induction 1 as [|[k v] [k' v'] l l' [E D] _ IH]; intros e f H; cbn in *; [exact H|]. subst k'. apply IH, mset_alias; auto.
  Qed.
  Lemma build_alias b u v : SameButAlias (msets (buildEnv available b u) []) (msets (buildEnv available b v) []).
  Proof using.
    apply msets_alias; [|split; auto]. unfold buildEnv.
    destruct (Nat.ltb 0 (length (b_cache_from b))), (negb (isEmpty (b_dockerfile b))), (negb (isEmpty (b_context b))), (negb (isEmpty (b_image b)));
      cbn [app]; repeat (apply Forall2_cons; [split; [reflexivity|first [left; reflexivity|right; reflexivity]]|]); apply Forall2_nil.
  Qed.
  Lemma base_build ns ns' x b u v : AlikeBuild (buildStep glob available ns x b u) (buildStep glob available ns' x b v).
  Proof using.
    split.
    - unfold AlikeButImage, buildStep, stepMeta. cbv zeta. fields. same.
    - exists (msets (buildEnv available b u) []), (msets (buildEnv available b v) []). split; [reflexivity|]. split; [reflexivity|]. exact (build_alias b u v).
  Qed.
  Lemma placed_build ws x s t : AlikeBuild s t -> AlikeBuild (placed hostMount ws x s) (placed hostMount ws x t).
  Proof using.
    intros [A (e & f & E & F & H)]. split.
    - revert A. clear. unfold AlikeButImage, placed. cbv zeta. fields. given. same.
    - exists (msets (workspaceEnv ws) e), (msets (workspaceEnv ws) f). unfold placed. fields. rewrite E, F. split; [reflexivity|]. split; [reflexivity|].
      apply msets_alias; [|exact H]. clear. induction (workspaceEnv ws); constructor; auto.
  Qed.
  Lemma adjusted_build x deps s t : AlikeBuild s t -> AlikeBuild (adjusted c x deps s) (adjusted c x deps t).
  Proof using.
    intros [A (e & f & E & F & H)]. split.
    - revert A. clear. unfold AlikeButImage, adjusted. cbv zeta. fields. given. same.
    - exists e, f. auto.
  Qed.
  Lemma made_build ns ns' p q ser x b uid uid' : pi_platform q = pi_platform p -> pi_workspace q = pi_workspace p -> pi_clone q = pi_clone p ->
    ct_build x = Some b -> AlikeBuild (made ns p ser (FromStep x) uid) (made ns' q ser (FromStep x) uid').
  Proof using.
    intros H1 H2 H3 Hb. unfold made, pipelineStep, baseStep. rewrite Hb, H3, (workspace_same p q H1 H2).
    apply adjusted_build, placed_build, base_build.
  Qed.
  Lemma alike_build p q n m a b : SamePlace p q -> Compiled w c p n a -> Compiled w c q m b -> forall i j o s t,
    nth_error (origins p) i = Some o -> nth_error (origins q) j = Some o -> IsBuild o ->
    nth_error (sp_steps a) i = Some s -> nth_error (sp_steps b) j = Some t -> AlikeBuild s t.
  Proof using HS HO.
    intros (P1 & P2 & P3 & P4) Ka Kb i j o s t Hi Hj (k & bb & -> & E) Hs Ht.
    destruct (step_of _ _ _ Ka _ _ _ Hi Hs) as (ps & u & x & Ep & -> & _). destruct (step_of _ _ _ Kb _ _ _ Hj Ht) as (qs & v & y & Eq & -> & _).
    rewrite (serial_iff _ _ _ _ Ep Eq P4) in *.
    exact (made_build (w_rnd w n) (w_rnd w m) p q (serial ps) k bb u v P1 P2 P3 E).
  Qed.
End Alike.
