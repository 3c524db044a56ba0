(** * SecretNames.v: the linter and the compiler under other names of secrets. *)
From Coq Require Import Lia.
From Verif Require Import Model.Go Model.Types Model.Cond Model.Engine Model.Image Model.Dind Model.Compiler Model.Lint
  Spec.CompileSpec Spec.SecretNameSpec Proofs.GoFacts Proofs.CompilePure Proofs.CompileFacts.

Section Names.
  Variable r : string -> string.
  Variable lit : string.
  Variable val : value.
  Notation ask := (askContainer r lit val).
  Notation q := (askPipeline r lit val).
  Lemma ask_fold (f : list string -> option Container -> outcome (list string)) l :
    (forall names c, f names (option_map ask c) = f names c) ->
    forall names, ofold f (map (option_map ask) l) names = ofold f l names.
  Proof using.
    intro H. induction l as [|c l IH]; intro names; [reflexivity|]. cbn [map ofold]. rewrite H. destruct (f names c); cbn [obind]; [apply IH|reflexivity|reflexivity].
  Qed.
  Theorem lint_asked p trusted : Lint (RPipeline (q p)) trusted = Lint (RPipeline p) trusted.
  Proof using.
    cbn [Lint]. unfold checkPipeline, checkVolumes. cbn [askPipeline pi_volumes pi_platform pi_clone pi_steps pi_services].
    destruct (oiter (checkVolume trusted) (pi_volumes p)); cbn [obind]; try reflexivity.
    destruct (checkPlatform (pi_platform p)); cbn [obind]; try reflexivity. cbv zeta.
    rewrite (ask_fold (checkStep trusted)) by (intros ? [?|]; reflexivity).
    destruct (ofold (checkStep trusted) (pi_steps p) _) as [names|e|]; cbn [obind]; try reflexivity.
    rewrite (ask_fold (checkService trusted)) by (intros ? [?|]; reflexivity). reflexivity.
  Qed.

  Hypothesis Hr : SecretRenaming r.
  Variable w : World.
  Variable c : Compiler.
  Variables (hostDir : option string) (hostMount : bool).
  Hypothesis HS : Standard w c hostDir hostMount.
  Hypothesis Hc : BlindToSecrets r lit val c.
  Lemma named_empty a : a <> "" -> isEmpty (r a) = false /\ isEmpty a = false.
  Proof using Hr. intro H. pose proof (Hr a H) as H'. destruct a, (r _); cbn; try congruence; split; reflexivity. Qed.
  Lemma env_asked l : plainEnv (map (fun x => (fst x, option_map (askVariable r lit) (snd x))) l) = plainEnv l /\
    secretEnv (map (fun x => (fst x, option_map (askVariable r lit) (snd x))) l) = map (askSecret r) (secretEnv l).
  Proof using Hr.
    induction l as [|[k [v|]] l (I1 & I2)]; [split; reflexivity| |exact (conj I1 I2)].
    unfold plainEnv, secretEnv in *. cbn [map flat_map fst snd option_map]. rewrite I1, I2, map_app. unfold askVariable.
    destruct v as [x s]. cbn [v_secret v_value]. destruct s as [|a s]; [split; reflexivity|].
    destruct (named_empty (String a s)) as (E & _); [discriminate|]. cbn [v_secret v_value]. rewrite E. split; reflexivity.
  Qed.
  Lemma settings_asked l :
    plainSettings (w_formatFloat w) (w_toJSON w) (map (fun x => (fst x, option_map (askParameter r val) (snd x))) l) = plainSettings (w_formatFloat w) (w_toJSON w) l /\
    secretSettings (map (fun x => (fst x, option_map (askParameter r val) (snd x))) l) = map (askSecret r) (secretSettings l).
  Proof using Hr.
    induction l as [|[k [v|]] l (I1 & I2)]; [split; reflexivity| |exact (conj I1 I2)].
    unfold plainSettings, secretSettings in *. cbn [map flat_map fst snd option_map]. rewrite I1, I2, map_app. unfold askParameter.
    destruct v as [x s]. cbn [p_secret p_value]. destruct s as [|a s]; [split; reflexivity|].
    destruct (named_empty (String a s)) as (E & _); [discriminate|]. cbn [p_secret p_value]. rewrite E. split; reflexivity.
  Qed.
  Lemma ask_complete p steps services vols : Complete p steps services vols -> Complete (q p) (map ask steps) (map ask services) vols.
  Proof using.
    intros (H1 & H2 & H3 & H4 & H5). unfold Complete. cbn [askPipeline pi_steps pi_services pi_volumes]. rewrite H1, H2, !map_map.
    split; [reflexivity|]. split; [reflexivity|]. split; [exact H3|].
    split; apply Forall_map; eapply Forall_impl; [|exact H4| |exact H5]; intros x Hx; exact Hx.
  Qed.
  Lemma map_back {A} (f : A -> A) l : forall k, map (option_map f) l = map Some k -> exists k', l = map Some k' /\ k = map f k'.
  Proof using.
    induction l as [|x l IH]; intros [|y k] E; cbn [map] in E; try discriminate; [exists []; split; reflexivity|].
    destruct x as [x|]; cbn [option_map] in E; [|discriminate].
    assert (E1 : f x = y) by congruence. assert (E2 : map (option_map f) l = map Some k) by congruence.
    destruct (IH k E2) as (k' & -> & ->). exists (x :: k'). subst y. split; reflexivity.
  Qed.
  Lemma ask_back p steps services vols : Complete (q p) steps services vols -> exists st se, Complete p st se vols.
  Proof using.
    intros (H1 & H2 & H3 & H4 & H5). cbn [askPipeline pi_steps pi_services pi_volumes] in H1, H2, H3.
    destruct (map_back _ _ _ H1) as (st & E1 & ->), (map_back _ _ _ H2) as (se & E2 & ->). exists st, se.
    rewrite Forall_map in H4, H5. split; [exact E1|]. split; [exact E2|]. split; [exact H3|].
    split; [revert H4|revert H5]; apply Forall_impl; intros x Hx; exact Hx.
  Qed.
  Lemma plain_asked p ns x uid :
    plainStep (w_glob w) (w_available w) (w_isPrintHigh w) (w_formatFloat w) (w_toJSON w) ns (q p) (ask x) uid =
    askStep r (plainStep (w_glob w) (w_available w) (w_isPrintHigh w) (w_formatFloat w) (w_toJSON w) ns p x uid).
  Proof using Hr.
    unfold plainStep at 2, askStep. cbn [st_meta st_detach st_depends st_devices st_docker st_envs st_files st_ignore_err st_ignore_stderr
      st_ignore_stdout st_resources st_policy st_secrets st_volumes st_working_dir].
    destruct (env_asked (ct_environment x)) as (<- & E2), (settings_asked (ct_settings x)) as (<- & E4). rewrite map_app, <- E2, <- E4. reflexivity.
  Qed.
  Lemma build_asked ns x b uid :
    buildStep (w_glob w) (w_available w) ns (ask x) b uid = askStep r (buildStep (w_glob w) (w_available w) ns x b uid).
  Proof using. reflexivity. Qed.
  Lemma placed_asked ws x s : placed hostMount ws (ask x) (askStep r s) = askStep r (placed hostMount ws x s).
  Proof using. reflexivity. Qed.
  Lemma adjusted_asked x deps s : adjusted c (ask x) deps (askStep r s) = askStep r (adjusted c x deps s).
  Proof using Hc.
    destruct (Hc x) as (H1 & H2). unfold adjusted, askStep, isPrivileged, isSkipped. cbn [st_meta st_detach st_depends st_devices st_docker st_envs st_files st_ignore_err st_ignore_stderr
      st_ignore_stdout st_resources st_policy st_secrets st_volumes st_working_dir].
    destruct (co_privileged c) as [f|], (co_skip c) as [g|]; rewrite ?H1, ?H2; reflexivity.
  Qed.
  Lemma service_asked p ns ws ser x uid :
    serviceStep (w_glob w) (w_available w) (w_isPrintHigh w) (w_formatFloat w) (w_toJSON w) ns (q p) c hostMount ws ser (ask x) uid =
    askStep r (serviceStep (w_glob w) (w_available w) (w_isPrintHigh w) (w_formatFloat w) (w_toJSON w) ns p c hostMount ws ser x uid).
  Proof using Hr Hc.
    unfold serviceStep. cbv zeta. rewrite plain_asked.
    change (set_detach true (askStep r ?s)) with (askStep r (set_detach true s)). rewrite placed_asked, adjusted_asked. reflexivity.
  Qed.
  Lemma pipeline_asked p ns ws ser x uid :
    pipelineStep (w_glob w) (w_available w) (w_isPrintHigh w) (w_formatFloat w) (w_toJSON w) ns (q p) c hostMount ws ser (ask x) uid =
    askStep r (pipelineStep (w_glob w) (w_available w) (w_isPrintHigh w) (w_formatFloat w) (w_toJSON w) ns p c hostMount ws ser x uid).
  Proof using Hr Hc.
    unfold pipelineStep. cbv zeta.
    assert (B : baseStep (w_glob w) (w_available w) (w_isPrintHigh w) (w_formatFloat w) (w_toJSON w) ns (q p) (ask x) uid =
                askStep r (baseStep (w_glob w) (w_available w) (w_isPrintHigh w) (w_formatFloat w) (w_toJSON w) ns p x uid)).
    { unfold baseStep. change (ct_build (ask x)) with (ct_build x). destruct (ct_build x); [apply build_asked|apply plain_asked]. }
    rewrite B, placed_asked, adjusted_asked. reflexivity.
  Qed.
  Lemma clone_asked p ns ws uid :
    cloneStep (w_glob w) (w_available w) (w_isPrintHigh w) (w_formatFloat w) (w_toJSON w) ns (q p) c hostMount ws uid =
    askStep r (cloneStep (w_glob w) (w_available w) (w_isPrintHigh w) (w_formatFloat w) (w_toJSON w) ns p c hostMount ws uid).
  Proof using Hr.
    unfold cloneStep. change (createClone (q p)) with (createClone p).
    assert (N : ask (createClone p) = createClone p) by reflexivity.
    rewrite <- N at 1. rewrite <- placed_asked. rewrite N. f_equal.
  Qed.
  Lemma positions_asked (d d' : Container -> nat) l : (forall x, d' (ask x) = d x) -> forall n,
    positions d' n (map ask l) = map (fun k => (fst k, ask (snd k))) (positions d n l) /\
    after d' n (map ask l) = after d n l.
  Proof using.
    intro H. induction l as [|x l IH]; intro n; [split; reflexivity|]. cbn [map positions after]. rewrite H.
    destruct (IH (n + d x)) as (-> & ->). split; reflexivity.
  Qed.
  Lemma rename_asked av ord m l : forall i, renameSteps av ord i m (map (askStep r) l) = map (askStep r) (renameSteps av ord i m l).
  Proof using. induction l as [|x l IH]; intro i; [reflexivity|]. cbn [map renameSteps]. rewrite IH. reflexivity. Qed.
  Lemma flat_asked {A} (f g : A -> list File) l (h : A -> A) : (forall a, f (h a) = g a) -> flat_map f (map h l) = flat_map g l.
  Proof using. intro H. induction l as [|x l IH]; [reflexivity|]. cbn [map flat_map]. rewrite H, IH. reflexivity. Qed.

  Lemma pure_asked p steps services vols n :
    pure w c hostDir hostMount (q p) (map ask steps) (map ask services) vols n =
    askSpec r (pure w c hostDir hostMount p steps services vols n) /\
    nEnd (w_rnd w) c hostDir (q p) (map ask steps) (map ask services) vols n =
    nEnd (w_rnd w) c hostDir p steps services vols n.
  Proof using Hr Hc.
    assert (S : serial (map ask steps) = serial steps).
    { unfold serial. induction steps as [|x l IH]; [reflexivity|]. cbn [map forallb]. rewrite IH. reflexivity. }
    assert (NS : nServices c hostDir (q p) vols n = nServices c hostDir p vols n).
    { reflexivity. }
    assert (D1 : forall x, draws (q p) (ask x) = draws p x) by reflexivity.
    assert (D2 : forall x, stepDraws (q p) (ask x) = stepDraws p x) by reflexivity.
    assert (NT : nSteps c hostDir (q p) (map ask services) vols n = nSteps c hostDir p services vols n).
    { unfold nSteps. rewrite NS. apply (positions_asked (draws p)), D1. }
    assert (NO : nSocket c hostDir (q p) (map ask steps) (map ask services) vols n = nSocket c hostDir p steps services vols n).
    { unfold nSocket. rewrite NT. apply (positions_asked (stepDraws p)), D2. }
    assert (R : pureRename (w_rnd w) c hostDir (q p) (map ask steps) (map ask services) vols n =
                pureRename (w_rnd w) c hostDir p steps services vols n).
    { unfold pureRename. rewrite NT. rewrite (proj1 (positions_asked (stepDraws p) _ steps D2 _)).
      generalize (positions (stepDraws p) (nSteps c hostDir p services vols n) steps) ([] : smap string).
      induction l as [|x l IH]; intro m; [reflexivity|]. cbn [map renamesOf fst snd]. rewrite IH. reflexivity. }
    split; [|unfold nEnd; rewrite R, NO; reflexivity].
    unfold pure, pureSpec, specOf, askSpec. cbn [sp_meta sp_platform sp_docker sp_files sp_secrets sp_steps option_map dc_auths dc_volumes].
    assert (V : pureVolumes (w_rnd w) c hostDir (q p) (map ask steps) (map ask services) vols n = pureVolumes (w_rnd w) c hostDir p steps services vols n).
    { unfold pureVolumes. rewrite R, NO. reflexivity. }
    assert (F : pureFiles (w_rnd w) (w_isPrintHigh w) c hostDir (q p) (map ask steps) (map ask services) vols n =
                pureFiles (w_rnd w) (w_isPrintHigh w) c hostDir p steps services vols n).
    { unfold pureFiles. rewrite NS, NT, (proj1 (positions_asked (draws p) _ services D1 _)), (proj1 (positions_asked (stepDraws p) _ steps D2 _)).
      f_equal; f_equal; apply flat_asked; reflexivity. }
    assert (T : pureSteps (w_rnd w) (w_glob w) (w_available w) (w_isPrintHigh w) (w_formatFloat w) (w_toJSON w) c hostDir hostMount (q p)
                  (map ask steps) (map ask services) vols n =
                map (askStep r) (pureSteps (w_rnd w) (w_glob w) (w_available w) (w_isPrintHigh w) (w_formatFloat w) (w_toJSON w) c hostDir hostMount p steps services vols n)).
    { unfold pureSteps. rewrite !map_app. f_equal; [|f_equal].
      - unfold pureCloneSteps. change (pi_clone (q p)) with (pi_clone p). destruct (cl_disable (pi_clone p)); [reflexivity|].
        cbn [map]. rewrite <- clone_asked. reflexivity.
      - unfold pureServiceSteps. rewrite NS, S, (proj1 (positions_asked (draws p) _ services D1 _)), !map_map. apply map_ext. intro a. unfold at_. cbn [fst snd].
        rewrite <- service_asked. reflexivity.
      - unfold purePipelineSteps. rewrite NT, S, (proj1 (positions_asked (stepDraws p) _ steps D2 _)), !map_map. apply map_ext. intro a. unfold at_. cbn [fst snd].
        rewrite <- pipeline_asked. reflexivity. }
    rewrite V, F, T, R, rename_asked. reflexivity.
  Qed.
  Theorem compile_asked p n : compileIn w c (askPipeline r lit val p) n =
    match compileIn w c p n with Ok (s, m) => Ok (askSpec r s, m) | Err e => Err e | Panic => Panic end.
  Proof using HS Hr Hc.
    destruct (compile_total w c hostDir hostMount p n HS) as (T1 & T2), (compile_total w c hostDir hostMount (q p) n HS) as (T1' & T2').
    destruct (compileIn w c p n) as [[s m]|e|] eqn:E.
    - assert (X : exists steps services vols, Complete p steps services vols) by (apply T1; exists s; now exists m).
      destruct X as (steps & services & vols & X). pose proof (compile_pure w c _ _ _ _ _ _ n HS X) as Y. rewrite E in Y. injection Y as -> ->.
      rewrite (compile_pure w c _ _ _ _ _ _ n HS (ask_complete _ _ _ _ X)).
      destruct (pure_asked p steps services vols n) as (-> & ->). reflexivity.
    - exfalso. exact (compile_no_err _ _ _ _ _ _ _ HS E).
    - apply T2'. intros (st & se & vo & X). apply (proj2 T2 eq_refl). destruct (ask_back _ _ _ _ X) as (st' & se' & Y). now exists st', se', vo.
  Qed.
End Names.
Lemma package_blind_secrets r lit val c av images glob data : co_privileged c = Some (DindFunc av images) -> co_skip c = Some (SkipFunc glob data) -> BlindToSecrets r lit val c.
Proof. intros P S x. rewrite P, S. split; reflexivity. Qed.
