(** * Renamed.v: the linter and the compiler under other names. *)
From Coq Require Import Lia.
From Verif Require Import Model.Go Model.Types Model.Cond Model.Engine Model.Image Model.Dind Model.Compiler Model.Lint
  Spec.CompileSpec Spec.NamesSpec Proofs.GoFacts Proofs.CompilePure Proofs.CompileFacts.

Section Lint.
  Variable r : string -> string.
  Hypothesis Hr : Renaming r.
  Lemma name_eqb a b : String.eqb (r a) (r b) = String.eqb a b.
  Proof using Hr.
    destruct Hr as (I & _). destruct (String.eqb_spec a b) as [->|N]; [apply String.eqb_refl|]. apply String.eqb_neq. intro X. now apply N, I.
  Qed.
  Lemma name_mem a l : smem (r a) (map r l) = smem a l.
  Proof using Hr. unfold smem. induction l as [|b l IH]; [reflexivity|]. cbn [map existsb]. rewrite name_eqb, IH. reflexivity. Qed.
  Lemma name_empty a : isEmpty (r a) = isEmpty a.
  Proof using Hr.
    pose proof (name_eqb a "") as E. destruct Hr as (_ & Z & _). rewrite Z in E. destruct (r a), a; cbn in *; congruence.
  Qed.
  Lemma name_container c trusted : checkContainer (nameContainer r c) trusted = checkContainer c trusted.
  Proof using Hr.
    unfold checkContainer. cbn [nameContainer ct_ports ct_build ct_image ct_name ct_privileged ct_devices ct_dns ct_dns_search ct_extra_hosts ct_network ct_volumes].
    rewrite name_empty. reflexivity.
  Qed.
  Lemma name_deps c names : checkDeps (nameContainer r c) (map r names) = checkDeps c names.
  Proof using Hr.
    unfold checkDeps. cbn [nameContainer ct_depends ct_name]. induction (ct_depends c) as [|d l IH]; [reflexivity|]. cbn [map oiter].
    rewrite name_mem, name_eqb, IH. reflexivity.
  Qed.
  Definition named (x : outcome (list string)) : outcome (list string) :=
    match x with Ok l => Ok (map r l) | Err e => Err e | Panic => Panic end.
  Lemma name_step trusted names c : checkStep trusted (map r names) (option_map (nameContainer r) c) = named (checkStep trusted names c).
  Proof using Hr.
    destruct c as [c|]; [|reflexivity]. unfold checkStep. cbn [option_map deref obind]. change (ct_name (nameContainer r c)) with (r (ct_name c)).
    rewrite name_mem, name_container. destruct (refuse (smem (ct_name c) names) ErrDuplicateStepName); cbn [obind]; try reflexivity. cbv zeta.
    destruct (checkContainer c trusted); cbn [obind]; try reflexivity.
    change (r (ct_name c) :: map r names) with (map r (ct_name c :: names)). rewrite name_deps.
    destruct (checkDeps c (ct_name c :: names)); reflexivity.
  Qed.
  Lemma name_service trusted names c : checkService trusted (map r names) (option_map (nameContainer r) c) = named (checkService trusted names c).
  Proof using Hr.
    destruct c as [c|]; [|reflexivity]. unfold checkService. cbn [option_map deref obind]. change (ct_name (nameContainer r c)) with (r (ct_name c)).
    rewrite name_mem, name_container. destruct (refuse (smem (ct_name c) names) ErrDuplicateStepName); cbn [obind]; try reflexivity. cbv zeta.
    destruct (checkContainer c trusted); reflexivity.
  Qed.
  Lemma name_fold (f : list string -> option Container -> outcome (list string)) l :
    (forall names c, f (map r names) (option_map (nameContainer r) c) = named (f names c)) ->
    forall names, ofold f (map (option_map (nameContainer r)) l) (map r names) = named (ofold f l names).
  Proof using.
    intro H. induction l as [|c l IH]; intro names; [reflexivity|]. cbn [map ofold]. rewrite H.
    destruct (f names c); cbn [named obind]; [apply IH|reflexivity|reflexivity].
  Qed.
  Theorem lint_named p trusted : Lint (RPipeline (namePipeline r p)) trusted = Lint (RPipeline p) trusted.
  Proof using Hr.
    cbn [Lint]. unfold checkPipeline, checkVolumes. cbn [namePipeline pi_volumes pi_platform pi_clone pi_steps pi_services].
    destruct (oiter (checkVolume trusted) (pi_volumes p)); cbn [obind]; try reflexivity.
    destruct (checkPlatform (pi_platform p)); cbn [obind]; try reflexivity. cbv zeta.
    assert (E : (if cl_disable (pi_clone p) then [] else ["clone"]) = map r (if cl_disable (pi_clone p) then [] else ["clone"])).
    { destruct (cl_disable (pi_clone p)); [reflexivity|]. cbn [map]. destruct Hr as (_ & _ & ->). reflexivity. }
    rewrite E at 1. rewrite (name_fold (checkStep trusted)) by (intros; apply name_step).
    destruct (ofold (checkStep trusted) (pi_steps p) (if cl_disable (pi_clone p) then [] else ["clone"])) as [names|e|]; cbn [named obind]; try reflexivity.
    rewrite (name_fold (checkService trusted)) by (intros; apply name_service).
    destruct (ofold (checkService trusted) (pi_services p) names); reflexivity.
  Qed.
End Lint.

Section Compile.
  Variable w : World.
  Variable c : Compiler.
  Variables (hostDir : option string) (hostMount : bool).
  Hypothesis HS : Standard w c hostDir hostMount.
  Variable r : string -> string.
  Hypothesis Hr : KeepsOwn r.
  Hypothesis Hc : Blind r c.
  Let q := namePipeline r.
  Lemma name_complete p steps services vols : Complete p steps services vols ->
    Complete (q p) (map (nameContainer r) steps) (map (nameContainer r) services) vols.
  Proof using.
    intros (H1 & H2 & H3 & H4 & H5). unfold Complete, q. cbn [namePipeline pi_steps pi_services pi_volumes]. rewrite H1, H2, !map_map.
    split; [reflexivity|]. split; [reflexivity|]. split; [exact H3|].
    split; apply Forall_map; eapply Forall_impl; [|exact H4| |exact H5]; intros x Hx; exact Hx.
  Qed.
  (** Steps. *)
  Lemma complete_back p steps services vols : Complete (q p) steps services vols -> exists st se, Complete p st se vols.
  Proof using.
    assert (Back : forall l k, map (option_map (nameContainer r)) l = map Some k -> exists k', l = map Some k' /\ k = map (nameContainer r) k').
    { induction l as [|x l IH]; intros [|y k] E; cbn [map] in E; try discriminate; [exists []; split; reflexivity|].
      destruct x as [x|]; cbn [option_map] in E; [|discriminate].
      assert (E1 : nameContainer r x = y) by congruence. assert (E2 : map (option_map (nameContainer r)) l = map Some k) by congruence.
      destruct (IH k E2) as (k' & -> & ->). exists (x :: k'). subst y. split; reflexivity. }
    intros (H1 & H2 & H3 & H4 & H5). unfold q in *. cbn [namePipeline pi_steps pi_services pi_volumes] in H1, H2, H3.
    destruct (Back _ _ H1) as (st & E1 & ->), (Back _ _ H2) as (se & E2 & ->). exists st, se.
    rewrite Forall_map in H4, H5. split; [exact E1|]. split; [exact E2|]. split; [exact H3|].
    split; [revert H4|revert H5]; apply Forall_impl; intros x Hx; exact Hx.
  Qed.
  Lemma plain_named p ns x uid :
    plainStep (w_glob w) (w_available w) (w_isPrintHigh w) (w_formatFloat w) (w_toJSON w) ns (q p) (nameContainer r x) uid =
    nameStep r (plainStep (w_glob w) (w_available w) (w_isPrintHigh w) (w_formatFloat w) (w_toJSON w) ns p x uid).
  Proof using.
    unfold plainStep at 2, nameStep. cbn [st_meta st_detach st_depends st_devices st_docker st_envs st_files st_ignore_err st_ignore_stderr
      st_ignore_stdout st_resources st_policy st_secrets st_volumes st_working_dir].
    assert (F : map (nameMount r) (fileMountsOf p x) = fileMountsOf (q p) (nameContainer r x)).
    { unfold fileMountsOf. change (hasCommands (nameContainer r x)) with (hasCommands x).
      change (pi_platform (q p)) with (pi_platform p). destruct (hasCommands x && negb _); reflexivity. }
    rewrite F. reflexivity.
  Qed.
  Lemma build_named ns x b uid :
    buildStep (w_glob w) (w_available w) ns (nameContainer r x) b uid = nameStep r (buildStep (w_glob w) (w_available w) ns x b uid).
  Proof using. reflexivity. Qed.
  Lemma placed_named ws x s : placed hostMount ws (nameContainer r x) (nameStep r s) = nameStep r (placed hostMount ws x s).
  Proof using. reflexivity. Qed.
  Lemma adjusted_named x deps s : adjusted c (nameContainer r x) (map r deps) (nameStep r s) = nameStep r (adjusted c x deps s).
  Proof using Hc.
    destruct (Hc x) as (H1 & H2). unfold adjusted, nameStep, isPrivileged, isSkipped. cbn [st_meta st_detach st_depends st_devices st_docker st_envs st_files st_ignore_err st_ignore_stderr
      st_ignore_stdout st_resources st_policy st_secrets st_volumes st_working_dir].
    destruct (co_privileged c) as [f|], (co_skip c) as [g|]; rewrite ?H1, ?H2; reflexivity.
  Qed.
  Lemma service_named p ns ws ser x uid :
    serviceStep (w_glob w) (w_available w) (w_isPrintHigh w) (w_formatFloat w) (w_toJSON w) ns (q p) c hostMount ws ser (nameContainer r x) uid =
    nameStep r (serviceStep (w_glob w) (w_available w) (w_isPrintHigh w) (w_formatFloat w) (w_toJSON w) ns p c hostMount ws ser x uid).
  Proof using Hr Hc.
    unfold serviceStep. cbv zeta. rewrite plain_named.
    change (set_detach true (nameStep r ?s)) with (nameStep r (set_detach true s)). rewrite placed_named.
    change (pi_clone (q p)) with (pi_clone p). change (ct_depends (nameContainer r x)) with (map r (ct_depends x)).
    rewrite <- adjusted_named. f_equal. destruct (negb ser && negb (cl_disable (pi_clone p))); [|reflexivity].
    rewrite map_app. cbn [map]. unfold cloneStepName. rewrite (proj1 Hr). reflexivity.
  Qed.
  Lemma pipeline_named p ns ws ser x uid :
    pipelineStep (w_glob w) (w_available w) (w_isPrintHigh w) (w_formatFloat w) (w_toJSON w) ns (q p) c hostMount ws ser (nameContainer r x) uid =
    nameStep r (pipelineStep (w_glob w) (w_available w) (w_isPrintHigh w) (w_formatFloat w) (w_toJSON w) ns p c hostMount ws ser x uid).
  Proof using Hr Hc.
    unfold pipelineStep. cbv zeta. change (pi_clone (q p)) with (pi_clone p). change (ct_depends (nameContainer r x)) with (map r (ct_depends x)).
    assert (B : baseStep (w_glob w) (w_available w) (w_isPrintHigh w) (w_formatFloat w) (w_toJSON w) ns (q p) (nameContainer r x) uid =
                nameStep r (baseStep (w_glob w) (w_available w) (w_isPrintHigh w) (w_formatFloat w) (w_toJSON w) ns p x uid)).
    { unfold baseStep. change (ct_build (nameContainer r x)) with (ct_build x). destruct (ct_build x); [apply build_named|apply plain_named]. }
    rewrite B, placed_named, <- adjusted_named, map_length. f_equal.
    destruct (negb ser && negb (cl_disable (pi_clone p)) && Nat.eqb (length (ct_depends x)) 0); [|reflexivity].
    cbn [map]. unfold cloneStepName. rewrite (proj1 Hr). reflexivity.
  Qed.
  Lemma clone_named p ns ws uid :
    cloneStep (w_glob w) (w_available w) (w_isPrintHigh w) (w_formatFloat w) (w_toJSON w) ns (q p) c hostMount ws uid =
    nameStep r (cloneStep (w_glob w) (w_available w) (w_isPrintHigh w) (w_formatFloat w) (w_toJSON w) ns p c hostMount ws uid).
  Proof using Hr.
    unfold cloneStep. change (createClone (q p)) with (createClone p).
    assert (N : nameContainer r (createClone p) = createClone p).
    { unfold nameContainer, createClone. cbn [ct_build ct_command ct_commands ct_detach ct_depends ct_devices ct_dns ct_dns_search ct_entrypoint ct_environment ct_extra_hosts ct_failure
        ct_image ct_network ct_name ct_ports ct_privileged ct_pull ct_push ct_resources ct_settings ct_shell ct_user ct_volumes ct_when ct_working_dir map].
      unfold cloneStepName. rewrite (proj1 Hr). reflexivity. }
    rewrite <- N at 1. rewrite <- placed_named. rewrite N. f_equal.
    unfold cloneBase. cbv zeta. change (createClone (q p)) with (createClone p). rewrite <- N at 1 2. rewrite !plain_named.
    generalize (plainStep (w_glob w) (w_available w) (w_isPrintHigh w) (w_formatFloat w) (w_toJSON w) ns p (createClone p) uid). intro s.
    change (cloneEnv (q p)) with (cloneEnv p).
    assert (G : map (nameMount r) (gitMounts c) = gitMounts c).
    { unfold gitMounts. destruct (isEmpty (gitCredentials c)); [reflexivity|]. unfold nameMount. cbn [map fm_name fm_path fm_mode]. rewrite (proj2 Hr). reflexivity. }
    rewrite <- G at 1. reflexivity.
  Qed.
  Lemma positions_named (d d' : Container -> nat) l : (forall x, d' (nameContainer r x) = d x) -> forall n,
    positions d' n (map (nameContainer r) l) = map (fun k => (fst k, nameContainer r (snd k))) (positions d n l) /\
    after d' n (map (nameContainer r) l) = after d n l.
  Proof using.
    intro H. induction l as [|x l IH]; intro n; [split; reflexivity|]. cbn [map positions after]. rewrite H.
    destruct (IH (n + d x)) as (-> & ->). split; reflexivity.
  Qed.
  Lemma files_named p ns x uid : filesOf (w_isPrintHigh w) ns (q p) (nameContainer r x) uid = map (nameFile r) (filesOf (w_isPrintHigh w) ns p x uid).
  Proof using.
    unfold filesOf. change (hasCommands (nameContainer r x)) with (hasCommands x). change (pi_platform (q p)) with (pi_platform p).
    destruct (hasCommands x && negb _); reflexivity.
  Qed.
  Lemma rename_named av ord m l : forall i, renameSteps av ord i m (map (nameStep r) l) = map (nameStep r) (renameSteps av ord i m l).
  Proof using. induction l as [|x l IH]; intro i; [reflexivity|]. cbn [map renameSteps]. rewrite IH. reflexivity. Qed.
  Lemma flat_named {A} (f : A -> list File) g l (h : A -> A) : (forall a, f (h a) = map (nameFile r) (g a)) ->
    flat_map f (map h l) = map (nameFile r) (flat_map g l).
  Proof using. intro H. induction l as [|x l IH]; [reflexivity|]. cbn [map flat_map]. rewrite H, IH, map_app. reflexivity. Qed.

  Lemma pure_named p steps services vols n :
    pure w c hostDir hostMount (q p) (map (nameContainer r) steps) (map (nameContainer r) services) vols n =
    nameSpec r (pure w c hostDir hostMount p steps services vols n) /\
    nEnd (w_rnd w) c hostDir (q p) (map (nameContainer r) steps) (map (nameContainer r) services) vols n =
    nEnd (w_rnd w) c hostDir p steps services vols n.
  Proof using Hr Hc.
    assert (S : serial (map (nameContainer r) steps) = serial steps).
    { unfold serial. induction steps as [|x l IH]; [reflexivity|]. cbn [map forallb]. rewrite IH. change (ct_depends (nameContainer r x)) with (map r (ct_depends x)).
      rewrite map_length. reflexivity. }
    assert (NS : nServices c hostDir (q p) vols n = nServices c hostDir p vols n) by reflexivity.
    assert (D1 : forall x, draws (q p) (nameContainer r x) = draws p x) by reflexivity.
    assert (D2 : forall x, stepDraws (q p) (nameContainer r x) = stepDraws p x) by reflexivity.
    assert (NT : nSteps c hostDir (q p) (map (nameContainer r) services) vols n = nSteps c hostDir p services vols n).
    { unfold nSteps. rewrite NS. apply (positions_named (draws p)), D1. }
    assert (NO : nSocket c hostDir (q p) (map (nameContainer r) steps) (map (nameContainer r) services) vols n = nSocket c hostDir p steps services vols n).
    { unfold nSocket. rewrite NT. apply (positions_named (stepDraws p)), D2. }
    assert (R : pureRename (w_rnd w) c hostDir (q p) (map (nameContainer r) steps) (map (nameContainer r) services) vols n =
                pureRename (w_rnd w) c hostDir p steps services vols n).
    { unfold pureRename. rewrite NT. rewrite (proj1 (positions_named (stepDraws p) _ steps D2 _)).
      generalize (positions (stepDraws p) (nSteps c hostDir p services vols n) steps) ([] : smap string).
      induction l as [|x l IH]; intro m; [reflexivity|]. cbn [map renamesOf fst snd]. rewrite IH. reflexivity. }
    split; [|unfold nEnd; rewrite R, NO; reflexivity].
    unfold pure, pureSpec, specOf, nameSpec. cbn [sp_meta sp_platform sp_docker sp_files sp_secrets sp_steps].
    unfold pureVolumes. rewrite R, NO. change (pi_platform (q p)) with (pi_platform p).
    assert (F : pureFiles (w_rnd w) (w_isPrintHigh w) c hostDir (q p) (map (nameContainer r) steps) (map (nameContainer r) services) vols n =
                map (nameFile r) (pureFiles (w_rnd w) (w_isPrintHigh w) c hostDir p steps services vols n)).
    { unfold pureFiles. rewrite NS, NT, !map_app, (proj1 (positions_named (draws p) _ services D1 _)), (proj1 (positions_named (stepDraws p) _ steps D2 _)).
      f_equal; [|f_equal].
      - change (pi_clone (q p)) with (pi_clone p). destruct (cl_disable (pi_clone p)); [reflexivity|]. unfold gitFiles.
        destruct (isEmpty (gitCredentials c)); [reflexivity|]. unfold nameFile, nameMeta. cbn [map fi_meta fi_data md_uid md_namespace md_name md_labels option_map].
        rewrite (proj2 Hr). reflexivity.
      - apply flat_named. intro a. unfold at_next. cbn [fst snd]. apply files_named.
      - apply flat_named. intro a. unfold at_next, stepFiles. cbn [fst snd]. change (ct_build (nameContainer r (snd a))) with (ct_build (snd a)).
        destruct (ct_build (snd a)); [reflexivity|apply files_named]. }
    assert (T : pureSteps (w_rnd w) (w_glob w) (w_available w) (w_isPrintHigh w) (w_formatFloat w) (w_toJSON w) c hostDir hostMount (q p)
                  (map (nameContainer r) steps) (map (nameContainer r) services) vols n =
                map (nameStep r) (pureSteps (w_rnd w) (w_glob w) (w_available w) (w_isPrintHigh w) (w_formatFloat w) (w_toJSON w) c hostDir hostMount p steps services vols n)).
    { unfold pureSteps. rewrite !map_app. f_equal; [|f_equal].
      - unfold pureCloneSteps. change (pi_clone (q p)) with (pi_clone p). destruct (cl_disable (pi_clone p)); [reflexivity|].
        cbn [map]. rewrite <- clone_named. reflexivity.
      - unfold pureServiceSteps. rewrite NS, S, (proj1 (positions_named (draws p) _ services D1 _)), !map_map. apply map_ext. intro a. unfold at_. cbn [fst snd].
        rewrite <- service_named. reflexivity.
      - unfold purePipelineSteps. rewrite NT, S, (proj1 (positions_named (stepDraws p) _ steps D2 _)), !map_map. apply map_ext. intro a. unfold at_. cbn [fst snd].
        rewrite <- pipeline_named. reflexivity. }
    rewrite F, T, rename_named. reflexivity.
  Qed.
  Theorem compile_named p n : compileIn w c (namePipeline r p) n =
    match compileIn w c p n with Ok (s, m) => Ok (nameSpec r s, m) | Err e => Err e | Panic => Panic end.
  Proof using HS Hr Hc.
    fold (q p). destruct (compile_total w c hostDir hostMount p n HS) as (T1 & T2), (compile_total w c hostDir hostMount (q p) n HS) as (T1' & T2').
    destruct (compileIn w c p n) as [[s m]|e|] eqn:E.
    - assert (X : exists steps services vols, Complete p steps services vols) by (apply T1; exists s; now exists m).
      destruct X as (steps & services & vols & X). pose proof (compile_pure w c _ _ _ _ _ _ n HS X) as Y. rewrite E in Y. injection Y as -> ->.
      rewrite (compile_pure w c _ _ _ _ _ _ n HS (name_complete _ _ _ _ X)).
      destruct (pure_named p steps services vols n) as (-> & ->). reflexivity.
    - exfalso. exact (compile_no_err _ _ _ _ _ _ _ HS E).
    - apply T2'. intros (st & se & vo & X). apply (proj2 T2 eq_refl). destruct (complete_back _ _ _ _ X) as (st' & se' & Y). now exists st', se', vo.
  Qed.
End Compile.
(** What the package offers to decide about containers does not look at names. *)
Lemma package_blind r c av images glob data : co_privileged c = Some (DindFunc av images) -> co_skip c = Some (SkipFunc glob data) -> Blind r c.
Proof. intros P S x. rewrite P, S. split; reflexivity. Qed.

Definition swap (a b s : string) : string := if String.eqb s a then b else if String.eqb s b then a else s.
Lemma swap_swap a b s : swap a b (swap a b s) = s.
Proof.
  unfold swap. destruct (String.eqb_spec s a) as [->|N]; [rewrite String.eqb_refl; destruct (String.eqb_spec b a); congruence|].
  destruct (String.eqb_spec s b) as [->|M]; [rewrite String.eqb_refl; reflexivity|].
  apply String.eqb_neq in N, M. rewrite N, M. reflexivity.
Qed.
Lemma swap_inj a b s t : swap a b s = swap a b t -> s = t.
Proof. intro H. rewrite <- (swap_swap a b s), H. apply swap_swap. Qed.
