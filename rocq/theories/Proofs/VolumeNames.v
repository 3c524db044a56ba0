(** * VolumeNames.v: the linter and the compiler under other names of volumes. *)
From Coq Require Import Lia.
From Verif Require Import Model.Go Model.Types Model.Cond Model.Engine Model.Image Model.Dind Model.Compiler Model.Lint
  Spec.CompileSpec Spec.VolumeNameSpec Proofs.GoFacts Proofs.CompilePure Proofs.CompileFacts.

Section Names.
  Variable r : string -> string.
  Hypothesis Hr : VolumeRenaming r.
  Lemma call_known : r "workspace" = "workspace" /\ r "_workspace" = "_workspace" /\ r "_docker_socket" = "_docker_socket" /\ r "host" = "host".
  Proof using Hr.
    destruct Hr as (_ & H). rewrite Forall_forall in H. repeat split; apply H; cbn; auto.
  Qed.
  Lemma call_eqb a b : r b = b -> String.eqb (r a) b = String.eqb a b.
  Proof using Hr.
    intro B. destruct Hr as (I & _). destruct (String.eqb_spec a b) as [->|N]; [rewrite B; apply String.eqb_refl|].
    apply String.eqb_neq. intro X. apply N, I. congruence.
  Qed.
  Lemma call_reserved a : reservedVolume (r a) = reservedVolume a /\ (reservedVolume a = true -> r a = a).
  Proof using Hr.
    destruct call_known as (K1 & K2 & K3 & _). unfold reservedVolume, smem. cbn [existsb]. split; [rewrite !call_eqb by assumption; reflexivity|].
    destruct (String.eqb_spec a "workspace") as [->|]; [intros _; assumption|].
    destruct (String.eqb_spec a "_workspace") as [->|]; [intros _; assumption|].
    destruct (String.eqb_spec a "_docker_socket") as [->|]; [intros _; assumption|]. cbn. discriminate.
  Qed.
  Lemma call_refuse a : refuse (reservedVolume (r a)) ("linter: invalid volume name: " +++ r a)%string =
    refuse (reservedVolume a) ("linter: invalid volume name: " +++ a)%string.
  Proof using Hr.
    destruct (call_reserved a) as (-> & H). destruct (reservedVolume a); [rewrite (H eq_refl)|]; reflexivity.
  Qed.
  Lemma call_mounts l : oiter checkMount (map (option_map (callMount r)) l) = oiter checkMount l.
  Proof using Hr.
    induction l as [|[m|] l IH]; [reflexivity| |reflexivity]. cbn [map oiter option_map]. rewrite IH. unfold checkMount. cbn [deref obind callMount vm_name].
    rewrite call_refuse. reflexivity.
  Qed.
  Lemma call_container c trusted : checkContainer (callContainer r c) trusted = checkContainer c trusted.
  Proof using Hr.
    unfold checkContainer. cbn [callContainer ct_ports ct_build ct_image ct_name ct_privileged ct_devices ct_dns ct_dns_search ct_extra_hosts ct_network ct_volumes].
    rewrite map_length, call_mounts. reflexivity.
  Qed.
  Lemma call_volumes trusted l : oiter (checkVolume trusted) (map (option_map (callVolume r)) l) = oiter (checkVolume trusted) l.
  Proof using Hr.
    induction l as [|[v|] l IH]; [reflexivity| |reflexivity]. cbn [map oiter option_map]. rewrite IH. unfold checkVolume. cbn [deref obind callVolume vo_name vo_empty vo_host].
    rewrite call_refuse. reflexivity.
  Qed.
  Lemma call_step trusted names c : checkStep trusted names (option_map (callContainer r) c) = checkStep trusted names c.
  Proof using Hr.
    destruct c as [c|]; [|reflexivity]. unfold checkStep. cbn [option_map deref obind]. rewrite call_container. reflexivity.
  Qed.
  Lemma call_service trusted names c : checkService trusted names (option_map (callContainer r) c) = checkService trusted names c.
  Proof using Hr.
    destruct c as [c|]; [|reflexivity]. unfold checkService. cbn [option_map deref obind]. rewrite call_container. reflexivity.
  Qed.
  Lemma call_fold (f : list string -> option Container -> outcome (list string)) l :
    (forall names c, f names (option_map (callContainer r) c) = f names c) ->
    forall names, ofold f (map (option_map (callContainer r)) l) names = ofold f l names.
  Proof using.
    intro H. induction l as [|c l IH]; intro names; [reflexivity|]. cbn [map ofold]. rewrite H. destruct (f names c); cbn [obind]; [apply IH|reflexivity|reflexivity].
  Qed.
  Theorem lint_called p trusted : Lint (RPipeline (callPipeline r p)) trusted = Lint (RPipeline p) trusted.
  Proof using Hr.
    cbn [Lint]. unfold checkPipeline, checkVolumes. cbn [callPipeline pi_volumes pi_platform pi_clone pi_steps pi_services]. rewrite call_volumes.
    destruct (oiter (checkVolume trusted) (pi_volumes p)); cbn [obind]; try reflexivity.
    destruct (checkPlatform (pi_platform p)); cbn [obind]; try reflexivity. cbv zeta.
    rewrite (call_fold (checkStep trusted)) by (intros; apply call_step).
    destruct (ofold (checkStep trusted) (pi_steps p) _) as [names|e|]; cbn [obind]; try reflexivity.
    rewrite (call_fold (checkService trusted)) by (intros; apply call_service). reflexivity.
  Qed.

  Variable w : World.
  Variable c : Compiler.
  Variables (hostDir : option string) (hostMount : bool).
  Hypothesis HS : Standard w c hostDir hostMount.
  Hypothesis Hc : BlindToVolumes r c.
  Let q := callPipeline r.
  Lemma none_map {A} (f : A -> A) l : In None (map (option_map f) l) <-> In None l.
  Proof using.
    rewrite in_map_iff. split; [intros ([x|] & E & H); [discriminate|exact H]|]. intro H. now exists None.
  Qed.
  Lemma part_called x : NoNullPart (callContainer r x) <-> NoNullPart x.
  Proof using. unfold NoNullPart. cbn [callContainer ct_ports ct_volumes]. rewrite none_map. reflexivity. Qed.
  Lemma step_called x : NoNullStep (callContainer r x) <-> NoNullStep x.
  Proof using. unfold NoNullStep. cbn [callContainer ct_build]. rewrite part_called. reflexivity. Qed.
  Lemma call_complete p steps services vols : Complete p steps services vols ->
    Complete (q p) (map (callContainer r) steps) (map (callContainer r) services) (map (callVolume r) vols).
  Proof using.
    intros (H1 & H2 & H3 & H4 & H5). unfold Complete, q. cbn [callPipeline pi_steps pi_services pi_volumes]. rewrite H1, H2, H3, !map_map.
    split; [reflexivity|]. split; [reflexivity|]. split; [reflexivity|].
    split; apply Forall_map; eapply Forall_impl; [|exact H4| |exact H5]; intros x Hx; [apply step_called|apply part_called]; exact Hx.
  Qed.
  Lemma map_back {A} (f : A -> A) l : forall k, map (option_map f) l = map Some k -> exists k', l = map Some k' /\ k = map f k'.
  Proof using.
    induction l as [|x l IH]; intros [|y k] E; cbn [map] in E; try discriminate; [exists []; split; reflexivity|].
    destruct x as [x|]; cbn [option_map] in E; [|discriminate].
    assert (E1 : f x = y) by congruence. assert (E2 : map (option_map f) l = map Some k) by congruence.
    destruct (IH k E2) as (k' & -> & ->). exists (x :: k'). subst y. split; reflexivity.
  Qed.
  Lemma call_back p steps services vols : Complete (q p) steps services vols -> exists st se vo, Complete p st se vo.
  Proof using.
    intros (H1 & H2 & H3 & H4 & H5). unfold q in *. cbn [callPipeline pi_steps pi_services pi_volumes] in H1, H2, H3.
    destruct (map_back _ _ _ H1) as (st & E1 & ->), (map_back _ _ _ H2) as (se & E2 & ->), (map_back _ _ _ H3) as (vo & E3 & ->). exists st, se, vo.
    rewrite Forall_map in H4, H5. split; [exact E1|]. split; [exact E2|]. split; [exact E3|].
    split; [revert H4|revert H5]; apply Forall_impl; intros x Hx; [apply step_called|apply part_called]; exact Hx.
  Qed.
  Lemma mounts_called x : mountsOf (callContainer r x) = map (callEMount r) (mountsOf x).
  Proof using Hr.
    destruct call_known as (_ & _ & K & _). unfold mountsOf. cbn [callContainer ct_volumes]. induction (ct_volumes x) as [|[m|] l IH]; [reflexivity| |exact IH].
    cbn [map option_map present flat_map app filter]. fold (@present VolumeMount).
    change (vm_name (callMount r m)) with (r (vm_name m)). rewrite (call_eqb _ _ K). destruct (negb (String.eqb (vm_name m) "_docker_socket")); [|exact IH].
    cbn [map]. f_equal. exact IH.
  Qed.
  Lemma plain_called p ns x uid :
    plainStep (w_glob w) (w_available w) (w_isPrintHigh w) (w_formatFloat w) (w_toJSON w) ns (q p) (callContainer r x) uid =
    callStep r (plainStep (w_glob w) (w_available w) (w_isPrintHigh w) (w_formatFloat w) (w_toJSON w) ns p x uid).
  Proof using Hr.
    unfold plainStep at 2, callStep. cbn [st_meta st_detach st_depends st_devices st_docker st_envs st_files st_ignore_err st_ignore_stderr
      st_ignore_stdout st_resources st_policy st_secrets st_volumes st_working_dir]. rewrite <- mounts_called. reflexivity.
  Qed.
  Lemma build_called ns x b uid :
    buildStep (w_glob w) (w_available w) ns (callContainer r x) b uid = callStep r (buildStep (w_glob w) (w_available w) ns x b uid).
  Proof using Hr.
    destruct call_known as (_ & _ & K & _). unfold buildStep at 2, callStep. cbn [st_meta st_detach st_depends st_devices st_docker st_envs st_files st_ignore_err st_ignore_stderr
      st_ignore_stdout st_resources st_policy st_secrets st_volumes st_working_dir map]. unfold callEMount. cbn [mo_name mo_path]. rewrite K. reflexivity.
  Qed.
  Lemma placed_called ws x s : placed hostMount ws (callContainer r x) (callStep r s) = callStep r (placed hostMount ws x s).
  Proof using Hr.
    destruct call_known as (K1 & _ & _ & K2).
    assert (E : map (callEMount r) (workspaceMounts hostMount ws) = workspaceMounts hostMount ws).
    { unfold workspaceMounts, callEMount, workspaceName, workspaceHostName.
      case hostMount; [case (isEmpty _)|]; cbn [map mo_name mo_path]; rewrite ?K1, ?K2; reflexivity. }
    unfold placed, callStep. cbn [st_meta st_detach st_depends st_devices st_docker st_envs st_files st_ignore_err st_ignore_stderr
      st_ignore_stdout st_resources st_policy st_secrets st_volumes st_working_dir]. rewrite map_app, E. reflexivity.
  Qed.
  Lemma adjusted_called x deps s : adjusted c (callContainer r x) deps (callStep r s) = callStep r (adjusted c x deps s).
  Proof using Hc.
    destruct (Hc x) as (H1 & H2). unfold adjusted, callStep, isPrivileged, isSkipped. cbn [st_meta st_detach st_depends st_devices st_docker st_envs st_files st_ignore_err st_ignore_stderr
      st_ignore_stdout st_resources st_policy st_secrets st_volumes st_working_dir].
    destruct (co_privileged c) as [f|], (co_skip c) as [g|]; rewrite ?H1, ?H2; reflexivity.
  Qed.
  Lemma service_called p ns ws ser x uid :
    serviceStep (w_glob w) (w_available w) (w_isPrintHigh w) (w_formatFloat w) (w_toJSON w) ns (q p) c hostMount ws ser (callContainer r x) uid =
    callStep r (serviceStep (w_glob w) (w_available w) (w_isPrintHigh w) (w_formatFloat w) (w_toJSON w) ns p c hostMount ws ser x uid).
  Proof using Hr Hc.
    unfold serviceStep. cbv zeta. rewrite plain_called.
    change (set_detach true (callStep r ?s)) with (callStep r (set_detach true s)). rewrite placed_called, adjusted_called. reflexivity.
  Qed.
  Lemma pipeline_called p ns ws ser x uid :
    pipelineStep (w_glob w) (w_available w) (w_isPrintHigh w) (w_formatFloat w) (w_toJSON w) ns (q p) c hostMount ws ser (callContainer r x) uid =
    callStep r (pipelineStep (w_glob w) (w_available w) (w_isPrintHigh w) (w_formatFloat w) (w_toJSON w) ns p c hostMount ws ser x uid).
  Proof using Hr Hc.
    unfold pipelineStep. cbv zeta.
    assert (B : baseStep (w_glob w) (w_available w) (w_isPrintHigh w) (w_formatFloat w) (w_toJSON w) ns (q p) (callContainer r x) uid =
                callStep r (baseStep (w_glob w) (w_available w) (w_isPrintHigh w) (w_formatFloat w) (w_toJSON w) ns p x uid)).
    { unfold baseStep. change (ct_build (callContainer r x)) with (ct_build x). destruct (ct_build x); [apply build_called|apply plain_called]. }
    rewrite B, placed_called, adjusted_called. reflexivity.
  Qed.
  Lemma clone_called p ns ws uid :
    cloneStep (w_glob w) (w_available w) (w_isPrintHigh w) (w_formatFloat w) (w_toJSON w) ns (q p) c hostMount ws uid =
    callStep r (cloneStep (w_glob w) (w_available w) (w_isPrintHigh w) (w_formatFloat w) (w_toJSON w) ns p c hostMount ws uid).
  Proof using Hr.
    unfold cloneStep. change (createClone (q p)) with (createClone p).
    assert (N : callContainer r (createClone p) = createClone p) by reflexivity.
    rewrite <- N at 1. rewrite <- placed_called. rewrite N. f_equal.
  Qed.
  Lemma positions_called (d d' : Container -> nat) l : (forall x, d' (callContainer r x) = d x) -> forall n,
    positions d' n (map (callContainer r) l) = map (fun k => (fst k, callContainer r (snd k))) (positions d n l) /\
    after d' n (map (callContainer r) l) = after d n l.
  Proof using.
    intro H. induction l as [|x l IH]; intro n; [split; reflexivity|]. cbn [map positions after]. rewrite H.
    destruct (IH (n + d x)) as (-> & ->). split; reflexivity.
  Qed.
  Lemma rename_called av ord m l : forall i, renameSteps av ord i m (map (callStep r) l) = map (callStep r) (renameSteps av ord i m l).
  Proof using. induction l as [|x l IH]; intro i; [reflexivity|]. cbn [map renameSteps]. rewrite IH. reflexivity. Qed.
  Lemma flat_called {A} (f g : A -> list File) l (h : A -> A) : (forall a, f (h a) = g a) -> flat_map f (map h l) = flat_map g l.
  Proof using. intro H. induction l as [|x l IH]; [reflexivity|]. cbn [map flat_map]. rewrite H, IH. reflexivity. Qed.
  Lemma volumes_called rnd ns vs : forall n, volumesOf rnd ns (map (callVolume r) vs) n = map (callEVolume r) (volumesOf rnd ns vs n).
  Proof using. induction vs as [|v vs IH]; intro n; [reflexivity|]. cbn [map volumesOf]. rewrite IH. reflexivity. Qed.

  Lemma pure_called p steps services vols n :
    pure w c hostDir hostMount (q p) (map (callContainer r) steps) (map (callContainer r) services) (map (callVolume r) vols) n =
    callSpec r (pure w c hostDir hostMount p steps services vols n) /\
    nEnd (w_rnd w) c hostDir (q p) (map (callContainer r) steps) (map (callContainer r) services) (map (callVolume r) vols) n =
    nEnd (w_rnd w) c hostDir p steps services vols n.
  Proof using Hr Hc.
    assert (S : serial (map (callContainer r) steps) = serial steps).
    { unfold serial. induction steps as [|x l IH]; [reflexivity|]. cbn [map forallb]. rewrite IH. reflexivity. }
    assert (NC : nClone hostDir (map (callVolume r) vols) n = nClone hostDir vols n) by (unfold nClone; rewrite map_length; reflexivity).
    assert (NS : nServices c hostDir (q p) (map (callVolume r) vols) n = nServices c hostDir p vols n).
    { unfold nServices. rewrite NC. reflexivity. }
    assert (D1 : forall x, draws (q p) (callContainer r x) = draws p x) by reflexivity.
    assert (D2 : forall x, stepDraws (q p) (callContainer r x) = stepDraws p x) by reflexivity.
    assert (NT : nSteps c hostDir (q p) (map (callContainer r) services) (map (callVolume r) vols) n = nSteps c hostDir p services vols n).
    { unfold nSteps. rewrite NS. apply (positions_called (draws p)), D1. }
    assert (NO : nSocket c hostDir (q p) (map (callContainer r) steps) (map (callContainer r) services) (map (callVolume r) vols) n = nSocket c hostDir p steps services vols n).
    { unfold nSocket. rewrite NT. apply (positions_called (stepDraws p)), D2. }
    assert (R : pureRename (w_rnd w) c hostDir (q p) (map (callContainer r) steps) (map (callContainer r) services) (map (callVolume r) vols) n =
                pureRename (w_rnd w) c hostDir p steps services vols n).
    { unfold pureRename. rewrite NT. rewrite (proj1 (positions_called (stepDraws p) _ steps D2 _)).
      generalize (positions (stepDraws p) (nSteps c hostDir p services vols n) steps) ([] : smap string).
      induction l as [|x l IH]; intro m; [reflexivity|]. cbn [map renamesOf fst snd]. rewrite IH. reflexivity. }
    split; [|unfold nEnd; rewrite R, NO; reflexivity].
    destruct call_known as (K1 & K2 & K3 & K4).
    unfold pure, pureSpec, specOf, callSpec. cbn [sp_meta sp_platform sp_docker sp_files sp_secrets sp_steps option_map dc_auths dc_volumes].
    assert (V : pureVolumes (w_rnd w) c hostDir (q p) (map (callContainer r) steps) (map (callContainer r) services) (map (callVolume r) vols) n =
                map (callEVolume r) (pureVolumes (w_rnd w) c hostDir p steps services vols n)).
    { unfold pureVolumes. rewrite R, NO, volumes_called, !map_app. f_equal; [|f_equal].
      - unfold workspaceVolumes, callEVolume, callMeta, workspaceName, workspaceHostName. cbn [map ev_meta ev_empty ev_host md_uid md_namespace md_name md_labels]. rewrite K1.
        case hostDir; [intro d|]; cbn [map ev_meta ev_empty ev_host md_uid md_namespace md_name md_labels]; rewrite ?K4; reflexivity.
      - destruct (Nat.ltb 0 _); [|reflexivity]. unfold socketVolume, callEVolume, callMeta. cbn [map ev_meta ev_empty ev_host md_uid md_namespace md_name md_labels]. rewrite K3. reflexivity. }
    assert (F : pureFiles (w_rnd w) (w_isPrintHigh w) c hostDir (q p) (map (callContainer r) steps) (map (callContainer r) services) (map (callVolume r) vols) n =
                pureFiles (w_rnd w) (w_isPrintHigh w) c hostDir p steps services vols n).
    { unfold pureFiles. rewrite NC, NS, NT, (proj1 (positions_called (draws p) _ services D1 _)), (proj1 (positions_called (stepDraws p) _ steps D2 _)).
      f_equal; f_equal; apply flat_called; reflexivity. }
    assert (T : pureSteps (w_rnd w) (w_glob w) (w_available w) (w_isPrintHigh w) (w_formatFloat w) (w_toJSON w) c hostDir hostMount (q p)
                  (map (callContainer r) steps) (map (callContainer r) services) (map (callVolume r) vols) n =
                map (callStep r) (pureSteps (w_rnd w) (w_glob w) (w_available w) (w_isPrintHigh w) (w_formatFloat w) (w_toJSON w) c hostDir hostMount p steps services vols n)).
    { unfold pureSteps. rewrite !map_app. f_equal; [|f_equal].
      - unfold pureCloneSteps. change (pi_clone (q p)) with (pi_clone p). rewrite NC. destruct (cl_disable (pi_clone p)); [reflexivity|].
        cbn [map]. rewrite <- clone_called. reflexivity.
      - unfold pureServiceSteps. rewrite NS, S, (proj1 (positions_called (draws p) _ services D1 _)), !map_map. apply map_ext. intro a. unfold at_. cbn [fst snd].
        rewrite <- service_called. reflexivity.
      - unfold purePipelineSteps. rewrite NT, S, (proj1 (positions_called (stepDraws p) _ steps D2 _)), !map_map. apply map_ext. intro a. unfold at_. cbn [fst snd].
        rewrite <- pipeline_called. reflexivity. }
    rewrite V, F, T, R, rename_called. reflexivity.
  Qed.
  Theorem compile_called p n : compileIn w c (callPipeline r p) n =
    match compileIn w c p n with Ok (s, m) => Ok (callSpec r s, m) | Err e => Err e | Panic => Panic end.
  Proof using HS Hr Hc.
    fold (q p). destruct (compile_total w c hostDir hostMount p n HS) as (T1 & T2), (compile_total w c hostDir hostMount (q p) n HS) as (T1' & T2').
    destruct (compileIn w c p n) as [[s m]|e|] eqn:E.
    - assert (X : exists steps services vols, Complete p steps services vols) by (apply T1; exists s; now exists m).
      destruct X as (steps & services & vols & X). pose proof (compile_pure w c _ _ _ _ _ _ n HS X) as Y. rewrite E in Y. injection Y as -> ->.
      rewrite (compile_pure w c _ _ _ _ _ _ n HS (call_complete _ _ _ _ X)).
      destruct (pure_called p steps services vols n) as (-> & ->). reflexivity.
    - exfalso. exact (compile_no_err _ _ _ _ _ _ _ HS E).
    - apply T2'. intros (st & se & vo & X). apply (proj2 T2 eq_refl). exact (call_back _ _ _ _ X).
  Qed.
End Names.
Lemma package_blind_volumes r c av images glob data : co_privileged c = Some (DindFunc av images) -> co_skip c = Some (SkipFunc glob data) -> BlindToVolumes r c.
Proof. intros P S x. rewrite P, S. split; reflexivity. Qed.
