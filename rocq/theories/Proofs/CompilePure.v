(** * CompilePure.v: the compiler computes an explicit description of its output. *)
From Coq Require Import Lia.
From Verif Require Import Model.Go Model.Types Model.Cond Model.Engine Model.Image Model.Quote
  Model.Script Model.Path Model.Encode Model.Compiler Spec.CompileSpec Proofs.GoFacts.

Lemma mbind_ok {A B} (m : M A) (k : A -> M B) n a n' : m n = Ok (a, n') -> mbind m k n = k a n'.
Proof. unfold mbind. intros ->. reflexivity. Qed.
Lemma mbind_inv {A B} (m : M A) (k : A -> M B) n b n'' : mbind m k n = Ok (b, n'') ->
  exists a n', m n = Ok (a, n') /\ k a n' = Ok (b, n'').
Proof. unfold mbind. destruct (m n) as [[a n']| |]; try discriminate. eauto. Qed.

Lemma setEnv_some k v e s : st_envs s = Some e -> setEnv k v s = Ok (set_envs (Some (mset k v e)) s).
Proof. unfold setEnv. intros ->. reflexivity. Qed.

Lemma set_envs_twice a b s : set_envs a (set_envs b s) = set_envs a s.
Proof. reflexivity. Qed.

(** ** The parts of a compiled step that come from maps and lists. *)
Notation somes := present.
Lemma somes_map {A} (l : list A) : somes (map Some l) = l.
Proof. induction l; simpl; congruence. Qed.
Lemma no_none {A} (l : list (option A)) : ~ In None l -> l = map Some (somes l).
Proof.
  induction l as [|[a|] l IH]; intro H; [reflexivity| |exfalso; apply H; left; reflexivity].
  simpl. f_equal. apply IH. intro X. apply H. right. exact X.
Qed.

Lemma toPorts_ok src : ~ In None (ct_ports src) -> toPorts src = Ok (map portOf (somes (ct_ports src))).
Proof.
  unfold toPorts. intro H. rewrite (no_none _ H) at 1. generalize (somes (ct_ports src)) as l. clear H.
  induction l as [|p l IH]; [reflexivity|]. cbn [map otraverse toPort deref obind]. rewrite IH. reflexivity.
Qed.

Definition mountOf (v : VolumeMount) : Mount := {| mo_name := vm_name v; mo_path := vm_path v |}.
Definition mountsOf (src : Container) : list Mount :=
  map mountOf (filter (fun v => negb (String.eqb (vm_name v) "_docker_socket")) (somes (ct_volumes src))).
Lemma addMounts_ok vols : ~ In None vols -> forall dst,
  addMounts vols dst = Ok (set_mounts (st_volumes dst ++
    map mountOf (filter (fun v => negb (String.eqb (vm_name v) "_docker_socket")) (somes vols))) dst).
Proof.
  induction vols as [|[v|] vols IH]; intros H dst.
  - cbn. rewrite app_nil_r. destruct dst; reflexivity.
  - cbn [addMounts deref obind present flat_map app filter]. fold (@present VolumeMount). destruct (String.eqb (vm_name v) "_docker_socket"); cbn [negb].
    + apply IH. intro X. apply H. right. exact X.
    + rewrite IH by (intro X; apply H; right; exact X). cbn [set_mounts st_volumes map]. rewrite <- app_assoc. reflexivity.
  - exfalso. apply H. left. reflexivity.
Qed.

(** Environment entries and settings that are plain values, and those that are secrets. *)
Definition plainEnv (env : smap (option Variable_)) : smap string :=
  flat_map (fun '(k, o) => match o with Some v => if isEmpty (v_secret v) then [(k, v_value v)] else [] | None => [] end) env.
Definition secretEnv (env : smap (option Variable_)) : list SecretVar :=
  flat_map (fun '(k, o) => match o with Some v => if isEmpty (v_secret v) then [] else [{| sv_name := v_secret v; sv_env := k |}] | None => [] end) env.
Definition settingKey (k : string) : string := ("PLUGIN_" +++ toUpper k)%string.
Definition secretSettings (env : smap (option Parameter_)) : list SecretVar :=
  flat_map (fun '(k, o) => match o with Some v => if isEmpty (p_secret v) then [] else [{| sv_name := p_secret v; sv_env := settingKey k |}] | None => [] end) env.

Definition with_env_secrets (e : smap string) (s : list SecretVar) (dst : Step) : Step := set_secrets s (set_envs (Some e) dst).
Lemma addEnvironment_ok env : forall dst e, st_envs dst = Some e ->
  addEnvironment env dst = Ok (with_env_secrets (msets (plainEnv env) e) (st_secrets dst ++ secretEnv env) dst).
Proof.
  induction env as [|[k [v|]] env IH]; intros dst e He.
  - cbn. rewrite app_nil_r. unfold with_env_secrets. destruct dst; cbn in *; subst; reflexivity.
  - cbn [addEnvironment plainEnv secretEnv flat_map]. fold (plainEnv env) (secretEnv env). destruct (isEmpty (v_secret v)); cbn [negb].
    + rewrite (setEnv_some _ _ _ _ He). cbn [obind]. rewrite (IH _ (mset k (v_value v) e)) by reflexivity. reflexivity.
    + rewrite (IH _ e) by exact He. cbn [set_secrets st_secrets app]. rewrite <- app_assoc. reflexivity.
  - cbn [addEnvironment]. rewrite (IH _ _ He). reflexivity.
Qed.

Section Pure.
  Variable rnd : nat -> string.
  Variable glob : string -> string -> option bool.
  Variable available : string -> bool.
  Variable isPrintHigh : N -> bool.
  Variable formatFloat : float64 -> string.
  Variable toJSON : value -> string.
  Variable ord : nat -> smap string -> smap string.

  Definition plainSettings (env : smap (option Parameter_)) : smap string :=
    flat_map (fun '(k, o) => match o with
      | Some v => if isEmpty (p_secret v) then [(settingKey k, encode formatFloat toJSON (p_value v))] else []
      | None => [] end) env.
  Lemma addSettings_ok env : forall dst e, st_envs dst = Some e ->
    addSettings formatFloat toJSON env dst = Ok (with_env_secrets (msets (plainSettings env) e) (st_secrets dst ++ secretSettings env) dst).
  Proof.
    induction env as [|[k [v|]] env IH]; intros dst e He.
    - cbn. rewrite app_nil_r. unfold with_env_secrets. destruct dst; cbn in *; subst; reflexivity.
    - cbn [addSettings plainSettings secretSettings flat_map]. fold (plainSettings env) (secretSettings env). destruct (isEmpty (p_secret v)); cbn [negb].
      + fold (settingKey k). rewrite (setEnv_some _ _ _ _ He). cbn [obind].
        rewrite (IH _ (mset (settingKey k) (encode formatFloat toJSON (p_value v)) e)) by reflexivity. reflexivity.
      + fold (settingKey k). rewrite (IH _ e) by exact He. cbn [set_secrets st_secrets app]. rewrite <- app_assoc. reflexivity.
    - cbn [addSettings]. rewrite (IH _ _ He). reflexivity.
  Qed.

  (** ** One step, before it is placed. *)
  Section OnePipeline.
  Variable ns : string.
  Variable p : Pipeline.
  Let win : bool := String.eqb (pl_os (pi_platform p)) "windows".
  Definition hasCommands (src : Container) : bool := Nat.ltb 0 (length (ct_commands src)).

  Definition stepMeta (src : Container) (uid : string) : Metadata :=
    {| md_uid := uid; md_namespace := ns; md_name := ct_name src; md_labels := Some [("io.drone.step.name", ct_name src)] |}.
  Definition scriptEnv (src : Container) : smap string :=
    if hasCommands src && win
    then [("CI_SCRIPT", base64 (scriptWin isPrintHigh (ct_commands src))); ("SHELL", "powershell.exe")] else [].
  Definition commandOf (src : Container) : list string :=
    if hasCommands src then if win then ["powershell"; "-noprofile"; "-noninteractive"; "-command"] else ["/bin/sh"]
    else ct_entrypoint src.
  Definition argsOf (src : Container) : list string :=
    if hasCommands src then if win then ["[System.Text.Encoding]::UTF8.GetString([System.Convert]::FromBase64String($Env:CI_SCRIPT)) | iex"]
                            else ["/usr/drone/bin/init"]
    else ct_command src.
  Definition fileMountsOf (src : Container) : list FileMount :=
    if hasCommands src && negb win then [{| fm_name := ct_name src; fm_path := "/usr/drone/bin/init"; fm_mode := 511 |}] else [].
  Definition filesOf (src : Container) (uid : string) : list File :=
    if hasCommands src && negb win
    then [{| fi_meta := {| md_uid := uid; md_namespace := ns; md_name := ct_name src; md_labels := None |};
             fi_data := script isPrintHigh (ct_commands src) |}] else [].
  Definition draws (src : Container) : nat := if hasCommands src && negb win then 2 else 1.

  Definition plainStep (src : Container) (uid : string) : Step :=
    {| st_meta := stepMeta src uid; st_detach := ct_detach src; st_depends := ct_depends src; st_devices := [];
       st_docker := {| ds_args := argsOf src; ds_command := commandOf src; ds_dns := ct_dns src;
                       ds_dns_search := ct_dns_search src; ds_extra_hosts := ct_extra_hosts src;
                       ds_image := Expand available (ct_image src); ds_network := ct_network src;
                       ds_networks := []; ds_ports := map portOf (somes (ct_ports src)); ds_privileged := ct_privileged src;
                       ds_pull := toPullPolicy src; ds_user := ct_user src |};
       st_envs := Some (msets (scriptEnv src) (msets (plainSettings (ct_settings src)) (msets (plainEnv (ct_environment src)) [])));
       st_files := fileMountsOf src; st_ignore_err := toIgnoreErr src; st_ignore_stderr := false;
       st_ignore_stdout := false; st_resources := toResources src; st_policy := toRunPolicy glob src;
       st_secrets := secretEnv (ct_environment src) ++ secretSettings (ct_settings src); st_volumes := mountsOf src;
       st_working_dir := if ct_detach src && negb (hasCommands src) then ct_working_dir src else "" |}.

  (** Specs under construction differ only in their volumes, files and steps. *)
  Definition specOf (vols : list EVolume) (files : list File) (steps : list Step) : Spec :=
    {| sp_meta := sp_meta (initialSpec ns p); sp_platform := sp_platform (initialSpec ns p);
       sp_docker := Some {| dc_auths := []; dc_volumes := vols |}; sp_files := files; sp_secrets := []; sp_steps := steps |}.

  Lemma createStep_ok vols files steps src n : ~ In None (ct_ports src) -> ~ In None (ct_volumes src) ->
    createStep rnd glob available isPrintHigh formatFloat toJSON (specOf vols files steps) src n =
    Ok ((specOf vols (files ++ filesOf src (rnd (S n))) steps, plainStep src (rnd n)), n + draws src).
  Proof.
    intros Hp Hv.
    assert (HC : Nat.eqb (length (ct_commands src)) 0 = negb (hasCommands src)) by (unfold hasCommands; destruct (ct_commands src); reflexivity).
    unfold createStep, mbind at 1, fresh at 1. rewrite (toPorts_ok _ Hp), HC. fold (hasCommands src). cbn [st_detach].
    unfold mbind at 1, mlift at 1.
    match goal with |- mbind (mlift (addMounts _ ?d)) _ _ = _ => assert (ED : st_envs d = Some [] /\ st_secrets d = [] /\ st_volumes d = []) by
      (destruct (ct_detach src && negb (hasCommands src)); auto) end.
    destruct ED as (E1 & E2 & E3).
    unfold mbind at 1, mlift at 1. rewrite (addMounts_ok _ Hv), E3.
    unfold mbind at 1, mlift at 1. rewrite (addEnvironment_ok _ _ []) by exact E1. cbn [set_mounts st_secrets]. rewrite E2.
    unfold mbind at 1, mlift at 1. erewrite addSettings_ok by reflexivity. clear E1 E2 E3.
    unfold plainStep, filesOf, draws, scriptEnv, commandOf, argsOf, fileMountsOf.
    change (pl_os (sp_platform (specOf vols files steps))) with (pl_os (pi_platform p)). fold win.
    destruct (hasCommands src) eqn:EC.
    - cbn [negb andb]. rewrite andb_false_r. destruct win eqn:W.
      + cbn [negb]. rewrite app_nil_r. rewrite Nat.add_1_r. reflexivity.
      + cbn [negb]. replace (n + 2) with (S (S n)) by lia. reflexivity.
    - cbn [negb andb]. rewrite app_nil_r, andb_true_r, Nat.add_1_r.
      destruct (ct_detach src); reflexivity.
  Qed.

  Definition buildEnv (b : Build) (uid : string) : smap string :=
    (if Nat.ltb 0 (length (b_cache_from b)) then [("DOCKER_BUILD_CACHE_FROM", join "," (b_cache_from b))] else []) ++
    (if negb (isEmpty (b_dockerfile b)) then [("DOCKER_BUILD_DOCKERFILE", b_dockerfile b)] else []) ++
    (if negb (isEmpty (b_context b)) then [("DOCKER_BUILD_CONTEXT", b_context b)] else []) ++
    (if negb (isEmpty (b_image b))
     then [("DOCKER_BUILD_IMAGE", Expand available (b_image b));
           ("DOCKER_BUILD_IMAGE_ALIAS", Expand available (Trim available (b_image b) +++ ":" +++ uid)%string)] else []).
  Definition buildStep (src : Container) (b : Build) (uid : string) : Step :=
    {| st_meta := stepMeta src uid; st_detach := ct_detach src; st_depends := ct_depends src; st_devices := [];
       st_docker := {| ds_args := ["--build"]; ds_command := []; ds_dns := ct_dns src; ds_dns_search := [];
                       ds_extra_hosts := []; ds_image := "drone/docker"; ds_network := ""; ds_networks := [];
                       ds_ports := []; ds_privileged := false; ds_pull := PullIfNotExists; ds_user := "" |};
       st_envs := Some (msets (buildEnv b uid) []); st_files := []; st_ignore_err := toIgnoreErr src; st_ignore_stderr := false;
       st_ignore_stdout := false; st_resources := toResources src; st_policy := toRunPolicy glob src;
       st_secrets := []; st_volumes := [{| mo_name := "_docker_socket"; mo_path := "/var/run/docker.sock" |}]; st_working_dir := "" |}.
  Lemma createBuildStep_ok vols files steps src b n :
    createBuildStep rnd glob available (specOf vols files steps) src b n = Ok (buildStep src b (rnd n), S n).
  Proof.
    unfold createBuildStep, buildStep, buildEnv.
    destruct (Nat.ltb 0 (length (b_cache_from b))), (negb (isEmpty (b_dockerfile b))), (negb (isEmpty (b_context b))), (negb (isEmpty (b_image b)));
      reflexivity.
  Qed.

  (** ** Placing a step. *)
  Variable c : Compiler.
  Variable hostMount : bool.
  Hypothesis Hmount : co_mount c = if hostMount then Some (fun s b q f => mret (MountHostWorkspace s b q f)) else None.
  Variable ws : string * string * string.
  Let base := fst (fst ws).
  Let dir := snd (fst ws).
  Let full := snd ws.

  Definition workspaceEnv : smap string :=
    [("DRONE_WORKSPACE_BASE", base); ("DRONE_WORKSPACE_PATH", dir); ("DRONE_WORKSPACE", full);
     ("CI_WORKSPACE_BASE", base); ("CI_WORKSPACE_PATH", dir); ("CI_WORKSPACE", full)].
  Definition workspaceMounts : list Mount :=
    if hostMount
    then {| mo_name := workspaceHostName; mo_path := full |} :: (if isEmpty dir then [] else [{| mo_name := workspaceName; mo_path := base |}])
    else [{| mo_name := workspaceName; mo_path := base |}].
  (** Working directory, workspace variables and workspace mounts. *)
  Definition placed (src : Container) (s : Step) : Step :=
    {| st_meta := st_meta s; st_detach := st_detach s; st_depends := st_depends s; st_devices := st_devices s;
       st_docker := st_docker s;
       st_envs := match st_envs s with Some e => Some (msets workspaceEnv e) | None => None end;
       st_files := st_files s; st_ignore_err := st_ignore_err s;
       st_ignore_stderr := st_ignore_stderr s; st_ignore_stdout := st_ignore_stdout s;
       st_resources := st_resources s; st_policy := st_policy s; st_secrets := st_secrets s;
       st_volumes := st_volumes s ++ workspaceMounts;
       st_working_dir := if isEmpty (st_working_dir s)
                         then if st_detach s && negb (hasCommands src) then "" else full
                         else st_working_dir s |}.
  Lemma place_ok src s e n : st_envs s = Some e ->
    (x <~ mlift (setupWorkspaceEnv (setupWorkingDir src s full) base dir full) ;; setupWorkspaceMount c x base dir full) n
    = Ok (placed src s, n).
  Proof.
    intro He. unfold placed, workspaceMounts, setupWorkspaceMount, setupWorkingDir. rewrite Hmount.
    assert (HC : Nat.eqb (length (ct_commands src)) 0 = negb (hasCommands src)) by (unfold hasCommands; destruct (ct_commands src); reflexivity).
    rewrite HC, He. clear HC. generalize (hasCommands src). intro hc. destruct s as [meta det deps dev dock envs files ie ise iso res pol sec vol wd]. cbn in He. subst envs. cbn.
    destruct (isEmpty wd) eqn:Ew; cbn.
    - apply isEmpty_true in Ew. subst wd. destruct (det && negb hc); destruct hostMount; cbn; try reflexivity;
        unfold MountHostWorkspace; destruct (isEmpty dir); cbn; rewrite <- ?app_assoc; reflexivity.
    - destruct hostMount; cbn; try reflexivity; unfold MountHostWorkspace; destruct (isEmpty dir); cbn; rewrite <- ?app_assoc; reflexivity.
  Qed.

  (** Skip, privileged and dependencies. *)
  Definition adjusted (src : Container) (deps : list string) (s : Step) : Step :=
    {| st_meta := st_meta s; st_detach := st_detach s; st_depends := deps; st_devices := st_devices s;
       st_docker := {| ds_args := ds_args (st_docker s); ds_command := ds_command (st_docker s); ds_dns := ds_dns (st_docker s);
                       ds_dns_search := ds_dns_search (st_docker s); ds_extra_hosts := ds_extra_hosts (st_docker s);
                       ds_image := ds_image (st_docker s); ds_network := ds_network (st_docker s);
                       ds_networks := ds_networks (st_docker s); ds_ports := ds_ports (st_docker s);
                       ds_privileged := isPrivileged c src || ds_privileged (st_docker s);
                       ds_pull := ds_pull (st_docker s); ds_user := ds_user (st_docker s) |};
       st_envs := st_envs s; st_files := st_files s; st_ignore_err := st_ignore_err s;
       st_ignore_stderr := st_ignore_stderr s; st_ignore_stdout := st_ignore_stdout s;
       st_resources := st_resources s; st_policy := if isSkipped c src then RunNever else st_policy s;
       st_secrets := st_secrets s; st_volumes := st_volumes s; st_working_dir := st_working_dir s |}.

  Variable isSerial : bool.
  Let linked : bool := negb isSerial && negb (cl_disable (pi_clone p)).
  Definition serviceStep (src : Container) (uid : string) : Step :=
    adjusted src (if linked then ct_depends src ++ [cloneStepName] else ct_depends src)
      (placed src (set_detach true (plainStep src uid))).
  Definition baseStep (src : Container) (uid : string) : Step :=
    match ct_build src with Some b => buildStep src b uid | None => plainStep src uid end.
  Definition pipelineStep (src : Container) (uid : string) : Step :=
    adjusted src (if linked && Nat.eqb (length (ct_depends src)) 0 then [cloneStepName] else ct_depends src)
      (placed src (baseStep src uid)).
  Definition stepFiles (src : Container) (uid : string) : list File :=
    match ct_build src with Some _ => [] | None => filesOf src uid end.
  Definition stepDraws (src : Container) : nat :=
    match ct_build src with Some _ => 1 | None => draws src end.

  Lemma compileService_ok vols files steps src n : NoNullPart src ->
    compileService rnd glob available isPrintHigh formatFloat toJSON c p isSerial ws (specOf vols files steps) (Some src) n =
    Ok (specOf vols (files ++ filesOf src (rnd (S n))) (steps ++ [serviceStep src (rnd n)]), n + draws src).
  Proof.
    intros [Hp Hv]. unfold compileService. rewrite (surjective_pairing ws), (surjective_pairing (fst ws)). fold base dir full.
    change (mlift (deref (Some src))) with (@mret Container src). unfold mbind at 1, mret at 1.
    erewrite mbind_ok by (apply createStep_ok; assumption).
    pose proof (place_ok src (set_detach true (plainStep src (rnd n))) _ (n + draws src) eq_refl) as P.
    apply mbind_inv in P as (a & n' & P1 & P2). rewrite (mbind_ok _ _ _ _ _ P1), (mbind_ok _ _ _ _ _ P2).
    unfold mret. f_equal. f_equal. unfold serviceStep, adjusted. fold linked.
    destruct (isSkipped c src), (isPrivileged c src), linked; reflexivity.
  Qed.

  Definition renameOf (src : Container) (uid : string) (rename : smap string) : smap string :=
    match ct_build src with Some b => mset (b_image b) uid rename | None => rename end.
  Lemma baseStep_envs src uid : exists e, st_envs (baseStep src uid) = Some e.
  Proof. unfold baseStep. destruct (ct_build src); eexists; reflexivity. Qed.
  Lemma compileStep_ok vols files steps rename src n : NoNullStep src ->
    compileStep rnd glob available isPrintHigh formatFloat toJSON c p isSerial ws (specOf vols files steps, rename) (Some src) n =
    Ok ((specOf vols (files ++ stepFiles src (rnd (S n))) (steps ++ [pipelineStep src (rnd n)]),
         renameOf src (rnd n) rename), n + stepDraws src).
  Proof.
    intros Hn. unfold compileStep. rewrite (surjective_pairing ws), (surjective_pairing (fst ws)). fold base dir full.
    change (mlift (deref (Some src))) with (@mret Container src). unfold mbind at 1, mret at 1.
    assert (B : match ct_build src with
      | Some b =>
          step <~ createBuildStep rnd glob available (specOf vols files steps) src b ;;
          mret (specOf vols files steps, step, mset (b_image b) (md_uid (st_meta step)) rename)
      | None =>
          '(spec, step) <~ createStep rnd glob available isPrintHigh formatFloat toJSON (specOf vols files steps) src ;;
          mret (spec, step, rename)
      end n = Ok ((specOf vols (files ++ stepFiles src (rnd (S n))) steps, baseStep src (rnd n), renameOf src (rnd n) rename), n + stepDraws src)).
    { unfold stepFiles, baseStep, renameOf, stepDraws. unfold NoNullStep in Hn. destruct (ct_build src) as [b|].
      - erewrite mbind_ok by apply createBuildStep_ok. unfold mret. rewrite app_nil_r, Nat.add_1_r. reflexivity.
      - destruct (Hn eq_refl) as [Hp Hv]. erewrite mbind_ok by (apply createStep_ok; assumption). reflexivity. }
    rewrite (mbind_ok _ _ _ _ _ B). destruct (baseStep_envs src (rnd n)) as (e & He).
    pose proof (place_ok src (baseStep src (rnd n)) e (n + stepDraws src) He) as P.
    apply mbind_inv in P as (a & n' & P1 & P2). rewrite (mbind_ok _ _ _ _ _ P1), (mbind_ok _ _ _ _ _ P2).
    unfold mret. f_equal. f_equal. f_equal. unfold pipelineStep, adjusted. fold linked.
    assert (D : st_depends (placed src (baseStep src (rnd n))) = ct_depends src) by (unfold placed, baseStep; destruct (ct_build src); reflexivity).
    destruct (isSkipped c src), (isPrivileged c src); cbn [set_policy set_docker st_depends]; rewrite D;
      destruct linked, (ct_depends src) eqn:ED; cbn [andb length Nat.eqb app];
      destruct (placed src (baseStep src (rnd n))) as [? ? ? ? [] ? ? ? ? ? ? ? ? ? ?]; cbn in D |- *; subst; reflexivity.
  Qed.

  (** ** Volumes, clone, socket. *)
  Definition volumeOf (v : Volume) (uid : string) : EVolume :=
    {| ev_meta := {| md_uid := uid; md_namespace := ns; md_name := vo_name v; md_labels := Some [] |};
       ev_empty := match vo_empty v with Some e => Some {| ed_medium := ve_medium e; ed_size := ve_size e |} | None => None end;
       ev_host := match vo_empty v, vo_host v with None, Some h => Some (vh_path h) | _, _ => None end |}.
  Fixpoint volumesOf (vs : list Volume) (n : nat) : list EVolume :=
    match vs with [] => [] | v :: vs' => volumeOf v (rnd n) :: volumesOf vs' (S n) end.
  Lemma compileVolumes_ok vs : forall vols files steps n,
    mfold (compileVolume rnd ns) (map Some vs) (specOf vols files steps) n =
    Ok (specOf (vols ++ volumesOf vs n) files steps, n + length vs).
  Proof.
    induction vs as [|v vs IH]; intros; cbn [map mfold volumesOf length].
    - rewrite app_nil_r, Nat.add_0_r. reflexivity.
    - replace (n + S (length vs)) with (S n + length vs) by lia. change (volumeOf v (rnd n) :: volumesOf vs (S n)) with ([volumeOf v (rnd n)] ++ volumesOf vs (S n)).
      rewrite app_assoc, <- IH. reflexivity.
  Qed.

  Definition cloneEnv : smap string :=
    (if Z.ltb 0 (cl_depth (pi_clone p)) then [("PLUGIN_DEPTH", itoa (cl_depth (pi_clone p)))] else []) ++
    (if cl_skip_verify (pi_clone p) then [("GIT_SSL_NO_VERIFY", "true"); ("PLUGIN_SKIP_VERIFY", "true")] else []).
  Definition gitMounts : list FileMount :=
    if isEmpty (gitCredentials c) then [] else [{| fm_name := ".git-credentials"; fm_path := "/root/.git-credentials"; fm_mode := 0 |}].
  Definition gitFiles (uid : string) : list File :=
    if isEmpty (gitCredentials c) then []
    else [{| fi_meta := {| md_uid := uid; md_namespace := ns; md_name := ".git-credentials"; md_labels := None |};
             fi_data := gitCredentials c |}].
  Definition gitDraws : nat := if isEmpty (gitCredentials c) then 0 else 1.
  Definition cloneBase (uid : string) : Step :=
    let s := plainStep (createClone p) uid in
    set_files gitMounts (set_envs (Some (msets cloneEnv [])) (set_docker (set_pull PullIfNotExists (st_docker s)) s)).
  Definition cloneStep (uid : string) : Step := placed (createClone p) (cloneBase uid).
  Lemma compileClone_ok vols files steps n :
    compileClone rnd glob available isPrintHigh formatFloat toJSON c p ws (specOf vols files steps) n =
    Ok (specOf vols (files ++ gitFiles (rnd (S n))) (steps ++ [cloneStep (rnd n)]), S n + gitDraws).
  Proof.
    unfold compileClone. rewrite (surjective_pairing ws), (surjective_pairing (fst ws)). fold base dir full.
    erewrite mbind_ok by (apply createStep_ok; intros []).
    cbv beta iota zeta.
    set (d := set_docker _ _).
    assert (E1 : setupCloneDepth p d = Ok (set_envs (Some (msets cloneEnv [])) d)).
    { unfold setupCloneDepth, cloneEnv. destruct (Z.ltb 0 (cl_depth (pi_clone p))), (cl_skip_verify (pi_clone p)); reflexivity. }
    rewrite E1. unfold mbind at 1, mlift at 1.
    assert (E2 : setupCloneCredentials rnd (specOf vols (files ++ filesOf (createClone p) (rnd (S n))) steps) (set_envs (Some (msets cloneEnv [])) d)
        (gitCredentials c) (n + draws (createClone p)) =
      Ok ((specOf vols (files ++ gitFiles (rnd (S n))) steps, cloneBase (rnd n)), S n + gitDraws)).
    { unfold setupCloneCredentials, cloneBase, gitFiles, gitMounts, gitDraws, filesOf, draws, hasCommands. cbn [createClone ct_commands length Nat.ltb Nat.leb andb].
      rewrite app_nil_r, Nat.add_1_r. destruct (isEmpty (gitCredentials c)); [rewrite app_nil_r, Nat.add_0_r; reflexivity|].
      rewrite Nat.add_1_r. reflexivity. }
    rewrite (mbind_ok _ _ _ _ _ E2).
    pose proof (place_ok (createClone p) (cloneBase (rnd n)) _ (S n + gitDraws) eq_refl) as P.
    apply mbind_inv in P as (a & n' & P1 & P2). rewrite (mbind_ok _ _ _ _ _ P1), (mbind_ok _ _ _ _ _ P2). reflexivity.
  Qed.

  (** ** Lists of containers: the number of random names drawn before each of them. *)
  Fixpoint positions (dr : Container -> nat) (n : nat) (cs : list Container) : list (nat * Container) :=
    match cs with [] => [] | x :: cs' => (n, x) :: positions dr (n + dr x) cs' end.
  Fixpoint after (dr : Container -> nat) (n : nat) (cs : list Container) : nat :=
    match cs with [] => n | x :: cs' => after dr (n + dr x) cs' end.
  Definition at_ {A} (f : Container -> string -> A) (q : nat * Container) : A := f (snd q) (rnd (fst q)).
  Definition at_next {A} (f : Container -> string -> A) (q : nat * Container) : A := f (snd q) (rnd (S (fst q))).

  Lemma compileServices_ok cs : Forall NoNullPart cs -> forall vols files steps n,
    mfold (compileService rnd glob available isPrintHigh formatFloat toJSON c p isSerial ws) (map Some cs) (specOf vols files steps) n =
    Ok (specOf vols (files ++ flat_map (at_next filesOf) (positions draws n cs))
                    (steps ++ map (at_ serviceStep) (positions draws n cs)), after draws n cs).
  Proof.
    induction 1 as [|x cs Hx Hcs IH]; intros; cbn [map mfold positions flat_map after].
    - rewrite !app_nil_r. reflexivity.
    - erewrite mbind_ok by (apply compileService_ok, Hx). rewrite IH. unfold at_next at 2, at_ at 2. cbn [fst snd].
      rewrite <- !app_assoc. reflexivity.
  Qed.

  Fixpoint renamesOf (q : list (nat * Container)) (rename : smap string) : smap string :=
    match q with [] => rename | x :: q' => renamesOf q' (renameOf (snd x) (rnd (fst x)) rename) end.
  Lemma compileSteps_ok cs : Forall NoNullStep cs -> forall vols files steps rename n,
    mfold (compileStep rnd glob available isPrintHigh formatFloat toJSON c p isSerial ws) (map Some cs) (specOf vols files steps, rename) n =
    Ok ((specOf vols (files ++ flat_map (at_next stepFiles) (positions stepDraws n cs))
                     (steps ++ map (at_ pipelineStep) (positions stepDraws n cs)),
         renamesOf (positions stepDraws n cs) rename), after stepDraws n cs).
  Proof.
    induction 1 as [|x cs Hx Hcs IH]; intros; cbn [map mfold positions flat_map after renamesOf].
    - rewrite !app_nil_r. reflexivity.
    - erewrite mbind_ok by (apply compileStep_ok, Hx). rewrite IH. unfold at_next at 2, at_ at 2. cbn [fst snd].
      rewrite <- !app_assoc. reflexivity.
  Qed.
  End OnePipeline.

  (** ** The whole compilation. *)
  Section Whole.
  Variable c : Compiler.
  Variable hostDir : option string.
  Variable hostMount : bool.
  Hypothesis Htransform : co_transform c = None.
  Hypothesis Hworkspace : co_workspace c = match hostDir with Some w => Some (CreateHostWorkspace rnd w) | None => None end.
  Hypothesis Hmount : co_mount c = if hostMount then Some (fun s b q f => mret (MountHostWorkspace s b q f)) else None.
  Variable p : Pipeline.
  Variables steps services : list Container.
  Variable vols : list Volume.
  Hypothesis Hsteps : pi_steps p = map Some steps.
  Hypothesis Hservices : pi_services p = map Some services.
  Hypothesis Hvols : pi_volumes p = map Some vols.
  Hypothesis Hs : Forall NoNullStep steps.
  Hypothesis Hv : Forall NoNullPart services.

  Definition serial : bool := forallb (fun s => Nat.eqb (length (ct_depends s)) 0) steps.
  Lemma serial_ok : computeSerial (pi_steps p) = Ok serial.
  Proof using Hsteps.
    rewrite Hsteps. unfold serial. clear. induction steps as [|s ss IH]; [reflexivity|]. cbn [map computeSerial deref obind forallb].
    destruct (Nat.eqb (length (ct_depends s)) 0); [exact IH|reflexivity].
  Qed.

  Definition workspaceVolumes (ns : string) (n : nat) : list EVolume :=
    {| ev_meta := {| md_uid := rnd n; md_namespace := ns; md_name := workspaceName; md_labels := Some [] |};
       ev_empty := Some {| ed_medium := ""; ed_size := 0 |}; ev_host := None |} ::
    match hostDir with
    | Some w => [{| ev_meta := {| md_uid := rnd (S n); md_namespace := ""; md_name := workspaceHostName; md_labels := None |};
                    ev_empty := None; ev_host := Some w |}]
    | None => []
    end.
  Definition workspaceDraws : nat := match hostDir with Some _ => 2 | None => 1 end.
  Definition socketVolume (ns uid : string) : EVolume :=
    {| ev_meta := {| md_uid := uid; md_namespace := ns; md_name := "_docker_socket"; md_labels := Some [] |};
       ev_empty := None; ev_host := Some "/var/run/docker.sock" |}.

  (** Positions of the parts in the sequence of random names. *)
  Definition nVolumes (n : nat) : nat := S n + workspaceDraws.
  Definition nClone (n : nat) : nat := nVolumes n + length vols.
  Definition nServices (n : nat) : nat := if cl_disable (pi_clone p) then nClone n else S (nClone n) + gitDraws c.
  Definition nSteps (n : nat) : nat := after (draws p) (nServices n) services.
  Definition nSocket (n : nat) : nat := after (stepDraws p) (nSteps n) steps.
  Definition ws := createWorkspace p.
  Definition pureCloneSteps (n : nat) : list Step :=
    if cl_disable (pi_clone p) then [] else [cloneStep (rnd n) p c hostMount ws (rnd (nClone n))].
  Definition pureServiceSteps (n : nat) : list Step :=
    map (at_ (serviceStep (rnd n) p c hostMount ws serial)) (positions (draws p) (nServices n) services).
  Definition purePipelineSteps (n : nat) : list Step :=
    map (at_ (pipelineStep (rnd n) p c hostMount ws serial)) (positions (stepDraws p) (nSteps n) steps).
  Definition pureSteps (n : nat) : list Step := pureCloneSteps n ++ pureServiceSteps n ++ purePipelineSteps n.
  Definition pureFiles (n : nat) : list File :=
    (if cl_disable (pi_clone p) then [] else gitFiles (rnd n) c (rnd (S (nClone n)))) ++
    flat_map (at_next (filesOf (rnd n) p)) (positions (draws p) (nServices n) services) ++
    flat_map (at_next (stepFiles (rnd n) p)) (positions (stepDraws p) (nSteps n) steps).
  Definition pureRename (n : nat) : smap string := renamesOf (positions (stepDraws p) (nSteps n) steps) [].
  Definition pureVolumes (n : nat) : list EVolume :=
    workspaceVolumes (rnd n) (S n) ++ volumesOf (rnd n) vols (nVolumes n) ++
    (if Nat.ltb 0 (length (pureRename n)) then [socketVolume (rnd n) (rnd (nSocket n))] else []).
  Definition nEnd (n : nat) : nat := if Nat.ltb 0 (length (pureRename n)) then S (nSocket n) else nSocket n.
  Definition pureSpec (n : nat) : Spec :=
    specOf (rnd n) p (pureVolumes n) (pureFiles n) (renameSteps available ord 0 (pureRename n) (pureSteps n)).

  Theorem Compile_ok n :
    Compile rnd glob available isPrintHigh formatFloat toJSON ord c p n = Ok (pureSpec n, nEnd n).
  Proof using Htransform Hworkspace Hmount Hsteps Hservices Hvols Hs Hv.
    unfold Compile. unfold mbind at 1, fresh at 1. rewrite serial_ok.
    unfold mbind at 1, mlift at 1. change (initialSpec (rnd n) p) with (specOf (rnd n) p [] [] []). fold ws.
    assert (E1 : setupWorkspace rnd c (specOf (rnd n) p [] [] []) (S n) = Ok (specOf (rnd n) p (workspaceVolumes (rnd n) (S n)) [] [], nVolumes n)).
    { unfold setupWorkspace, nVolumes, workspaceVolumes, workspaceDraws. rewrite Hworkspace. destruct hostDir.
      - replace (S n + 2) with (S (S (S n))) by lia. reflexivity.
      - rewrite Nat.add_1_r. reflexivity. }
    rewrite (mbind_ok _ _ _ _ _ E1). clear E1. rewrite Hvols. erewrite mbind_ok by apply compileVolumes_ok. fold (nClone n).
    set (V := workspaceVolumes (rnd n) (S n) ++ volumesOf (rnd n) vols (nVolumes n)).
    assert (E2 : (if cl_disable (pi_clone p) then mret (specOf (rnd n) p V [] [])
                  else compileClone rnd glob available isPrintHigh formatFloat toJSON c p ws (specOf (rnd n) p V [] [])) (nClone n) =
                 Ok (specOf (rnd n) p V (if cl_disable (pi_clone p) then [] else gitFiles (rnd n) c (rnd (S (nClone n)))) (pureCloneSteps n), nServices n)).
    { unfold nServices, pureCloneSteps. destruct (cl_disable (pi_clone p)); [reflexivity|].
      rewrite (compileClone_ok _ _ c hostMount Hmount). reflexivity. }
    rewrite (mbind_ok _ _ _ _ _ E2). clear E2. rewrite Hservices.
    erewrite mbind_ok by (apply (compileServices_ok (rnd n) p c hostMount Hmount ws serial); assumption). fold (nSteps n).
    rewrite Hsteps. erewrite mbind_ok by (apply (compileSteps_ok (rnd n) p c hostMount Hmount ws serial); assumption).
    fold (nSocket n) (pureRename n) (purePipelineSteps n) (pureServiceSteps n).
    rewrite <- !app_assoc. fold (pureFiles n) (pureSteps n).
    unfold nEnd, pureSpec, pureVolumes. unfold compileSocket.
    change (sp_docker (specOf (rnd n) p V (pureFiles n) (pureSteps n))) with (Some {| dc_auths := []; dc_volumes := V |}). cbv iota.
    destruct (Nat.ltb 0 (length (pureRename n))).
    - unfold mbind. unfold fresh. cbn. rewrite Htransform. unfold V. rewrite <- app_assoc. reflexivity.
    - unfold mbind, mret. rewrite Htransform, app_nil_r. reflexivity.
  Qed.
  End Whole.
End Pure.
