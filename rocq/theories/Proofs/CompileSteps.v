(** * CompileSteps.v: what each compiled step looks like. *)
From Coq Require Import Lia Sorting.Permutation.
From Verif Require Import Model.Go Model.Types Model.Cond Model.Lint Model.Engine Model.Image Model.Quote
  Model.Script Model.Path Model.Encode Model.Compiler Spec.LintSpec Spec.CompileSpec
  Spec.CondSpec Proofs.GoFacts Proofs.MapFacts Proofs.CondFacts Proofs.LintFacts Proofs.CompilePure Proofs.CompileFacts Proofs.ScriptFacts.

Lemma Forall2_weaken {A B} (P Q : A -> B -> Prop) l l' : (forall a b, P a b -> Q a b) -> Forall2 P l l' -> Forall2 Q l l'.
Proof. intros H F. induction F; constructor; auto. Qed.
Lemma serial_iff p steps : pi_steps p = map Some steps -> (serial steps = false <-> Parallel p).
Proof.
  intro H. unfold Parallel. rewrite H, somes_map. unfold serial. rewrite <- not_true_iff_false, forallb_forall. split.
  - intro N. induction steps as [|s ss IH] in N |- *; [exfalso; apply N; intros ? []|].
    destruct (ct_depends s) eqn:E.
    + destruct IH as (x & Hx & Dx).
      * intro A. apply N. intros y [<-|Hy]; [rewrite E; reflexivity|auto].
      * exists x. split; [right; exact Hx|exact Dx].
    + exists s. split; [left; reflexivity|congruence].
  - intros (x & Hx & Dx) A. specialize (A x Hx). destruct (ct_depends x); [congruence|discriminate].
Qed.
Lemma hasCommands_iff src : hasCommands src = true <-> ct_commands src <> [].
Proof. unfold hasCommands. destruct (ct_commands src); cbn; split; congruence. Qed.
Lemma hasCommands_false src : hasCommands src = false <-> ct_commands src = [].
Proof. unfold hasCommands. destruct (ct_commands src); cbn; split; congruence. Qed.

Section Steps.
  Variable w : World.
  Variables (c : Compiler) (hostDir : option string) (hostMount : bool) (p : Pipeline) (n : nat) (spec : Spec).
  Hypothesis HS : Standard w c hostDir hostMount.
  Hypothesis HK : Compiled w c p n spec.

  Lemma by_steps (P : Origin -> Step -> Prop) :
    (forall steps services vols, Complete p steps services vols ->
      (cl_disable (pi_clone p) = false -> forall uid img, P FromClone (withImage img (theClone w c hostMount p n uid))) /\
      (forall src uid img, In src services -> P (FromService src) (withImage img (theService w c hostMount p steps n src uid))) /\
      (forall src uid img, In src steps -> P (FromStep src) (withImage img (theStep w c hostMount p steps n src uid)))) ->
    Forall2 P (origins p) (sp_steps spec).
  Proof using HS HK.
    intro H. destruct (compiled_pure _ _ _ _ _ _ _ HS HK) as (steps & services & vols & HC & ->).
    destruct (H _ _ _ HC) as (H1 & H2 & H3). apply steps_all; assumption.
  Qed.

  Theorem steps_named : Forall2 RightName (origins p) (sp_steps spec).
  Proof using HS HK.
    apply by_steps. intros steps services vols _. split; [|split].
    - intros _ uid img. split; [split; reflexivity|reflexivity].
    - intros src uid img _. split; [split; reflexivity|reflexivity].
    - intros src uid img _. unfold theStep, pipelineStep, baseStep. destruct (ct_build src); (split; [split; reflexivity|reflexivity]).
  Qed.

  Theorem steps_depend : Forall2 (RightDepends p) (origins p) (sp_steps spec).
  Proof using HS HK.
    apply by_steps. intros steps services vols HC. pose proof (serial_iff p steps (proj1 HC)) as SI.
    assert (SP : serial steps = true <-> ~ Parallel p) by (rewrite <- SI; destruct (serial steps); intuition congruence).
    assert (LK : forall (A : Prop) (x : bool), (~ Parallel p \/ cl_disable (pi_clone p) = true) -> negb (serial steps) && negb (cl_disable (pi_clone p)) = false).
    { intros _ _ [N|D]; [apply SP in N; rewrite N; reflexivity|rewrite D, andb_false_r; reflexivity]. }
    assert (LK' : Parallel p /\ cl_disable (pi_clone p) = false -> negb (serial steps) && negb (cl_disable (pi_clone p)) = true).
    { intros [Pa D]. apply SI in Pa. rewrite Pa, D. reflexivity. }
    split; [|split].
    - intros _ uid img. split; reflexivity.
    - intros src uid img _. split; intro X.
      + change (st_depends (withImage img (theService w c hostMount p steps n src uid))) with
          (if negb (serial steps) && negb (cl_disable (pi_clone p)) then ct_depends src ++ [cloneStepName] else ct_depends src).
        rewrite (LK' X). reflexivity.
      + change (st_depends (withImage img (theService w c hostMount p steps n src uid))) with
          (if negb (serial steps) && negb (cl_disable (pi_clone p)) then ct_depends src ++ [cloneStepName] else ct_depends src).
        rewrite (LK True true X). reflexivity.
    - intros src uid img _.
      assert (E : st_depends (withImage img (theStep w c hostMount p steps n src uid)) =
          (if negb (serial steps) && negb (cl_disable (pi_clone p)) && Nat.eqb (length (ct_depends src)) 0 then [cloneStepName] else ct_depends src)) by reflexivity.
      unfold RightDepends. rewrite E. clear E. split; intro X.
      + rewrite (LK' X). split; intro D.
        * rewrite D. reflexivity.
        * destruct (ct_depends src); [congruence|reflexivity].
      + rewrite (LK True true X). reflexivity.
  Qed.

  Theorem steps_privileged : Forall2 (RightPrivileged c) (origins p) (sp_steps spec).
  Proof using HS HK.
    assert (PR : forall src, isPrivileged c src = true <-> exists f, co_privileged c = Some f /\ f src = true).
    { intro src. unfold isPrivileged. destruct (co_privileged c) as [f|]; split.
      - intro H. exists f. auto. - intros (g & [= <-] & H). exact H. - discriminate. - intros (g & H & _). discriminate. }
    apply by_steps. intros steps services vols _. split; [|split].
    - intros _ uid img. unfold RightPrivileged. split; [discriminate|intros []].
    - intros src uid img _. unfold RightPrivileged.
      change (ds_privileged (st_docker (withImage img (theService w c hostMount p steps n src uid)))) with (isPrivileged c src || ct_privileged src).
      rewrite orb_true_iff, PR. tauto.
    - intros src uid img _. unfold RightPrivileged.
      assert (E : ds_privileged (st_docker (withImage img (theStep w c hostMount p steps n src uid))) =
                  isPrivileged c src || match ct_build src with Some _ => false | None => ct_privileged src end).
      { unfold theStep, pipelineStep, baseStep. destruct (ct_build src); reflexivity. }
      rewrite E, orb_true_iff, PR. destruct (ct_build src); intuition congruence.
  Qed.

  Theorem steps_mounts : Forall2 (RightMounts p hostMount) (origins p) (sp_steps spec).
  Proof using HS HK.
    apply by_steps. intros steps services vols _. unfold RightMounts.
    assert (WM : forall ws, workspaceMounts hostMount ws =
      let '(base, dir, full) := ws in
      if hostMount then {| mo_name := "host"; mo_path := full |} :: match dir with "" => [] | _ => [{| mo_name := "workspace"; mo_path := base |}] end
      else [{| mo_name := "workspace"; mo_path := base |}]).
    { intros [[base dir] full]. unfold workspaceMounts. cbn. destruct hostMount; [|reflexivity]. destruct dir; reflexivity. }
    assert (MO : forall src, mountsOf src = flat_map (fun v => if String.eqb (vm_name v) "_docker_socket" then []
                                   else [{| mo_name := vm_name v; mo_path := vm_path v |}]) (present (ct_volumes src))).
    { intro src. unfold mountsOf. induction (present (ct_volumes src)) as [|v l IH]; [reflexivity|]. cbn [filter flat_map].
      destruct (String.eqb (vm_name v) "_docker_socket"); cbn [negb map app]; rewrite IH; reflexivity. }
    split; [|split].
    - intros _ uid img. change (st_volumes _) with ([] ++ workspaceMounts hostMount (createWorkspace p)). rewrite WM.
      destruct (createWorkspace p) as [[base dir] full]. reflexivity.
    - intros src uid img _. change (st_volumes _) with (mountsOf src ++ workspaceMounts hostMount (createWorkspace p)). rewrite WM, MO.
      destruct (createWorkspace p) as [[base dir] full]. reflexivity.
    - intros src uid img _.
      assert (E : st_volumes (withImage img (theStep w c hostMount p steps n src uid)) =
        match ct_build src with Some _ => [{| mo_name := "_docker_socket"; mo_path := "/var/run/docker.sock" |}] | None => mountsOf src end
        ++ workspaceMounts hostMount (createWorkspace p)).
      { unfold theStep, pipelineStep, baseStep. destruct (ct_build src); reflexivity. }
      rewrite E, WM, MO. destruct (createWorkspace p) as [[base dir] full]. cbn [declaredMounts]. destruct (ct_build src); reflexivity.
  Qed.

  Theorem steps_socket : Forall2 (fun o s => MountsSocket s <-> IsBuild o) (origins p) (sp_steps spec).
  Proof using HS HK.
    eapply Forall2_weaken; [|exact steps_mounts]. intros o s H. unfold RightMounts in H. destruct (createWorkspace p) as [[base dir] full].
    unfold MountsSocket. rewrite H. clear H.
    assert (WM : forall m, In m (if hostMount then {| mo_name := "host"; mo_path := full |} :: match dir with "" => [] | _ => [{| mo_name := "workspace"; mo_path := base |}] end
      else [{| mo_name := "workspace"; mo_path := base |}]) -> mo_name m <> "_docker_socket").
    { intros m Hm. destruct hostMount; [destruct dir|]; cbn in Hm; intuition subst; discriminate. }
    assert (DM : forall src m, In m (flat_map (fun v => if String.eqb (vm_name v) "_docker_socket" then []
                                   else [{| mo_name := vm_name v; mo_path := vm_path v |}]) (present (ct_volumes src))) -> mo_name m <> "_docker_socket").
    { intros src m Hm. apply in_flat_map in Hm as (v & _ & Hm). destruct (String.eqb_spec (vm_name v) "_docker_socket"); [destruct Hm|].
      destruct Hm as [<-|[]]. exact n0. }
    unfold IsBuild. destruct o as [|src|src]; cbn [declaredMounts].
    - split; [intros (m & Hm & E); exfalso; exact (WM m Hm E)|intros (? & ? & ? & _); discriminate].
    - split; [|intros (? & ? & ? & _); discriminate]. intros (m & Hm & E). exfalso. apply in_app_iff in Hm as [Hm|Hm]; [exact (DM _ _ Hm E)|exact (WM _ Hm E)].
    - destruct (ct_build src) as [b|] eqn:EB; split.
      + intros _. exists src, b. auto.
      + intros _. eexists. split; [left; reflexivity|reflexivity].
      + intros (m & Hm & E). exfalso. apply in_app_iff in Hm as [Hm|Hm]; [exact (DM _ _ Hm E)|exact (WM _ Hm E)].
      + intros (s' & b & [= <-] & E). congruence.
  Qed.

  Theorem steps_fields : Forall2 RightFields (origins p) (sp_steps spec).
  Proof using HS HK.
    assert (PU : forall src s, ds_pull (st_docker s) = toPullPolicy src -> SamePull (ct_pull src) s).
    { intros src s. unfold SamePull. intros ->. unfold toPullPolicy. split; [intros ->; reflexivity|]. split; [intros ->; reflexivity|]. split; [intros ->; reflexivity|].
      intro N. destruct (String.eqb_spec (toLower (ct_pull src)) "always") as [E|_]; [exfalso; apply N; rewrite E; cbn; auto|].
      destruct (String.eqb_spec (toLower (ct_pull src)) "if-not-exists") as [E|_]; [exfalso; apply N; rewrite E; cbn; auto|].
      destruct (String.eqb_spec (toLower (ct_pull src)) "never") as [E|_]; [exfalso; apply N; rewrite E; cbn; auto|reflexivity]. }
    apply by_steps. intros steps services vols _. split; [|split].
    - intros _ uid img. repeat split.
    - intros src uid img _. cbn [RightFields]. unfold Carried. do 7 (split; [reflexivity|]). split; [apply PU; reflexivity|]. repeat split.
    - intros src uid img _. cbn [RightFields]. unfold theStep, pipelineStep, baseStep. destruct (ct_build src).
      + repeat split.
      + unfold Carried. do 7 (split; [reflexivity|]). split; [apply PU; reflexivity|]. repeat split.
  Qed.

  Theorem steps_policy : Forall2 (RightPolicy w c) (origins p) (sp_steps spec).
  Proof using HS HK.
    assert (SK : forall src s, st_policy s = (if isSkipped c src then RunNever else toRunPolicy (w_glob w) src) -> RightPolicy w c (FromStep src) s).
    { intros src s E. cbn [RightPolicy]. destruct (toRunPolicy_spec (w_glob w) src) as [T1 T2]. rewrite E. unfold isSkipped, Skipped.
      assert (D : (exists f, co_skip c = Some f /\ f src = true) <-> match co_skip c with Some f => f src | None => false end = true).
      { destruct (co_skip c) as [f|]; split; [intros (g & [= <-] & H); exact H|intro H; exists f; auto|intros (g & H & _); discriminate|discriminate]. }
      rewrite D. destruct (match co_skip c with Some f => f src | None => false end).
      - split; (split; [discriminate|intros [X _]; exfalso; apply X; reflexivity]).
      - rewrite T1, T2. split; (split; [intro H; split; [discriminate|exact H]|intros [_ H]; exact H]). }
    apply by_steps. intros steps services vols _. split; [|split].
    - intros _ uid img. reflexivity.
    - intros src uid img _. change (RightPolicy w c (FromService src)) with (RightPolicy w c (FromStep src)). apply SK. reflexivity.
    - intros src uid img _. apply SK. unfold theStep, pipelineStep, baseStep. destruct (ct_build src); reflexivity.
  Qed.

  Theorem steps_working_dir : Forall2 (RightWorkingDir p) (origins p) (sp_steps spec).
  Proof using HS HK.
    apply by_steps. intros steps services vols _. split; [|split].
    - intros _ uid img. reflexivity.
    - intros src uid img _. unfold RightWorkingDir.
      change (st_working_dir _) with
        (if isEmpty (if ct_detach src && negb (hasCommands src) then ct_working_dir src else "")
         then if true && negb (hasCommands src) then "" else snd (createWorkspace p)
         else (if ct_detach src && negb (hasCommands src) then ct_working_dir src else "")).
      unfold hasCommands. destruct (ct_commands src); cbn; destruct (ct_detach src); cbn; try reflexivity.
      destruct (ct_working_dir src); reflexivity.
    - intros src uid img _. unfold RightWorkingDir, theStep, pipelineStep, baseStep. destruct (ct_build src).
      + change (st_working_dir _) with (if ct_detach src && negb (hasCommands src) then "" else snd (createWorkspace p)).
        unfold hasCommands. destruct (ct_detach src), (ct_commands src); reflexivity.
      + change (st_working_dir _) with
        (if isEmpty (if ct_detach src && negb (hasCommands src) then ct_working_dir src else "")
         then if ct_detach src && negb (hasCommands src) then "" else snd (createWorkspace p)
         else (if ct_detach src && negb (hasCommands src) then ct_working_dir src else "")).
        unfold hasCommands. destruct (ct_detach src), (ct_commands src); cbn; try reflexivity. destruct (ct_working_dir src); reflexivity.
  Qed.

  (** ** Variables *)
  Lemma wsEnv_iff ws k v : In (k, v) (workspaceEnv ws) <-> let '(base, dir, full) := ws in In (k, v) (workspaceVars base dir full).
  Proof using. destruct ws as [[base dir] full]. cbn. tauto. Qed.
  Lemma NoDup_wsEnv ws : NoDup (mkeys (workspaceEnv ws)).
  Proof using. cbn. repeat constructor; cbn; intuition discriminate. Qed.
  Lemma wsEnv_last ws e k v : mget k (msets (workspaceEnv ws) e) = Some v <->
    (let '(base, dir, full) := ws in In (k, v) (workspaceVars base dir full)) \/
    ((forall x, ~ let '(base, dir, full) := ws in In (k, x) (workspaceVars base dir full)) /\ mget k e = Some v).
  Proof using.
    rewrite (mget_msets_unique _ _ _ _ (NoDup_wsEnv ws)). rewrite wsEnv_iff.
    assert (A : (forall x, ~ In (k, x) (workspaceEnv ws)) <-> (forall x, ~ let '(base, dir, full) := ws in In (k, x) (workspaceVars base dir full))).
    { split; intros H x; specialize (H x); rewrite wsEnv_iff in *; exact H. }
    rewrite A. reflexivity.
  Qed.
  Lemma scriptEnv_iff src k v : In (k, v) (scriptEnv (w_isPrintHigh w) p src) <-> ScriptVar w p src k v.
  Proof using.
    unfold scriptEnv, ScriptVar, Windows. rewrite <- scriptWin_text, <- hasCommands_iff. destruct (hasCommands src), (String.eqb_spec (pl_os (pi_platform p)) "windows") as [E|N]; cbn.
    - split; [intros [[= <- <-]|[[= <- <-]|[]]]; auto 6|]. intros (_ & _ & [[-> ->]|[-> ->]]); auto.
    - split; [intros []|]. intros (E & _). contradiction.
    - split; [intros []|]. intros (_ & X & _). discriminate.
    - split; [intros []|]. intros (_ & X & _). discriminate.
  Qed.
  Lemma plainSettings_iff src k v : In (k, v) (plainSettings (w_formatFloat w) (w_toJSON w) (ct_settings src)) <-> PlainSetting w src k v.
  Proof using.
    unfold plainSettings, PlainSetting. rewrite in_flat_map. split.
    - intros ([name [x|]] & Hin & H); [|destruct H]. destruct (isEmpty (p_secret x)) eqn:E; [|destruct H]. destruct H as [[= <- <-]|[]].
      exists name, x. apply isEmpty_true in E. auto.
    - intros (name & x & Hin & E & -> & ->). exists (name, Some x). split; [exact Hin|]. apply isEmpty_true in E. rewrite E. left. reflexivity.
  Qed.
  Lemma plainEnv_iff src k v : In (k, v) (plainEnv (ct_environment src)) <-> PlainVar src k v.
  Proof using.
    unfold plainEnv, PlainVar. rewrite in_flat_map. split.
    - intros ([name [x|]] & Hin & H); [|destruct H]. destruct (isEmpty (v_secret x)) eqn:E; [|destruct H]. destruct H as [[= <- <-]|[]].
      exists x. apply isEmpty_true in E. auto.
    - intros (x & Hin & E & <-). exists (k, Some x). split; [exact Hin|]. apply isEmpty_true in E. rewrite E. left. reflexivity.
  Qed.
  Lemma NoDup_sub {A B} (f : A -> B) (g : A -> list (B * string)) l :
    (forall a q, In q (g a) -> fst q = f a) -> (forall a, length (g a) <= 1) -> NoDup (map f l) -> NoDup (map fst (flat_map g l)).
  Proof using.
    intros H1 H2. induction l as [|a l IH]; cbn; [constructor|]. intro H. apply NoDup_cons_iff in H as [Ha Hl].
    rewrite map_app. specialize (H2 a). destruct (g a) as [|q [|q' r]] eqn:E; cbn in *; [exact (IH Hl)| |lia].
    constructor; [|exact (IH Hl)]. intro Hin. apply in_map_iff in Hin as (q2 & Eq & Hin). apply in_flat_map in Hin as (a2 & Ha2 & Hq2).
    apply Ha. rewrite <- (H1 a q) by (rewrite E; left; reflexivity). rewrite <- Eq. rewrite (H1 _ _ Hq2). apply in_map. exact Ha2.
  Qed.
  Lemma NoDup_plainEnv src : NoDup (mkeys (ct_environment src)) -> NoDup (mkeys (plainEnv (ct_environment src))).
  Proof using.
    apply NoDup_sub.
    - intros [k [x|]] q H; [|destruct H]. destruct (isEmpty (v_secret x)); [|destruct H]. destruct H as [<-|[]]. reflexivity.
    - intros [k [x|]]; [|cbn; lia]. destruct (isEmpty (v_secret x)); cbn; lia.
  Qed.
  Lemma NoDup_plainSettings src : NoCollision src -> NoDup (mkeys (plainSettings (w_formatFloat w) (w_toJSON w) (ct_settings src))).
  Proof using.
    unfold NoCollision, mkeys. intro H. apply (NoDup_sub (fun q : string * option Parameter_ => settingKey (fst q))).
    - intros [k [x|]] q Hq; [|destruct Hq]. destruct (isEmpty (p_secret x)); [|destruct Hq]. destruct Hq as [<-|[]]. reflexivity.
    - intros [k [x|]]; [|cbn; lia]. destruct (isEmpty (p_secret x)); cbn; lia.
    - rewrite map_map in H. revert H. generalize (ct_settings src). clear. intros l. induction l as [|a l IH]; cbn; [constructor|].
      intro H. apply NoDup_cons_iff in H as [Ha Hl]. constructor; [|exact (IH Hl)]. intro Hin. apply Ha.
      apply in_map_iff in Hin as (b & E & Hb). apply in_map_iff. exists b. split; [|exact Hb]. injection E as E. exact E.
  Qed.
  Lemma NoDup_scriptEnv src : NoDup (mkeys (scriptEnv (w_isPrintHigh w) p src)).
  Proof using. unfold scriptEnv. destruct (_ && _); cbn; repeat constructor; cbn; intuition discriminate. Qed.

  Lemma env_ok src s : MapsOk src -> NoCollision src ->
    st_envs s = Some (msets (workspaceEnv (createWorkspace p)) (msets (scriptEnv (w_isPrintHigh w) p src)
      (msets (plainSettings (w_formatFloat w) (w_toJSON w) (ct_settings src)) (msets (plainEnv (ct_environment src)) [])))) ->
    RightEnv w p src s.
  Proof using.
    intros [H1 _] H2 E k v. unfold envOf. rewrite E, wsEnv_last. fold (WorkspaceVar p k v).
    rewrite (mget_msets_unique _ _ _ _ (NoDup_scriptEnv src)), (mget_msets_unique _ _ _ _ (NoDup_plainSettings src H2)),
      (mget_msets_unique _ _ _ _ (NoDup_plainEnv src H1)).
    rewrite scriptEnv_iff, plainSettings_iff, plainEnv_iff.
    assert (A1 : (forall x, ~ In (k, x) (scriptEnv (w_isPrintHigh w) p src)) <-> (forall x, ~ ScriptVar w p src k x))
      by (split; intros H x; specialize (H x); rewrite scriptEnv_iff in *; exact H).
    assert (A2 : (forall x, ~ In (k, x) (plainSettings (w_formatFloat w) (w_toJSON w) (ct_settings src))) <-> (forall x, ~ PlainSetting w src k x))
      by (split; intros H x; specialize (H x); rewrite plainSettings_iff in *; exact H).
    rewrite A1, A2. unfold WorkspaceVar. cbn [mget]. intuition discriminate.
  Qed.
  Lemma secrets_ok src s : st_secrets s = secretEnv (ct_environment src) ++ secretSettings (ct_settings src) -> RightSecrets src s.
  Proof using.
    intros E name k. rewrite E, in_app_iff. unfold secretEnv, secretSettings. rewrite !in_flat_map. split.
    - intros [([k' [x|]] & Hin & H)|([k' [x|]] & Hin & H)]; try (destruct H; fail).
      + destruct (isEmpty (v_secret x)) eqn:Es; [destruct H|]. destruct H as [[= <- <-]|[]]. left. apply isEmpty_false in Es. eauto.
      + destruct (isEmpty (p_secret x)) eqn:Es; [destruct H|]. destruct H as [[= <- <-]|[]]. right. apply isEmpty_false in Es. split; [exact Es|]. exists k', x. auto.
    - intros [(Ne & x & Hin & <-)|(Ne & k' & x & Hin & <- & ->)]; [left; exists (k, Some x)|right; exists (k', Some x)]; (split; [exact Hin|]);
        apply isEmpty_false in Ne; rewrite Ne; left; reflexivity.
  Qed.
  Lemma buildEnv_iff b uid k v : In (k, v) (buildEnv (w_available w) b uid) <-> buildVars w b uid k v.
  Proof using.
    unfold buildEnv, buildVars. rewrite !in_app_iff.
    assert (L : Nat.ltb 0 (length (b_cache_from b)) = true <-> b_cache_from b <> []) by (destruct (b_cache_from b); cbn; split; congruence).
    assert (N : forall s, negb (isEmpty s) = true <-> s <> "") by (intros [|]; cbn; split; congruence).
    rewrite <- L, <- !N.
    destruct (Nat.ltb 0 (length (b_cache_from b))), (negb (isEmpty (b_dockerfile b))), (negb (isEmpty (b_context b))), (negb (isEmpty (b_image b)));
      cbn; split; intro H;
      repeat match goal with
        | H : _ \/ _ |- _ => destruct H
        | H : (_, _) = (_, _) |- _ => injection H as <- <-
        | H : _ /\ _ |- _ => destruct H
        | H : False |- _ => destruct H
        end; try discriminate; subst; auto 12.
  Qed.
  Lemma NoDup_buildEnv b uid : NoDup (mkeys (buildEnv (w_available w) b uid)).
  Proof using.
    unfold buildEnv. destruct (Nat.ltb 0 (length (b_cache_from b))), (negb (isEmpty (b_dockerfile b))), (negb (isEmpty (b_context b))), (negb (isEmpty (b_image b)));
      cbn; repeat constructor; cbn; intuition discriminate.
  Qed.
  Lemma build_not_ws b uid k v : buildVars w b uid k v -> forall x, ~ WorkspaceVar p k x.
  Proof using.
    intros H x. unfold WorkspaceVar. destruct (createWorkspace p) as [[base dir] full]. cbn. intro W.
    unfold buildVars in H.
    repeat match goal with
        | H : _ \/ _ |- _ => destruct H
        | H : (_, _) = (_, _) |- _ => injection H as <- <-
        | H : _ /\ _ |- _ => destruct H
        | H : False |- _ => destruct H
        end; subst; discriminate.
  Qed.

  Theorem steps_env : Forall2 (fun o s =>
      match o with
      | FromClone => RightCloneEnv p s
      | FromService src => RightSecrets src s /\ (MapsOk src -> NoCollision src -> RightEnv w p src s)
      | FromStep src =>
          match ct_build src with
          | Some b => RightBuildEnv w p b s
          | None => RightSecrets src s /\ (MapsOk src -> NoCollision src -> RightEnv w p src s)
          end
      end) (origins p) (sp_steps spec).
  Proof using HS HK.
    apply by_steps. intros steps services vols _. split; [|split].
    - intros _ uid img. split; [|reflexivity]. intros k v.
      change (envOf _ k) with (mget k (msets (workspaceEnv (createWorkspace p)) (msets (cloneEnv p) []))).
      rewrite wsEnv_last. fold (WorkspaceVar p k v).
      assert (NC : NoDup (mkeys (cloneEnv p))).
      { unfold cloneEnv. destruct (Z.ltb 0 (cl_depth (pi_clone p))), (cl_skip_verify (pi_clone p)); cbn; repeat constructor; cbn; intuition discriminate. }
      rewrite (mget_msets_unique _ _ _ _ NC).
      assert (CE : In (k, v) (cloneEnv p) <->
        (k = "PLUGIN_DEPTH" /\ (0 < cl_depth (pi_clone p))%Z /\ v = itoa (cl_depth (pi_clone p))) \/
        (cl_skip_verify (pi_clone p) = true /\ v = "true" /\ (k = "GIT_SSL_NO_VERIFY" \/ k = "PLUGIN_SKIP_VERIFY"))).
      { unfold cloneEnv. rewrite in_app_iff, <- Z.ltb_lt. destruct (Z.ltb 0 (cl_depth (pi_clone p))), (cl_skip_verify (pi_clone p)); cbn [In];
          split; intro H; repeat match goal with
        | H : _ \/ _ |- _ => destruct H
        | H : (_, _) = (_, _) |- _ => injection H as <- <-
        | H : _ /\ _ |- _ => destruct H
        | H : False |- _ => destruct H
        end; try discriminate; subst; auto 12. }
      rewrite CE. cbn [mget]. split.
      + intros [H|[_ [H|[_ H]]]]; [auto|auto|discriminate].
      + intros [H|H]; [auto|]. right. split; [|auto]. intros x. unfold WorkspaceVar in *. destruct (createWorkspace p) as [[base dir] full]. cbn. intro W.
        repeat match goal with
        | H : _ \/ _ |- _ => destruct H
        | H : (_, _) = (_, _) |- _ => injection H as <- <-
        | H : _ /\ _ |- _ => destruct H
        | H : False |- _ => destruct H
        end; subst; discriminate.
    - intros src uid img _. split; [apply secrets_ok; reflexivity|]. intros. apply env_ok; [assumption|assumption|reflexivity].
    - intros src uid img _. unfold theStep, pipelineStep, baseStep. destruct (ct_build src) as [b|].
      + split; [|reflexivity]. intros k v.
        change (envOf _ k) with (mget k (msets (workspaceEnv (createWorkspace p)) (msets (buildEnv (w_available w) b uid) []))).
        rewrite wsEnv_last. fold (WorkspaceVar p k v). rewrite (mget_msets_unique _ _ _ _ (NoDup_buildEnv b uid)), buildEnv_iff. cbn [mget].
        change (md_uid _) with uid. split.
        * intros [H|[_ [H|[_ H]]]]; [auto|auto|discriminate].
        * intros [H|H]; [auto|]. right. split; [exact (build_not_ws _ _ _ _ H)|auto].
      + split; [apply secrets_ok; reflexivity|]. intros. apply env_ok; [assumption|assumption|reflexivity].
  Qed.

  Theorem steps_workspace : forall base dir full, createWorkspace p = (base, dir, full) ->
    Forall2 (fun _ s => HasWorkspace base dir full s) (origins p) (sp_steps spec).
  Proof using HS HK.
    intros base dir full E. apply by_steps. intros steps services vols _.
    assert (K : forall s e, st_envs s = Some (msets (workspaceEnv (createWorkspace p)) e) -> HasWorkspace base dir full s).
    { intros s e He. apply Forall_forall. intros [k v] Hin. unfold envOf. rewrite He, E. apply wsEnv_last. left. exact Hin. }
    split; [|split]; intros; [eapply K; reflexivity|eapply K; reflexivity|].
    unfold theStep, pipelineStep, baseStep. destruct (ct_build src); eapply K; reflexivity.
  Qed.
End Steps.
