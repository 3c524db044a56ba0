(** * BuildFlags.v: what the flags about the build change in a compiled pipeline. *)
From Coq Require Import Permutation.
From Verif Require Import Model.Go Model.Types Model.Cond Model.Engine Model.Image Model.Compiler Model.RawParse Model.Transform Model.Main
  Spec.CompileSpec Spec.MainSpec Spec.BuildSpec Spec.TransformSpec Proofs.GoFacts Proofs.CompilePure Proofs.CompileFacts Proofs.TransformFacts.

(** ** A transform acts on what does not depend on the build. *)
Definition hidden {A} (r : outcome (Spec * A)) : outcome (Spec * A) :=
  match r with Ok (s, n) => Ok (anyBuild s, n) | Err e => Err e | Panic => Panic end.
Definition hidden1 (r : outcome Spec) : outcome Spec :=
  match r with Ok s => Ok (anyBuild s) | Err e => Err e | Panic => Panic end.
Definition Acts (t t0 : Spec -> M Spec) : Prop := forall s n, hidden (t s n) = t0 (anyBuild s) n.
Definition Acts1 (t t0 : Spec -> outcome Spec) : Prop := forall s, hidden1 (t s) = t0 (anyBuild s).
Lemma acts_lift t t0 : Acts1 t t0 -> Acts (fun s => mlift (t s)) (fun s => mlift (t0 s)).
Proof. intros H s n. unfold mlift. rewrite <- H. destruct (t s); reflexivity. Qed.
Lemma acts_ret t t0 : (forall s, anyBuild (t s) = t0 (anyBuild s)) -> Acts (fun s => mret (t s)) (fun s => mret (t0 s)).
Proof. intros H s n. unfold mret. rewrite <- H. reflexivity. Qed.
Lemma acts_combine ts ts0 : Forall2 Acts ts ts0 -> Acts (Combine ts) (Combine ts0).
Proof.
  induction 1 as [|t t0 ts ts0 H F IH]; intros s n; [reflexivity|]. rewrite !combine_cons. specialize (H s n). rewrite <- H.
  destruct (t s n) as [[a m]|e|]; [exact (IH a m)|reflexivity|reflexivity].
Qed.

Lemma any_mset k v e : filter otherVar (mset k v e) = if otherVar (k, v) then mset k v (filter otherVar e) else filter otherVar e.
Proof.
  induction e as [|[k' v'] e IH]; cbn [mset filter]; [destruct (otherVar (k, v)); reflexivity|].
  destruct (String.eqb k k') eqn:E.
  - apply String.eqb_eq in E. subst k'. cbn [filter]. change (otherVar (k, v')) with (otherVar (k, v)).
    destruct (otherVar (k, v)); [|reflexivity]. cbn [mset]. rewrite String.eqb_refl. reflexivity.
  - cbn [filter]. rewrite IH. destruct (otherVar (k', v')), (otherVar (k, v)); try reflexivity. cbn [mset]. rewrite E. reflexivity.
Qed.
Definition hiddenStep (r : outcome Step) : outcome Step :=
  match r with Ok s => Ok (anyStep s) | Err e => Err e | Panic => Panic end.
Definition touch (s : Step) : outcome Step := e <- deref (st_envs s) ;; Ok s.
Definition setOther (k v : string) (s : Step) : outcome Step := if otherVar (k, v) then setEnv k v s else touch s.
Lemma setEnv_any k v s : hiddenStep (setEnv k v s) = setOther k v (anyStep s).
Proof.
  unfold setOther, setEnv, touch. cbn [anyStep st_envs]. destruct (st_envs s) as [e|] eqn:Es; cbn [deref obind hiddenStep]; [|destruct (otherVar (k, v)); reflexivity].
  unfold anyStep, set_envs; cbn [st_meta st_detach st_depends st_devices st_docker st_envs st_files st_ignore_err st_ignore_stderr
    st_ignore_stdout st_resources st_policy st_secrets st_volumes st_working_dir]. rewrite any_mset. destruct (otherVar (k, v)); [reflexivity|rewrite Es; reflexivity].
Qed.
Lemma each_hide f f0 : (forall s, hiddenStep (f s) = f0 (anyStep s)) -> Acts1 (eachStep f) (eachStep f0).
Proof.
  intros H s. unfold eachStep. cbn [anyBuild sp_steps].
  assert (E : otraverse f0 (map anyStep (sp_steps s)) =
              match otraverse f (sp_steps s) with Ok l => Ok (map anyStep l) | Err e => Err e | Panic => Panic end).
  { induction (sp_steps s) as [|x l IH]; [reflexivity|]. cbn [map otraverse]. rewrite <- H.
    destruct (f x); cbn [hiddenStep obind]; [|reflexivity|reflexivity]. rewrite IH. destruct (otraverse f l); reflexivity. }
  rewrite E. destruct (otraverse f (sp_steps s)); reflexivity.
Qed.
Fixpoint WithOther (envs : smap string) (spec : Spec) : outcome Spec :=
  match envs with
  | [] => Ok spec
  | (key, value) :: envs' => spec <- eachStep (setOther key value) spec ;; WithOther envs' spec
  end.
Lemma environ_any envs : Acts1 (WithEnviron envs) (WithOther envs).
Proof.
  induction envs as [|[k v] envs IH]; intro s; [reflexivity|]. cbn [WithEnviron WithOther].
  rewrite <- (each_hide (setEnv k v) (setOther k v) (setEnv_any k v) s).
  destruct (eachStep (setEnv k v) s); cbn [hidden1 obind]; [apply IH|reflexivity|reflexivity].
Qed.
Lemma touch_again s t : eachStep touch s = Ok t -> t = s.
Proof.
  unfold eachStep. intro H. assert (E : forall l r, otraverse touch l = Ok r -> r = l).
  { induction l as [|x l IH]; intros r X; cbn [otraverse] in X; [congruence|]. unfold touch at 1 in X.
    destruct (st_envs x); cbn [deref obind] in X; [|discriminate]. destruct (otraverse touch l) as [q|e|]; cbn [obind] in X; try discriminate.
    injection X as <-. f_equal. now apply IH. }
  destruct (otraverse touch (sp_steps s)) as [r|e|] eqn:X; cbn [obind] in H; try discriminate. injection H as <-.
  rewrite (E _ _ X). destruct s; reflexivity.
Qed.
Lemma commit_only envs : envs <> [] -> Forall (fun x => otherVar x = false) envs -> forall s, WithOther envs s = eachStep touch s.
Proof.
  intros N F s. destruct F as [|[k v] l H F]; [now elim N|]. cbn [WithOther].
  assert (E : eachStep (setOther k v) s = eachStep touch s).
  { unfold eachStep, setOther. rewrite H. reflexivity. }
  rewrite E. destruct (eachStep touch s) as [t|e|] eqn:T; cbn [obind]; [|reflexivity|reflexivity].
  pose proof (touch_again _ _ T). subst t. clear E H k v N. induction F as [|[k v] l H F IH]; [reflexivity|]. cbn [WithOther].
  assert (E : eachStep (setOther k v) s = eachStep touch s) by (unfold eachStep, setOther; rewrite H; reflexivity).
  rewrite E, T. exact IH.
Qed.
Lemma default_any mc fl : Orders mc -> Acts1 (WithEnviron (mc_envOrd mc (defaultEnvs fl))) (eachStep touch).
Proof.
  intros (O & _) s. rewrite environ_any. apply commit_only.
  - intro X. pose proof (O (defaultEnvs fl)) as P. rewrite X in P. apply Permutation_sym, Permutation_nil in P.
    unfold defaultEnvs in P. destruct (hasPrefix (cf_ref fl) "refs/tags/"); discriminate P.
  - apply (Permutation_Forall (O (defaultEnvs fl))). unfold defaultEnvs. destruct (hasPrefix (cf_ref fl) "refs/tags/"); repeat constructor.
Qed.
Lemma hide_set_steps l s : anyBuild (sp_set_steps l s) = sp_set_steps (map anyStep l) (anyBuild s).
Proof. reflexivity. Qed.
Lemma labelSteps_hide ord labels l : forall i, labelSteps ord labels i (map anyStep l) =
  match labelSteps ord labels i l with Ok r => Ok (map anyStep r) | Err e => Err e | Panic => Panic end.
Proof.
  induction l as [|x l IH]; intro i; [reflexivity|]. cbn [map labelSteps]. change (st_meta (anyStep x)) with (st_meta x).
  destruct (addLabels (ord i labels) (st_meta x)); cbn [obind]; [|reflexivity|reflexivity]. rewrite IH.
  destruct (labelSteps ord labels (S i) l); reflexivity.
Qed.
Lemma lables_hide ord labels : Acts1 (WithLables ord labels) (WithLables ord labels).
Proof.
  intro s. unfold WithLables. change (sp_meta (anyBuild s)) with (sp_meta s).
  destruct (addLabels (ord 0 labels) (sp_meta s)) as [m|e|]; cbn [obind]; [|reflexivity|reflexivity].
  cbv zeta. cbn [sp_set_meta sp_docker anyBuild]. destruct (sp_docker s) as [d|]; [|reflexivity]. cbn [deref obind].
  
  destruct (labelVolumes ord labels 1 (dc_volumes d)) as [vs|e|]; cbn [obind]; [|reflexivity|reflexivity].
  cbn [sp_set_docker sp_set_meta sp_steps anyBuild]. rewrite labelSteps_hide. destruct (labelSteps ord labels (S (length vs)) (sp_steps s)); reflexivity.
Qed.
Lemma map_hide f (s : Spec) : (forall x, anyStep (f x) = f (anyStep x)) ->
  anyBuild (sp_set_steps (map f (sp_steps s)) s) = sp_set_steps (map f (sp_steps (anyBuild s))) (anyBuild s).
Proof. intro H. rewrite hide_set_steps. cbn [anyBuild sp_steps]. rewrite !map_map. f_equal. apply map_ext. exact H. Qed.
Lemma limits_hide m c s : anyBuild (WithLimits m c s) = WithLimits m c (anyBuild s).
Proof. unfold WithLimits. destruct (Z.eqb m 0 && Z.eqb c 0); [reflexivity|]. apply map_hide. reflexivity. Qed.
Lemma networks_hide l s : anyBuild (WithNetworks l s) = WithNetworks l (anyBuild s).
Proof. apply map_hide. reflexivity. Qed.
Lemma auths_any auths : Acts1 (WithAuths auths) (WithAuths auths).
Proof. intro s. unfold WithAuths. cbn [anyBuild sp_docker]. destruct (sp_docker s) as [d|]; reflexivity. Qed.
Lemma netrc_step m u p s : hiddenStep (netrcStep m u p s) = netrcStep m u p (anyStep s).
Proof.
  unfold netrcStep. cbv zeta.
  replace (match st_envs (anyStep s) with None => set_envs (Some []) (anyStep s) | Some _ => anyStep s end)
    with (anyStep (match st_envs s with None => set_envs (Some []) s | Some _ => s end)).
  2:{ cbn [anyStep st_envs]. destruct (st_envs s); reflexivity. }
  generalize (match st_envs s with None => set_envs (Some []) s | Some _ => s end). clear s. intro s.
  rewrite <- (setEnv_any "CI_NETRC_MACHINE" m s : hiddenStep _ = setEnv "CI_NETRC_MACHINE" m (anyStep s)). destruct (setEnv "CI_NETRC_MACHINE" m s) as [s1|e|]; cbn [hiddenStep obind]; [|reflexivity|reflexivity].
  rewrite <- (setEnv_any "CI_NETRC_USERNAME" u s1 : hiddenStep _ = setEnv "CI_NETRC_USERNAME" u (anyStep s1)). destruct (setEnv "CI_NETRC_USERNAME" u s1) as [s2|e|]; cbn [hiddenStep obind]; [|reflexivity|reflexivity].
  rewrite <- (setEnv_any "CI_NETRC_PASSWORD" p s2 : hiddenStep _ = setEnv "CI_NETRC_PASSWORD" p (anyStep s2)). destruct (setEnv "CI_NETRC_PASSWORD" p s2) as [s3|e|]; cbn [hiddenStep obind]; [|reflexivity|reflexivity].
  rewrite <- (setEnv_any "DRONE_NETRC_MACHINE" m s3 : hiddenStep _ = setEnv "DRONE_NETRC_MACHINE" m (anyStep s3)). destruct (setEnv "DRONE_NETRC_MACHINE" m s3) as [s4|e|]; cbn [hiddenStep obind]; [|reflexivity|reflexivity].
  rewrite <- (setEnv_any "DRONE_NETRC_USERNAME" u s4 : hiddenStep _ = setEnv "DRONE_NETRC_USERNAME" u (anyStep s4)). destruct (setEnv "DRONE_NETRC_USERNAME" u s4) as [s5|e|]; cbn [hiddenStep obind]; [|reflexivity|reflexivity].
  exact (setEnv_any "DRONE_NETRC_PASSWORD" p s5).
Qed.
Lemma netrc_any m u p : Acts1 (WithNetrc m u p) (WithNetrc m u p).
Proof.
  intro s. unfold WithNetrc. destruct (isEmpty u || isEmpty p); [reflexivity|].
  apply (each_hide (netrcStep m u p)). intro x. apply netrc_step.
Qed.
Lemma secrets_any rnd l : Acts (WithSecrets rnd l) (WithSecrets rnd l).
Proof.
  induction l as [|[k v] l IH]; intros s n; [reflexivity|]. cbn [WithSecrets]. unfold mbind, fresh, obind.
  etransitivity; [apply IH|]. reflexivity.
Qed.
Lemma volumes_hide rnd l : Acts (WithVolumes rnd l) (WithVolumes rnd l).
Proof.
  induction l as [|[k v] l IH]; intros s n; [reflexivity|]. cbn [WithVolumes]. unfold mbind, fresh, obind, mlift, addVolume.
  cbn [anyBuild sp_docker]. destruct (sp_docker s) as [d|]; [|reflexivity]. cbn [deref obind].
  etransitivity; [apply IH|]. f_equal. unfold anyBuild, sp_set_steps, sp_set_docker.
  cbn [sp_meta sp_platform sp_docker sp_files sp_secrets sp_steps]. rewrite !map_map. reflexivity.
Qed.


(** ** The compiler without a transform: the build decides the policies. *)
Section Skip.
  Variable w : World.
  Variables c c' : Compiler.
  Variables (hostDir : option string) (hostMount : bool).
  Hypothesis HS : Standard w c hostDir hostMount.
  Hypothesis HS' : Standard w c' hostDir hostMount.
  Hypothesis Hpriv : co_privileged c = co_privileged c'.
  Hypothesis Hgit : co_git c = co_git c'.
  Lemma rename_any av ord r l l' : map anyStep l = map anyStep l' -> forall i,
    map anyStep (renameSteps av ord i r l) = map anyStep (renameSteps av ord i r l').
  Proof using.
    revert l'. induction l as [|x l IH]; intros [|x' l'] H i; cbn [map] in H; try discriminate; [reflexivity|].
    assert (H1 : anyStep x = anyStep x') by congruence. assert (H2 : map anyStep l = map anyStep l') by congruence. clear H. cbn [renameSteps map]. rewrite (IH l' H2). f_equal.
    pose proof (f_equal st_docker H1) as E. cbn [anyStep st_docker] in E.
    change (set_docker (set_image (renameImage av (ord i r) (ds_image (st_docker x))) (st_docker x)) (anyStep x) =
            set_docker (set_image (renameImage av (ord i r) (ds_image (st_docker x'))) (st_docker x')) (anyStep x')).
    rewrite E, H1. reflexivity.
  Qed.
  Lemma skip_same p steps services vols n :
    anyBuild (pure w c hostDir hostMount p steps services vols n) = anyBuild (pure w c' hostDir hostMount p steps services vols n) /\
    nEnd (w_rnd w) c hostDir p steps services vols n = nEnd (w_rnd w) c' hostDir p steps services vols n.
  Proof using Hpriv Hgit.
    assert (Hg : gitCredentials c = gitCredentials c') by (unfold gitCredentials; now rewrite Hgit).
    assert (D : gitDraws c = gitDraws c') by (unfold gitDraws; now rewrite Hg).
    assert (NS : forall k, nServices c hostDir p vols k = nServices c' hostDir p vols k) by (intro k; unfold nServices; now rewrite D).
    assert (NT : forall k, nSteps c hostDir p services vols k = nSteps c' hostDir p services vols k) by (intro k; unfold nSteps; now rewrite NS).
    assert (NO : forall k, nSocket c hostDir p steps services vols k = nSocket c' hostDir p steps services vols k) by (intro k; unfold nSocket; now rewrite NT).
    assert (R : forall k, pureRename (w_rnd w) c hostDir p steps services vols k = pureRename (w_rnd w) c' hostDir p steps services vols k)
      by (intro k; unfold pureRename; now rewrite NT).
    assert (GM : gitMounts c = gitMounts c') by (unfold gitMounts; now rewrite Hg).
    assert (AD : forall src deps s, anyStep (adjusted c src deps s) = anyStep (adjusted c' src deps s))
      by (intros; unfold adjusted, isPrivileged; rewrite Hpriv; reflexivity).
    split; [|unfold nEnd; rewrite R, NO; reflexivity].
    unfold anyBuild, pure, pureSpec, specOf. cbn [sp_meta sp_platform sp_docker sp_files sp_secrets sp_steps].
    unfold pureVolumes. rewrite R, NO. f_equal.
    - unfold pureFiles. rewrite NS, NT. unfold gitFiles. rewrite Hg. reflexivity.
    - apply rename_any. unfold pureSteps. rewrite !map_app. f_equal; [|f_equal].
      + unfold pureCloneSteps. destruct (cl_disable (pi_clone p)); [reflexivity|]. unfold cloneStep, cloneBase. rewrite GM. reflexivity.
      + unfold pureServiceSteps. rewrite NS, !map_map. apply map_ext. intro q. unfold at_, serviceStep. apply AD.
      + unfold purePipelineSteps. rewrite NT, !map_map. apply map_ext. intro q. unfold at_, pipelineStep. apply AD.
  Qed.
  Lemma skip_compiled p n : hidden (compileIn w c p n) = hidden (compileIn w c' p n).
  Proof using HS HS' Hpriv Hgit.
    destruct (compile_total w c hostDir hostMount p n HS) as (T1 & T2), (compile_total w c' hostDir hostMount p n HS') as (T1' & T2').
    destruct (compileIn w c p n) as [[s m]|e|] eqn:E.
    - assert (X : exists steps services vols, Complete p steps services vols) by (apply T1; exists s; now exists m).
      destruct X as (steps & services & vols & X). rewrite <- E, (compile_pure w c _ _ _ _ _ _ n HS X), (compile_pure w c' _ _ _ _ _ _ n HS' X).
      destruct (skip_same p steps services vols n) as (H & N). cbn [hidden]. rewrite H, N. reflexivity.
    - exfalso. exact (compile_no_err _ _ _ _ _ _ _ HS E).
    - pose proof (proj2 T2 eq_refl) as X. apply T2' in X. rewrite X. reflexivity.
  Qed.
  Lemma rename_skipped av ord r l l' : Forall2 SameButSkipped l l' -> forall i,
    Forall2 SameButSkipped (renameSteps av ord i r l) (renameSteps av ord i r l').
  Proof using.
    induction 1 as [|x x' l l' (H & P) F IH]; intro i; [constructor|]. cbn [renameSteps]. constructor; [|apply IH].
    split; [|exact P]. pose proof (f_equal st_docker H) as E. cbn [set_policy st_docker] in E.
    change (set_docker (set_image (renameImage av (ord i r) (ds_image (st_docker x))) (st_docker x)) (set_policy RunAlways x) =
            set_docker (set_image (renameImage av (ord i r) (ds_image (st_docker x'))) (st_docker x')) (set_policy RunAlways x')).
    rewrite E, H. reflexivity.
  Qed.
  Lemma skipped_map {A} (f g : A -> Step) l : (forall a, SameButSkipped (f a) (g a)) -> Forall2 SameButSkipped (map f l) (map g l).
  Proof using. intro H. induction l; cbn [map]; constructor; auto. Qed.
  Lemma skip_only p n a b : Compiled w c p n a -> Compiled w c' p n b ->
    sp_meta a = sp_meta b /\ sp_platform a = sp_platform b /\ sp_docker a = sp_docker b /\ sp_files a = sp_files b /\
    sp_secrets a = sp_secrets b /\ Forall2 SameButSkipped (sp_steps a) (sp_steps b).
  Proof using HS HS' Hpriv Hgit.
    intros A B. destruct (compiled_pure w c _ _ _ _ _ HS A) as (st & se & vo & X & ->).
    destruct B as (m & B). rewrite (compile_pure w c' _ _ _ _ _ _ n HS' X) in B. injection B as <- _.
    destruct (skip_same p st se vo n) as (H & _).
    pose proof (f_equal sp_docker H) as HD. pose proof (f_equal sp_files H) as HF. cbn [anyBuild sp_docker sp_files] in HD, HF.
    split; [reflexivity|]. split; [reflexivity|]. split; [exact HD|]. split; [exact HF|]. split; [reflexivity|].
    assert (Hg : gitCredentials c = gitCredentials c') by (unfold gitCredentials; now rewrite Hgit).
    assert (D : gitDraws c = gitDraws c') by (unfold gitDraws; now rewrite Hg).
    assert (NS : forall k, nServices c hostDir p vo k = nServices c' hostDir p vo k) by (intro k; unfold nServices; now rewrite D).
    assert (NT : forall k, nSteps c hostDir p se vo k = nSteps c' hostDir p se vo k) by (intro k; unfold nSteps; now rewrite NS).
    assert (R : pureRename (w_rnd w) c hostDir p st se vo n = pureRename (w_rnd w) c' hostDir p st se vo n)
      by (unfold pureRename; now rewrite NT).
    assert (GM : gitMounts c = gitMounts c') by (unfold gitMounts; now rewrite Hg).
    assert (AD : forall src deps s, SameButSkipped (adjusted c src deps s) (adjusted c' src deps s)).
    { intros. split; [unfold adjusted, isPrivileged; rewrite Hpriv; reflexivity|]. cbn [adjusted st_policy].
      destruct (isSkipped c src), (isSkipped c' src); auto. }
    unfold pure, pureSpec, specOf. cbn [sp_steps]. rewrite R. apply rename_skipped. unfold pureSteps.
    apply Forall2_app; [|apply Forall2_app].
    - unfold pureCloneSteps. destruct (cl_disable (pi_clone p)); [constructor|]. unfold cloneStep, cloneBase. rewrite GM.
      constructor; [|constructor]. split; [reflexivity|left; reflexivity].
    - unfold pureServiceSteps. rewrite NS. apply skipped_map. intro q. unfold at_, serviceStep. apply AD.
    - unfold purePipelineSteps. rewrite NT. apply skipped_map. intro q. unfold at_, pipelineStep. apply AD.
  Qed.
End Skip.

(** ** The command. *)
Section Command.
  Variable mc : Machine.
  Hypothesis Ho : Orders mc.
  Let commandC (fl : CompileFlags) (auths : list Auth) : Compiler :=
    commandCompiler (w_rnd (mc_world mc)) (w_glob (mc_world mc)) (w_available (mc_world mc)) (mc_env mc) (mc_envOrd mc) (mc_proxyOrd mc) (mc_labelOrd mc) fl auths.
  Definition anyTransform (fl : CompileFlags) (auths : list Auth) : Spec -> M Spec :=
    Combine
         [fun s => mlift (WithAuths auths s);
          fun s => mlift (WithOther (cf_env fl) s);
          fun s => mlift (eachStep touch s);
          fun s => mlift (WithLables (mc_labelOrd mc) (cf_label fl) s);
          fun s => mret (WithLimits (cf_memlimit fl) 0 s);
          fun s => mlift (WithNetrc (cf_machine fl) (cf_username fl) (cf_password fl) s);
          fun s => mret (WithNetworks (cf_network fl) s);
          fun s => mlift (WithOther (mc_proxyOrd mc (proxyEnviron (mc_env mc))) s);
          fun s => WithSecrets (w_rnd (mc_world mc)) (cf_secret fl) s;
          fun s => WithVolumes (w_rnd (mc_world mc)) (cf_volume fl) s].
  Lemma command_any fl auths : exists t, co_transform (commandC fl auths) = Some t /\ Acts t (anyTransform fl auths).
  Proof using Ho.
    eexists. split; [reflexivity|]. apply acts_combine. repeat apply Forall2_cons; [..|apply Forall2_nil].
    - apply acts_lift, auths_any.
    - apply acts_lift, environ_any.
    - apply acts_lift, default_any, Ho.
    - apply acts_lift, lables_hide.
    - apply acts_ret, limits_hide.
    - apply acts_lift, netrc_any.
    - apply acts_ret, networks_hide.
    - apply acts_lift. unfold WithProxy. apply environ_any.
    - exact (secrets_any _ _).
    - exact (volumes_hide _ _).
  Qed.
  Lemma command_build fl fl' auths p n : SameButBuild fl fl' ->
    hidden (compileIn (mc_world mc) (commandC fl auths) p n) = hidden (compileIn (mc_world mc) (commandC fl' auths) p n).
  Proof using Ho.
    intros S. destruct (command_any fl auths) as (t & E & A), (command_any fl' auths) as (t' & E' & A').
    destruct S as (_ & S2 & S3 & S4 & S5 & S6 & S7 & S8 & S9 & S10 & S11 & S12 & S13).
    assert (B : anyTransform fl auths = anyTransform fl' auths).
    { unfold anyTransform. rewrite S2, S3, S4, S5, S8, S10, S11, S12, S13. reflexivity. }
    assert (G : hidden (compileIn (mc_world mc) (noTransform (commandC fl auths)) p n) =
                hidden (compileIn (mc_world mc) (noTransform (commandC fl' auths)) p n)).
    { apply (skip_compiled _ _ _ None false); [repeat split|repeat split| |].
      - unfold commandC. cbn [noTransform commandCompiler co_privileged]. rewrite S6. reflexivity.
      - unfold commandC. cbn [noTransform commandCompiler co_git]. unfold defaultCreds. rewrite S7. reflexivity. }
    rewrite (compile_transform _ (commandC fl auths)), (compile_transform _ (commandC fl' auths)), E, E'.
    destruct (compileIn (mc_world mc) (noTransform (commandC fl auths)) p n) as [[s m]|e|],
             (compileIn (mc_world mc) (noTransform (commandC fl' auths)) p n) as [[s' m']|e'|]; cbn [hidden] in G; try discriminate; try exact G.
    rewrite A, A', B. congruence.
  Qed.
  Theorem command_builds fl fl' name clone f fs : SameButBuild fl fl' ->
    let x := run mc (ACompile name clone fl f) fs in
    let y := run mc (ACompile name clone fl' f) fs in
    x_status x = x_status y /\ x_stderr x = x_stderr y /\ x_files x = x_files y /\
    (x_status x <> 0%Z -> x_stdout x = x_stdout y) /\
    (x_status x = 0%Z -> exists s s', x_stdout x = mc_specJSON mc s /\ x_stdout y = mc_specJSON mc s' /\ anyBuild s = anyBuild s').
  Proof using Ho.
    intro S. cbv zeta. unfold run, main. cbn [parseArgs source compileFlags].
    destruct (fs f) as [content|]; [|cbn [x_status x_stderr x_files x_stdout]; repeat split; discriminate].
    unfold runCompile. cbn [compileName compileFlags cloneFlag].
    destruct (RawParse.parse (mc_decoder mc) content) as [m|e|]; cbn [obind]; try (cbn [x_status x_stderr x_files x_stdout]; repeat split; discriminate).
    destruct (findPipeline name (mf_resources m)) as [p|]; [|cbn [x_status x_stderr x_files x_stdout]; repeat split; discriminate].
    assert (R : cf_registry fl = cf_registry fl') by (apply S). rewrite <- R.
    destruct (registryAuths (cf_registry fl)) as [auths|e|]; cbn [obind]; try (cbn [x_status x_stderr x_files x_stdout]; repeat split; discriminate).
    pose proof (command_build fl fl' auths (if clone then p else disableClone p) 0 S) as H.
    unfold compileIn, commandC in H.
    destruct (Compile _ _ _ _ _ _ _ (commandCompiler _ _ _ _ _ _ _ fl auths) _ 0) as [[s k]|e|],
             (Compile _ _ _ _ _ _ _ (commandCompiler _ _ _ _ _ _ _ fl' auths) _ 0) as [[s' k']|e'|]; cbn [hidden] in H; try discriminate; cbn [obind].
    - cbn [x_status x_stderr x_files x_stdout d_files d_stdout d_stderr]. split; [reflexivity|]. split; [reflexivity|]. split; [reflexivity|].
      split; [intro X; now elim X|]. intros _. exists s, s'. split; [reflexivity|]. split; [reflexivity|]. congruence.
    - injection H as ->. cbn [x_status x_stderr x_files x_stdout]. repeat split; discriminate.
    - cbn [x_status x_stderr x_files x_stdout]. repeat split; discriminate.
  Qed.
End Command.
