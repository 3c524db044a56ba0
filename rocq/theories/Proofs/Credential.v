(** * Credential.v: where the credentials given to the compiler and to the command end up. *)
From Coq Require Import Lia.
From Verif Require Import Model.Go Model.Types Model.Cond Model.Engine Model.Image Model.Compiler Model.RawParse Model.Transform Model.Main
  Spec.CompileSpec Spec.MainSpec Spec.CredentialSpec Spec.TransformSpec Proofs.GoFacts Proofs.CompilePure Proofs.CompileFacts Proofs.TransformFacts.

(** ** A transform acts on what is left when the credentials are blank. *)
Definition hidden {A} (r : outcome (Spec * A)) : outcome (Spec * A) :=
  match r with Ok (s, n) => Ok (hide s, n) | Err e => Err e | Panic => Panic end.
Definition hidden1 (r : outcome Spec) : outcome Spec :=
  match r with Ok s => Ok (hide s) | Err e => Err e | Panic => Panic end.
Definition Acts (t t0 : Spec -> M Spec) : Prop := forall s n, hidden (t s n) = t0 (hide s) n.
Definition Acts1 (t t0 : Spec -> outcome Spec) : Prop := forall s, hidden1 (t s) = t0 (hide s).
Lemma acts_lift t t0 : Acts1 t t0 -> Acts (fun s => mlift (t s)) (fun s => mlift (t0 s)).
Proof. intros H s n. unfold mlift. rewrite <- H. destruct (t s); reflexivity. Qed.
Lemma acts_ret t t0 : (forall s, hide (t s) = t0 (hide s)) -> Acts (fun s => mret (t s)) (fun s => mret (t0 s)).
Proof. intros H s n. unfold mret. rewrite <- H. reflexivity. Qed.
Lemma acts_combine ts ts0 : Forall2 Acts ts ts0 -> Acts (Combine ts) (Combine ts0).
Proof.
  induction 1 as [|t t0 ts ts0 H F IH]; intros s n; [reflexivity|]. rewrite !combine_cons. specialize (H s n). rewrite <- H.
  destruct (t s n) as [[a m]|e|]; [exact (IH a m)|reflexivity|reflexivity].
Qed.

Definition hideOne (k v : string) : string := snd (hideVar (k, v)).
Lemma hide_mset k v e : map hideVar (mset k v e) = mset k (hideOne k v) (map hideVar e).
Proof.
  induction e as [|[k' v'] e IH]; [reflexivity|]. cbn [mset map]. change (fst (hideVar (k', v'))) with k'.
  unfold hideVar at 2. cbn [fst snd]. destruct (String.eqb k k'); [reflexivity|]. cbn [map]. rewrite IH. reflexivity.
Qed.
Definition hiddenStep (r : outcome Step) : outcome Step :=
  match r with Ok s => Ok (hideStep s) | Err e => Err e | Panic => Panic end.
Lemma setEnv_hide k v s : hiddenStep (setEnv k v s) = setEnv k (hideOne k v) (hideStep s).
Proof.
  unfold setEnv. cbn [hideStep st_envs]. destruct (st_envs s) as [e|]; cbn [deref obind hiddenStep]; [|reflexivity].
  unfold hideStep, set_envs; cbn [st_meta st_detach st_depends st_devices st_docker st_envs st_files st_ignore_err st_ignore_stderr
    st_ignore_stdout st_resources st_policy st_secrets st_volumes st_working_dir]. rewrite hide_mset. reflexivity.
Qed.
Lemma each_hide f f0 : (forall s, hiddenStep (f s) = f0 (hideStep s)) -> Acts1 (eachStep f) (eachStep f0).
Proof.
  intros H s. unfold eachStep. cbn [hide sp_steps].
  assert (E : otraverse f0 (map hideStep (sp_steps s)) =
              match otraverse f (sp_steps s) with Ok l => Ok (map hideStep l) | Err e => Err e | Panic => Panic end).
  { induction (sp_steps s) as [|x l IH]; [reflexivity|]. cbn [map otraverse]. rewrite <- H.
    destruct (f x); cbn [hiddenStep obind]; [|reflexivity|reflexivity]. rewrite IH. destruct (otraverse f l); reflexivity. }
  rewrite E. destruct (otraverse f (sp_steps s)); reflexivity.
Qed.
Lemma environ_hide envs : Acts1 (WithEnviron envs) (WithEnviron (map hideVar envs)).
Proof.
  induction envs as [|[k v] envs IH]; intro s; [reflexivity|]. cbn [map]. unfold hideVar at 1. cbn [fst snd WithEnviron].
  change (if String.eqb k "CI_NETRC_PASSWORD" || String.eqb k "DRONE_NETRC_PASSWORD" then "" else v) with (hideOne k v).
  rewrite <- (each_hide (setEnv k v) (setEnv k (hideOne k v)) (setEnv_hide k v) s).
  destruct (eachStep (setEnv k v) s); cbn [hidden1 obind]; [apply IH|reflexivity|reflexivity].
Qed.
Lemma auths_hide auths : Acts1 (WithAuths auths) (WithAuths (map hideAuth auths)).
Proof.
  intro s. unfold WithAuths. cbn [hide sp_docker]. destruct (sp_docker s) as [d|]; [|reflexivity]. cbn [deref obind hidden1].
  unfold hide, sp_set_docker, hideDocker. cbn [sp_meta sp_platform sp_docker sp_files sp_secrets sp_steps dc_auths dc_volumes].
  rewrite map_app. reflexivity.
Qed.
Lemma hide_set_steps l s : hide (sp_set_steps l s) = sp_set_steps (map hideStep l) (hide s).
Proof. reflexivity. Qed.
Lemma labelSteps_hide ord labels l : forall i, labelSteps ord labels i (map hideStep l) =
  match labelSteps ord labels i l with Ok r => Ok (map hideStep r) | Err e => Err e | Panic => Panic end.
Proof.
  induction l as [|x l IH]; intro i; [reflexivity|]. cbn [map labelSteps]. change (st_meta (hideStep x)) with (st_meta x).
  destruct (addLabels (ord i labels) (st_meta x)); cbn [obind]; [|reflexivity|reflexivity]. rewrite IH.
  destruct (labelSteps ord labels (S i) l); reflexivity.
Qed.
Lemma lables_hide ord labels : Acts1 (WithLables ord labels) (WithLables ord labels).
Proof.
  intro s. unfold WithLables. change (sp_meta (hide s)) with (sp_meta s).
  destruct (addLabels (ord 0 labels) (sp_meta s)) as [m|e|]; cbn [obind]; [|reflexivity|reflexivity].
  cbv zeta. cbn [sp_set_meta sp_docker hide]. destruct (sp_docker s) as [d|]; [|reflexivity]. cbn [deref obind].
  change (dc_volumes (hideDocker d)) with (dc_volumes d).
  destruct (labelVolumes ord labels 1 (dc_volumes d)) as [vs|e|]; cbn [obind]; [|reflexivity|reflexivity].
  cbn [sp_set_docker sp_set_meta sp_steps hide]. rewrite labelSteps_hide. destruct (labelSteps ord labels (S (length vs)) (sp_steps s)); reflexivity.
Qed.
Lemma map_hide f (s : Spec) : (forall x, hideStep (f x) = f (hideStep x)) ->
  hide (sp_set_steps (map f (sp_steps s)) s) = sp_set_steps (map f (sp_steps (hide s))) (hide s).
Proof. intro H. rewrite hide_set_steps. cbn [hide sp_steps]. rewrite !map_map. f_equal. apply map_ext. exact H. Qed.
Lemma limits_hide m c s : hide (WithLimits m c s) = WithLimits m c (hide s).
Proof. unfold WithLimits. destruct (Z.eqb m 0 && Z.eqb c 0); [reflexivity|]. apply map_hide. reflexivity. Qed.
Lemma networks_hide l s : hide (WithNetworks l s) = WithNetworks l (hide s).
Proof. apply map_hide. reflexivity. Qed.
Lemma netrc_step m u p s : hiddenStep (netrcStep m u p s) = netrcStep m u "" (hideStep s).
Proof.
  unfold netrcStep. cbv zeta.
  replace (match st_envs (hideStep s) with None => set_envs (Some []) (hideStep s) | Some _ => hideStep s end)
    with (hideStep (match st_envs s with None => set_envs (Some []) s | Some _ => s end)).
  2:{ cbn [hideStep st_envs]. destruct (st_envs s); reflexivity. }
  generalize (match st_envs s with None => set_envs (Some []) s | Some _ => s end). clear s. intro s.
  rewrite <- (setEnv_hide "CI_NETRC_MACHINE" m s : hiddenStep _ = setEnv "CI_NETRC_MACHINE" m (hideStep s)). destruct (setEnv "CI_NETRC_MACHINE" m s) as [s1|e|]; cbn [hiddenStep obind]; [|reflexivity|reflexivity].
  rewrite <- (setEnv_hide "CI_NETRC_USERNAME" u s1 : hiddenStep _ = setEnv "CI_NETRC_USERNAME" u (hideStep s1)). destruct (setEnv "CI_NETRC_USERNAME" u s1) as [s2|e|]; cbn [hiddenStep obind]; [|reflexivity|reflexivity].
  rewrite <- (setEnv_hide "CI_NETRC_PASSWORD" p s2 : hiddenStep _ = setEnv "CI_NETRC_PASSWORD" "" (hideStep s2)). destruct (setEnv "CI_NETRC_PASSWORD" p s2) as [s3|e|]; cbn [hiddenStep obind]; [|reflexivity|reflexivity].
  rewrite <- (setEnv_hide "DRONE_NETRC_MACHINE" m s3 : hiddenStep _ = setEnv "DRONE_NETRC_MACHINE" m (hideStep s3)). destruct (setEnv "DRONE_NETRC_MACHINE" m s3) as [s4|e|]; cbn [hiddenStep obind]; [|reflexivity|reflexivity].
  rewrite <- (setEnv_hide "DRONE_NETRC_USERNAME" u s4 : hiddenStep _ = setEnv "DRONE_NETRC_USERNAME" u (hideStep s4)). destruct (setEnv "DRONE_NETRC_USERNAME" u s4) as [s5|e|]; cbn [hiddenStep obind]; [|reflexivity|reflexivity].
  exact (setEnv_hide "DRONE_NETRC_PASSWORD" p s5).
Qed.
Definition blankNetrc (m u : string) (none : bool) (s : Spec) : outcome Spec :=
  if isEmpty u || none then Ok s else eachStep (netrcStep m u "") s.
Lemma netrc_hide m u p : Acts1 (WithNetrc m u p) (blankNetrc m u (isEmpty p)).
Proof.
  intro s. unfold WithNetrc, blankNetrc. destruct (isEmpty u || isEmpty p); [reflexivity|].
  apply (each_hide (netrcStep m u p)). intro x. apply netrc_step.
Qed.
Definition blankSecrets (l : smap string) : smap string := map (fun k => (k, "")) (map fst l).
Lemma secrets_hide rnd l : Acts (WithSecrets rnd l) (WithSecrets rnd (blankSecrets l)).
Proof.
  induction l as [|[k v] l IH]; intros s n; [reflexivity|]. cbn [blankSecrets map fst WithSecrets]. unfold mbind, fresh, obind.
  etransitivity; [apply IH|]. unfold blankSecrets. f_equal. unfold hide, sp_set_secrets.
  cbn [sp_meta sp_platform sp_docker sp_files sp_secrets sp_steps]. rewrite map_app. reflexivity.
Qed.
Lemma volumes_hide rnd l : Acts (WithVolumes rnd l) (WithVolumes rnd l).
Proof.
  induction l as [|[k v] l IH]; intros s n; [reflexivity|]. cbn [WithVolumes]. unfold mbind, fresh, obind, mlift, addVolume.
  cbn [hide sp_docker]. destruct (sp_docker s) as [d|]; [|reflexivity]. cbn [deref obind].
  etransitivity; [apply IH|]. f_equal. unfold hide, sp_set_steps, sp_set_docker.
  cbn [sp_meta sp_platform sp_docker sp_files sp_secrets sp_steps]. rewrite !map_map. reflexivity.
Qed.

(** ** The compiler without a transform: only the file has the git credentials. *)
Section Git.
  Variable w : World.
  Variables c c' : Compiler.
  Variables (hostDir : option string) (hostMount : bool).
  Hypothesis HS : Standard w c hostDir hostMount.
  Hypothesis HS' : Standard w c' hostDir hostMount.
  Hypothesis Hpriv : co_privileged c = co_privileged c'.
  Hypothesis Hskip : co_skip c = co_skip c'.
  Hypothesis Hgit : isEmpty (gitCredentials c) = isEmpty (gitCredentials c').
  Lemma git_same p steps services vols n :
    hide (pure w c hostDir hostMount p steps services vols n) = hide (pure w c' hostDir hostMount p steps services vols n) /\
    sp_steps (pure w c hostDir hostMount p steps services vols n) = sp_steps (pure w c' hostDir hostMount p steps services vols n) /\
    nEnd (w_rnd w) c hostDir p steps services vols n = nEnd (w_rnd w) c' hostDir p steps services vols n.
  Proof using Hpriv Hskip Hgit.
    assert (D : gitDraws c = gitDraws c') by (unfold gitDraws; now rewrite Hgit).
    assert (NS : forall k, nServices c hostDir p vols k = nServices c' hostDir p vols k) by (intro k; unfold nServices; now rewrite D).
    assert (NT : forall k, nSteps c hostDir p services vols k = nSteps c' hostDir p services vols k) by (intro k; unfold nSteps; now rewrite NS).
    assert (NO : forall k, nSocket c hostDir p steps services vols k = nSocket c' hostDir p steps services vols k) by (intro k; unfold nSocket; now rewrite NT).
    assert (R : forall k, pureRename (w_rnd w) c hostDir p steps services vols k = pureRename (w_rnd w) c' hostDir p steps services vols k)
      by (intro k; unfold pureRename; now rewrite NT).
    assert (GM : gitMounts c = gitMounts c') by (unfold gitMounts; now rewrite Hgit).
    assert (AD : forall src deps s, adjusted c src deps s = adjusted c' src deps s)
      by (intros; unfold adjusted, isPrivileged, isSkipped; rewrite Hpriv, Hskip; reflexivity).
    assert (ST : sp_steps (pure w c hostDir hostMount p steps services vols n) = sp_steps (pure w c' hostDir hostMount p steps services vols n)).
    { unfold pure, pureSpec, specOf. cbn [sp_steps]. rewrite R. f_equal. unfold pureSteps. f_equal; [|f_equal].
      - unfold pureCloneSteps. destruct (cl_disable (pi_clone p)); [reflexivity|]. unfold cloneStep, cloneBase. rewrite GM. reflexivity.
      - unfold pureServiceSteps. rewrite NS. apply map_ext. intro q. unfold at_, serviceStep. apply AD.
      - unfold purePipelineSteps. rewrite NT. apply map_ext. intro q. unfold at_, pipelineStep. apply AD. }
    split; [|split; [exact ST|unfold nEnd; rewrite R, NO; reflexivity]].
    unfold hide. rewrite ST. unfold pure, pureSpec, specOf. cbn [sp_meta sp_platform sp_docker sp_files sp_secrets sp_steps].
    unfold pureVolumes. rewrite R, NO. f_equal. unfold pureFiles. rewrite !map_app, NS, NT. f_equal.
    destruct (cl_disable (pi_clone p)); [reflexivity|]. unfold gitFiles. rewrite Hgit. destruct (isEmpty (gitCredentials c')); reflexivity.
  Qed.
  Lemma git_compiled p n : hidden (compileIn w c p n) = hidden (compileIn w c' p n).
  Proof using HS HS' Hpriv Hskip Hgit.
    destruct (compile_total w c hostDir hostMount p n HS) as (T1 & T2), (compile_total w c' hostDir hostMount p n HS') as (T1' & T2').
    destruct (compileIn w c p n) as [[s m]|e|] eqn:E.
    - assert (X : exists steps services vols, Complete p steps services vols) by (apply T1; exists s; now exists m).
      destruct X as (steps & services & vols & X). rewrite <- E, (compile_pure w c _ _ _ _ _ _ n HS X), (compile_pure w c' _ _ _ _ _ _ n HS' X).
      destruct (git_same p steps services vols n) as (H & _ & N). cbn [hidden]. rewrite H, N. reflexivity.
    - exfalso. exact (compile_no_err _ _ _ _ _ _ _ HS E).
    - pose proof (proj2 T2 eq_refl) as X. apply T2' in X. rewrite X. reflexivity.
  Qed.
  Lemma git_only p n a b : Compiled w c p n a -> Compiled w c' p n b ->
    sp_meta a = sp_meta b /\ sp_platform a = sp_platform b /\ sp_docker a = sp_docker b /\ sp_secrets a = sp_secrets b /\
    sp_steps a = sp_steps b /\ map hideFile (sp_files a) = map hideFile (sp_files b).
  Proof using HS HS' Hpriv Hskip Hgit.
    intros A B. destruct (compiled_pure w c _ _ _ _ _ HS A) as (st & se & vo & X & ->).
    destruct B as (m & B). rewrite (compile_pure w c' _ _ _ _ _ _ n HS' X) in B. injection B as <- _.
    destruct (git_same p st se vo n) as (H & S & _).
    pose proof (f_equal sp_docker H) as HD. pose proof (f_equal sp_files H) as HF.
    split; [reflexivity|]. split; [reflexivity|]. split; [|split; [reflexivity|split; [exact S|exact HF]]].
    unfold pure, pureSpec, specOf in HD |- *. unfold hide, hideDocker in HD. cbn [sp_docker dc_auths dc_volumes map] in HD |- *. exact HD.
  Qed.
End Git.

(** ** The command. *)
Lemma creds_empty l : isEmpty (concats (map (fun u => u_string u +++ nl)%string l)) = match l with [] => true | _ => false end.
Proof. destruct l as [|u l]; [reflexivity|]. cbn [map concats]. destruct (u_string u); reflexivity. Qed.
Lemma empty_iff s : isEmpty s = true <-> s = "".
Proof. destruct s; cbn; split; congruence. Qed.
Lemma auths_same l l' : Forall2 SameRegistry l l' ->
  match registryAuths l, registryAuths l' with
  | Ok a, Ok b => map hideAuth a = map hideAuth b
  | Err e, Err e' => e = e'
  | _, _ => False
  end.
Proof.
  induction 1 as [|u u' l l' (Hh & H) F IH]; [reflexivity|]. cbn [registryAuths].
  destruct (u_user u) as [[n [x|]]|], (u_user u') as [[n' [x'|]]|]; try contradiction; try reflexivity.
  subst n'. destruct (registryAuths l), (registryAuths l'); try contradiction; cbn [obind].
  - cbn [map]. unfold hideAuth at 1 3. cbn [au_address au_username]. rewrite Hh, IH. reflexivity.
  - exact IH.
Qed.
Section Command.
  Variable mc : Machine.
  Definition commandOf' (fl : CompileFlags) (auths : list Auth) : Compiler :=
    commandCompiler (w_rnd (mc_world mc)) (w_glob (mc_world mc)) (w_available (mc_world mc)) (mc_env mc) (mc_envOrd mc) (mc_proxyOrd mc) (mc_labelOrd mc) fl auths.
  Definition blankTransform (fl : CompileFlags) (auths : list Auth) : Spec -> M Spec :=
    Combine
         [fun s => mlift (WithAuths auths s);
          fun s => mlift (WithEnviron (map hideVar (cf_env fl)) s);
          fun s => mlift (WithEnviron (map hideVar (mc_envOrd mc (defaultEnvs fl))) s);
          fun s => mlift (WithLables (mc_labelOrd mc) (cf_label fl) s);
          fun s => mret (WithLimits (cf_memlimit fl) 0 s);
          fun s => mlift (blankNetrc (cf_machine fl) (cf_username fl) (isEmpty (cf_password fl)) s);
          fun s => mret (WithNetworks (cf_network fl) s);
          fun s => mlift (WithEnviron (map hideVar (mc_proxyOrd mc (proxyEnviron (mc_env mc)))) s);
          fun s => WithSecrets (w_rnd (mc_world mc)) (blankSecrets (cf_secret fl)) s;
          fun s => WithVolumes (w_rnd (mc_world mc)) (cf_volume fl) s].
  Lemma command_acts fl auths : exists t, co_transform (commandOf' fl auths) = Some t /\ Acts t (blankTransform fl (map hideAuth auths)).
  Proof using.
    eexists. split; [reflexivity|]. apply acts_combine. repeat apply Forall2_cons; [..|apply Forall2_nil].
    - apply acts_lift, auths_hide.
    - apply acts_lift, environ_hide.
    - apply acts_lift, environ_hide.
    - apply acts_lift, lables_hide.
    - apply acts_ret, limits_hide.
    - apply acts_lift, netrc_hide.
    - apply acts_ret, networks_hide.
    - apply acts_lift. unfold WithProxy. apply environ_hide.
    - exact (secrets_hide _ _).
    - exact (volumes_hide _ _).
  Qed.
  Lemma command_hidden fl fl' auths auths' p n : SameButCredentials fl fl' -> map hideAuth auths = map hideAuth auths' ->
    hidden (compileIn (mc_world mc) (commandOf' fl auths) p n) = hidden (compileIn (mc_world mc) (commandOf' fl' auths') p n).
  Proof using.
    intros S HA. destruct (command_acts fl auths) as (t & E & A), (command_acts fl' auths') as (t' & E' & A').
    destruct S as (_ & S2 & S3 & S4 & S5 & S6 & S7 & S8 & S9 & S10 & S11 & S12 & S13 & S14 & S15 & S16 & S17 & S18 & S19 & S20 & S21 & S22).
    assert (B : blankTransform fl (map hideAuth auths) = blankTransform fl' (map hideAuth auths')).
    { assert (P : isEmpty (cf_password fl) = isEmpty (cf_password fl')).
      { rewrite <- !empty_iff in S20. destruct (isEmpty (cf_password fl)), (isEmpty (cf_password fl')); try reflexivity; [symmetry|]; now apply S20. }
      assert (De : defaultEnvs fl = defaultEnvs fl') by (unfold defaultEnvs; rewrite S7, S9, S10, S11, S12; reflexivity).
      unfold blankTransform, blankSecrets. rewrite HA, S2, S3, S4, S5, S17, S19, S21, S22, P, De. reflexivity. }
    assert (G : hidden (compileIn (mc_world mc) (noTransform (commandOf' fl auths)) p n) =
                hidden (compileIn (mc_world mc) (noTransform (commandOf' fl' auths')) p n)).
    { apply (git_compiled _ _ _ None false); [repeat split|repeat split| | |].
      - cbn [noTransform commandOf' commandCompiler co_privileged]. rewrite S6. reflexivity.
      - cbn [noTransform commandOf' commandCompiler co_skip]. rewrite S7, S8, S10, S11, S14, S15, S16. reflexivity.
      - unfold gitCredentials. cbn [noTransform commandOf' commandCompiler co_git]. unfold defaultCreds. rewrite !creds_empty.
        destruct (cf_creds fl), (cf_creds fl'); try reflexivity; exfalso.
        + assert (X : u :: l = []) by (now apply S13). discriminate.
        + assert (X : u :: l = []) by (now apply S13). discriminate. }
    rewrite (compile_transform _ (commandOf' fl auths)), (compile_transform _ (commandOf' fl' auths')), E, E'.
    destruct (compileIn (mc_world mc) (noTransform (commandOf' fl auths)) p n) as [[s m]|e|],
             (compileIn (mc_world mc) (noTransform (commandOf' fl' auths')) p n) as [[s' m']|e'|]; cbn [hidden] in G; try discriminate; try exact G.
    rewrite A, A', B. congruence.
  Qed.
  Theorem command_credentials fl fl' name clone f fs : SameButCredentials fl fl' ->
    let x := run mc (ACompile name clone fl f) fs in
    let y := run mc (ACompile name clone fl' f) fs in
    x_status x = x_status y /\ x_stderr x = x_stderr y /\ x_files x = x_files y /\
    (x_status x <> 0%Z -> x_stdout x = x_stdout y) /\
    (x_status x = 0%Z -> exists s s', x_stdout x = mc_specJSON mc s /\ x_stdout y = mc_specJSON mc s' /\ hide s = hide s').
  Proof using.
    intro S. cbv zeta. unfold run, main. cbn [parseArgs source compileFlags].
    destruct (fs f) as [content|]; [|cbn [x_status x_stderr x_files x_stdout]; repeat split; discriminate].
    unfold runCompile. cbn [compileName compileFlags cloneFlag].
    destruct (RawParse.parse (mc_decoder mc) content) as [m|e|]; cbn [obind]; try (cbn [x_status x_stderr x_files x_stdout]; repeat split; discriminate).
    destruct (findPipeline name (mf_resources m)) as [p|]; [|cbn [x_status x_stderr x_files x_stdout]; repeat split; discriminate].
    assert (R : Forall2 SameRegistry (cf_registry fl) (cf_registry fl')) by (apply S).
    apply auths_same in R.
    destruct (registryAuths (cf_registry fl)) as [auths|e|], (registryAuths (cf_registry fl')) as [auths'|e'|]; try contradiction; cbn [obind].
    2:{ rewrite R. cbn [x_status x_stderr x_files x_stdout]. repeat split; discriminate. }
    pose proof (command_hidden fl fl' auths auths' (if clone then p else disableClone p) 0 S R) as H.
    unfold compileIn, commandOf' in H.
    destruct (Compile _ _ _ _ _ _ _ (commandCompiler _ _ _ _ _ _ _ fl auths) _ 0) as [[s k]|e|],
             (Compile _ _ _ _ _ _ _ (commandCompiler _ _ _ _ _ _ _ fl' auths') _ 0) as [[s' k']|e'|]; cbn [hidden] in H; try discriminate; cbn [obind].
    - cbn [x_status x_stderr x_files x_stdout d_files d_stdout d_stderr]. split; [reflexivity|]. split; [reflexivity|]. split; [reflexivity|].
      split; [intro X; now elim X|]. intros _. exists s, s'. split; [reflexivity|]. split; [reflexivity|]. congruence.
    - injection H as ->. cbn [x_status x_stderr x_files x_stdout]. repeat split; discriminate.
    - cbn [x_status x_stderr x_files x_stdout]. repeat split; discriminate.
  Qed.
End Command.
