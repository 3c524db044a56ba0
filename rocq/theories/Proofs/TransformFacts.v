(** * TransformFacts.v: facts about the transforms. *)
From Coq Require Import Lia Sorting.Permutation.
From Verif Require Import Model.Go Model.Types Model.Cond Model.Engine Model.Path Model.Compiler Model.Transform
  Spec.CompileSpec Spec.TransformSpec Proofs.GoFacts Proofs.MapFacts Proofs.LintFacts
  Proofs.CompileFacts Proofs.CompileSteps Proofs.CompileWhole.

Lemma SameStep_refl f a : SameStepBut f a a. Proof. repeat split. Qed.
Lemma Forall2_map_r {A} (R : A -> A -> Prop) (f : A -> A) l : (forall a, In a l -> R a (f a)) -> Forall2 R l (map f l).
Proof. induction l as [|a l IH]; intro H; constructor; [apply H; left; reflexivity|]. apply IH. intros x Hx. apply H. right. exact Hx. Qed.
Lemma Forall2_refl {A} (R : A -> A -> Prop) l : (forall a, In a l -> R a a) -> Forall2 R l l.
Proof. induction l as [|a l IH]; intro H; constructor; [apply H; left; reflexivity|]. apply IH. intros x Hx. apply H. right. exact Hx. Qed.
Lemma sp_steps_eta spec : sp_set_steps (sp_steps spec) spec = spec. Proof. destruct spec. reflexivity. Qed.
Lemma smem_In x l : smem x l = true <-> In x l.
Proof. unfold smem. rewrite existsb_exists. split; [intros (y & Hy & E); apply String.eqb_eq in E; congruence|intro H; exists x; split; [exact H|apply String.eqb_refl]]. Qed.
Lemma smem_false x l : smem x l = false <-> ~ In x l.
Proof. rewrite <- smem_In. destruct (smem x l); split; congruence. Qed.

(** ** Filters *)
Lemma only_steps R spec steps : Forall2 R (sp_steps spec) steps -> SameSpecBut [] R spec (sp_set_steps steps spec).
Proof. intro H. split; [reflexivity|]. split; [reflexivity|]. split; [reflexivity|]. split; [reflexivity|]. split; [reflexivity|exact H]. Qed.
Lemma off_same (off : Step -> Prop) a : ~ off a -> OffIff off a a.
Proof. intro H. split; [apply SameStep_refl|]. split; [intro X; contradiction|reflexivity]. Qed.
Lemma off_never (off : Step -> Prop) a : off a -> OffIff off a (set_policy RunNever a).
Proof. intro H. split; [repeat split; congruence|]. split; [reflexivity|intro X; contradiction]. Qed.
Theorem include_spec names spec :
  SameSpecBut [] (OffIff (fun s => names <> [] /\ notClone s /\ ~ In (stepName s) names)) spec (Include names spec).
Proof.
  unfold Include. destruct names as [|x names]; cbn [length Nat.eqb].
  - rewrite <- (sp_steps_eta spec) at 2. apply only_steps, Forall2_refl. intros a _. apply off_same. intros [H _]. apply H. reflexivity.
  - apply only_steps, Forall2_map_r. intros a _. unfold includeStep, notClone.
    destruct (String.eqb_spec (md_name (st_meta a)) "clone") as [E|E]; [apply off_same; intros (_ & H & _); exact (H E)|].
    destruct (smem (md_name (st_meta a)) (x :: names)) eqn:M; cbn [negb].
    + apply off_same. intros (_ & _ & H). apply H, smem_In, M.
    + apply off_never. split; [discriminate|]. split; [exact E|]. apply smem_false, M.
Qed.
Theorem exclude_spec names spec :
  SameSpecBut [] (OffIff (fun s => notClone s /\ In (stepName s) names)) spec (Exclude names spec).
Proof.
  unfold Exclude. destruct names as [|x names]; cbn [length Nat.eqb].
  - rewrite <- (sp_steps_eta spec) at 2. apply only_steps, Forall2_refl. intros a _. apply off_same. intros [_ []].
  - apply only_steps, Forall2_map_r. intros a _. unfold excludeStep, notClone.
    destruct (String.eqb_spec (md_name (st_meta a)) "clone") as [E|E]; [apply off_same; intros [H _]; exact (H E)|].
    destruct (smem (md_name (st_meta a)) (x :: names)) eqn:M.
    + apply off_never. split; [exact E|]. apply smem_In, M.
    + apply off_same. intros [_ H]. apply smem_In in H. unfold stepName in H. congruence.
Qed.
Lemma resume_steps name steps : exists before after, steps = before ++ after /\ ~ In name (map stepName before) /\
  (after = [] \/ exists s rest, after = s :: rest /\ stepName s = name) /\
  resumeSteps name steps = map (fun s => if String.eqb (stepName s) "clone" then s else set_policy RunNever s) before ++ after.
Proof.
  induction steps as [|s steps (before & after & E & N & A & R)]; cbn [resumeSteps].
  - exists [], []. cbn. auto.
  - change (md_name (st_meta s)) with (stepName s). destruct (String.eqb_spec (stepName s) name) as [H|H].
    + exists [], (s :: steps). cbn. split; [reflexivity|]. split; [auto|]. split; [right; exists s, steps; auto|reflexivity].
    + exists (s :: before), after. rewrite R, E. cbn [map app In]. split; [reflexivity|]. split; [intuition congruence|]. split; [exact A|].
      destruct (String.eqb (stepName s) "clone"); reflexivity.
Qed.
Theorem resume_spec name spec : exists before after, sp_steps spec = before ++ after /\ ~ In name (map stepName before) /\
  (after = [] \/ exists s rest, after = s :: rest /\ stepName s = name) /\
  SameSpecBut [] (fun _ _ => True) spec (ResumeAt name spec) /\
  exists before', sp_steps (ResumeAt name spec) = before' ++ after /\
    Forall2 (OffIff (fun s => name <> "" /\ notClone s)) before before'.
Proof.
  destruct (resume_steps name (sp_steps spec)) as (before & after & E & N & A & R). exists before, after.
  split; [exact E|]. split; [exact N|]. split; [exact A|]. unfold ResumeAt. destruct name as [|c0 name0]; cbn [isEmpty].
  - split; [rewrite <- (sp_steps_eta spec) at 2; apply only_steps, Forall2_refl; auto|].
    exists before. split; [exact E|]. apply Forall2_refl. intros a _. apply off_same. intros [H _]. apply H. reflexivity.
  - split; [apply only_steps; rewrite R, E; apply Forall2_app; [apply Forall2_map_r; auto|apply Forall2_refl; auto]|].
    eexists. split; [exact R|]. apply Forall2_map_r. intros a _. unfold notClone. destruct (String.eqb_spec (stepName a) "clone") as [C|C].
    + apply off_same. intros [_ H]. exact (H C).
    + apply off_never. split; [discriminate|exact C].
Qed.

(** ** Environment *)
Definition envsStep (envs : smap string) (s : Step) : Step :=
  match st_envs s with Some e => set_envs (Some (msets envs e)) s | None => s end.
Lemma set_envs_twice a b s : set_envs a (set_envs b s) = set_envs a s. Proof. reflexivity. Qed.
Lemma each_env k v steps : Forall (fun s => st_envs s <> None) steps ->
  otraverse (setEnv k v) steps = Ok (map (envsStep [(k, v)]) steps).
Proof.
  induction steps as [|s steps IH]; intro H; [reflexivity|]. inversion H as [|s' l' Hs Hl]; subst. cbn [otraverse map]. rewrite (IH Hl).
  unfold setEnv, envsStep. destruct (st_envs s); [reflexivity|contradiction].
Qed.
Lemma envsStep_some envs s : st_envs s <> None -> st_envs (envsStep envs s) <> None.
Proof. unfold envsStep. destruct (st_envs s) eqn:E; [discriminate|]. rewrite E. auto. Qed.
Lemma envsStep_cons k v envs s : envsStep envs (envsStep [(k, v)] s) = envsStep ((k, v) :: envs) s.
Proof. unfold envsStep. destruct (st_envs s) eqn:E; cbn; [reflexivity|]. rewrite E. reflexivity. Qed.
Lemma environ_pure envs : forall spec, Forall (fun s => st_envs s <> None) (sp_steps spec) ->
  WithEnviron envs spec = Ok (sp_set_steps (map (envsStep envs) (sp_steps spec)) spec).
Proof.
  induction envs as [|[k v] envs IH]; intros spec H; cbn [WithEnviron].
  - f_equal. rewrite <- (sp_steps_eta spec) at 1. f_equal. rewrite <- map_id at 1. apply map_ext. intro s. unfold envsStep.
    destruct s as [? ? ? ? ? [e|] ? ? ? ? ? ? ? ? ?]; reflexivity.
  - unfold eachStep. rewrite each_env by exact H. cbn [obind]. rewrite IH.
    + f_equal. unfold sp_set_steps. cbn. f_equal. rewrite map_map. apply map_ext. intro s. apply envsStep_cons.
    + cbn. apply Forall_map. eapply Forall_impl; [|exact H]. intros s. apply envsStep_some.
Qed.
Lemma each_env_none k v steps : ~ Forall (fun s => st_envs s <> None) steps -> otraverse (setEnv k v) steps = Panic.
Proof.
  induction steps as [|s steps IH]; intro H; [exfalso; apply H; constructor|]. cbn [otraverse]. unfold setEnv at 1. destruct (st_envs s) eqn:E; [|reflexivity].
  cbn. rewrite IH; [reflexivity|]. intro X. apply H. constructor; [congruence|exact X].
Qed.
Lemma envs_dec (l : list Step) : Forall (fun s => st_envs s <> None) l \/ ~ Forall (fun s => st_envs s <> None) l.
Proof.
  induction l as [|s l IH]; [left; constructor|]. destruct (st_envs s) eqn:E.
  - destruct IH as [H|H]; [left; constructor; [congruence|exact H]|right]. intro X. inversion X; auto.
  - right. intro X. inversion X; auto.
Qed.
Lemma written_env envs s : NoDup (mkeys envs) -> Written envs (st_envs s) (st_envs (envsStep envs s)) \/ (st_envs s = None /\ envs <> []).
Proof.
  intro ND. unfold envsStep. destruct (st_envs s) as [e|] eqn:E.
  - left. cbn [st_envs set_envs]. intros k v. rewrite mget_msets_unique by exact ND. rewrite keys_values. split.
    + intros [H|[H1 H2]]; [auto|]. right. split; [exact H1|]. exists e. auto.
    + intros [H|[H1 (b & [= <-] & H2)]]; auto.
  - destruct envs; [left; unfold Written; rewrite E; split; reflexivity|right; split; [reflexivity|discriminate]].
Qed.
Theorem environ_spec envs spec : NoDup (mkeys envs) ->
  (envs = [] \/ Forall (fun s => st_envs s <> None) (sp_steps spec) ->
   exists spec', WithEnviron envs spec = Ok spec' /\
     SameSpecBut [] (fun s t => SameStepBut "envs" s t /\ Written envs (st_envs s) (st_envs t)) spec spec') /\
  (envs <> [] -> ~ Forall (fun s => st_envs s <> None) (sp_steps spec) -> WithEnviron envs spec = Panic).
Proof.
  intro ND. split.
  - intro H. destruct (envs_dec (sp_steps spec)) as [D|D].
    + eexists. split; [apply environ_pure, D|]. apply only_steps, Forall2_map_r. intros a Ha. split.
      * unfold envsStep. destruct (st_envs a) eqn:E; [repeat split; congruence|apply SameStep_refl].
      * destruct (written_env envs a ND) as [X|[X _]]; [exact X|]. rewrite Forall_forall in D. exfalso. exact (D a Ha X).
    + destruct H as [->|H]; [|contradiction]. exists spec. split; [reflexivity|]. rewrite <- (sp_steps_eta spec) at 2. apply only_steps, Forall2_refl.
      intros a _. split; [apply SameStep_refl|]. destruct (st_envs a) as [e|] eqn:E; [|cbn; auto]. intros k v. cbn. split; [intro G; right; split; [auto|]; exists e; auto|].
      intros [[]|[_ (b & [= <-] & G)]]. exact G.
  - intros H D. destruct envs as [|[k v] envs]; [congruence|]. cbn [WithEnviron]. unfold eachStep. rewrite each_env_none by exact D. reflexivity.
Qed.
(** Applying it twice, in any orders, is applying it once. *)
Lemma msets_again k (envs envs' e : smap string) : NoDup (mkeys envs) -> Permutation envs envs' ->
  mget k (msets envs' (msets envs e)) = mget k (msets envs e).
Proof.
  intros ND P. rewrite !mget_msets. destruct (mget k (rev envs')) eqn:E; [|reflexivity]. destruct (mget k (rev envs)) eqn:F.
  - assert (G : mget k (rev envs) = mget k (rev envs')).
    { apply mget_perm; [rewrite mkeys_rev; apply NoDup_rev, ND|]. rewrite <- !Permutation_rev. exact P. }
    congruence.
  - exfalso. apply mget_In in E. apply in_rev in E. apply (Permutation_in _ (Permutation_sym P)) in E. apply mget_none in F. apply F.
    rewrite mkeys_rev. apply -> in_rev. apply (in_map fst) in E. exact E.
Qed.
Theorem environ_idempotent envs envs' spec spec1 : NoDup (mkeys envs) -> Permutation envs envs' ->
  WithEnviron envs spec = Ok spec1 -> exists spec2, WithEnviron envs' spec1 = Ok spec2 /\
    SameSpecBut [] (fun s t => SameStepBut "envs" s t /\ forall k, envOf t k = envOf s k) spec1 spec2.
Proof.
  intros ND P H. destruct (envs_dec (sp_steps spec)) as [D|D].
  - rewrite environ_pure in H by exact D. injection H as <-. eexists. split.
    + apply environ_pure. cbn. apply Forall_map. eapply Forall_impl; [|exact D]. intros s. apply envsStep_some.
    + apply only_steps, Forall2_map_r. intros a Ha. cbn in Ha. apply in_map_iff in Ha as (s & <- & Hs).
      rewrite Forall_forall in D. specialize (D s Hs). unfold envsStep at 2 5. unfold envsStep. destruct (st_envs s) as [e|] eqn:E; [|contradiction].
      cbn. split; [repeat split; congruence|]. intro k. unfold envOf. cbn. apply msets_again; assumption.
  - destruct envs as [|[k v] envs].
    + apply Permutation_nil in P. subst envs'. injection H as <-. exists spec. split; [reflexivity|].
      rewrite <- (sp_steps_eta spec) at 2. apply only_steps, Forall2_refl. intros a _. split; [apply SameStep_refl|reflexivity].
    + cbn [WithEnviron] in H. unfold eachStep in H. rewrite each_env_none in H by exact D. discriminate.
Qed.

Lemma netrc_pure m u p steps : otraverse (netrcStep m u p) steps =
  Ok (map (fun s => set_envs (Some (msets (netrcVars m u p) (match st_envs s with Some e => e | None => [] end))) s) steps).
Proof.
  induction steps as [|s steps IH]; [reflexivity|]. cbn [otraverse map]. rewrite IH. unfold netrcStep. destruct (st_envs s) eqn:E; [|reflexivity].
  unfold setEnv. rewrite E. reflexivity.
Qed.
Theorem netrc_spec machine username password spec : exists spec', WithNetrc machine username password spec = Ok spec' /\
  (username = "" \/ password = "" -> spec' = spec) /\
  (username <> "" -> password <> "" ->
   SameSpecBut [] (fun s t => SameStepBut "envs" s t /\ Written (netrcVars machine username password) (st_envs s) (st_envs t)) spec spec').
Proof.
  unfold WithNetrc. destruct (isEmpty username || isEmpty password) eqn:E.
  - exists spec. split; [reflexivity|]. split; [auto|]. intros H1 H2. destruct username, password; discriminate || congruence.
  - eexists. split; [unfold eachStep; rewrite netrc_pure; reflexivity|]. split.
    + intros [->| ->]; [discriminate|]. destruct username; discriminate.
    + intros _ _. apply only_steps, Forall2_map_r. intros a _. split; [repeat split; congruence|]. cbn [st_envs set_envs Written].
      assert (ND : NoDup (mkeys (netrcVars machine username password))) by (cbn; repeat constructor; cbn; intuition discriminate).
      intros k v. rewrite mget_msets_unique by exact ND. rewrite keys_values. split.
      * intros [H|[H1 H2]]; [auto|]. right. split; [exact H1|]. destruct (st_envs a) as [e|]; [exists e; auto|discriminate].
      * intros [H|[H1 (b & Hb & H2)]]; [auto|]. rewrite Hb. auto.
Qed.

Lemma getenv_spec env name : getenv env name = if isEmpty (env (toUpper name)) then env (toLower (toUpper name)) else env (toUpper name).
Proof. unfold getenv. destruct (env (toUpper name)) eqn:E; cbn; [|reflexivity]. destruct (env (toLower (toUpper name))) eqn:F; reflexivity. Qed.
Lemma proxy_setting env l u v : ProxySetting env l u v <-> v <> "" /\ (if isEmpty (env u) then env l else env u) = v.
Proof.
  unfold ProxySetting. split.
  - intros [N [H|[H K]]]; (split; [exact N|]); [rewrite H; destruct v; [congruence|reflexivity]|rewrite H; exact K].
  - intros [N H]. split; [exact N|]. destruct (env u) eqn:E; cbn in H; auto.
Qed.
Lemma proxy_step env name NAME m : NAME <> name -> ~ In name (mkeys m) -> ~ In NAME (mkeys m) -> NoDup (mkeys m) ->
  let m' := proxyVar env name NAME m in
  NoDup (mkeys m') /\ (forall k v, In (k, v) m' <-> In (k, v) m \/ (In k [name; NAME] /\ v <> "" /\ getenv env name = v)).
Proof.
  intros D N1 N2 ND. unfold proxyVar. cbn zeta. destruct (getenv env name) eqn:E; cbn [isEmpty negb].
  - split; [exact ND|]. intros k v. split; [auto|]. intros [H|(_ & H & K)]; [exact H|congruence].
  - rewrite (mset_fresh name) by exact N1. assert (N3 : ~ In NAME (mkeys (m ++ [(name, String a s)]))).
    { unfold mkeys. rewrite map_app. intro H. apply in_app_iff in H as [H|[H|[]]]; [exact (N2 H)|cbn in H; congruence]. }
    rewrite mset_fresh by exact N3. split.
    + unfold mkeys in *. rewrite !map_app. apply NoDup_app_iff. split; [apply NoDup_app_iff; split; [exact ND|]; split; [repeat constructor; intros []|]|].
      * intros x Hx [<-|[]]. exact (N1 Hx).
      * split; [repeat constructor; intros []|]. intros x Hx [<-|[]]. apply N3. rewrite map_app. exact Hx.
    + intros k v. rewrite !in_app_iff. cbn [In]. split.
      * intros [[H|[[= <- <-]|[]]]|[[= <- <-]|[]]]; [auto|right|right]; (split; [auto|split; [discriminate|reflexivity]]).
      * intros [H|([<-|[<-|[]]] & _ & <-)]; auto.
Qed.
Lemma proxy_environ env : NoDup (mkeys (proxyEnviron env)) /\ forall k v, In (k, v) (proxyEnviron env) <-> ProxyVar env k v.
Proof.
  unfold proxyEnviron.
  destruct (proxy_step env "no_proxy" "NO_PROXY" []) as [D1 I1]; [discriminate|intros []|intros []|constructor|].
  set (m1 := proxyVar env "no_proxy" "NO_PROXY" []) in *.
  assert (K1 : forall k, In k (mkeys m1) -> k = "no_proxy" \/ k = "NO_PROXY").
  { intros k Hk. apply in_map_iff in Hk as ([k1 v1] & <- & Hk). apply I1 in Hk as [[]|[H _]]. cbn in H. intuition. }
  destruct (proxy_step env "http_proxy" "HTTP_PROXY" m1) as [D2 I2];
    [discriminate|intro H; apply K1 in H as [H|H]; discriminate|intro H; apply K1 in H as [H|H]; discriminate|exact D1|].
  set (m2 := proxyVar env "http_proxy" "HTTP_PROXY" m1) in *.
  assert (K2 : forall k, In k (mkeys m2) -> In k ["no_proxy"; "NO_PROXY"; "http_proxy"; "HTTP_PROXY"]).
  { intros k Hk. apply in_map_iff in Hk as ([k1 v1] & <- & Hk). apply I2 in Hk as [H|[H _]]; cbn in *; [|intuition].
    apply (in_map fst) in H. apply K1 in H. cbn in H. intuition. }
  destruct (proxy_step env "https_proxy" "HTTPS_PROXY" m2) as [D3 I3];
    [discriminate|intro H; apply K2 in H; cbn in H; intuition discriminate|intro H; apply K2 in H; cbn in H; intuition discriminate|exact D2|].
  split; [exact D3|]. intros k v. rewrite I3, I2, I1. unfold ProxyVar. rewrite !proxy_setting, !getenv_spec. cbn [In]. change (toUpper "no_proxy") with "NO_PROXY".
  change (toUpper "http_proxy") with "HTTP_PROXY". change (toUpper "https_proxy") with "HTTPS_PROXY".
  change (toLower "NO_PROXY") with "no_proxy". change (toLower "HTTP_PROXY") with "http_proxy". change (toLower "HTTPS_PROXY") with "https_proxy". tauto.
Qed.
Theorem proxy_spec env ord spec : (forall m, Permutation m (ord m)) -> Forall (fun s => st_envs s <> None) (sp_steps spec) ->
  exists spec', WithProxy env ord spec = Ok spec' /\
    SameSpecBut [] (fun s t => SameStepBut "envs" s t /\ forall k v,
      envOf t k = Some v <-> ProxyVar env k v \/ ((forall x, ~ ProxyVar env k x) /\ envOf s k = Some v)) spec spec'.
Proof.
  intros P H. destruct (proxy_environ env) as [ND I]. unfold WithProxy.
  assert (ND' : NoDup (mkeys (ord (proxyEnviron env)))) by (eapply Permutation_NoDup; [apply Permutation_map, P|exact ND]).
  assert (I' : forall k v, In (k, v) (ord (proxyEnviron env)) <-> ProxyVar env k v).
  { intros k v. rewrite <- I. split; apply Permutation_in; [apply Permutation_sym, P|apply P]. }
  eexists. split; [apply environ_pure, H|]. apply only_steps, Forall2_map_r. intros s Hs. rewrite Forall_forall in H. specialize (H s Hs).
  unfold envsStep. destruct (st_envs s) as [e|] eqn:E; [|contradiction]. split; [repeat split; congruence|]. intros k v. unfold envOf. cbn. rewrite E.
  rewrite mget_msets_unique by exact ND'. rewrite I'. setoid_rewrite I'. reflexivity.
Qed.

(** ** Limits *)
Theorem limits_spec memory cpu spec :
  (memory = 0%Z -> cpu = 0%Z -> WithLimits memory cpu spec = spec) /\
  (memory <> 0%Z \/ cpu <> 0%Z ->
   SameSpecBut [] (fun s t => SameStepBut "resources" s t /\ exists r, st_resources t = Some r /\
     er_limits r = Some {| eo_cpu := cpu; eo_memory := memory |} /\
     er_requests r = match st_resources s with Some b => er_requests b | None => None end) spec (WithLimits memory cpu spec)).
Proof.
  unfold WithLimits. split; [intros -> ->; reflexivity|]. intro H.
  replace (Z.eqb memory 0 && Z.eqb cpu 0) with false by (symmetry; apply andb_false_iff; rewrite !Z.eqb_neq; tauto).
  apply only_steps, Forall2_map_r. intros s _. split; [repeat split; congruence|]. eexists. split; [reflexivity|]. split; [reflexivity|].
  cbn. destruct (st_resources s); reflexivity.
Qed.

(** ** Networks and registries *)
Theorem networks_spec networks spec :
  SameSpecBut [] (fun s t => SameStepBut "networks" s t /\
    ds_networks (st_docker t) = ds_networks (st_docker s) ++ networks) spec (WithNetworks networks spec).
Proof. apply only_steps, Forall2_map_r. intros s _. split; [repeat split; congruence|reflexivity]. Qed.
Lemma same_steps spec : Forall2 eq (sp_steps spec) (sp_steps spec).
Proof. apply Forall2_refl. reflexivity. Qed.
Theorem auths_spec auths spec d : sp_docker spec = Some d -> exists spec', WithAuths auths spec = Ok spec' /\
  SameSpecBut ["docker"] eq spec spec' /\
  sp_docker spec' = Some {| dc_auths := dc_auths d ++ auths; dc_volumes := dc_volumes d |}.
Proof.
  intro E. unfold WithAuths. rewrite E. eexists. split; [reflexivity|]. split; [|reflexivity].
  split; [reflexivity|]. split; [reflexivity|]. split; [intro H; exfalso; apply H; left; reflexivity|]. split; [reflexivity|]. split; [reflexivity|exact (same_steps spec)].
Qed.
Theorem authsFunc_spec auths spec d : sp_docker spec = Some d -> WithAuthsFunc auths spec = WithAuths auths spec.
Proof.
  intro E. unfold WithAuthsFunc, WithAuths. rewrite E. destruct auths; cbn; [|reflexivity]. rewrite app_nil_r. destruct d, spec. cbn in E. rewrite E. reflexivity.
Qed.

(** ** Secrets *)
Lemma secrets_same l spec : SameSpecBut ["secrets"] eq spec (sp_set_secrets l spec).
Proof. repeat split; try reflexivity; [intro H; exfalso; apply H; left; reflexivity|exact (same_steps spec)]. Qed.
Theorem secrets_spec rnd secrets : forall n spec, exists added,
  WithSecrets rnd secrets spec n = Ok (sp_set_secrets (sp_secrets spec ++ added) spec, n + length secrets) /\
  map (fun s => (md_name (es_meta s), es_data s)) added = secrets /\
  map (fun s => md_uid (es_meta s)) added = map rnd (seq n (length secrets)) /\
  Forall (fun s => md_namespace (es_meta s) = md_namespace (sp_meta spec) /\ md_labels (es_meta s) = None) added.
Proof.
  induction secrets as [|[k v] secrets IH]; intros n spec; cbn [WithSecrets].
  - exists []. rewrite app_nil_r, Nat.add_0_r. destruct spec. repeat split. constructor.
  - cbv beta iota delta [mbind fresh obind]. edestruct IH as (added & R & E & U & F). rewrite R. cbn in *.
    eexists (_ :: added). rewrite <- app_assoc. cbn. rewrite E, U, Nat.add_succ_r. split; [reflexivity|]. split; [reflexivity|]. split; [reflexivity|].
    constructor; [split; reflexivity|exact F].
Qed.

Lemma addName_set set v : NoDup set -> NoDup (addName set v) /\ forall x, In x (addName set v) <-> In x set \/ sv_name v = x.
Proof.
  intro ND. unfold addName. destruct (smem (sv_name v) set) eqn:E.
  - apply smem_In in E. split; [exact ND|]. intro x. split; [auto|]. intros [H| <-]; auto.
  - apply smem_false in E. split; [apply NoDup_app_iff; split; [exact ND|]; split; [repeat constructor; intros []|]; intros x Hx [<-|[]]; exact (E Hx)|].
    intro x. rewrite in_app_iff. cbn. tauto.
Qed.
Lemma addName_all l : forall set, NoDup set -> NoDup (fold_left addName l set) /\
  forall x, In x (fold_left addName l set) <-> In x set \/ exists v, In v l /\ sv_name v = x.
Proof.
  induction l as [|v l IH]; intros set ND; cbn [fold_left].
  - split; [exact ND|]. intro x. split; [auto|]. intros [H|(v & [] & _)]. exact H.
  - destruct (addName_set set v ND) as [N1 I1]. destruct (IH _ N1) as [N2 I2]. split; [exact N2|]. intro x. rewrite I2, I1. cbn [In]. split.
    + intros [[H|H]|(w & Hw & E)]; [auto|right; exists v; auto|right; exists w; auto].
    + intros [H|(w & [<-|Hw] & E)]; [auto|auto|right; exists w; auto].
Qed.
Lemma addNames_set set s : NoDup set -> NoDup (addNames set s) /\
  forall x, In x (addNames set s) <-> In x set \/ (st_policy s <> RunNever /\ exists v, In v (st_secrets s) /\ sv_name v = x).
Proof.
  intro ND. unfold addNames. destruct (st_policy s) eqn:E; try (destruct (addName_all (st_secrets s) set ND) as [N I]; split; [exact N|]; intro x; rewrite I;
    split; [intros [H|H]; [auto|right; split; [discriminate|exact H]]|intros [H|[_ H]]; auto]).
  split; [exact ND|]. intro x. split; [auto|]. intros [H|[H _]]; [exact H|congruence].
Qed.
Lemma secretNames_all steps : forall set, NoDup set -> NoDup (fold_left addNames steps set) /\
  forall x, In x (fold_left addNames steps set) <-> In x set \/
    exists s v, In s steps /\ st_policy s <> RunNever /\ In v (st_secrets s) /\ sv_name v = x.
Proof.
  induction steps as [|s steps IH]; intros set ND; cbn [fold_left].
  - split; [exact ND|]. intro x. split; [auto|]. intros [H|(s & v & [] & _)]. exact H.
  - destruct (addNames_set set s ND) as [N1 I1]. destruct (IH _ N1) as [N2 I2]. split; [exact N2|]. intro x. rewrite I2, I1. cbn [In]. split.
    + intros [[H|(P & v & Hv & E)]|(t & v & Ht & P & Hv & E)]; [auto|right; exists s, v; auto|right; exists t, v; auto].
    + intros [H|(t & v & [<-|Ht] & P & Hv & E)]; [auto|left; right; split; [exact P|exists v; auto]|right; exists t, v; auto].
Qed.
Lemma request_all rnd State (f : string -> State -> State * option ESecret) names : forall st n spec, exists added,
  requestSecrets rnd State f names st spec n =
    Ok ((fst (answers f names st), sp_set_secrets (sp_secrets spec ++ added) spec), n + length added) /\
  exists uids, uids = map rnd (seq n (length added)) /\
    Forall2 (fun uid ab => Stamped (md_namespace (sp_meta spec)) uid (fst ab) (snd ab)) uids (combine (snd (answers f names st)) added) /\
    length added = length (snd (answers f names st)).
Proof.
  induction names as [|name names IH]; intros st n spec; cbn [requestSecrets answers].
  - exists []. rewrite app_nil_r, Nat.add_0_r. destruct spec. split; [reflexivity|]. exists []. repeat split. constructor.
  - destruct (f name st) as [st1 [s|]].
    + cbv beta iota delta [mbind fresh obind]. edestruct IH as (added & R & uids & U & F & L). rewrite R. clear R.
      destruct (answers f names st1) as [st2 l]. cbn in *. eexists (_ :: added). rewrite <- app_assoc. cbn. rewrite Nat.add_succ_r. split; [reflexivity|].
      eexists. split; [reflexivity|]. split; [|f_equal; exact L]. rewrite <- U. constructor; [split; reflexivity|exact F].
    + destruct (IH st1 n spec) as (added & R & X). exists added. destruct (answers f names st1) as [st2 l]. split; [exact R|exact X].
Qed.
Theorem secretFunc_spec rnd State (f : string -> State -> State * option ESecret) ord st n spec :
  (forall l, Permutation l (ord l)) ->
  exists names added, NoDup names /\ (forall x, In x names <-> Used spec x) /\
    WithSecretFunc rnd State f ord st spec n =
      Ok ((fst (answers f names st), sp_set_secrets (sp_secrets spec ++ added) spec), n + length added) /\
    length added = length (snd (answers f names st)) /\
    Forall2 (fun uid ab => Stamped (md_namespace (sp_meta spec)) uid (fst ab) (snd ab))
      (map rnd (seq n (length added))) (combine (snd (answers f names st)) added).
Proof.
  intro P. destruct (secretNames_all (sp_steps spec) [] (NoDup_nil _)) as [ND I].
  destruct (request_all rnd State f (ord (secretNames spec)) st n spec) as (added & R & uids & U & F & L).
  exists (ord (secretNames spec)), added. split; [eapply Permutation_NoDup; [apply P|exact ND]|]. split.
  - intro x. rewrite <- (Permutation_in' (eq_refl x) (P _)). unfold secretNames. rewrite I. cbn. unfold Used. intuition.
  - split; [exact R|]. split; [exact L|]. rewrite <- U. exact F.
Qed.

(** ** Volumes *)
Theorem volumes_spec rnd volumes : forall n spec d, sp_docker spec = Some d -> exists spec' added,
  WithVolumes rnd volumes spec n = Ok (spec', n + 2 * length volumes) /\
  SameSpecBut ["docker"] (fun s t => SameStepBut "volumes" s t /\
    st_volumes t = st_volumes s ++ map (fun vc => {| mo_name := md_name (ev_meta (fst vc)); mo_path := snd (snd vc) |}) (combine added volumes)) spec spec' /\
  sp_docker spec' = Some {| dc_auths := dc_auths d; dc_volumes := dc_volumes d ++ added |} /\
  Forall2 (fun v kv => HostVolume (md_name (sp_meta spec)) (fst kv) v) added volumes /\
  flat_map (fun v => [md_uid (ev_meta v); md_name (ev_meta v)]) added = map rnd (seq n (2 * length volumes)).
Proof.
  induction volumes as [|[k v] volumes IH]; intros n spec d D; cbn [WithVolumes].
  - exists spec, []. cbn. rewrite Nat.add_0_r, app_nil_r. split; [reflexivity|]. split.
    { rewrite <- (sp_steps_eta spec) at 2. repeat split. cbn. apply Forall2_refl. intros s _. split; [apply SameStep_refl|]. rewrite app_nil_r. reflexivity. }
    split; [rewrite D; destruct d; reflexivity|]. split; constructor.
  - cbv beta iota delta [mbind fresh obind mlift addVolume]. rewrite D. cbn [deref].
    set (spec1 := sp_set_steps _ _).
    edestruct (IH (S (S n)) spec1) as (spec' & added & R & (S1 & S2 & S3 & S4 & S5 & S6) & DD & F & U); [reflexivity|].
    exists spec'.
    exists ({| ev_meta := {| md_uid := rnd n; md_namespace := md_name (sp_meta spec); md_name := rnd (S n); md_labels := Some [] |};
               ev_empty := None; ev_host := Some k |} :: added). rewrite R. split; [f_equal; f_equal; cbn; lia|]. split.
    + split; [intro; rewrite S1 by (cbn; intuition discriminate); reflexivity|]. split; [rewrite S2; reflexivity|]. split; [intro H; exfalso; apply H; left; reflexivity|].
      split; [rewrite S4; reflexivity|]. split; [intro; rewrite S5 by (cbn; intuition discriminate); reflexivity|]. subst spec1. cbn [sp_steps sp_set_steps sp_set_docker] in S6.
      revert S6. generalize (sp_steps spec'). clear. induction (sp_steps spec) as [|s l IHl]; intros l' H; cbn [map] in H; inversion H as [|? t ? l'' [Hs Hv] Hl]; subst; constructor; [|apply IHl, Hl].
      split; [unfold SameStepBut, mountStep, set_mounts in *; cbn in Hs; tauto|]. rewrite Hv. unfold mountStep. cbn. rewrite <- app_assoc. reflexivity.
    + split; [rewrite DD; cbn; rewrite <- app_assoc; reflexivity|]. split; [constructor; [repeat split|exact F]|].
      cbn [flat_map]. rewrite U. cbn [length]. replace (2 * S (length volumes)) with (S (S (2 * length volumes))) by lia. reflexivity.
Qed.

Lemma split_pair s k v : split_on ":" s = [k; v] <-> IsPair s k v.
Proof.
  unfold IsPair, NoColon. split.
  - intro H. pose proof (split_on_pieces ":" s) as F. pose proof (join_split_on ":" s) as J. rewrite H in F, J. inversion F as [|? ? F1 F2]; subst. inversion F2; subst.
    split; [assumption|]. split; [assumption|]. reflexivity.
  - intros (H1 & H2 & ->). change (k +++ ":" +++ v)%string with (k +++ String ":" v)%string. rewrite split_on_app by exact H1. rewrite split_on_none by exact H2. reflexivity.
Qed.
Lemma LastPair_cons e l k v : LastPair (e :: l) k v <-> LastPair l k v \/ (IsPair e k v /\ forall e' w, In e' l -> ~ IsPair e' k w).
Proof.
  split.
  - intros ([|x before] & e1 & after & E & P & N); injection E as -> ->; [auto|]. left. exists before, e1, after. auto.
  - intros [(before & e1 & after & -> & P & N)|[P N]]; [exists (e :: before), e1, after; auto|exists [], e, l; auto].
Qed.
Lemma pair_fun e k v k' v' : IsPair e k v -> IsPair e k' v' -> k = k' /\ v = v'.
Proof. rewrite <- !split_pair. intros E E'. rewrite E in E'. injection E' as -> ->. auto. Qed.
Lemma split_pair_dec e : (exists k v, IsPair e k v /\ split_on ":" e = [k; v]) \/ ((forall k v, ~ IsPair e k v) /\ forall k v, split_on ":" e <> [k; v]).
Proof.
  destruct (split_on ":" e) as [|k [|v [|x l]]] eqn:E.
  1, 2, 4: right; split; [intros k0 v0 H; apply split_pair in H; congruence|congruence].
  left. exists k, v. split; [apply split_pair, E|reflexivity].
Qed.
Lemma volumeMap_cons e l to : volumeMap (e :: l) to = volumeMap l (match split_on ":" e with [k; v] => mset k v to | _ => to end).
Proof. cbn [volumeMap]. destruct (split_on ":" e) as [|k [|v [|x r]]]; reflexivity. Qed.
Lemma pairs_dec l k : (exists e w, In e l /\ IsPair e k w) \/ forall e w, In e l -> ~ IsPair e k w.
Proof.
  induction l as [|e l [H|H]]; [right; intros e w []|left; destruct H as (x & w & Hx & P); exists x, w; cbn; auto|].
  destruct (split_pair_dec e) as [(k1 & v1 & P & _)|[N _]].
  - destruct (string_dec k1 k) as [->|D]; [left; exists e, v1; cbn; auto|]. right. intros x w [<-|Hx] Q; [|exact (H x w Hx Q)]. destruct (pair_fun _ _ _ _ _ P Q). congruence.
  - right. intros x w [<-|Hx] Q; [exact (N _ _ Q)|exact (H x w Hx Q)].
Qed.
Lemma volumeMap_spec l : forall to, NoDup (mkeys to) -> NoDup (mkeys (volumeMap l to)) /\
  forall k v, mget k (volumeMap l to) = Some v <-> LastPair l k v \/ ((forall e w, In e l -> ~ IsPair e k w) /\ mget k to = Some v).
Proof.
  induction l as [|e l IH]; intros to ND.
  - split; [exact ND|]. intros k v. split; [intro H; right; split; [intros e w []|exact H]|]. intros [(b & e & a & E & _)|[_ H]]; [destruct b; discriminate|exact H].
  - rewrite volumeMap_cons. destruct (split_pair_dec e) as [(k1 & v1 & P & E)|[N E]].
    + rewrite E. destruct (IH (mset k1 v1 to) (NoDup_mset k1 v1 to ND)) as [N1 I1]. split; [exact N1|]. intros k v. rewrite I1, LastPair_cons, mget_mset.
      destruct (String.eqb_spec k k1) as [->|D].
      * split.
        -- intros [H|[H [= <-]]]; [auto|]. left. right. auto.
        -- intros [[H|[Q H]]|[H _]]; [auto| |exfalso; exact (H e v1 (or_introl eq_refl) P)]. right. split; [exact H|]. destruct (pair_fun _ _ _ _ _ P Q). congruence.
      * split.
        -- intros [H|[H G]]; [auto|]. right. split; [|exact G]. intros x w [<-|Hx] Q; [|exact (H x w Hx Q)]. destruct (pair_fun _ _ _ _ _ P Q). congruence.
        -- intros [[H|[Q H]]|[H G]]; [auto|destruct (pair_fun _ _ _ _ _ P Q); congruence|]. right. split; [|exact G]. intros x w Hx. apply H. right. exact Hx.
    + replace (match split_on ":" e with [k; v] => mset k v to | _ => to end) with to by (destruct (split_on ":" e) as [|k [|v [|x r]]]; try reflexivity; exfalso; exact (E k v eq_refl)).
      destruct (IH to ND) as [N1 I1]. split; [exact N1|]. intros k v. rewrite I1, LastPair_cons. split.
      * intros [H|[H G]]; [auto|]. right. split; [|exact G]. intros x w [<-|Hx] Q; [exact (N _ _ Q)|exact (H x w Hx Q)].
      * intros [[H|[Q _]]|[H G]]; [auto|exfalso; exact (N _ _ Q)|]. right. split; [|exact G]. intros x w Hx. apply H. right. exact Hx.
Qed.
Theorem volumeSlice_spec rnd ord entries n spec : (forall m, Permutation m (ord m)) ->
  exists volumes, NoDup (mkeys volumes) /\ (forall k v, In (k, v) volumes <-> LastPair entries k v) /\
    WithVolumeSlice rnd ord entries spec n = WithVolumes rnd volumes spec n.
Proof.
  intro P. destruct (volumeMap_spec entries [] (NoDup_nil _)) as [ND I]. exists (ord (volumeMap entries [])). split; [eapply Permutation_NoDup; [apply Permutation_map, P|exact ND]|].
  split; [|reflexivity]. intros k v. assert (X : In (k, v) (volumeMap entries []) <-> LastPair entries k v).
  { rewrite <- mget_unique by exact ND. rewrite I. cbn. intuition discriminate. }
  rewrite <- X. split; apply Permutation_in; [apply Permutation_sym, P|apply P].
Qed.

(** ** Labels *)
Definition labelled (labels : smap string) (m : Metadata) : Metadata :=
  match md_labels m with
  | Some l => {| md_uid := md_uid m; md_namespace := md_namespace m; md_name := md_name m; md_labels := Some (msets labels l) |}
  | None => m
  end.
Lemma addLabels_ok labels : forall m, labels = [] \/ md_labels m <> None -> addLabels labels m = Ok (labelled labels m).
Proof.
  unfold labelled. induction labels as [|[k v] labels IH]; intros m H; cbn [addLabels].
  - destruct m as [? ? ? [l|]]; reflexivity.
  - destruct H as [H|H]; [discriminate|]. destruct (md_labels m) as [l|] eqn:E; [|contradiction]. cbn [deref obind]. rewrite IH by (right; discriminate). reflexivity.
Qed.
Lemma addLabels_panic labels m : labels <> [] -> md_labels m = None -> addLabels labels m = Panic.
Proof. destruct labels as [|[k v] labels]; intros H E; [congruence|]. cbn. rewrite E. reflexivity. Qed.
Lemma labelled_spec labels m : NoDup (mkeys labels) -> labels = [] \/ md_labels m <> None ->
  SameMetaBut "labels" m (labelled labels m) /\ Written labels (md_labels m) (md_labels (labelled labels m)).
Proof.
  intros ND H. unfold labelled. destruct (md_labels m) as [l|] eqn:E.
  - split; [repeat split; congruence|]. cbn [md_labels Written]. intros k v. rewrite mget_msets_unique by exact ND. rewrite keys_values. split.
    + intros [G|[G1 G2]]; [auto|]. right. split; [exact G1|]. exists l. auto.
    + intros [G|[G1 (b & [= <-] & G2)]]; auto.
  - destruct H as [->|H]; [|congruence]. split; [repeat split|]. unfold Written. rewrite E. auto.
Qed.
Lemma labelVolumes_ok ord labels : (forall i, ord i labels = [] \/ labels <> []) -> forall vs i, labels = [] \/ Forall (fun v => md_labels (ev_meta v) <> None) vs ->
  exists vs', labelVolumes ord labels i vs = Ok vs' /\
  Forall2 (fun v w => ev_empty w = ev_empty v /\ ev_host w = ev_host v /\ exists j, ev_meta w = labelled (ord j labels) (ev_meta v)) vs vs'.
Proof.
  intro O. induction vs as [|v vs IH]; intros i H; cbn [labelVolumes]; [exists []; split; [reflexivity|constructor]|].
  rewrite addLabels_ok.
  - destruct (IH (S i)) as (vs' & E & F); [destruct H as [H|H]; [auto|right; inversion H; assumption]|]. cbn [obind]. rewrite E. eexists. split; [reflexivity|].
    constructor; [|exact F]. split; [reflexivity|]. split; [reflexivity|]. exists i. reflexivity.
  - destruct H as [H|H]; [left; destruct (O i); [assumption|contradiction]|right; inversion H; assumption].
Qed.
Lemma labelSteps_ok ord labels : (forall i, ord i labels = [] \/ labels <> []) -> forall ss i, labels = [] \/ Forall (fun s => md_labels (st_meta s) <> None) ss ->
  exists ss', labelSteps ord labels i ss = Ok ss' /\ Forall2 (fun s t => exists j, t = set_meta (labelled (ord j labels) (st_meta s)) s) ss ss'.
Proof.
  intro O. induction ss as [|s ss IH]; intros i H; cbn [labelSteps]; [exists []; split; [reflexivity|constructor]|].
  rewrite addLabels_ok.
  - destruct (IH (S i)) as (ss' & E & F); [destruct H as [H|H]; [auto|right; inversion H; assumption]|]. cbn [obind]. rewrite E. eexists. split; [reflexivity|].
    constructor; [exists i; reflexivity|exact F].
  - destruct H as [H|H]; [left; destruct (O i); [assumption|contradiction]|right; inversion H; assumption].
Qed.
Lemma labelVolumes_panic ord labels : (forall i, ord i labels <> []) -> forall vs i, ~ Forall (fun v => md_labels (ev_meta v) <> None) vs -> labelVolumes ord labels i vs = Panic.
Proof.
  intro O. induction vs as [|v vs IH]; intros i H; [exfalso; apply H; constructor|]. cbn [labelVolumes]. destruct (md_labels (ev_meta v)) eqn:E.
  - rewrite addLabels_ok by (right; congruence). cbn [obind]. rewrite IH; [reflexivity|]. intro X. apply H. constructor; [congruence|exact X].
  - rewrite addLabels_panic by (try apply O; exact E). reflexivity.
Qed.
Lemma labelSteps_panic ord labels : (forall i, ord i labels <> []) -> forall ss i, ~ Forall (fun s => md_labels (st_meta s) <> None) ss -> labelSteps ord labels i ss = Panic.
Proof.
  intro O. induction ss as [|s ss IH]; intros i H; [exfalso; apply H; constructor|]. cbn [labelSteps]. destruct (md_labels (st_meta s)) eqn:E.
  - rewrite addLabels_ok by (right; congruence). cbn [obind]. rewrite IH; [reflexivity|]. intro X. apply H. constructor; [congruence|exact X].
  - rewrite addLabels_panic by (try apply O; exact E). reflexivity.
Qed.
Lemma perm_nil_iff (ord : nat -> smap string -> smap string) : (forall i m, Permutation m (ord i m)) -> forall labels i, ord i labels = [] <-> labels = [].
Proof.
  intros P labels i. split; intro E; [pose proof (P i labels) as X; rewrite E in X; apply Permutation_sym, Permutation_nil in X; exact X|].
  pose proof (P i labels) as X. rewrite E in X at 1. apply Permutation_nil in X. exact X.
Qed.
Lemma NoDup_ord (ord : nat -> smap string -> smap string) i labels : (forall i m, Permutation m (ord i m)) -> NoDup (mkeys labels) -> NoDup (mkeys (ord i labels)).
Proof. intros P ND. eapply Permutation_NoDup; [apply Permutation_map, P|exact ND]. Qed.
Lemma Written_perm a b before after : Permutation a b -> Written a before after -> Written b before after.
Proof.
  intro P. unfold Written. destruct after as [m|].
  - intros H k v. rewrite H. rewrite (Permutation_in' (eq_refl (k, v)) P). rewrite (Permutation_in' (eq_refl k) (Permutation_map fst P)). reflexivity.
  - intros [H ->]. split; [exact H|]. apply Permutation_nil in P. exact P.
Qed.
Lemma labelled_ord (ord : nat -> smap string -> smap string) labels i m : (forall i m, Permutation m (ord i m)) -> NoDup (mkeys labels) -> labels = [] \/ md_labels m <> None ->
  SameMetaBut "labels" m (labelled (ord i labels) m) /\ Written labels (md_labels m) (md_labels (labelled (ord i labels) m)).
Proof.
  intros P ND H. destruct (labelled_spec (ord i labels) m) as [A B]; [apply NoDup_ord; assumption|destruct H as [H|H]; [left; apply perm_nil_iff; assumption|auto]|].
  split; [exact A|]. eapply Written_perm; [apply Permutation_sym, P|exact B].
Qed.
Theorem labels_spec ord labels spec : (forall i m, Permutation m (ord i m)) -> NoDup (mkeys labels) ->
  (forall d, sp_docker spec = Some d -> labels = [] \/ Labelled spec ->
   exists spec' vols, WithLables ord labels spec = Ok spec' /\
     SameSpecBut ["metadata"; "docker"] (fun s t => SameStepBut "labels" s t /\ Written labels (md_labels (st_meta s)) (md_labels (st_meta t))) spec spec' /\
     SameMetaBut "labels" (sp_meta spec) (sp_meta spec') /\ Written labels (md_labels (sp_meta spec)) (md_labels (sp_meta spec')) /\
     sp_docker spec' = Some {| dc_auths := dc_auths d; dc_volumes := vols |} /\
     Forall2 (fun v w => ev_empty w = ev_empty v /\ ev_host w = ev_host v /\ SameMetaBut "labels" (ev_meta v) (ev_meta w) /\
       Written labels (md_labels (ev_meta v)) (md_labels (ev_meta w))) (dc_volumes d) vols) /\
  (sp_docker spec = None \/ (labels <> [] /\ ~ Labelled spec) -> WithLables ord labels spec = Panic).
Proof.
  intros P ND. split.
  - intros d D H. unfold WithLables. pose proof (perm_nil_iff ord P labels) as PN.
    assert (O : forall i, ord i labels = [] \/ labels <> []) by (intro i; rewrite PN; destruct labels; [left; reflexivity|right; discriminate]).
    assert (HM : labels = [] \/ md_labels (sp_meta spec) <> None) by (destruct H as [H|[H _]]; auto).
    rewrite addLabels_ok by (destruct HM as [HM|HM]; [left; apply PN, HM|auto]). cbn [obind sp_docker sp_set_meta]. rewrite D. cbn [deref obind dc_volumes dc_auths].
    assert (HV : labels = [] \/ Forall (fun v => md_labels (ev_meta v) <> None) (dc_volumes d)) by (destruct H as [H|(_ & H & _)]; [auto|rewrite D in H; auto]).
    assert (HT : labels = [] \/ Forall (fun s => md_labels (st_meta s) <> None) (sp_steps spec)) by (destruct H as [H|(_ & _ & H)]; auto).
    destruct (labelVolumes_ok ord labels O (dc_volumes d) 1 HV) as (vs & EV & FV). rewrite EV. cbn [obind sp_steps sp_set_docker sp_set_meta].
    destruct (labelSteps_ok ord labels O (sp_steps spec) (S (length vs)) HT) as (ss & ES & FS). rewrite ES. cbn [obind].
    eexists _, vs. split; [reflexivity|]. destruct (labelled_ord ord labels 0 (sp_meta spec) P ND HM) as [A B]. split.
    + split; [intro X; exfalso; apply X; left; reflexivity|]. split; [reflexivity|]. split; [intro X; exfalso; apply X; right; left; reflexivity|].
      split; [reflexivity|]. split; [reflexivity|]. cbn [sp_steps sp_set_steps sp_set_docker sp_set_meta]. clear -FS HT P ND.
      induction FS as [|s t l l' (j & ->) _ IH]; constructor.
      * destruct (labelled_ord ord labels j (st_meta s) P ND) as [A B]; [destruct HT as [HT|HT]; [auto|right; inversion HT; assumption]|].
        cbn. split; [|exact B]. split; [exact A|]. repeat split.
      * apply IH. destruct HT as [HT|HT]; [auto|right; inversion HT; assumption].
    + split; [exact A|]. split; [exact B|]. split; [reflexivity|]. clear -FV HV P ND.
      induction FV as [|v w l l' (E1 & E2 & j & E3) _ IH]; constructor.
      * destruct (labelled_ord ord labels j (ev_meta v) P ND) as [A B]; [destruct HV as [HV|HV]; [auto|right; inversion HV; assumption]|].
        rewrite E3. auto.
      * apply IH. destruct HV as [HV|HV]; [auto|right; inversion HV; assumption].
  - intro H. unfold WithLables. pose proof (perm_nil_iff ord P labels) as PN.
    assert (O : labels <> [] -> forall i, ord i labels <> []) by (intros N i X; apply PN in X; exact (N X)).
    destruct (md_labels (sp_meta spec)) eqn:EM.
    + rewrite addLabels_ok by (right; congruence). cbn [obind sp_docker sp_set_meta]. destruct (sp_docker spec) as [d|] eqn:D; [|reflexivity]. cbn [deref obind].
      destruct H as [H|[N H]]; [discriminate|]. 
      assert (DV : Forall (fun v => md_labels (ev_meta v) <> None) (dc_volumes d) \/ ~ Forall (fun v => md_labels (ev_meta v) <> None) (dc_volumes d)).
      { destruct (Forall_dec (fun v => md_labels (ev_meta v) <> None)) with (l := dc_volumes d) as [X|X]; [|auto|auto]. intro v. destruct (md_labels (ev_meta v)); [left; discriminate|right; auto]. }
      destruct DV as [DV|DV]; [|rewrite labelVolumes_panic by (auto); reflexivity].
      destruct (labelVolumes_ok ord labels (fun i => or_intror N) (dc_volumes d) 1 (or_intror DV)) as (vs & EV & _). rewrite EV. cbn [obind sp_steps sp_set_docker sp_set_meta].
      rewrite labelSteps_panic; [reflexivity|auto|]. intro X. apply H. split; [congruence|]. rewrite D. split; [exact DV|exact X].
    + destruct labels as [|kv labels].
      * rewrite addLabels_ok by (left; apply PN; reflexivity). cbn [obind sp_docker sp_set_meta]. destruct H as [H|[H _]]; [|congruence]. rewrite H. reflexivity.
      * rewrite addLabels_panic by (try apply O; congruence). reflexivity.
Qed.

(** ** Compiled specs *)
Theorem compiled_prepared w c hostMount p n spec : Standard w c None hostMount -> Compiled w c p n spec ->
  (exists d, sp_docker spec = Some d) /\ Forall (fun s => st_envs s <> None) (sp_steps spec) /\ Labelled spec.
Proof.
  intros HS (n' & HK). destruct (header _ _ _ _ _ _ _ _ HS HK) as (HM & _ & _ & d & HD & _).
  destruct (volumes_ok _ _ _ _ _ _ _ _ HS HK) as (d' & HD' & sock & S1 & S2 & F). rewrite HD in HD'. injection HD' as <-.
  split; [exists d; exact HD|]. split; [|split; [|split]].
  - destruct (createWorkspace p) as [[base dir] full] eqn:EW.
    pose proof (steps_workspace _ _ _ _ _ _ _ HS (ex_intro _ n' HK) _ _ _ EW) as W. eapply Forall2_right; [|exact W].
    intros o s _ H E. apply Forall_inv in H. unfold envOf in H. rewrite E in H. discriminate.
  - rewrite HM. discriminate.
  - rewrite HD. assert (B : HasBuild p \/ ~ HasBuild p).
    { unfold HasBuild. induction (present (pi_steps p)) as [|src l [IH|IH]]; [right; intros (src & b & [] & _)|left; destruct IH as (x & b & Hx & E); exists x, b; cbn; auto|].
      destruct (ct_build src) as [b|] eqn:E; [left; exists src, b; cbn; auto|right]. intros (x & b & [<-|Hx] & Y); [congruence|]. apply IH. exists x, b. auto. }
    eapply Forall2_right; [|exact F]. intros o v Ho [_ HL]. destruct o; try (destruct HL as [_ HL]; rewrite HL; discriminate). exfalso.
    destruct Ho as [Ho|Ho]; [discriminate|]. cbn in Ho. apply in_app_iff in Ho as [Ho|Ho]; [apply in_map_iff in Ho as (x & Ho & _); discriminate|].
    destruct B as [B|B]; [rewrite (S1 B) in Ho; destruct Ho as [Ho|[]]; discriminate|rewrite (S2 B) in Ho; destruct Ho].
  - eapply Forall2_right; [|exact (steps_named _ _ _ _ _ _ _ HS (ex_intro _ n' HK))]. intros o s _ [_ E]. rewrite E. discriminate.
Qed.
Lemma combine_cons f fns spec n : Combine (f :: fns) spec n = match f spec n with Ok (s, m) => Combine fns s m | Err e => Err e | Panic => Panic end.
Proof. cbn [Combine]. unfold mbind, obind. destruct (f spec n) as [[s m]|e|]; reflexivity. Qed.
Theorem combine_chain fns : forall spec n r, Combine fns spec n = r <-> Chain fns spec n r.
Proof.
  induction fns as [|f fns IH]; intros spec n r.
  - split; [intros <-; constructor; reflexivity|]. intro H. inversion H; subst; try discriminate. reflexivity.
  - rewrite combine_cons. split.
    + intros <-. destruct (f spec n) as [[s m]|e|] eqn:E; [eapply Chain_next; [reflexivity|exact E|apply IH; reflexivity]|eapply Chain_err; [reflexivity|exact E]|eapply Chain_panic; [reflexivity|exact E]].
    + intro H. inversion H as [? ? X|f' rest ? ? s' n' ? X Y Z|f' rest ? ? e X Y|f' rest ? ? X Y]; subst; try discriminate; injection X as <- <-; rewrite Y; [apply IH, Z|reflexivity|reflexivity].
Qed.
Theorem combine_app fns gns : forall spec n, Combine (fns ++ gns) spec n = Combine [Combine fns; Combine gns] spec n.
Proof.
  induction fns as [|f fns IH]; intros spec n; cbn [app].
  - rewrite !combine_cons. cbn [Combine]. unfold mret, mbind, obind. destruct (Combine gns spec n) as [[s m]|e|]; reflexivity.
  - rewrite (combine_cons f (fns ++ gns)), (combine_cons (Combine (f :: fns))), (combine_cons f fns). destruct (f spec n) as [[s m]|e|]; [|reflexivity|reflexivity].
    rewrite IH, combine_cons. reflexivity.
Qed.
Theorem compile_transform w c p n :
  compileIn w c p n = match compileIn w (noTransform c) p n with
                      | Ok (spec, m) => match co_transform c with Some f => f spec m | None => Ok (spec, m) end
                      | Err e => Err e
                      | Panic => Panic
                      end.
Proof.
  unfold compileIn, Compile. cbv beta iota zeta delta [mbind fresh obind mlift].
  destruct (computeSerial (pi_steps p)) as [b|e|]; [|reflexivity|reflexivity].
  change (setupWorkspace (w_rnd w) (noTransform c)) with (setupWorkspace (w_rnd w) c).
  destruct (setupWorkspace (w_rnd w) c _ _) as [[s1 n1]|e|]; [|reflexivity|reflexivity].
  destruct (mfold (compileVolume _ _) _ _ _) as [[s2 n2]|e|]; [|reflexivity|reflexivity].
  set (X := if cl_disable (pi_clone p) then mret s2 else compileClone _ _ _ _ _ _ c p _ s2).
  change (if cl_disable (pi_clone p) then mret s2 else compileClone _ _ _ _ _ _ (noTransform c) p _ s2) with X.
  destruct (X n2) as [[s3 n3]|e|]; [|reflexivity|reflexivity].
  set (Y := mfold (compileService _ _ _ _ _ _ c p b _) _ s3).
  change (mfold (compileService _ _ _ _ _ _ (noTransform c) p b _) _ s3) with Y.
  destruct (Y n3) as [[s4 n4]|e|]; [|reflexivity|reflexivity].
  set (Z := mfold (compileStep _ _ _ _ _ _ c p b _) _ (s4, [])).
  change (mfold (compileStep _ _ _ _ _ _ (noTransform c) p b _) _ (s4, [])) with Z.
  destruct (Z n4) as [[[s5 rn] n5]|e|]; [|reflexivity|reflexivity].
  destruct (compileSocket _ _ rn s5 n5) as [[s6 n6]|e|]; [|reflexivity|reflexivity]. cbn [co_transform noTransform]. destruct (co_transform c); reflexivity.
Qed.
Theorem compiled_no_panic w c hostMount p n spec : Standard w c None hostMount -> Compiled w c p n spec ->
  forall ord labels envs env order auths rnd volumes m,
  (forall i m, Permutation m (ord i m)) -> NoDup (mkeys labels) -> NoDup (mkeys envs) -> (forall m, Permutation m (order m)) ->
  (exists s, WithLables ord labels spec = Ok s) /\ (exists s, WithEnviron envs spec = Ok s) /\ (exists s, WithProxy env order spec = Ok s) /\
  (exists s, WithAuths auths spec = Ok s) /\ (exists s, WithVolumes rnd volumes spec m = Ok s).
Proof.
  intros HS HK ord labels envs env order auths rnd volumes m P N1 N2 PO. destruct (compiled_prepared _ _ _ _ _ _ HS HK) as ((d & D) & E & L).
  split; [|split; [|split; [|split]]].
  - destruct (proj1 (labels_spec ord labels spec P N1) d D (or_intror L)) as (s & _ & H & _). exists s. exact H.
  - destruct (proj1 (environ_spec envs spec N2) (or_intror E)) as (s & H & _). exists s. exact H.
  - destruct (proxy_spec env order spec PO E) as (s & H & _). exists s. exact H.
  - destruct (auths_spec auths spec d D) as (s & H & _). exists s. exact H.
  - destruct (volumes_spec rnd volumes m spec d D) as (s & a & H & _). eexists. exact H.
Qed.
