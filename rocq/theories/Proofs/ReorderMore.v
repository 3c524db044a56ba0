(** * ReorderMore.v: transforms, formatting and the compile command. *)
From Coq Require Import Lia Sorting.Permutation.
From Verif Require Import Model.Go Model.Types Model.RawParse Model.Decode Model.Cond Model.Engine Model.Dind Model.Compiler Model.Transform Model.Pretty Model.Main
  Spec.LintSpec Spec.ParseSpec Spec.YamlSpec Spec.CompileSpec Spec.TransformSpec Spec.PrettySpec Spec.MainSpec Spec.ReorderSpec
  Proofs.GoFacts Proofs.CompileFacts Proofs.CompileGraph Proofs.TransformFacts Proofs.PrettyRound Proofs.PrettyMore Proofs.PrettyTrip Proofs.MainFacts Proofs.MainCompile Proofs.Reorder.

(** ** Transforms *)
Definition OrderProof1 (t : Spec -> outcome Spec) : Prop := forall a b, SameSpec a b ->
  match t a, t b with Ok x, Ok y => SameSpec x y | Err e, Err e' => e = e' | Panic, Panic => True | _, _ => False end.
Lemma proof_lift t : OrderProof1 t -> OrderProof (fun s => mlift (t s)).
Proof. intros H a b n S. unfold mlift. specialize (H a b S). destruct (t a), (t b); try contradiction; cbn; auto. Qed.
Lemma proof_pure t : (forall a b, SameSpec a b -> SameSpec (t a) (t b)) -> OrderProof (fun s => mret (t s)).
Proof. intros H a b n S. unfold mret. cbn. auto. Qed.
Lemma proof_combine l : Forall OrderProof l -> OrderProof (Combine l).
Proof.
  induction 1 as [|t l H _ IH]; intros a b n S; cbn [Combine]; [cbn; auto|]. unfold mbind. specialize (H a b n S).
  destruct (t a n) as [[a' m]|e|], (t b n) as [[b' m']|e'|]; try contradiction; cbn in H; [destruct H as [H ->]; apply IH; exact H|subst; reflexivity|exact I].
Qed.
Lemma proof_steps f : (forall s s', SameStep s s' -> SameStep (f s) (f s')) -> forall a b, SameSpec a b ->
  SameSpec (sp_set_steps (map f (sp_steps a)) a) (sp_set_steps (map f (sp_steps b)) b).
Proof.
  intros H a b [S1 S2 S3 S4 S5 S6]. constructor; cbn; try assumption. clear - H S6. induction S6; cbn; constructor; auto.
Qed.
Lemma proof_each f : (forall s s', SameStep s s' -> match f s, f s' with Ok x, Ok y => SameStep x y | Err e, Err e' => e = e' | Panic, Panic => True | _, _ => False end) ->
  OrderProof1 (eachStep f).
Proof.
  intros H a b [S1 S2 S3 S4 S5 S6]. unfold eachStep.
  assert (F : match otraverse f (sp_steps a), otraverse f (sp_steps b) with Ok x, Ok y => Forall2 SameStep x y | Err e, Err e' => e = e' | Panic, Panic => True | _, _ => False end).
  { clear - H S6. induction S6 as [|s s' l l' Hs _ IH]; cbn [otraverse]; [constructor|]. specialize (H _ _ Hs).
    destruct (f s), (f s'); try contradiction; cbn [obind]; [|exact H|exact I].
    destruct (otraverse f l), (otraverse f l'); try contradiction; cbn [obind]; auto. }
  destruct (otraverse f (sp_steps a)), (otraverse f (sp_steps b)); try contradiction; cbn; [|exact F|exact I]. constructor; cbn; assumption.
Qed.
Lemma same_setEnv k v s s' : SameStep s s' ->
  match setEnv k v s, setEnv k v s' with Ok x, Ok y => SameStep x y | Err e, Err e' => e = e' | Panic, Panic => True | _, _ => False end.
Proof.
  intros H. pose proof (step_no_envs _ _ H) as N. pose proof (step_envs _ _ H) as E. unfold setEnv. unfold envOf in E.
  destruct (st_envs s) as [e|] eqn:Es, (st_envs s') as [e'|] eqn:Es'; cbn; [| | |exact I].
  - destruct H. constructor; cbn; try assumption; [|split; discriminate]. intro q. unfold envOf. cbn. rewrite !mget_mset, E. reflexivity.
  - discriminate (proj2 N eq_refl).
  - discriminate (proj1 N eq_refl).
Qed.
Lemma proof_seq t u : OrderProof1 t -> OrderProof1 u -> OrderProof1 (fun s => x <- t s ;; u x).
Proof.
  intros H G a b S. specialize (H a b S). destruct (t a), (t b); try contradiction; cbn [obind]; [apply G, H|exact H|exact I].
Qed.

Lemma proof_auths auths : OrderProof1 (WithAuths auths).
Proof.
  intros a b [S1 S2 S3 S4 S5 S6]. unfold WithAuths. rewrite S3. destruct (sp_docker b); cbn; [|exact I]. constructor; cbn; try assumption. reflexivity.
Qed.
Lemma proof_auths_func auths : OrderProof1 (WithAuthsFunc auths).
Proof.
  unfold WithAuthsFunc. destruct (negb _); [apply proof_auths|]. intros a b S. exact S.
Qed.
Lemma proof_environ envs : OrderProof1 (WithEnviron envs).
Proof.
  induction envs as [|[k v] envs IH]; [intros a b S; exact S|]. cbn [WithEnviron]. apply (proof_seq (eachStep (setEnv k v)) (WithEnviron envs)); [|exact IH].
  apply proof_each. apply same_setEnv.
Qed.
Lemma proof_include names : OrderProof (fun s => mret (Include names s)).
Proof.
  apply proof_pure. intros a b S. unfold Include. destruct (Nat.eqb _ _); [exact S|]. apply proof_steps; [|exact S].
  intros s s' H. unfold includeStep. rewrite <- (step_meta _ _ H). destruct (String.eqb _ _); [exact H|]. destruct (negb _); [|exact H].
  destruct H. constructor; cbn; try assumption. reflexivity.
Qed.
Lemma proof_exclude names : OrderProof (fun s => mret (Exclude names s)).
Proof.
  apply proof_pure. intros a b S. unfold Exclude. destruct (Nat.eqb _ _); [exact S|]. apply proof_steps; [|exact S].
  intros s s' H. unfold excludeStep. rewrite <- (step_meta _ _ H). destruct (String.eqb _ _); [exact H|]. destruct (smem _ _); [|exact H].
  destruct H. constructor; cbn; try assumption. reflexivity.
Qed.
Lemma proof_resume name : OrderProof (fun s => mret (ResumeAt name s)).
Proof.
  apply proof_pure. intros a b S. unfold ResumeAt. destruct (isEmpty name); [exact S|]. destruct S as [S1 S2 S3 S4 S5 S6]. constructor; cbn; try assumption.
  induction S6 as [|s s' l l' H F IH]; cbn [resumeSteps]; [constructor|]. rewrite <- (step_meta _ _ H).
  destruct (String.eqb _ name); [constructor; assumption|]. destruct (String.eqb _ _); constructor; try assumption.
  destruct H. constructor; cbn; try assumption. reflexivity.
Qed.
Lemma proof_labels ord labels : OrderProof1 (WithLables ord labels).
Proof.
  intros a b [S1 S2 S3 S4 S5 S6]. unfold WithLables. rewrite S1. destruct (addLabels (ord 0 labels) (sp_meta b)) as [m|e|]; cbn [obind]; [|reflexivity|exact I].
  cbn [sp_docker sp_set_meta]. rewrite S3. destruct (sp_docker b) as [d|]; cbn [obind deref]; [|exact I].
  destruct (labelVolumes ord labels 1 (dc_volumes d)) as [vs|e|]; cbn [obind]; [|reflexivity|exact I]. cbn [sp_steps sp_set_docker sp_set_meta].
  assert (F : forall i, match labelSteps ord labels i (sp_steps a), labelSteps ord labels i (sp_steps b) with
    Ok x, Ok y => Forall2 SameStep x y | Err e, Err e' => e = e' | Panic, Panic => True | _, _ => False end).
  { clear - S6. induction S6 as [|s s' l l' H F IH]; intro i; cbn [labelSteps]; [constructor|]. rewrite (step_meta _ _ H).
    destruct (addLabels (ord i labels) (st_meta s')) as [x|e|]; cbn [obind]; [|reflexivity|exact I]. specialize (IH (S i)).
    destruct (labelSteps ord labels (S i) l), (labelSteps ord labels (S i) l'); try contradiction; cbn [obind]; [|exact IH|exact I].
    constructor; [|exact IH]. destruct H. constructor; cbn; try assumption. reflexivity. }
  specialize (F (S (List.length vs))). destruct (labelSteps ord labels _ (sp_steps a)), (labelSteps ord labels _ (sp_steps b)); try contradiction; cbn [obind]; [|exact F|exact I].
  constructor; cbn; try assumption; reflexivity.
Qed.
Lemma proof_limits m c : OrderProof (fun s => mret (WithLimits m c s)).
Proof.
  apply proof_pure. intros a b S. unfold WithLimits. destruct (_ && _); [exact S|]. apply proof_steps; [|exact S].
  intros s s' H. unfold limitStep. rewrite (step_resources _ _ H). destruct H. constructor; cbn; try assumption. reflexivity.
Qed.
Lemma proof_netrc machine username password : OrderProof1 (WithNetrc machine username password).
Proof.
  unfold WithNetrc. destruct (_ || _); [intros a b S; exact S|]. apply proof_each. intros s s' H. unfold netrcStep.
  assert (H1 : SameStep (match st_envs s with None => set_envs (Some []) s | Some _ => s end) (match st_envs s' with None => set_envs (Some []) s' | Some _ => s' end)).
  { pose proof (step_no_envs _ _ H) as N. destruct (st_envs s), (st_envs s'); [exact H|discriminate (proj2 N eq_refl)|discriminate (proj1 N eq_refl)|].
    destruct H. constructor; cbn; try assumption; [reflexivity|split; discriminate]. }
  revert H1. generalize (match st_envs s with None => set_envs (Some []) s | Some _ => s end) (match st_envs s' with None => set_envs (Some []) s' | Some _ => s' end).
  intros x y H1.
  assert (B : forall (f g : Step -> outcome Step), 
     (forall u v, SameStep u v -> match f u, f v with Ok x, Ok y => SameStep x y | Err e, Err e' => e = e' | Panic, Panic => True | _, _ => False end) ->
     (forall u v, SameStep u v -> match g u, g v with Ok x, Ok y => SameStep x y | Err e, Err e' => e = e' | Panic, Panic => True | _, _ => False end) ->
     (forall u v, SameStep u v -> match (x <- f u ;; g x), (x <- f v ;; g x) with Ok x, Ok y => SameStep x y | Err e, Err e' => e = e' | Panic, Panic => True | _, _ => False end)).
  { intros f g F G u v K. specialize (F u v K). destruct (f u), (f v); try contradiction; cbn [obind]; [apply G, F|exact F|exact I]. }
  revert x y H1. do 5 (apply B; [apply same_setEnv|]). apply same_setEnv.
Qed.
Lemma proof_networks l : OrderProof (fun s => mret (WithNetworks l s)).
Proof.
  apply proof_pure. intros a b S. unfold WithNetworks. apply proof_steps; [|exact S].
  intros s s' H. unfold networkStep. rewrite (step_docker _ _ H). destruct H. constructor; cbn; try assumption. reflexivity.
Qed.
Lemma proof_proxy env ord : OrderProof1 (WithProxy env ord).
Proof. apply proof_environ. Qed.
Lemma proof_secrets rnd secrets : OrderProof (WithSecrets rnd secrets).
Proof.
  induction secrets as [|[k v] secrets IH]; intros a b n S; cbn [WithSecrets]; [split; [exact S|reflexivity]|].
  unfold mbind, fresh. apply IH. destruct S as [S1 S2 S3 S4 S5 S6]. rewrite S1, S5. constructor; cbn; try assumption. reflexivity.
Qed.
Lemma proof_volumes rnd volumes : OrderProof (WithVolumes rnd volumes).
Proof.
  induction volumes as [|[k v] volumes IH]; intros a b n S; cbn [WithVolumes]; [split; [exact S|reflexivity]|].
  unfold mbind, fresh, mlift, addVolume. destruct S as [S1 S2 S3 S4 S5 S6]. rewrite S1, S3. destruct (sp_docker b) as [d|]; cbn [deref obind]; [|exact I].
  apply IH. apply proof_steps.
  - intros s s' H. unfold mountStep. rewrite (step_volumes _ _ H). destruct H. constructor; cbn; try assumption. reflexivity.
  - constructor; cbn; try assumption. reflexivity.
Qed.

(** ** Compilers with a transform *)
Theorem reordered_transformed w w' c t hostDir hostMount p p' n m base :
  OrderOk w -> OrderOk w' -> SameWorld w w' -> OrderedJSON (w_toJSON w) -> OrderBlind c ->
  Standard w (noTransform c) hostDir hostMount -> co_transform c = Some t -> OrderProof t -> SamePipeline p p' ->
  ClearMaps p -> DistinctBuilds w p -> NoAliasClash w p base ->
  compileIn w (noTransform c) p n = Ok (base, m) ->
  SameResult (compileIn w c p n) (compileIn w' c p' n).
Proof.
  intros O O' SW HJ HB HS HT HP SP HM DB NC HK.
  destruct (reordered_compiled w w' (noTransform c) hostDir hostMount p p' n m base O O' SW HJ HB HS SP HM DB NC HK) as (base' & K' & S).
  rewrite (compile_transform w c p n), (compile_transform w' c p' n), HK, K', HT. apply HP. exact S.
Qed.

(** ** Formatting *)
Lemma insertValue_perm e m : Permutation (e :: m) (insertValue e m).
Proof.
  induction m as [|f m IH]; [reflexivity|]. cbn [insertValue]. destruct (fst e), (fst f); try reflexivity.
  destruct (String.compare _ _); try reflexivity. rewrite perm_swap. constructor. exact IH.
Qed.
Lemma insertValues_perm m : Permutation m (fold_right insertValue [] m).
Proof. induction m as [|e m IH]; [reflexivity|]. cbn [fold_right]. rewrite <- insertValue_perm. constructor. exact IH. Qed.
Lemma value_nested (P : value -> Prop) : P VNull -> (forall b, P (VBool b)) -> (forall z, P (VInt z)) -> (forall f, P (VFloat f)) ->
  (forall s, P (VStr s)) -> (forall l, Forall P l -> P (VList l)) -> (forall m, Forall (fun e => P (snd e)) m -> P (VMap m)) -> forall v, P v.
Proof.
  intros H1 H2 H3 H4 H5 H6 H7. fix IH 1. intros [|b|z|f|s|l|m]; [exact H1|apply H2|apply H3|apply H4|apply H5| |].
  - apply H6. induction l as [|a l IHl]; constructor; [apply IH|exact IHl].
  - apply H7. induction m as [|[k a] m IHm]; constructor; [apply IH|exact IHm].
Qed.
Lemma sortedValue_same v : SameValue v (sortedValue v).
Proof.
  induction v as [|b|z|f|s|l F|m F] using value_nested; try apply same_value; cbn [sortedValue].
  - apply same_list. induction F; cbn [map]; constructor; assumption.
  - eapply same_map; [|apply insertValues_perm]. induction F as [|[k v] m H _ IH]; cbn [map]; constructor; [split; [reflexivity|exact H]|exact IH].
Qed.
Lemma sortedContainer_same c : SameContainer c (sortedContainer c).
Proof.
  change (sortedContainer c) with (reordered c (option_map sortedBuild (ct_build c)) (byKey (ct_environment c))
    (byKey (map (fun e => (fst e, option_map sortedParameter (snd e))) (ct_settings c)))).
  eapply same_container; [|apply byKey_perm| |apply byKey_perm].
  - destruct (ct_build c) as [b|]; cbn; constructor; try reflexivity; apply byKey_perm.
  - induction (ct_settings c) as [|[k o] l IH]; cbn [map]; constructor; [|exact IH]. split; [reflexivity|]. cbn.
    destruct o as [x|]; cbn; constructor; [reflexivity|apply sortedValue_same].
Qed.
Lemma sortedEntries_same l : Forall2 SameEntry l (map (option_map sortedContainer) l).
Proof. induction l as [|[c|] l IH]; cbn [map option_map]; constructor; try exact IH; constructor. apply sortedContainer_same. Qed.
Lemma sortedPipeline_same p : SamePipeline p (sortedPipeline p).
Proof.
  constructor; cbn; try reflexivity; try apply sortedEntries_same.
  unfold SamePlatform. destruct (pi_platform p) as [[|a os] [|b arch] [|c variant] [|d version]]; auto.
Qed.
Lemma disableClone_same p p' : SamePipeline p p' -> SamePipeline (disableClone p) (disableClone p').
Proof. intros []. constructor; cbn; try assumption. congruence. Qed.

Lemma findPipeline_back name l l' : Forall2 ReadBack l l' -> findPipeline name l' = option_map sortedPipeline (findPipeline name l).
Proof.
  induction 1 as [|r r' l l' H _ IH]; [reflexivity|]. destruct H; cbn [findPipeline]; try exact IH.
  cbn [sortedPipeline pi_name]. destruct (_ || _); [reflexivity|exact IH].
Qed.

(** ** The predicates and transforms of the compile command *)
Lemma dind_blind av images x y : SameContainer x y -> DindFunc av images x = DindFunc av images y.
Proof. intros []. reflexivity. Qed.
Lemma skip_blind glob data x y : SameContainer x y -> SkipFunc glob data x = SkipFunc glob data y.
Proof. intros []. reflexivity. Qed.
Section Command.
  Variables (mc : Machine) (fl : CompileFlags) (auths : list Auth).
  Let w := mc_world mc.
  Let c := commandCompiler (w_rnd w) (w_glob w) (w_available w) (mc_env mc) (mc_envOrd mc) (mc_proxyOrd mc) (mc_labelOrd mc) fl auths.
  Lemma command_blind : OrderBlind c.
  Proof using. intros f [E|E] x y H; injection E as <-; [apply dind_blind|apply skip_blind]; exact H. Qed.
  Lemma command_proof : OrderProof (Combine
    [fun s => mlift (WithAuths auths s);
     fun s => mlift (WithEnviron (cf_env fl) s);
     fun s => mlift (WithEnviron (mc_envOrd mc (defaultEnvs fl)) s);
     fun s => mlift (WithLables (mc_labelOrd mc) (cf_label fl) s);
     fun s => mret (WithLimits (cf_memlimit fl) 0 s);
     fun s => mlift (WithNetrc (cf_machine fl) (cf_username fl) (cf_password fl) s);
     fun s => mret (WithNetworks (cf_network fl) s);
     fun s => mlift (WithProxy (mc_env mc) (mc_proxyOrd mc) s);
     fun s => WithSecrets (w_rnd w) (cf_secret fl) s;
     fun s => WithVolumes (w_rnd w) (cf_volume fl) s]).
  Proof using.
    apply proof_combine. repeat apply Forall_cons; [..|apply Forall_nil].
    - apply proof_lift, proof_auths.
    - apply proof_lift, proof_environ.
    - apply proof_lift, proof_environ.
    - apply proof_lift, proof_labels.
    - apply proof_limits.
    - apply proof_lift, proof_netrc.
    - apply proof_networks.
    - apply proof_lift, proof_proxy.
    - apply proof_secrets.
    - apply proof_volumes.
  Qed.
  Lemma command_standard : Standard w (noTransform c) None false /\ CommandCompiler mc fl (noTransform c).
  Proof using.
    split; [repeat split|]. split; [repeat split|]. split; [eexists; split; reflexivity|]. split; eexists; (split; [reflexivity|]); reflexivity.
  Qed.
  Lemma command_same p p' : OrderOk w -> OrderedJSON (w_toJSON w) -> SamePipeline p p' -> ClearMaps p -> DistinctBuilds w p ->
    (forall c base, CommandCompiler mc fl c -> Compiled w c p 0 base -> NoAliasClash w p base) ->
    SameResult (compileIn w c p 0) (compileIn w c p' 0).
  Proof using.
    intros O HJ SP HM DB NC. destruct command_standard as [HS HC].
    assert (SW : SameWorld w w) by (repeat split).
    destruct (compile_total w (noTransform c) None false p 0 HS) as (T1 & T2).
    destruct (compile_total w (noTransform c) None false p' 0 HS) as (T1' & T2').
    destruct (compileIn w (noTransform c) p 0) as [[base m]|e|] eqn:E.
    - apply (reordered_transformed w w c (Combine
         [fun s => mlift (WithAuths auths s);
          fun s => mlift (WithEnviron (cf_env fl) s);
          fun s => mlift (WithEnviron (mc_envOrd mc (defaultEnvs fl)) s);
          fun s => mlift (WithLables (mc_labelOrd mc) (cf_label fl) s);
          fun s => mret (WithLimits (cf_memlimit fl) 0 s);
          fun s => mlift (WithNetrc (cf_machine fl) (cf_username fl) (cf_password fl) s);
          fun s => mret (WithNetworks (cf_network fl) s);
          fun s => mlift (WithProxy (mc_env mc) (mc_proxyOrd mc) s);
          fun s => WithSecrets (w_rnd w) (cf_secret fl) s;
          fun s => WithVolumes (w_rnd w) (cf_volume fl) s]) None false p p' 0 m base); try assumption; try reflexivity.
      + exact command_blind.
      + exact command_proof.
      + apply (NC _ _ HC). exists m. exact E.
    - exfalso. exact (compile_no_err _ _ _ _ _ _ _ HS E).
    - rewrite (compile_transform w c p 0), (compile_transform w c p' 0), E.
      assert (E' : compileIn w (noTransform c) p' 0 = Panic).
      { apply T2'. intro X. apply (proj2 T2 eq_refl). destruct X as (st & se & vo & H1 & H2 & H3 & H4 & H5).
        assert (Back : forall l l0, Forall2 SameEntry l (map Some l0) -> exists k, l = map Some k /\ Forall2 SameContainer k l0).
        { clear. intros l l0. revert l. induction l0 as [|x l0 IH]; intros l F; inversion F as [|a b la lb H F' E1 E2]; subst; [exists []; split; [reflexivity|constructor]|].
          destruct (IH _ F') as (k & -> & G). inversion H as [|u y S E1 E2]; subst. exists (u :: k). split; [reflexivity|constructor; assumption]. }
        pose proof (ReorderSpec.same_steps _ _ SP) as F1. pose proof (ReorderSpec.same_services _ _ SP) as F2. rewrite H1 in F1. rewrite H2 in F2.
        apply Back in F1 as (st0 & E1 & F1). apply Back in F2 as (se0 & E2 & F2). exists st0, se0, vo.
        split; [exact E1|]. split; [exact E2|]. split; [rewrite (ReorderSpec.same_volumes _ _ SP); exact H3|].
        split.
        - clear - F1 H4. induction F1 as [|x y l l' S F IH]; inversion H4; subst; constructor; [|apply IH; assumption].
          destruct S as [x build env s s' HB _ _ _]. intro Eb. apply H1. cbn. rewrite Eb in HB. inversion HB. reflexivity.
        - clear - F2 H5. induction F2 as [|x y l l' S F IH]; inversion H5; subst; constructor; [|apply IH; assumption].
          destruct S. exact H1. }
      rewrite E'. exact I.
  Qed.
End Command.

Theorem format_then_compile mc resolve ramInBytes reader priv f fs content m out name (clone : bool) fl p q :
  mc_decoder mc = treeDecoder ramInBytes reader -> Resolver resolve -> Reads resolve reader -> mc_writable mc f = true ->
  fs f = Some content -> parse (mc_decoder mc) content = Ok m -> mf_resources m <> [] ->
  Forall (Formattable resolve ramInBytes (w_formatFloat (mc_world mc)) (mc_bytesSize mc)) (mf_resources m) ->
  formatted mc m = Ok out -> (forall lines, ParseSpec.Lines out lines -> Forall ParseSpec.Short lines) ->
  OrderOk (mc_world mc) -> OrderedJSON (w_toJSON (mc_world mc)) ->
  Selected name (mf_resources m) p -> (if clone then q = p else WithoutClone p q) ->
  ClearMaps q -> DistinctBuilds (mc_world mc) q ->
  (forall c base, CommandCompiler mc fl c -> Compiled (mc_world mc) c q 0 base -> NoAliasClash (mc_world mc) q base) ->
  let before := run mc (ACompile name clone fl f) fs in
  let after := run mc (ACompile name clone fl f) (x_files (run mc (AFormat priv true f) fs)) in
  x_status after = x_status before /\ x_stderr after = x_stderr before /\
  (x_status before = 0%Z -> exists spec spec', SameSpec spec spec' /\
     x_stdout before = mc_specJSON mc spec /\ x_stdout after = mc_specJSON mc spec').
Proof.
  intros HD HR HRd Hw Hf Hp Hn HF Ho Hl O HJ Sel Hq HM DB NC. cbv zeta.
  pose proof (format_result mc priv true f fs content Hf) as H1. cbv zeta in H1. rewrite Hp, Ho, Hw in H1.
  destruct H1 as ((H1 & _) & _ & _ & _). unfold formatted in Ho.
  destruct (round_trip (w_isPrintHigh (mc_world mc)) (w_formatFloat (mc_world mc)) (mc_sprintFloat mc) (mc_bytesSize mc) _ _ _ HR HRd m Hn HF) as (out' & E & _ & G).
  rewrite Ho in E. injection E as <-.
  destruct (G Hl) as (m' & P & F). rewrite <- HD in P. set (fs' := x_files (run mc (AFormat priv true f) fs)) in *.
  unfold run, main, runCompile. cbn [source parseArgs]. rewrite H1, Hf, P, Hp. cbn [obind compileName cloneFlag compileFlags].
  rewrite (findPipeline_back name _ _ F). apply find_selected in Sel. rewrite Sel. cbn [option_map].
  destruct (registryAuths (cf_registry fl)) as [auths|e|]; cbn [obind]; [|repeat split; discriminate|repeat split; discriminate].
  assert (Eq : q = if clone then p else disableClone p).
  { destruct clone; [exact Hq|]. unfold WithoutClone in Hq. unfold disableClone. destruct p, q; cbn in *.
    destruct Hq as (? & ? & ? & ? & ? & ? & ? & ? & ? & ? & ? & ? & ? & ? & ? & ? & ?). subst. f_equal. destruct pi_clone0; cbn in *. subst. reflexivity. }
  assert (SP : SamePipeline q (if clone then sortedPipeline p else disableClone (sortedPipeline p))).
  { rewrite Eq. destruct clone; [apply sortedPipeline_same|apply disableClone_same, sortedPipeline_same]. }
  pose proof (command_same mc fl auths _ _ O HJ SP HM DB NC) as R. rewrite <- Eq.
  match goal with |- context [Compile _ _ _ _ _ _ _ ?cc q 0] => set (c := cc) in * end.
  unfold compileIn in R. unfold SameResult in R.
  match type of R with match ?a with _ => _ end => destruct a as [[x k]|e|] end;
  match type of R with match ?b with _ => _ end => destruct b as [[y k']|e'|] end; try contradiction; cbn [obind].
  - destruct R as [R _]. split; [reflexivity|]. split; [reflexivity|]. intros _. exists x, y. split; [exact R|]. split; reflexivity.
  - subst. split; [reflexivity|]. split; [reflexivity|discriminate].
  - split; [reflexivity|]. split; [reflexivity|discriminate].
Qed.

Lemma transforms_proof :
  (forall l, Forall OrderProof l -> OrderProof (Combine l)) /\
  (forall auths, OrderProof (fun s => mlift (WithAuths auths s))) /\
  (forall auths, OrderProof (fun s => mlift (WithAuthsFunc auths s))) /\
  (forall envs, OrderProof (fun s => mlift (WithEnviron envs s))) /\
  (forall names, OrderProof (fun s => mret (Include names s))) /\
  (forall names, OrderProof (fun s => mret (Exclude names s))) /\
  (forall name, OrderProof (fun s => mret (ResumeAt name s))) /\
  (forall ord labels, OrderProof (fun s => mlift (WithLables ord labels s))) /\
  (forall m c, OrderProof (fun s => mret (WithLimits m c s))) /\
  (forall machine username password, OrderProof (fun s => mlift (WithNetrc machine username password s))) /\
  (forall l, OrderProof (fun s => mret (WithNetworks l s))) /\
  (forall env ord, OrderProof (fun s => mlift (WithProxy env ord s))) /\
  (forall rnd secrets, OrderProof (WithSecrets rnd secrets)) /\
  (forall rnd volumes, OrderProof (WithVolumes rnd volumes)).
Proof.
  split; [exact proof_combine|]. split; [exact (fun a => proof_lift _ (proof_auths a))|]. split; [exact (fun a => proof_lift _ (proof_auths_func a))|].
  split; [exact (fun a => proof_lift _ (proof_environ a))|]. split; [exact proof_include|]. split; [exact proof_exclude|]. split; [exact proof_resume|].
  split; [exact (fun a b => proof_lift _ (proof_labels a b))|]. split; [exact proof_limits|]. split; [exact (fun a b c => proof_lift _ (proof_netrc a b c))|].
  split; [exact proof_networks|]. split; [exact (fun a b => proof_lift _ (proof_proxy a b))|]. split; [exact proof_secrets|exact proof_volumes].
Qed.
