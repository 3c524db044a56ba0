(** * ForeignRun.v: checking and compiling converted GitLab and Bitbucket files. *)
From Coq Require Import Lia Sorting.Permutation.
From Verif Require Import Model.Go Model.Types Model.Cond Model.Engine Model.Image Model.Encode Model.Path Model.Script Model.Lint Model.Gitlab Model.Bitbucket Model.Compiler
  Spec.LintSpec Spec.CondSpec Spec.ScriptSpec Spec.PrettySpec Spec.ConverterSpec Spec.CompileSpec Spec.MainSpec Spec.LegacyRunSpec Spec.ForeignRunSpec
  Proofs.GoFacts Proofs.LintFacts Proofs.CondFacts Proofs.ConverterFacts Proofs.CompilePure Proofs.CompileFacts Proofs.CompileSteps Proofs.CompileWhole Proofs.CompileGraph
  Proofs.LegacyRun.

(** ** Pipelines of jobs *)
Definition OfJobs (clone : bool) (depth : Z) (jobs services : list Job) (p : Pipeline) : Prop :=
  exists steps svs, pi_steps p = map Some steps /\ pi_services p = map Some svs /\ Forall2 IsJob jobs steps /\ Forall2 IsJob services svs /\
    pi_volumes p = [] /\ pi_workspace p = noWorkspace /\ (pi_platform p = noPlatform \/ pi_platform p = defaultPlatform) /\
    cl_disable (pi_clone p) = negb clone /\ cl_depth (pi_clone p) = depth /\ cl_skip_verify (pi_clone p) = false.
Lemma of_jobs_clone (clone : bool) depth jobs services p q : OfJobs true depth jobs services p ->
  (if clone then q = p else WithoutClone p q) -> OfJobs clone depth jobs services q.
Proof.
  intros (steps & svs & A & B & C & D & E & F & G & H & I & J) Hq. destruct clone; [subst; exists steps, svs; auto 12|].
  destruct Hq as (? & ? & ? & ? & ? & ? & ? & ? & ? & ? & ? & ? & ? & ? & ? & ? & ?).
  exists steps, svs. do 6 (split; [first [assumption | congruence]|]). split; [destruct G; [left|right]; congruence|].
  split; [assumption|]. split; congruence.
Qed.
Lemma is_job_sorted j c : IsJob j c -> IsJob j (sortedContainer c).
Proof.
  intros (A & B & C & D & E & F & G). pose proof G as (G1 & G2 & G3 & G4 & G5 & G6 & G7 & G8 & G9 & G10 & G11 & G12 & G13 & G14 & G15 & G16).
  unfold IsJob, sortedContainer, Bare. cbn. rewrite G1, G7, G15.
  do 6 (split; [assumption|]). repeat (split; [first [assumption | reflexivity]|]). apply G16.
Qed.
Lemma of_jobs_sorted clone depth jobs services p : OfJobs clone depth jobs services p -> OfJobs clone depth jobs services (sortedPipeline p).
Proof.
  intros (steps & svs & A & B & C & D & E & F & G & H). exists (map sortedContainer steps), (map sortedContainer svs).
  assert (M : forall l l', Forall2 IsJob l l' -> Forall2 IsJob l (map sortedContainer l')).
  { clear. intros l l' X. induction X; cbn; constructor; [apply is_job_sorted|]; assumption. }
  unfold sortedPipeline. cbn. rewrite A, B, !map_map. split; [reflexivity|]. split; [reflexivity|].
  split; [apply M; exact C|]. split; [apply M; exact D|]. split; [exact E|]. split; [exact F|].
  split; [destruct G as [-> | ->]; right; reflexivity|exact H].
Qed.

(** ** Lint *)
Lemma is_job_good t j c : IsJob j c -> (GoodContainer t c <-> jb_name j <> "" /\ jb_image j <> "").
Proof.
  intros (A & B & _ & _ & _ & _ & G). destruct G as (G1 & G2 & G3 & G4 & G5 & G6 & G7 & G8 & G9 & G10 & G11 & G12 & G13 & G14 & G15 & G16 & G17 & G18 & _).
  unfold GoodContainer, Unprivileged. rewrite G1, A, B, G4, G5, G6, G8, G9, G10, G11, G18. split; [intros (X & Y & _); auto|].
  intros [X Y]. split; [exact X|]. split; [exact Y|]. split; [intros m []|]. intros _. repeat split. intros ? [].
Qed.
Lemma jobs_good t jobs cs : Forall2 IsJob jobs cs ->
  (Forall (GoodContainer t) cs <-> Forall (fun j => jb_name j <> "" /\ jb_image j <> "") jobs) /\ map ct_name cs = map jb_name jobs.
Proof.
  intro F. induction F as [|j c js cs H F [IH1 IH2]]; [split; [split; constructor|reflexivity]|].
  split; [rewrite !Forall_cons_iff, IH1, (is_job_good t _ _ H); reflexivity|]. cbn. rewrite IH2, (proj1 H). reflexivity.
Qed.
Lemma of_jobs_lint depth jobs services p t : OfJobs true depth jobs services p -> (Lint (RPipeline p) t = Ok tt <-> GoodJobs jobs services).
Proof.
  intros (steps & svs & A & B & C & D & E & F & G & H & _). cbn [Lint]. pose proof (Forall2_app C D) as FA.
  assert (N : NoNulls p steps svs []).
  { split; [exact A|]. split; [exact B|]. split; [exact E|]. clear - FA. induction FA as [|j c js cs X FA IH]; constructor; [|exact IH].
    destruct X as (_ & _ & _ & _ & _ & _ & _ & _ & _ & _ & _ & _ & _ & _ & _ & P & _ & _ & _ & _ & _ & _ & _ & V & _). rewrite P, V. split; intros []. }
  rewrite (checkPipeline_ok t _ _ _ _ N). unfold WellFormed, GoodJobs, cloneNames. rewrite H. cbn [negb app].
  destruct (jobs_good t _ _ FA) as [J1 J2]. rewrite J1, J2. split; [intros (_ & _ & X & Y & _); auto|].
  intros [X Y]. split; [destruct G as [-> | ->]; split; vm_compute; auto|]. split; [constructor|]. split; [exact X|]. split; [exact Y|].
  intros before s after d Es I. exfalso. rewrite Es in C. apply Forall2_app_inv_r in C as (? & ? & _ & C & _). inversion C as [|? ? ? ? X1 _]; subst.
  destruct X1 as (_ & _ & _ & _ & _ & _ & _ & _ & Dp & _). rewrite Dp in I. destruct I.
Qed.
Lemma good_jobs_perm jobs jobs' services services' : Permutation jobs jobs' -> Permutation services services' ->
  (GoodJobs jobs services <-> GoodJobs jobs' services').
Proof.
  intros P Q. pose proof (Permutation_app P Q) as R. assert (R' := Permutation_sym R). unfold GoodJobs.
  assert (X : forall l l', Permutation l l' -> Forall (fun j => jb_name j <> "" /\ jb_image j <> "") l /\ NoDup ("clone" :: map jb_name l) ->
    Forall (fun j => jb_name j <> "" /\ jb_image j <> "") l' /\ NoDup ("clone" :: map jb_name l')).
  { intros l l' S [U V]. split; [exact (Permutation_Forall S U)|]. eapply Permutation_NoDup; [|exact V]. apply perm_skip, Permutation_map, S. }
  split; apply X; assumption.
Qed.

(** ** Running *)
Lemma default_workspace p clone depth jobs services : OfJobs clone depth jobs services p ->
  createWorkspace p = ("/drone/src", "", "/drone/src") /\ ~ Windows p /\ cloneImage p = "drone/git".
Proof.
  intros (steps & svs & _ & _ & _ & _ & _ & F & G & _). unfold createWorkspace, Windows, cloneImage. rewrite F.
  destruct G as [-> | ->]; (split; [reflexivity|]; split; [discriminate|reflexivity]).
Qed.
Lemma job_runs w c p hostMount spec clone depth jobs services service j ct s :
  OfJobs clone depth jobs services p -> ~ Parallel p -> IsJob j ct ->
  AllRight w c p hostMount spec (if service : bool then FromService ct else FromStep ct) s -> RunsJob w c hostMount spec service j s.
Proof.
  intros HO NP HJ [An Ad Ap Am Af Apo Adir Aenv Asc Aim]. destruct (default_workspace _ _ _ _ _ HO) as (Ws & NW & _).
  pose proof HJ as (Jn & Ji & Je & Jc & Jcs & Jf & Jb).
  destruct Jb as (Eb & Edet & Edep & Edev & Edns & Eds & Een & Eex & Enet & Epo & Epr & Epu & _ & Ers & Ese & _ & Eus & Ev & Ew & Ewd).
  assert (Af' : Carried ct s) by (destruct service; cbn [RightFields] in Af; [exact Af|rewrite Eb in Af; exact Af]).
  destruct Af' as (F1 & F2 & F3 & F4 & _ & F6 & F7 & F8 & F9 & F10 & F11 & _).
  assert (Nm : stepName s = ct_name ct) by (destruct service; exact (proj1 (proj1 An))).
  assert (Asc' : (ct_commands ct = [] ->
           ds_command (st_docker s) = ct_entrypoint ct /\ ds_args (st_docker s) = ct_command ct /\ st_files s = []) /\
        (ct_commands ct <> [] -> ~ Windows p ->
           ds_command (st_docker s) = ["/bin/sh"] /\ ds_args (st_docker s) = [scriptPath] /\
           st_files s = [{| fm_name := ct_name ct; fm_path := scriptPath; fm_mode := 511 |}] /\
           exists f, In f (sp_files spec) /\ md_name (fi_meta f) = ct_name ct /\
             fi_data f = scriptText posixHead (posixLines (escaped (w_isPrintHigh w))) (ct_commands ct))).
  { destruct service; cbn [RightScript] in Asc; [|rewrite Eb in Asc]; destruct Asc as (A & B & _); auto. }
  assert (Aenv' : RightSecrets ct s /\ (MapsOk ct -> NoCollision ct -> RightEnv w p ct s)).
  { destruct service; cbn [envRight] in Aenv; [exact Aenv|rewrite Eb in Aenv; exact Aenv]. }
  destruct Aenv' as [Asec Aenv'].
  assert (Mo : MapsOk ct /\ NoCollision ct).
  { unfold MapsOk, NoCollision. rewrite Een, Ese. repeat split; constructor. }
  specialize (Aenv' (proj1 Mo) (proj2 Mo)).
  constructor.
  - congruence.
  - rewrite (proj2 Ad (or_introl NP)). destruct service; exact Edep.
  - destruct service; cbn; [exact (proj2 (proj1 An))|rewrite <- Edet; exact (proj2 (proj1 An))].
  - rewrite Aim. destruct service; cbn [asked]; [congruence|rewrite Eb; congruence].
  - rewrite <- Jcs, <- Je, <- Jc. exact (proj1 Asc').
  - rewrite <- Jcs, <- Jn. intro H. exact (proj2 Asc' H NW).
  - intros k v. rewrite (Aenv' k v). unfold WorkspaceVar. rewrite Ws. fold sourceVars. split; [|left; assumption].
    intros [H|(_ & [(X & _)|(_ & [(n & x & I & _)|(_ & x & I & _)])])]; [exact H|contradiction| |]; [rewrite Ese in I|rewrite Een in I]; destruct I.
  - destruct (st_secrets s) as [|[n k] l] eqn:E; [reflexivity|]. exfalso.
    destruct (proj1 (Asec n k)) as [(_ & x & I & _)|(_ & key & x & I & _)]; [rewrite E; left; reflexivity| |]; [rewrite Een in I|rewrite Ese in I]; destruct I.
  - destruct F8 as (_ & _ & _ & P4). rewrite Epu in P4. apply P4; vm_compute; intuition discriminate.
  - rewrite F1, F2, F3, F4, F6, Epo. auto.
  - rewrite F7, F10, F11. split; [exact Eus|]. split; [|reflexivity]. unfold toResources. rewrite Ers. reflexivity.
  - rewrite F9, Jf. destruct (jb_lenient j); reflexivity.
  - unfold RightMounts in Am. rewrite Ws in Am. rewrite Am. destruct service; cbn [declaredMounts]; [|rewrite Eb]; rewrite Ev; reflexivity.
  - unfold RightWorkingDir in Adir. rewrite Ws in Adir. destruct service; [|rewrite Eb in Adir]; rewrite Adir, ?Ewd, ?Edet, ?Jcs; try destruct (jb_commands j); reflexivity.
  - exists ct. split; [exact HJ|].
    assert (AC : Accepts (w_glob w) noCond "success") by (split; [intros (x & [] & _)|left; reflexivity]).
    unfold RightPrivileged in Ap. destruct service; cbn [RightPolicy] in Apo; destruct Apo as [A B]; rewrite Ew in A, B; cbn in A, B; rewrite Epr in Ap.
    all: split; [rewrite Ap; try rewrite Eb; intuition congruence|].
    all: split; [rewrite A; tauto|destruct (runsOnFailure (st_policy s)); [exfalso; apply (proj1 (proj2 (proj1 B eq_refl))); reflexivity|reflexivity]].
Qed.
Section Running.
  Variables (w : World) (c : Compiler) (hostDir : option string) (hostMount : bool).
  Hypotheses (HO : OrderOk w) (HS : Standard w c hostDir hostMount).
  Lemma jobs_complete clone depth jobs services p : OfJobs clone depth jobs services p ->
    exists steps svs, CompileSpec.Complete p steps svs [] /\ Forall2 IsJob jobs steps /\ Forall2 IsJob services svs.
  Proof.
    intros (steps & svs & A & B & C & D & E & _). exists steps, svs. split; [|auto].
    assert (N : forall l l', Forall2 IsJob l l' -> Forall NoNullPart l').
    { clear. intros l l' F. induction F as [|j ct js cs X F IH]; constructor; [|exact IH].
      destruct X as (_ & _ & _ & _ & _ & _ & _ & _ & _ & _ & _ & _ & _ & _ & _ & P & _ & _ & _ & _ & _ & _ & _ & V & _).
      unfold NoNullPart. rewrite P, V. split; intros []. }
    split; [exact A|]. split; [exact B|]. split; [exact E|]. split; [|exact (N _ _ D)].
    eapply Forall_impl; [|exact (N _ _ C)]. intros ct H _. exact H.
  Qed.
  Lemma jobs_run clone depth jobs services p n n' spec : OfJobs clone depth jobs services p -> compileIn w c p n = Ok (spec, n') ->
    RunsAll w c hostMount clone depth services jobs spec.
  Proof using HO HS.
    intros H HK. destruct (default_workspace _ _ _ _ _ H) as (Ws & NW & Ci). pose proof H as (steps & svs & A & B & C & D & _ & _ & Pl & Dis & Dep & Sk).
    assert (X : forall ct, In ct steps -> ct_build ct = None /\ ct_depends ct = []).
    { intros ct I. clear - C I. induction C as [|j c0 js cs X F IH]; [destruct I|]. destruct I as [<-|I]; [|auto].
      destruct X as (_ & _ & _ & _ & _ & _ & Eb & _ & Ed & _). auto. }
    assert (NB : ~ HasBuild p).
    { intros (src & b & I & Eb). rewrite A, somes_map in I. rewrite (proj1 (X src I)) in Eb. discriminate. }
    assert (NP : ~ Parallel p).
    { intros (src & I & Eb). rewrite A, somes_map in I. exact (Eb (proj2 (X src I))). }
    pose proof (all_right w c hostDir hostMount HO HS p n n' spec NB HK) as FA. unfold origins in FA. rewrite A, B, !somes_map in FA.
    apply Forall2_app_inv_l in FA as (cl & rest & F1 & F2 & E). apply Forall2_app_inv_l in F2 as (ss & js & F2 & F3 & ->).
    assert (R : forall (service : bool) l cs ls, Forall2 IsJob l cs ->
      Forall2 (AllRight w c p hostMount spec) (map (fun ct => if service then FromService ct else FromStep ct) cs) ls -> Forall2 (RunsJob w c hostMount spec service) l ls).
    { clear - H NP. intros service l cs ls F. revert ls. induction F as [|j ct l cs R F IH]; intros ls G; inversion G; subst; constructor; [|auto].
      eapply job_runs; eassumption. }
    exists cl, ss, js. split; [exact E|]. rewrite Dis in F1. split; [|split; [|split]].
    - intros ->. cbn in F1. inversion F1 as [|? s ? l' R1 R2]; subst. inversion R2; subst. exists s. split; [reflexivity|].
      destruct R1 as [[[N1 N2] _] Ad Ap _ _ Apo _ Aenv _ Aim]. constructor.
      + exact N1.
      + exact N2.
      + exact (proj2 Ad (or_introl NP)).
      + rewrite Aim. cbn [asked]. rewrite Ci. reflexivity.
      + unfold RightPrivileged in Ap. destruct (ds_privileged _); [destruct (proj1 Ap eq_refl)|reflexivity].
      + exact Apo.
      + intros k v. rewrite (proj1 Aenv k v), Sk. unfold WorkspaceVar. rewrite Ws. fold sourceVars.
        split; [intros [Y|[Y|(Y & _)]]; [left; exact Y|right; exact Y|discriminate]|intros [Y|Y]; auto].
    - intros ->. inversion F1. reflexivity.
    - exact (R true _ _ _ D F2).
    - exact (R false _ _ _ C F3).
  Qed.
  Lemma jobs_compile clone depth jobs services p q n : OfJobs true depth jobs services p -> (if clone : bool then q = p else WithoutClone p q) ->
    exists spec, Compiled w c q n spec /\ RunsAll w c hostMount clone depth services jobs spec.
  Proof using HO HS.
    intros H Hq. pose proof (of_jobs_clone clone _ _ _ _ _ H Hq) as H'. destruct (jobs_complete _ _ _ _ _ H') as (steps & svs & CQ & _).
    destruct (proj1 (proj1 (compile_total w c hostDir hostMount q n HS)) (ex_intro _ steps (ex_intro _ svs (ex_intro _ [] CQ)))) as (spec & n' & HK).
    exists spec. split; [exists n'; exact HK|]. eapply jobs_run; eassumption.
  Qed.
End Running.

(** ** GitLab *)
Lemma right_step_job g kv c : RightStep g (fst kv) (snd kv) c -> IsJob (gitlabJob g kv) c.
Proof.
  intros (A & B1 & B2 & C & D & E & F1 & F2 & G). unfold IsJob, gitlabJob. cbn. split; [exact A|]. split.
  { destruct (gi_name (gj_image (snd kv))) eqn:N; [apply B2; reflexivity|apply B1; discriminate]. }
  do 3 (split; [assumption|]). split; [|exact G]. destruct (gj_allow_failure (snd kv)); auto.
Qed.
Lemma right_service_job available i c : RightService available i c -> IsJob (gitlabService available i) c.
Proof.
  intros (A1 & A2 & B & C & D & E & F & G). unfold IsJob, gitlabService. cbn. split.
  { destruct (gi_alias i) eqn:N; [apply A2; reflexivity|apply A1; discriminate]. }
  auto 8.
Qed.
Lemma Forall2_map_l {A B C} (f : A -> B) (R : B -> C -> Prop) l l' : Forall2 (fun a c => R (f a) c) l l' -> Forall2 R (map f l) l'.
Proof. intro F. induction F; cbn; constructor; auto. Qed.
Lemma Forall2_nth {A B} (R : A -> B -> Prop) l l' : length l = length l' ->
  (forall i a b, nth_error l i = Some a -> nth_error l' i = Some b -> R a b) -> Forall2 R l l'.
Proof.
  revert l'. induction l as [|a l IH]; intros [|b l'] L H; try discriminate; constructor.
  - exact (H 0 a b eq_refl eq_refl).
  - apply IH; [injection L; auto|]. intros i. exact (H (S i)).
Qed.
Lemma bare_of_jobs depth jobs services steps svs p : BarePipeline p -> cl_depth (pi_clone p) = depth ->
  pi_steps p = map Some steps -> pi_services p = map Some svs -> Forall2 IsJob jobs steps -> Forall2 IsJob services svs ->
  OfJobs true depth jobs services p.
Proof.
  intros (_ & _ & _ & _ & _ & P & _ & _ & V & W & D & S) E A B F G. exists steps, svs. auto 12.
Qed.
Section Gitlab.
  Variables (available : string -> bool) (ord : nat -> smap (option GJob) -> smap (option GJob)).
  Hypothesis O : forall i m, Permutation m (ord i m).
  Definition EntryPipeline (g : GConfig) (images : list GImage) (e : string * smap GJob) (p : Pipeline) : Prop :=
    pi_name p = fst e /\ pi_platform p = noPlatform /\
    OfJobs true 0 (map (gitlabJob g) (snd e)) (map (gitlabService available) images) p.
  Lemma gitlab_plan g images js : gc_services g = map Some images -> gc_jobs g = ConverterSpec.present js -> NoDup (mkeys js) ->
    exists plan ps, gitlabManifest available ord g = Ok {| mf_resources := map RPipeline ps |} /\ SamePlan g (gitlabPlan g js) plan /\
      Forall2 (EntryPipeline g images) plan ps /\
      forall i p, nth_error ps i = Some p -> RightDependsOn (previous (map fst plan) i) p.
  Proof using O.
    intros G J N. unfold SamePlan, gitlabPlan. destruct (gc_stages g) as [|s0 st] eqn:S.
    - destruct (gitlab_no_stages available ord O g images js G J N S) as (order & ps & P & E & L & H).
      exists (map (fun kv => (fst kv, [kv])) order), ps. split; [exact E|]. split.
      { split; [congruence|]. intros _. apply Permutation_map, Permutation_sym, P. }
      split.
      + apply Forall2_map_l, Forall2_nth; [auto|]. intros i kv p Hk Hp. destruct (H i kv p Hk Hp) as (A & _ & B & D & c & svs & S1 & S2 & S3 & S4).
        split; [exact A|]. split; [apply B|]. cbn [fst snd map]. eapply (bare_of_jobs _ _ _ [c] svs); try eassumption.
        * constructor; [apply right_step_job; exact S2|constructor].
        * apply Forall2_map_l. eapply Forall2_weaken; [|exact S4]. intros. apply right_service_job. assumption.
      + intros i p Hp. rewrite map_map. cbn. destruct (nth_error order i) as [kv|] eqn:Ek.
        * exact (proj1 (proj2 (H i kv p Ek Hp))).
        * exfalso. apply nth_error_None in Ek. assert (nth_error ps i <> None) as X by congruence. apply nth_error_Some in X. lia.
    - rewrite <- S. assert (Ne : gc_stages g <> []) by congruence.
      destruct (gitlab_stages available ord O g images js (gc_stages g) G J eq_refl Ne) as (ps & E & L & H).
      assert (X : exists plan, Forall2 (fun e e' => fst e = fst e' /\ Permutation (snd e) (snd e')) (map (fun stage => (stage, inStage stage js)) (gc_stages g)) plan /\
        Forall2 (EntryPipeline g images) plan ps).
      { assert (F : Forall2 (fun stage p => exists prev, StagePipeline available g images js prev stage p) (gc_stages g) ps).
        { apply Forall2_nth; [auto|]. intros i a b Ha Hb. eexists. exact (H i a b Ha Hb). }
        clear - F. induction F as [|stage p stages ps (prev & X) F (plan & IH1 & IH2)]; [exists []; split; constructor|].
        destruct X as (A & _ & B & D & sel & steps & svs & S1 & S2 & S3 & S4 & S5).
        exists ((stage, sel) :: plan). split; constructor; try assumption; cbn [fst snd].
        - split; [reflexivity|apply Permutation_sym, S1].
        - split; [exact A|]. split; [apply B|]. cbn [fst snd]. eapply (bare_of_jobs _ _ _ steps svs); try eassumption.
          + apply Forall2_map_l. eapply Forall2_weaken; [|exact S3]. intros. apply right_step_job. assumption.
          + apply Forall2_map_l. eapply Forall2_weaken; [|exact S5]. intros. apply right_service_job. assumption. }
      destruct X as (plan & X1 & X2). exists plan, ps. split; [exact E|]. split; [split; [intros _; exact X1|congruence]|]. split; [exact X2|].
      assert (M : map fst plan = gc_stages g).
      { clear - X1. remember (gc_stages g) as l. clear Heql. revert plan X1. induction l as [|a l IH]; intros plan X; inversion X as [|? ? ? ? Y1 Y2]; subst; [reflexivity|].
        cbn. rewrite (IH _ Y2). f_equal. symmetry. exact (proj1 Y1). }
      intros i p Hp. assert (Q : RightDependsOn (previous (gc_stages g) i) p); [|rewrite <- M in Q; exact Q]. destruct (nth_error (gc_stages g) i) as [stage|] eqn:Ek.
      * exact (proj1 (proj2 (H i stage p Ek Hp))).
      * exfalso. apply nth_error_None in Ek. assert (nth_error ps i <> None) as X by congruence. apply nth_error_Some in X. lia.
  Qed.
  Lemma same_plan_good g plan plan' services : SamePlan g plan plan' ->
    (Forall (fun e => GoodJobs (map (gitlabJob g) (snd e)) services) plan <-> Forall (fun e => GoodJobs (map (gitlabJob g) (snd e)) services) plan') /\
    Permutation (map fst plan) (map fst plan').
  Proof.
    intros [A B]. destruct (gc_stages g) as [|s0 st].
    - specialize (B eq_refl). split; [split; apply Permutation_Forall; [|apply Permutation_sym]; exact B|]. apply Permutation_map, B.
    - assert (X : s0 :: st <> []) by discriminate. specialize (A X). clear - A. induction A as [|e e' l l' [E P] F [IH1 IH2]]; [split; [split; constructor|constructor]|].
      split; [|destruct e, e'; cbn in E |- *; subst; constructor; exact IH2].
      rewrite !Forall_cons_iff, IH1. rewrite (good_jobs_perm _ _ services services (Permutation_map _ P) (Permutation_refl _)). reflexivity.
  Qed.
  Lemma pipelines_of ps : pipelinesOf (map RPipeline ps) = ps.
  Proof. induction ps; cbn; congruence. Qed.
  Theorem gitlab_lint g images js : gc_services g = map Some images -> gc_jobs g = ConverterSpec.present js -> NoDup (mkeys js) ->
    exists m, gitlabManifest available ord g = Ok m /\ forall trusted,
      (Forall (fun r => Lint r trusted = Ok tt) (mf_resources m) <->
       Forall (fun e => GoodJobs (map (gitlabJob g) (snd e)) (map (gitlabService available) images)) (gitlabPlan g js)) /\
      (lintManifest m trusted = Ok tt <-> NoDup (map fst (gitlabPlan g js))).
  Proof using O.
    intros G J N. destruct (gitlab_plan g images js G J N) as (plan & ps & E & S & F & D). eexists. split; [exact E|]. intro t. cbn [mf_resources].
    destruct (same_plan_good _ _ _ (map (gitlabService available) images) S) as [S1 S2]. rewrite S1. split.
    - clear - F. induction F as [|e p plan ps (_ & _ & H) F IH]; [split; constructor|]. cbn [map]. rewrite !Forall_cons_iff, IH.
      rewrite (of_jobs_lint _ _ _ _ t H). reflexivity.
    - rewrite lintManifest_ok. cbn [mf_resources]. rewrite pipelines_of. unfold GoodManifest.
      assert (M : map pi_name ps = map fst plan) by (clear - F; induction F as [|e p plan ps (H & _) F IH]; cbn; congruence).
      rewrite M. split; [intros (X & _); exact (Permutation_NoDup (Permutation_sym S2) X)|]. intro X.
      split; [exact (Permutation_NoDup S2 X)|]. split.
      + intros before p after d Ep I. assert (Hp : nth_error ps (length before) = Some p) by (rewrite Ep, nth_error_app2, Nat.sub_diag; [reflexivity|lia]).
        destruct (D _ _ Hp) as [D1 D2]. rewrite Ep in M. rewrite <- M in D1, D2. destruct before as [|b bs] using rev_ind; cbn [length previous] in D1, D2.
        { rewrite (D2 (or_introl eq_refl)) in I. destruct I. }
        clear IHbs. rewrite app_length in D1, D2. cbn [length] in D1, D2. rewrite Nat.add_1_r in D1, D2. cbn [previous] in D1, D2.
        rewrite <- app_assoc, map_app in D1, D2. rewrite nth_error_app2 in D1, D2 by (rewrite map_length; lia). rewrite map_length, Nat.sub_diag in D1, D2. cbn in D1, D2.
        destruct (string_dec (pi_name b) "") as [Z|Z]; [rewrite D2 in I by (right; congruence); destruct I|].
        rewrite (D1 _ eq_refl Z) in I. destruct I as [<-|[]]. rewrite map_app. apply in_or_app. right. left. reflexivity.
      + clear - F. induction F as [|e p plan ps (_ & H & _) F IH]; constructor; [|exact IH]. intros _. rewrite H. split; left; reflexivity.
  Qed.
  Theorem gitlab_runs w c hostDir hostMount : OrderOk w -> Standard w c hostDir hostMount ->
    forall g images js, gc_services g = map Some images -> gc_jobs g = ConverterSpec.present js -> NoDup (mkeys js) ->
    exists plan ps, gitlabManifest available ord g = Ok {| mf_resources := map RPipeline ps |} /\ SamePlan g (gitlabPlan g js) plan /\
      Forall2 (fun e p => pi_name p = fst e /\
        forall (clone : bool) q n, (if clone then q = p else WithoutClone p q) ->
        exists spec, Compiled w c q n spec /\
          RunsAll w c hostMount clone 0 (map (gitlabService available) images) (map (gitlabJob g) (snd e)) spec) plan ps.
  Proof using O.
    intros HO HS g images js G J N. destruct (gitlab_plan g images js G J N) as (plan & ps & E & S & F & _). exists plan, ps.
    split; [exact E|]. split; [exact S|]. eapply Forall2_weaken; [|exact F]. intros e p (A & _ & B). split; [exact A|].
    intros clone q n Hq. eapply jobs_compile; eassumption.
  Qed.
End Gitlab.

(** ** Bitbucket *)
Lemma right_bstep_job image i s c : RightBStep image i s c -> IsJob (bitbucketJob image i s) c.
Proof.
  intros (A1 & A2 & B1 & B2 & C & D & E & F & G). unfold IsJob, bitbucketJob. cbn.
  split; [destruct (bs_name s) eqn:N; [apply A2; reflexivity|apply A1; discriminate]|].
  split; [destruct (bs_image s) eqn:N; [apply B2; reflexivity|apply B1; discriminate]|]. auto 8.
Qed.
Lemma right_bsteps image l steps k : length steps = length l ->
  (forall i s st, nth_error l i = Some s -> nth_error steps i = Some st -> RightBStep image (k + i) s st) ->
  Forall2 IsJob (map (fun e => bitbucketJob image (fst e) (snd e)) (combine (seq k (length l)) l)) steps.
Proof.
  revert steps k. induction l as [|s l IH]; intros [|st steps] k L H; try discriminate; cbn; constructor.
  - apply right_bstep_job. rewrite <- (Nat.add_0_r k). exact (H 0 s st eq_refl eq_refl).
  - apply IH; [injection L; auto|]. intros i a b Ha Hb. replace (S k + i) with (k + S i) by lia. exact (H (S i) a b Ha Hb).
Qed.
Section Bitbucket.
  Variable pathMatch : string -> string -> option bool.
  Variables (ordT ordB : smap BStage -> smap BStage) (ordS : smap (option BStep) -> smap (option BStep)).
  Hypotheses (OT : forall m, Permutation m (ordT m)) (OB : forall m, Permutation m (ordB m)) (OS : forall m, Permutation m (ordS m)).
  Lemma bitbucket_jobs c ref l services : bc_services c = map (fun kv => (fst kv, Some (snd kv))) services ->
    pipelineFor pathMatch ordT ordB c ref = map Some l ->
    exists p sel, bitbucketManifest pathMatch ordT ordB ordS c ref = Ok {| mf_resources := [RPipeline p] |} /\ pi_name p = "default" /\
      Permutation sel services /\ OfJobs true (bc_depth c) (bitbucketJobs (bc_image c) l) (map bitbucketService sel) p.
  Proof using OT OB OS.
    intros HS HP. destruct (bitbucket_ok pathMatch ordT ordB ordS c ref l services OT OB OS HS HP)
      as (p & steps & svs & sel & E & _ & Nm & B & _ & D & S1 & S2 & S3 & S4 & S5 & S6).
    exists p, sel. split; [exact E|]. split; [exact Nm|]. split; [exact S5|]. eapply (bare_of_jobs _ _ _ steps svs); try eassumption.
    - unfold bitbucketJobs. apply right_bsteps; [exact S2|exact S3].
    - apply Forall2_map_l. eapply Forall2_weaken; [|exact S6]. intros kv ct (X1 & X2 & X3 & X4 & X5 & X6 & X7). unfold IsJob. cbn. auto 8.
  Qed.
  Theorem bitbucket_worth w co hostDir hostMount : OrderOk w -> Standard w co hostDir hostMount ->
    forall c ref l services, bc_services c = map (fun kv => (fst kv, Some (snd kv))) services ->
    pipelineFor pathMatch ordT ordB c ref = map Some l ->
    exists p, bitbucketManifest pathMatch ordT ordB ordS c ref = Ok {| mf_resources := [RPipeline p] |} /\
      (forall trusted, Lint (RPipeline p) trusted = Ok tt <-> GoodJobs (bitbucketJobs (bc_image c) l) (map bitbucketService services)) /\
      forall (clone : bool) q n, (if clone then q = p else WithoutClone p q) ->
      exists sel spec, Permutation sel services /\ Compiled w co q n spec /\
        RunsAll w co hostMount clone (bc_depth c) (map bitbucketService sel) (bitbucketJobs (bc_image c) l) spec.
  Proof using OT OB OS.
    intros HO HSt c ref l services HS HP. destruct (bitbucket_jobs c ref l services HS HP) as (p & sel & E & _ & S & B). exists p. split; [exact E|]. split.
    - intro t. rewrite (of_jobs_lint _ _ _ _ t B). apply good_jobs_perm; [apply Permutation_refl|apply Permutation_map; exact S].
    - intros clone q n Hq. destruct (jobs_compile w co hostDir hostMount HO HSt clone _ _ _ p q n B Hq) as (spec & K & R). exists sel, spec. auto.
  Qed.
End Bitbucket.
