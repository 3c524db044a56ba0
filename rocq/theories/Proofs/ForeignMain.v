(** * ForeignMain.v: converting a GitLab or Bitbucket file, then checking and compiling the result. *)
From Coq Require Import Lia Sorting.Permutation.
From Verif Require Import Model.Go Model.Types Model.RawParse Model.Decode Model.Lint Model.Engine Model.Pretty Model.Convert Model.Gitlab Model.Bitbucket Model.Compiler Model.Main
  Spec.ParseSpec Spec.YamlSpec Spec.PrettySpec Spec.ConverterSpec Spec.CompileSpec Spec.MainSpec Spec.LegacyRunSpec Spec.ForeignRunSpec
  Proofs.GoFacts Proofs.LintFacts Proofs.PrettyTrip Proofs.ConverterFacts Proofs.CompilePure Proofs.CompileFacts Proofs.MainFacts Proofs.MainCompile Proofs.LintFormat
  Proofs.ConvertLint Proofs.LegacyMain Proofs.ForeignRun.

Section Foreign.
  Variables (mc : Machine) (resolve : string -> node) (ramInBytes : string -> option Z) (reader : string -> option node).
  Hypotheses (HD : mc_decoder mc = treeDecoder ramInBytes reader) (HR : Resolver resolve) (HRd : Reads resolve reader)
    (HO : OrderOk (mc_world mc)) (HOr : Orders mc).
  Lemma compile_command p depth jobs services name clone fl f fs content m auths :
    fs f = Some content -> parse (mc_decoder mc) content = Ok m -> NoDup (mkeys (cf_env fl)) -> NoDup (mkeys (cf_label fl)) ->
    MainSpec.Selected name (mf_resources m) p -> Forall2 RegistryOf (cf_registry fl) auths -> OfJobs true depth jobs services p ->
    CommandRuns mc clone fl auths depth services jobs (run mc (ACompile name clone fl f) fs).
  Proof using HO HOr.
    intros Hf P Ne Nl Sel Ha H. pose proof (compile_result mc name clone fl f fs _ m HOr Ne Nl Hf P) as CR. cbv zeta in CR.
    destruct CR as (_ & R0 & _ & _ & RX). destruct (jobs_complete _ _ _ _ _ H) as (st & se & C & _).
    assert (A0 : x_status (run mc (ACompile name clone fl f) fs) = 0%Z).
    { apply R0. exists p, auths. split; [split; assumption|]. exists st, se, []. exact C. }
    split; [exact A0|]. destruct (RX p auths (conj Sel Ha) A0) as (q & c & base & spec & Hq & HCc & (k & K) & Fi & Out).
    exists c, base, spec. split; [exact HCc|]. split; [|auto].
    eapply (jobs_run (mc_world mc) c None false HO (proj1 HCc)); [|exact K]. eapply of_jobs_clone; eassumption.
  Qed.
  Lemma converted_read f addr fs content m save : fs f = Some content -> converted mc f addr content = formatted mc m ->
    mf_resources m <> [] -> Forall (Formattable resolve ramInBytes (w_formatFloat (mc_world mc)) (mc_bytesSize mc)) (mf_resources m) ->
    let x := run mc (AConvert save addr f) fs in
    (forall lines, ParseSpec.Lines (x_stderr x) lines -> Forall ParseSpec.Short lines) ->
    x_status x = 0%Z /\ exists m', parse (mc_decoder mc) (x_stderr x) = Ok m' /\ Forall2 ReadBack (mf_resources m) (mf_resources m').
  Proof using HD HR HRd.
    intros Hf Ec Ne HF x Hl.
    destruct (round_trip (w_isPrintHigh (mc_world mc)) (w_formatFloat (mc_world mc)) (mc_sprintFloat mc) (mc_bytesSize mc) _ _ _ HR HRd m Ne HF) as (out & Eo & _ & G).
    unfold formatted in Ec. rewrite Eo in Ec.
    pose proof (convert_prints mc save addr f fs content Hf) as Q. rewrite Ec in Q. fold x in Q. destruct Q as [Q1 Q2]. split; [exact Q2|].
    rewrite Q1 in *. destruct (G Hl) as (m' & P & F). rewrite <- HD in P. exists m'. auto.
  Qed.
  Lemma lint_same rs rs' trusted : Forall2 ReadBack rs rs' ->
    (Forall (fun r => Lint r trusted = Ok tt) rs' <-> Forall (fun r => Lint r trusted = Ok tt) rs).
  Proof.
    intro F. induction F as [|r r' l l' H F IH]; [split; constructor|]. rewrite !Forall_cons_iff, (lint_read_back _ _ _ H), IH. reflexivity.
  Qed.

  Theorem gitlab_commands available ord read : (forall i m, Permutation m (ord i m)) ->
    mc_gitlab mc = gitlabConvert available ord read (formatted mc) ->
    forall addr fs content n g images js, fs ".gitlab-ci.yml" = Some content -> read content = Some n -> decGConfig n = Some g ->
    gc_services g = map Some images -> gc_jobs g = ConverterSpec.present js -> NoDup (mkeys js) -> gitlabPlan g js <> [] ->
    (forall m, gitlabManifest available ord g = Ok m ->
       Forall (Formattable resolve ramInBytes (w_formatFloat (mc_world mc)) (mc_bytesSize mc)) (mf_resources m)) ->
    forall save, let x := run mc (AConvert save addr ".gitlab-ci.yml") fs in
    (forall lines, ParseSpec.Lines (x_stderr x) lines -> Forall ParseSpec.Short lines) ->
    x_status x = 0%Z /\
    (forall f' fs' trusted, fs' f' = Some (x_stderr x) ->
       (x_status (run mc (ALint trusted f') fs') = 0%Z <->
        Forall (fun e => GoodJobs (map (gitlabJob g) (snd e)) (map (gitlabService available) images)) (gitlabPlan g js))) /\
    exists plan, SamePlan g (gitlabPlan g js) plan /\
    forall f' fs' name clone fl auths e, fs' f' = Some (x_stderr x) -> Chosen name plan e ->
      NoDup (mkeys (cf_env fl)) -> NoDup (mkeys (cf_label fl)) -> Forall2 RegistryOf (cf_registry fl) auths ->
      CommandRuns mc clone fl auths 0 (map (gitlabService available) images) (map (gitlabJob g) (snd e)) (run mc (ACompile name clone fl f') fs').
  Proof using HD HR HRd HO HOr.
    intros O HG addr fs content n g images js Hf Hr Hd G J N NE HF save x Hl.
    destruct (gitlab_plan available ord O g images js G J N) as (plan & ps & E & S & F & _).
    destruct (gitlab_lint available ord O g images js G J N) as (m & Em & L). rewrite E in Em. injection Em as <-.
    assert (Ne : map RPipeline ps <> []).
    { intro X. apply NE. destruct ps; [|discriminate]. inversion F; subst. pose proof (proj2 (same_plan_good _ _ _ [] S)) as Z. cbn in Z.
      apply Permutation_sym, Permutation_nil in Z. destruct (gitlabPlan g js); [reflexivity|discriminate]. }
    assert (Ec : converted mc ".gitlab-ci.yml" addr content = formatted mc {| mf_resources := map RPipeline ps |}).
    { unfold converted. rewrite (proj1 (proj2 (convert_chosen _ _ _ content {| me_filename := ".gitlab-ci.yml"; me_url := addr; me_ref := "" |})) eq_refl).
      rewrite HG. unfold gitlabConvert. rewrite Hr, Hd, E. reflexivity. }
    destruct (converted_read _ addr fs content _ save Hf Ec Ne (HF _ E) Hl) as (X0 & m' & P & B). split; [exact X0|]. split.
    - intros f' fs' t Hf'. rewrite (lint_status mc t f' fs' _ m' Hf' P), (lint_same _ _ t B). exact (proj1 (L t)).
    - exists plan. split; [exact S|]. intros f' fs' name clone fl auths e Hf' (before & after & Ep & Hn & Hb) N1 N2 Ha.
      cbn [mf_resources] in B. rewrite Ep in F. apply Forall2_app_inv_l in F as (bs & rest & F1 & F2 & ->). inversion F2 as [|? p ? as' H F3]; subst.
      rewrite map_app in B. apply Forall2_app_inv_l in B as (bs' & rest' & B1 & B2 & Er). cbn [map] in B2. inversion B2 as [|? p' ? as'' H' B3]; subst. inversion H'; subst.
      destruct H as (Hname & _ & H). eapply (compile_command (sortedPipeline p)); try eassumption; [|apply of_jobs_sorted; exact H].
      exists bs', as''. split; [exact Er|]. split; [cbn; rewrite Hname; exact Hn|]. intros q I.
      clear - F1 B1 Hb I. revert bs F1 B1. revert Hb bs' I. induction before as [|e before IH]; intros Hb bs' I bs F1 B1; inversion F1 as [|? p ? ps R F]; subst; cbn in B1; inversion B1 as [|? r ? rs R' B]; subst; [destruct I|].
      destruct I as [->|I]; [|eapply IH; try eassumption; intros; apply Hb; right; assumption].
      inversion R'; subst. cbn. rewrite (proj1 R). apply Hb. left. reflexivity.
  Qed.
  Theorem bitbucket_commands pathMatch ordT ordB ordS read :
    (forall m, Permutation m (ordT m)) -> (forall m, Permutation m (ordB m)) -> (forall m, Permutation m (ordS m)) ->
    mc_bitbucket mc = bitbucketConvert pathMatch ordT ordB ordS read (formatted mc) ->
    forall addr fs content n c l services, fs "bitbucket-pipelines.yml" = Some content -> read content = Some n -> decBConfig n = Some c ->
    bc_services c = map (fun kv => (fst kv, Some (snd kv))) services -> pipelineFor pathMatch ordT ordB c "" = map Some l ->
    (forall m, bitbucketManifest pathMatch ordT ordB ordS c "" = Ok m ->
       Forall (Formattable resolve ramInBytes (w_formatFloat (mc_world mc)) (mc_bytesSize mc)) (mf_resources m)) ->
    forall save, let x := run mc (AConvert save addr "bitbucket-pipelines.yml") fs in
    (forall lines, ParseSpec.Lines (x_stderr x) lines -> Forall ParseSpec.Short lines) ->
    x_status x = 0%Z /\
    (forall f' fs' trusted, fs' f' = Some (x_stderr x) ->
       (x_status (run mc (ALint trusted f') fs') = 0%Z <-> GoodJobs (bitbucketJobs (bc_image c) l) (map bitbucketService services))) /\
    exists sel, Permutation sel services /\
    forall f' fs' name clone fl auths, fs' f' = Some (x_stderr x) -> name = "" \/ name = "default" ->
      NoDup (mkeys (cf_env fl)) -> NoDup (mkeys (cf_label fl)) -> Forall2 RegistryOf (cf_registry fl) auths ->
      CommandRuns mc clone fl auths (bc_depth c) (map bitbucketService sel) (bitbucketJobs (bc_image c) l) (run mc (ACompile name clone fl f') fs').
  Proof using HD HR HRd HO HOr.
    intros OT OB OS HG addr fs content n c l services Hf Hr Hd HS HP HF save x Hl.
    destruct (bitbucket_jobs pathMatch ordT ordB ordS OT OB OS c "" l services HS HP) as (p & sel & E & Nm & S & H).
    assert (Ec : converted mc "bitbucket-pipelines.yml" addr content = formatted mc {| mf_resources := [RPipeline p] |}).
    { unfold converted. rewrite (proj1 (convert_chosen _ _ _ content {| me_filename := "bitbucket-pipelines.yml"; me_url := addr; me_ref := "" |}) eq_refl).
      rewrite HG. unfold bitbucketConvert. cbn [me_ref]. rewrite Hr, Hd, E. reflexivity. }
    assert (Ne : [RPipeline p] <> []) by discriminate.
    destruct (converted_read _ addr fs content _ save Hf Ec Ne (HF _ E) Hl) as (X0 & m' & P & B). split; [exact X0|]. split.
    - intros f' fs' t Hf'. rewrite (lint_status mc t f' fs' _ m' Hf' P), (lint_same _ _ t B). cbn [mf_resources].
      rewrite (good_jobs_perm _ _ _ _ (Permutation_refl (bitbucketJobs (bc_image c) l)) (Permutation_map bitbucketService (Permutation_sym S))).
      rewrite <- (of_jobs_lint _ _ _ _ t H). rewrite Forall_cons_iff. split; [tauto|]. intro Y. split; [exact Y|constructor].
    - exists sel. split; [exact S|]. intros f' fs' name clone fl auths Hf' Hn N1 N2 Ha. cbn [mf_resources] in B.
      inversion B as [|? r ? rs R B' E1 E2]; subst. inversion B'; subst. inversion R; subst.
      eapply (compile_command (sortedPipeline p)); try eassumption; [|apply of_jobs_sorted; exact H].
      exists [], []. split; [symmetry; assumption|]. split; [cbn; rewrite Nm; destruct Hn; auto|intros q []].
  Qed.
End Foreign.
