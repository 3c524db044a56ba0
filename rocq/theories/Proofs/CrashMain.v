(** * CrashMain.v: when the commands crash. *)
From Verif Require Import Model.Go Model.Types Model.RawParse Model.Lint Model.Signer Model.Pretty Model.Main
  Spec.LintSpec Spec.PrettySpec Spec.CompileSpec Spec.TransformSpec Spec.MainSpec Spec.CrashSpec
  Proofs.ParseFacts Proofs.GoFacts Proofs.MainFacts Proofs.MainCompile Proofs.PrettyMore Proofs.PrettyClaims Proofs.Crash.
Local Open Scope list_scope.

Lemma lint_others_fine r trusted : (forall p, r <> RPipeline p) -> Lint r trusted <> Panic.
Proof. intro H. apply LintFacts.lint_np. intros p ->. exfalso. exact (H p eq_refl). Qed.
Lemma file_crashes rs trusted : oiter (fun r => Lint r trusted) rs = Panic <-> FileCrashes trusted rs.
Proof.
  rewrite oiter_panics. unfold FileCrashes. split.
  - intros (before & x & after & E & H1 & H2). destruct x as [c|p|s|s|g];
      try (exfalso; revert H2; apply lint_others_fine; intros; discriminate).
    exists before, p, after. split; [exact E|]. split; [|apply crashes, H2]. apply Forall_forall. intros r Hr. apply accepted_ok, H1, Hr.
  - intros (before & p & after & E & H1 & H2). exists before, (RPipeline p), after. split; [exact E|]. split; [|apply crashes, H2].
    rewrite Forall_forall in H1. intros r Hr. apply accepted_ok, H1, Hr.
Qed.
Theorem lint_crashes mc trusted f fs : x_status (run mc (ALint trusted f) fs) = 2%Z <->
  exists s m, fs f = Some s /\ parse (mc_decoder mc) s = Ok m /\ FileCrashes trusted (mf_resources m).
Proof.
  unfold run, main, runLint. cbn [source parseArgs]. destruct (fs f) as [s|]; cbn [lintPriv].
  - destruct (parse (mc_decoder mc) s) as [m|e|] eqn:E; cbn [obind].
    + destruct (oiter (fun r => Lint r trusted) (mf_resources m)) as [[]|e|] eqn:E2; cbn; split; try discriminate.
      * intros (s' & m' & Es & Em & H). injection Es as <-. rewrite E in Em. injection Em as <-. apply file_crashes in H. congruence.
      * intros (s' & m' & Es & Em & H). injection Es as <-. rewrite E in Em. injection Em as <-. apply file_crashes in H. congruence.
      * intros _. exists s, m. split; [reflexivity|]. split; [exact E|]. apply file_crashes, E2.
      * reflexivity.
    + cbn. split; [discriminate|]. intros (s' & m' & Es & Em & _). injection Es as <-. congruence.
    + now apply parse_panic in E.
  - cbn. split; [discriminate|]. intros (s' & m' & Es & _). discriminate.
Qed.
Theorem format_crashes mc p save f fs s m : fs f = Some s -> parse (mc_decoder mc) s = Ok m -> Forall GoMaps (mf_resources m) ->
  (x_status (run mc (AFormat p save f) fs) = 2%Z <-> Exists HasNull (mf_resources m)).
Proof.
  intros Es Em G. assert (H := format_result mc p save f fs s Es). cbv zeta in H. rewrite Em in H.
  rewrite <- (format_panics (w_isPrintHigh (mc_world mc)) (w_formatFloat (mc_world mc)) (mc_sprintFloat mc) (mc_bytesSize mc) m G).
  fold (formatted mc m). destruct (formatted mc m) as [out|e|] eqn:E.
  - split; [|discriminate]. destruct save; [destruct (mc_writable mc f)|]; decompose [and] H; congruence.
  - exfalso. unfold formatted in E. exact (format_no_error _ _ _ _ _ _ E).
  - split; [reflexivity|]. intros _. apply H.
Qed.
Theorem signatures_never_crash mc fs a : (exists k f, a = AVerify k f) \/ (exists s k f, a = ASign s k f) -> x_status (run mc a fs) <> 2%Z.
Proof.
  intro A. destruct (fs (source a)) as [c|] eqn:Ef.
  - destruct A as [(k & f & ->)|(s & k & f & ->)]; cbn [source] in Ef.
    + destruct (verify_result mc k f fs c Ef) as (_ & _ & _ & H). intro E. destruct H as [H _]; congruence.
    + destruct s.
      * assert (H := sign_save mc k f fs c Ef). cbv zeta in H. destruct (SignUpdate _ _ _ _); [destruct (mc_writable mc f)|..]; decompose [and] H; congruence.
      * destruct (sign_result mc k f fs c Ef) as [_ H]. destruct (Sign _ _ _ _); [..|contradiction]; decompose [and] H; congruence.
  - destruct (streams mc a fs) as (_ & _ & H). rewrite (H Ef). discriminate.
Qed.

Lemma nothing_null_lint p : NothingNull p -> exists steps services vols, NoNulls p steps services vols.
Proof.
  intros (H1 & H2 & H3 & H4). destruct (somes _ H1) as [steps E1], (somes _ H2) as [services E2], (somes _ H3) as [vols E3].
  exists steps, services, vols. do 3 (split; [assumption|]). apply Forall_forall. intros c Hc.
  destruct (H4 c) as (_ & _ & K1 & _ & K2); [|auto]. rewrite E1, E2, <- map_app. apply in_map, Hc.
Qed.
Lemma nothing_null_format p : NothingNull p -> ~ HasNull (RPipeline p).
Proof.
  intros (_ & _ & H3 & H4) [(c & Hc & N)|N]; [|contradiction]. apply H4 in Hc. unfold StepNull in N. tauto.
Qed.
Lemma nothing_null_compile p : NothingNull p -> exists steps services vols, Complete p steps services vols.
Proof.
  intro H. destruct (nothing_null_lint p H) as (steps & services & vols & E1 & E2 & E3 & F).
  exists steps, services, vols. do 3 (split; [assumption|]). apply Forall_app in F as [F1 F2]. split; [|exact F2].
  eapply Forall_impl; [|exact F1]. intros c K _. exact K.
Qed.
Theorem nothing_null_nothing_crashes mc a fs s m : Orders mc ->
  (forall name clone fl f, a = ACompile name clone fl f -> NoDup (mkeys (cf_env fl)) /\ NoDup (mkeys (cf_label fl))) ->
  (forall save addr f, a <> AConvert save addr f) ->
  fs (source a) = Some s -> parse (mc_decoder mc) s = Ok m -> Forall GoMaps (mf_resources m) ->
  (forall p, In (RPipeline p) (mf_resources m) -> NothingNull p) -> x_status (run mc a fs) <> 2%Z.
Proof.
  intros O ND NC Es Em G H. destruct a as [p save f|save addr f|p f|save k f|k f|name clone fl f]; cbn [source] in Es.
  - rewrite (format_crashes mc p save f fs s m Es Em G). rewrite Exists_exists. intros (r & Hr & N).
    destruct r as [c|q|c|c|c]; try exact N. exact (nothing_null_format q (H q Hr) N).
  - exfalso. exact (NC _ _ _ eq_refl).
  - rewrite lint_crashes. intros (s' & m' & Es' & Em' & (before & q & after & E & _ & C)).
    rewrite Es in Es'. injection Es' as <-. rewrite Em in Em'. injection Em' as <-.
    apply crashes in C. revert C. apply LintFacts.lint_np. intros q' Eq. injection Eq as <-. apply nothing_null_lint, H. rewrite E.
    apply in_elt.
  - apply signatures_never_crash. right. eauto.
  - apply signatures_never_crash. left. eauto.
  - destruct (ND _ _ _ _ eq_refl) as [N1 N2].
    destruct (compile_result mc name clone fl f fs s m O N1 N2 Es Em) as (_ & _ & _ & C & _). rewrite C.
    intros (p & auths & [(before & after & E & _) _] & K). apply K, nothing_null_compile, H. rewrite E. apply in_elt.
Qed.
