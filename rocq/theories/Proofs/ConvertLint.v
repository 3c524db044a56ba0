(** * ConvertLint.v: converting a 0.8 file and checking the result. *)
From Verif Require Import Model.Go Model.Types Model.RawParse Model.Decode Model.Lint Model.Pretty Model.Convert Model.Legacy Model.Main
  Spec.ParseSpec Spec.YamlSpec Spec.PrettySpec Spec.CompileSpec Spec.MainSpec Spec.ConverterSpec
  Spec.LegacySpec Spec.ConvertedSpec
  Proofs.GoFacts Proofs.LintFacts Proofs.PrettyTrip Proofs.ConverterFacts Proofs.MainFacts Proofs.LintFormat
  Proofs.LegacyMore Proofs.LegacyLint.

Lemma lint_status mc trusted f fs content m : fs f = Some content -> parse (mc_decoder mc) content = Ok m ->
  (x_status (run mc (ALint trusted f) fs) = 0%Z <-> Forall (fun r => Lint r trusted = Ok tt) (mf_resources m)).
Proof.
  intros Hf Hp. unfold run, main, runLint. cbn [source parseArgs]. rewrite Hf, Hp. cbn [obind lintPriv].
  assert (G : oiter (fun r => Lint r trusted) (mf_resources m) = Ok tt <-> Forall (fun r => Lint r trusted = Ok tt) (mf_resources m)).
  { rewrite oiter_ok. reflexivity. }
  rewrite <- G. destruct (oiter (fun r => Lint r trusted) (mf_resources m)) as [[]| |]; cbn; split; intro H; try reflexivity; discriminate.
Qed.

(** What the convert command prints is read as the pipeline and the secrets of the configuration. *)
Lemma convert_then_parse mc resolve ramInBytes reader getenv parseURL isPrintHigh marshal unmarshal ordM ordA formatFloat formatKey read expand :
  mc_decoder mc = treeDecoder ramInBytes reader -> Resolver resolve -> Reads resolve reader ->
  mc_legacy mc = Convert getenv parseURL isPrintHigh marshal unmarshal ordM ordA formatFloat formatKey read expand (formatted mc) ->
  forall f addr fs content n g, fs f = Some content ->
  f <> "bitbucket-pipelines.yml" -> f <> ".gitlab-ci.yml" -> HasPipelineLine content ->
  (forall a b, content <> (a +++ "<<:" +++ b)%string) -> read content = Some n ->
  decLConfig formatFloat formatKey n = Some g ->
  CompleteConfig g -> lg_matrix g = VNull ->
  (forall m, toManifest getenv parseURL isPrintHigh marshal unmarshal ordM ordA n g addr = Ok m ->
     Forall (Formattable resolve ramInBytes (w_formatFloat (mc_world mc)) (mc_bytesSize mc)) (mf_resources m)) ->
  forall save, let x := run mc (AConvert save addr f) fs in
  (forall lines, ParseSpec.Lines (x_stderr x) lines -> Forall ParseSpec.Short lines) ->
  x_status x = 0%Z /\
  exists p m', toPipeline getenv parseURL g addr = Ok p /\
    toManifest getenv parseURL isPrintHigh marshal unmarshal ordM ordA n g addr = Ok {| mf_resources := RPipeline p :: map RSecret (toSecrets g) |} /\
    parse (mc_decoder mc) (x_stderr x) = Ok m' /\ Forall2 ReadBack (RPipeline p :: map RSecret (toSecrets g)) (mf_resources m').
Proof.
  intros HD HR HRd HL f addr fs content n g Hf N1 N2 HP HM Hr HI HC HX HF save x Hl.
  destruct (LegacyFacts.toPipeline_ok getenv parseURL g addr HC) as (p & Ep & _).
  assert (Em : toManifest getenv parseURL isPrintHigh marshal unmarshal ordM ordA n g addr = Ok {| mf_resources := RPipeline p :: map RSecret (toSecrets g) |}).
  { unfold toManifest. rewrite Ep. cbn [obind]. rewrite HX. reflexivity. }
  set (m := {| mf_resources := _ |}) in Em. specialize (HF m Em).
  assert (Ne : mf_resources m <> []) by discriminate.
  destruct (round_trip (w_isPrintHigh (mc_world mc)) (w_formatFloat (mc_world mc)) (mc_sprintFloat mc) (mc_bytesSize mc) _ _ _ HR HRd m Ne HF) as (out & Eo & _ & G).
  assert (Ec : converted mc f addr content = Ok out).
  { unfold converted. rewrite (proj2 (proj2 (convert_chosen _ _ _ content {| me_filename := f; me_url := addr; me_ref := "" |})) N1 N2 HP). cbn [me_url].
    rewrite HL. unfold Legacy.Convert. destruct (contains content "<<:") eqn:C.
    { apply contains_spec in C as (a & b & C). exfalso. exact (HM a b C). }
    rewrite Hr, HI, Em. exact Eo. }
  pose proof (convert_prints mc save addr f fs content Hf) as Q. rewrite Ec in Q. fold x in Q. destruct Q as [Q1 Q2]. split; [exact Q2|].
  rewrite Q1 in *. destruct (G Hl) as (m' & P & F). rewrite <- HD in P. exists p, m'. auto.
Qed.

Theorem convert_then_lint mc resolve ramInBytes reader getenv parseURL isPrintHigh marshal unmarshal ordM ordA formatFloat formatKey read expand :
  mc_decoder mc = treeDecoder ramInBytes reader -> Resolver resolve -> Reads resolve reader ->
  mc_legacy mc = Convert getenv parseURL isPrintHigh marshal unmarshal ordM ordA formatFloat formatKey read expand (formatted mc) ->
  forall f addr fs content n g, fs f = Some content ->
  f <> "bitbucket-pipelines.yml" -> f <> ".gitlab-ci.yml" -> HasPipelineLine content ->
  (forall a b, content <> (a +++ "<<:" +++ b)%string) -> read content = Some n ->
  decLConfig formatFloat formatKey n = Some g ->
  CompleteConfig g -> lg_matrix g = VNull -> NoDup (mkeys (lg_secrets g)) ->
  (forall k d, In (k, d) (lg_secrets g) -> NoDup (mkeys (ld_opts d))) ->
  (forall m, toManifest getenv parseURL isPrintHigh marshal unmarshal ordM ordA n g addr = Ok m ->
     Forall (Formattable resolve ramInBytes (w_formatFloat (mc_world mc)) (mc_bytesSize mc)) (mf_resources m)) ->
  forall save, let x := run mc (AConvert save addr f) fs in
  (forall lines, ParseSpec.Lines (x_stderr x) lines -> Forall ParseSpec.Short lines) ->
  x_status x = 0%Z /\
  forall f' fs' trusted, fs' f' = Some (x_stderr x) ->
    (x_status (run mc (ALint trusted f') fs') = 0%Z <->
     GoodLegacy getenv trusted g /\ forall k d, In (k, d) (lg_secrets g) -> GoodLegacySecret d).
Proof.
  intros HD HR HRd HL f addr fs content n g Hf N1 N2 HP HM Hr HI HC HX NS NO HF save x Hl.
  destruct (convert_then_parse mc resolve ramInBytes reader _ _ _ _ _ _ _ _ _ _ _ HD HR HRd HL f addr fs content n g Hf N1 N2 HP HM Hr HI HC HX HF save Hl)
    as (S & p & m' & _ & Em & P & F).
  split; [exact S|]. intros f' fs' trusted Hf'. rewrite (lint_status mc trusted f' fs' _ m' Hf' P).
  rewrite <- (lint_converted_manifest _ _ _ _ _ _ _ _ _ _ _ trusted HC HX NS NO Em). cbn [mf_resources].
  clear - F. induction F as [|r r' l l' H F IH]; [split; constructor|]. rewrite !Forall_cons_iff, (lint_read_back _ _ _ H), IH. reflexivity.
Qed.
