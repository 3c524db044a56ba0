(** * LintFormat.v: formatting a file does not change what the linter says about it. *)
From Coq Require Import Lia.
From Verif Require Import Model.Go Model.Types Model.RawParse Model.Decode Model.Lint Model.Pretty Model.Compiler Model.Main
  Spec.LintSpec Spec.ParseSpec Spec.YamlSpec Spec.PrettySpec Spec.CompileSpec Spec.MainSpec
  Proofs.GoFacts Proofs.LintFacts Proofs.PrettyClaims Proofs.PrettyMore Proofs.PrettyTrip Proofs.MainFacts.

Lemma ofold_map {A B S} (f : S -> B -> outcome S) (g : A -> B) l : forall s, ofold f (map g l) s = ofold (fun s a => f s (g a)) l s.
Proof. induction l as [|a l IH]; intro s; [reflexivity|]. cbn. destruct (f s (g a)); cbn; [apply IH|reflexivity|reflexivity]. Qed.
Lemma ofold_same {A S} (f g : S -> A -> outcome S) l : (forall s a, f s a = g s a) -> forall s, ofold f l s = ofold g l s.
Proof. intro H. induction l as [|a l IH]; intro s; [reflexivity|]. cbn. rewrite H. destruct (g s a); cbn; [apply IH|reflexivity|reflexivity]. Qed.

Lemma container_sorted c t : checkContainer (sortedContainer c) t = checkContainer c t.
Proof. unfold checkContainer. cbn. destruct (ct_build c); reflexivity. Qed.
Lemma platform_sorted p : checkPlatform (pi_platform (sortedPipeline p)) = checkPlatform (pi_platform p).
Proof.
  cbn. destruct (pi_platform p) as [[|a os] [|b arch] [|c variant] [|d version]]; reflexivity.
Qed.
Lemma pipeline_sorted p t : checkPipeline (sortedPipeline p) t = checkPipeline p t.
Proof.
  unfold checkPipeline. rewrite platform_sorted. unfold checkVolumes. cbn [pi_volumes pi_clone pi_steps pi_services sortedPipeline].
  rewrite !ofold_map.
  rewrite (ofold_same (fun s a => checkStep t s (option_map sortedContainer a)) (checkStep t)).
  2:{ intros s [c|]; [|reflexivity]. unfold checkStep. cbn [deref obind option_map]. rewrite container_sorted. reflexivity. }
  destruct (oiter (checkVolume t) (pi_volumes p)); [|reflexivity|reflexivity]. cbn [obind].
  destruct (checkPlatform (pi_platform p)); [|reflexivity|reflexivity]. cbn [obind].
  destruct (ofold (checkStep t) (pi_steps p) _) as [n1| |]; [|reflexivity|reflexivity]. cbn [obind]. rewrite ofold_map.
  rewrite (ofold_same (fun s a => checkService t s (option_map sortedContainer a)) (checkService t)); [reflexivity|].
  intros s [c|]; [|reflexivity]. unfold checkService. cbn [deref obind option_map]. rewrite container_sorted. reflexivity.
Qed.
Lemma lint_read_back r r' t : ReadBack r r' -> Lint r' t = Lint r t.
Proof.
  intro H. destruct H as [p|c|s|s d HD]; [apply pipeline_sorted|reflexivity|reflexivity|].
  cbn [Lint]. unfold validateSecret. cbn. destruct HD as [[-> ->]|(u & ps & Hs & (Hc & whole & last & -> & _ & Hl) & ->)]; [reflexivity|].
  assert (E1 : isEmpty (join " " (whole ++ [last]) +++ nl) = false) by (destruct (join " " (whole ++ [last])); reflexivity).
  assert (E2 : isEmpty (se_data s) = false).
  { destruct (se_data s) eqn:E; [|reflexivity]. exfalso. unfold squeezed in Hs. cbn in Hs. rewrite Hc in Hs.
    apply (f_equal (@List.length _)) in Hs. clear - Hs Hl. revert Hs. induction whole as [|x whole IH]; cbn.
    - destruct last as [|a last]; cbn in *; [lia|]. discriminate.
    - destruct x as [|a x]; cbn; [exact IH|discriminate]. }
  rewrite E1, E2. reflexivity.
Qed.
Lemma manifest_read_back l l' : Forall2 ReadBack l l' -> forall names,
  ofold checkManifestResource l' names = ofold checkManifestResource l names.
Proof.
  intro F. induction F as [|r r' l l' H F IH]; intro names; [reflexivity|]. cbn [ofold].
  assert (E : checkManifestResource names r' = checkManifestResource names r).
  { destruct H; try reflexivity. unfold checkManifestResource. rewrite platform_sorted. reflexivity. }
  rewrite E. destruct (checkManifestResource names r); cbn; [apply IH|reflexivity|reflexivity].
Qed.
Lemma lint_all l l' t : Forall2 ReadBack l l' -> oiter (fun r => Lint r t) l' = oiter (fun r => Lint r t) l.
Proof.
  intro F. induction F as [|r r' l l' H F IH]; [reflexivity|]. cbn [oiter]. rewrite (lint_read_back _ _ _ H), IH. reflexivity.
Qed.

Theorem lint_formatted isPrintHigh formatFloat sprintFloat bytesSize resolve ramInBytes reader : Resolver resolve -> Reads resolve reader ->
  forall m, mf_resources m <> [] -> Forall (Formattable resolve ramInBytes formatFloat bytesSize) (mf_resources m) ->
  forall out, print isPrintHigh formatFloat sprintFloat bytesSize m = Ok out ->
  (forall lines, ParseSpec.Lines out lines -> Forall ParseSpec.Short lines) ->
  exists m', parse (treeDecoder ramInBytes reader) out = Ok m' /\
    Forall2 (fun r r' => forall trusted, Lint r' trusted = Lint r trusted) (mf_resources m) (mf_resources m') /\
    forall trusted, lintManifest m' trusted = lintManifest m trusted.
Proof.
  intros HR HRd m Hn HF out Ho Hs.
  destruct (round_trip isPrintHigh formatFloat sprintFloat bytesSize resolve ramInBytes reader HR HRd m Hn HF) as (out' & E & _ & G).
  rewrite Ho in E. injection E as <-. destruct (G Hs) as (m' & P & F). exists m'. split; [exact P|]. split.
  - clear - F. induction F as [|r r' l l' H F IH]; constructor; [intro t; apply lint_read_back, H|exact IH].
  - intro t. unfold lintManifest. rewrite (manifest_read_back _ _ F). reflexivity.
Qed.

Theorem format_then_lint mc resolve ramInBytes reader p f fs content m out trusted :
  mc_decoder mc = treeDecoder ramInBytes reader -> Resolver resolve -> Reads resolve reader -> mc_writable mc f = true ->
  fs f = Some content -> parse (mc_decoder mc) content = Ok m -> mf_resources m <> [] ->
  Forall (Formattable resolve ramInBytes (w_formatFloat (mc_world mc)) (mc_bytesSize mc)) (mf_resources m) ->
  formatted mc m = Ok out -> (forall lines, ParseSpec.Lines out lines -> Forall ParseSpec.Short lines) ->
  let before := run mc (ALint trusted f) fs in
  let after := run mc (ALint trusted f) (x_files (run mc (AFormat p true f) fs)) in
  x_status after = x_status before /\ x_stdout after = x_stdout before /\ x_stderr after = x_stderr before.
Proof.
  intros HD HR HRd Hw Hf Hp Hn HF Ho Hl. cbv zeta.
  pose proof (format_result mc p true f fs content Hf) as H1. cbv zeta in H1. rewrite Hp, Ho, Hw in H1.
  destruct H1 as ((H1 & _) & _ & _ & _). unfold formatted in Ho.
  destruct (round_trip (w_isPrintHigh (mc_world mc)) (w_formatFloat (mc_world mc)) (mc_sprintFloat mc) (mc_bytesSize mc) _ _ _ HR HRd m Hn HF) as (out' & E & _ & G).
  rewrite Ho in E. injection E as <-.
  destruct (G Hl) as (m' & P & F). rewrite <- HD in P. set (fs' := x_files (run mc (AFormat p true f) fs)) in *.
  unfold run, main, runLint. cbn [source parseArgs]. rewrite H1, Hf, P, Hp. cbn [obind lintPriv].
  rewrite (lint_all _ _ _ F). destruct (oiter (fun r => Lint r trusted) (mf_resources m)); cbn; auto.
Qed.
