(** * LegacyMain.v: converting a 0.8 file and compiling the result. *)
From Coq Require Import Lia Sorting.Permutation.
From Verif Require Import Model.Go Model.Types Model.RawParse Model.Decode Model.Engine Model.Path Model.Pretty Model.Convert Model.Legacy Model.Compiler Model.Main
  Spec.ParseSpec Spec.YamlSpec Spec.PrettySpec Spec.LegacySpec Spec.ConvertedSpec Spec.ConverterSpec Spec.CompileSpec Spec.MainSpec Spec.ReorderSpec Spec.LegacyRunSpec
  Proofs.GoFacts Proofs.CompilePure Proofs.CompileFacts Proofs.CompileSteps Proofs.CompileWhole Proofs.CompileGraph Proofs.MainCompile Proofs.Reorder Proofs.ReorderMore
  Proofs.ConvertLint Proofs.LegacyFacts Proofs.LegacyRun.

(** ** Specs that differ in the order of maps *)
Lemma runs_same w c g p hostMount a b src s t :
  SameSpec a b -> SameStep s t -> RunsAs w c g p hostMount a src s -> RunsAs w c g p hostMount b src t.
Proof.
  intros S T. assert (N : stepName t = stepName s) by (unfold stepName; rewrite (step_meta _ _ T); reflexivity).
  assert (H : forall v m, FromHost g a m v -> FromHost g b m v).
  { intros v m (E & d & Ed & X). split; [exact E|]. exists d. split; [rewrite <- (spec_docker _ _ S); exact Ed|exact X]. }
  assert (R : forall service l, Runs w c g p hostMount a service l s -> Runs w c g p hostMount b service l t).
  { intros service l [R1 R2 R3 R5 R6 R7 R8 R9 R10 R11 R12 R13 R14 R15].
    pose proof (step_docker _ _ T) as D. pose proof (step_files _ _ T) as F.
    constructor.
    - rewrite <- (step_depends _ _ T). exact R1.
    - rewrite <- (step_detach _ _ T). exact R2.
    - rewrite <- D. exact R3.
    - rewrite <- D, <- F. exact R5.
    - rewrite <- D, <- F, N, <- (spec_files _ _ S). exact R6.
    - intros HC k v. rewrite <- (step_envs _ _ T). apply R7. exact HC.
    - intros HN name k. rewrite <- (R8 HN name k). split; apply Permutation_in; [apply Permutation_sym|]; exact (step_secrets _ _ T).
    - rewrite <- D. exact R9.
    - rewrite <- D. exact R10.
    - rewrite <- D, <- (step_resources _ _ T), <- (step_devices _ _ T). exact R11.
    - rewrite <- (step_ignore_err _ _ T). exact R12.
    - destruct (createWorkspace p) as [[base dir] full]. destruct R13 as (own & E & G). exists own. rewrite <- (step_volumes _ _ T). split; [exact E|].
      eapply Forall2_weaken; [|exact G]. intros v m (v0 & E0 & X). exists v0. auto.
    - rewrite <- (step_working_dir _ _ T). exact R14.
    - rewrite <- D, <- (step_policy _ _ T), N. exact R15. }
  destruct src as [|l|l]; cbn [RunsAs].
  - rewrite N, <- (step_detach _ _ T), <- (step_depends _ _ T), <- (step_docker _ _ T), <- (step_policy _ _ T). exact (fun x => x).
  - intros [E X]. split; [congruence|]. apply R. exact X.
  - apply R.
Qed.
Lemma all_runs_same w c g p hostMount a b srcs : SameSpec a b ->
  Forall2 (RunsAs w c g p hostMount a) srcs (sp_steps a) -> Forall2 (RunsAs w c g p hostMount b) srcs (sp_steps b).
Proof.
  intros S F. pose proof (spec_steps _ _ S) as G. revert F G. generalize (sp_steps a) (sp_steps b). intros l l' F. revert l'.
  induction F as [|src s srcs ss H F IH]; intros l' G; inversion G as [|? t ? ts T G']; subst; constructor; [|apply IH; exact G'].
  eapply runs_same; eassumption.
Qed.
Lemma names_same clone getenv g a b : SameSpec a b -> RightRunNames clone getenv g a -> RightRunNames clone getenv g b.
Proof.
  intros S (final & R & E). exists final. split; [exact R|]. rewrite <- E. pose proof (spec_steps _ _ S) as G. clear - G.
  induction G as [|s t ss ts H G IH]; [reflexivity|]. cbn [map]. rewrite IH. f_equal. unfold stepName. rewrite (step_meta _ _ H). reflexivity.
Qed.

(** ** Maps without collisions *)
Lemma converted_clear clone getenv g q : AllClear g -> Forall2 Becomes (runs clone getenv g) (origins q) -> ClearMaps q.
Proof.
  intros HC F. unfold AllClear in HC. rewrite !Forall_app in HC. destruct HC as (H1 & H2 & H3).
  assert (HT : Forall ClearLegacy (inTurn getenv g)).
  { unfold inTurn. apply Forall_app. split; [|exact H2]. destruct (lg_clone g); [|exact H1]. destruct (string_dec _ _); [|constructor].
    constructor; [|constructor]. repeat split; constructor. }
  assert (G : Forall (fun o => match o with FromClone => True | FromService ct | FromStep ct => MapsOk ct /\ NoCollision ct end) (origins q)).
  { assert (K : Forall (fun src => match src with OfClone => True | OfService l | OfStep l => ClearLegacy l end) (runs clone getenv g)).
    { unfold runs. rewrite !Forall_app. split; [|split].
      - apply Forall_forall. intros x I. apply in_map_iff in I as (? & <- & _). exact I.
      - rewrite Forall_map. exact H3.
      - rewrite Forall_map. exact HT. }
    clear - F K. induction F as [|src o srcs os B F IH]; inversion K as [|? ? K1 K2]; subst; constructor; [|apply IH; exact K2].
    destruct src as [|l|l], o as [|ct|ct]; try contradiction; [exact I| |].
    - exact (clear_maps l ct (proj1 B) K1).
    - exact (clear_maps l ct B K1). }
  unfold ClearMaps. unfold origins in G. rewrite !Forall_app, !Forall_map in G. rewrite Forall_app. exact (proj2 G).
Qed.

Theorem convert_then_compile mc resolve ramInBytes reader getenv parseURL isPrintHigh marshal unmarshal ordM ordA formatFloat formatKey read expand :
  mc_decoder mc = treeDecoder ramInBytes reader -> Resolver resolve -> Reads resolve reader ->
  mc_legacy mc = Convert getenv parseURL isPrintHigh marshal unmarshal ordM ordA formatFloat formatKey read expand (formatted mc) ->
  OrderOk (mc_world mc) -> OrderedJSON (w_toJSON (mc_world mc)) -> Orders mc ->
  forall f addr fs content n g, fs f = Some content ->
  f <> "bitbucket-pipelines.yml" -> f <> ".gitlab-ci.yml" -> HasPipelineLine content ->
  (forall a b, content <> (a +++ "<<:" +++ b)%string) -> read content = Some n ->
  decLConfig formatFloat formatKey n = Some g ->
  CompleteConfig g -> AllClear g -> lg_matrix g = VNull ->
  (forall m, toManifest getenv parseURL isPrintHigh marshal unmarshal ordM ordA n g addr = Ok m ->
     Forall (Formattable resolve ramInBytes (w_formatFloat (mc_world mc)) (mc_bytesSize mc)) (mf_resources m)) ->
  forall save, let x := run mc (AConvert save addr f) fs in
  (forall lines, ParseSpec.Lines (x_stderr x) lines -> Forall ParseSpec.Short lines) ->
  x_status x = 0%Z /\
  forall f' fs' name clone fl auths, fs' f' = Some (x_stderr x) -> name = "" \/ name = "default" ->
    NoDup (mkeys (cf_env fl)) -> NoDup (mkeys (cf_label fl)) -> Forall2 RegistryOf (cf_registry fl) auths ->
    let y := run mc (ACompile name clone fl f') fs' in
    x_status y = 0%Z /\
    exists p q c base spec, toPipeline getenv parseURL g addr = Ok p /\ (if clone then q = p else WithoutClone p q) /\
      CommandCompiler mc fl c /\ RightRunNames clone getenv g base /\
      Forall2 (RunsAs (mc_world mc) c g q false base) (runs clone getenv g) (sp_steps base) /\
      Finished mc fl auths base spec /\ x_stdout y = mc_specJSON mc spec.
Proof.
  intros HD HR HRd HL O HJ HOr f addr fs content n g Hf N1 N2 HP HM Hr HI HC HCl HX HF save x Hl.
  destruct (convert_then_parse mc resolve ramInBytes reader _ _ _ _ _ _ _ _ _ _ _ HD HR HRd HL f addr fs content n g Hf N1 N2 HP HM Hr HI HC HX HF save Hl)
    as (S & p & m' & Ep & Em & P & F).
  split; [exact S|]. intros f' fs' name clone fl auths Hf' Hn Ne Nl Ha y.
  inversion F as [|r r' l l' B F' E1 E2]; subst. inversion B as [p0 E1 E3| | |]; subst.
  destruct (toPipeline_ok getenv parseURL g addr HC) as (p1 & Ep1 & HPp). rewrite Ep in Ep1. injection Ep1 as <-.
  assert (Sel : Selected name (mf_resources m') (sortedPipeline p)).
  { exists [], l'. split; [symmetry; exact E2|]. split; [|intros q []]. cbn [sortedPipeline pi_name].
    destruct HPp as (_ & En & _). rewrite En. destruct Hn as [-> | ->]; auto. }
  pose proof (compile_result mc name clone fl f' fs' _ m' HOr Ne Nl Hf' P) as CR. cbv zeta in CR. fold y in CR.
  destruct CR as (_ & R0 & _ & _ & RX).
  set (q := if clone then p else disableClone p). set (q' := if clone then sortedPipeline p else disableClone (sortedPipeline p)).
  assert (Hq : if clone then q = p else WithoutClone p q) by (unfold q; destruct clone; [reflexivity|apply disable_spec]).
  assert (SP : SamePipeline q q') by (unfold q, q'; destruct clone; [apply sortedPipeline_same|apply disableClone_same, sortedPipeline_same]).
  destruct (become getenv g p q clone HPp Hq) as (steps & services & vols & CQ & FB & NBD & _).
  assert (NBs : builds (origins q) = []).
  { unfold builds, origins. destruct CQ as (C1 & C2 & _). rewrite C1, C2, !somes_map. apply Forall_app in NBD as [NBD _].
    rewrite flat_map_app. replace (flat_map _ (if cl_disable (pi_clone q) then [] else [FromClone])) with (@nil string) by (destruct (cl_disable (pi_clone q)); reflexivity).
    rewrite flat_map_app. cbn [app]. replace (flat_map _ (map FromService services)) with (@nil string).
    - cbn [app]. clear - NBD. induction NBD as [|ct l [E _] _ IH]; [reflexivity|]. cbn [map flat_map]. rewrite E. exact IH.
    - clear. induction services; [reflexivity|assumption]. }
  assert (DB : DistinctBuilds (mc_world mc) q) by (unfold DistinctBuilds; rewrite NBs; constructor).
  assert (NC : forall base, NoAliasClash (mc_world mc) q base) by (intros base k k' s I; rewrite NBs in I; destruct I).
  assert (Key : forall c, CommandCompiler mc fl c -> exists base base' k, compileIn (mc_world mc) c q 0 = Ok (base, k) /\
    compileIn (mc_world mc) c q' 0 = Ok (base', k) /\ SameSpec base base' /\ RightRunNames clone getenv g base /\
    Forall2 (RunsAs (mc_world mc) c g q false base) (runs clone getenv g) (sp_steps base)).
  { intros c (HS & _ & Hpr & Hsk).
    destruct (legacy_runs (mc_world mc) c None false O HS getenv parseURL g addr 0 HC) as (p2 & Ep2 & L). rewrite Ep in Ep2. injection Ep2 as <-.
    destruct (L clone q Hq) as (base & (k & K) & RN & RR). exists base.
    assert (SW : SameWorld (mc_world mc) (mc_world mc)) by (repeat split).
    assert (OB : OrderBlind c).
    { intros h [E|E] u v H.
      - destruct Hpr as (h' & E' & X). rewrite E in E'. injection E' as <-. rewrite !X. apply dind_blind. exact H.
      - destruct Hsk as (h' & E' & X). rewrite E in E'. injection E' as <-. rewrite !X. apply skip_blind. exact H. }
    destruct (reordered_compiled _ _ c None false q q' 0 k base O O SW HJ OB HS SP (converted_clear _ _ _ _ HCl FB) DB (NC base) K) as (base' & K' & SS).
    exists base', k. auto. }
  assert (A0 : x_status y = 0%Z).
  { apply R0. exists (sortedPipeline p), auths. split; [split; [exact Sel|exact Ha]|].
    destruct (command_standard mc fl auths) as [HS HC0]. destruct (Key _ HC0) as (base & base' & k & _ & K' & _).
    destruct (proj2 (proj1 (compile_total (mc_world mc) _ None false q' 0 HS)) (ex_intro _ base' (ex_intro _ k K'))) as (st & se & vo & C).
    exists st, se, vo. unfold q' in C. destruct clone; [exact C|]. apply (complete_clone _ _ _ _ _ (disable_spec (sortedPipeline p))). exact C. }
  split; [exact A0|].
  destruct (RX (sortedPipeline p) auths (conj Sel Ha) A0) as (q2 & c & base2 & spec & Hq2 & HCc & (k2 & K2) & Fi & Out).
  assert (Eq : q2 = q').
  { unfold q'. destruct clone; [exact Hq2|]. pose proof (disable_spec (sortedPipeline p)) as D. revert Hq2 D. generalize (disableClone (sortedPipeline p)).
    intros r Hr2 Hr3. unfold WithoutClone in *. destruct q2 as [? ? ? ? [? ? ?] ? ? ? ? ? ? ? ? ? ?], r as [? ? ? ? [? ? ?] ? ? ? ? ? ? ? ? ? ?]; cbn in *.
    destruct Hr2 as (? & ? & ? & ? & ? & ? & ? & ? & ? & ? & ? & ? & ? & ? & ? & ? & ?), Hr3 as (? & ? & ? & ? & ? & ? & ? & ? & ? & ? & ? & ? & ? & ? & ? & ? & ?). subst. reflexivity. }
  destruct (Key c HCc) as (base & base' & k & K & K' & SS & RN & RR). rewrite Eq, K' in K2. injection K2 as -> ->.
  exists p, q, c, base2, spec. split; [exact Ep|]. split; [exact Hq|]. split; [exact HCc|]. split; [exact (names_same _ _ _ _ _ SS RN)|].
  split; [exact (all_runs_same _ _ _ _ _ _ _ _ SS RR)|]. split; [exact Fi|exact Out].
Qed.
