(** * MainFacts.v: lemmas about the commands. *)
From Coq Require Import Sorting.Permutation.
From Verif Require Import Model.Go Model.Types Model.RawParse Model.Lint Model.Signer Model.Cond Model.Engine Model.Image Model.Dind
  Model.Compiler Model.Transform Model.Convert Model.Pretty Model.Main Model.Decode
  Spec.DecodeSpec Spec.YamlSpec Spec.ParseSpec Spec.PrettySpec Spec.SignSpec Spec.CompileSpec Spec.TransformSpec Spec.MainSpec
  Proofs.GoFacts Proofs.MapFacts Proofs.ParseFacts Proofs.SignFacts Proofs.TransformFacts Proofs.CompileFacts Proofs.PrettyMore Proofs.PrettyClaims.

(** ** Files *)
Theorem convert_untouched mc save addr f fs :
  Untouched fs (run mc (AConvert save addr f) fs) /\ x_stdout (run mc (AConvert save addr f) fs) = "".
Proof.
  unfold Untouched, run, main, runConvert. cbn [source parseArgs]. destruct (fs f) as [content|]; [|split; reflexivity].
  cbn [convertFile convertAddr formatSave].
  destruct (ConvertFile _ _ _ _ _); cbn; split; reflexivity.
Qed.
Theorem convert_prints mc save addr f fs content : fs f = Some content ->
  match converted mc f addr content with
  | Ok b => x_stderr (run mc (AConvert save addr f) fs) = b /\ x_status (run mc (AConvert save addr f) fs) = 0%Z
  | Err e => x_stderr (run mc (AConvert save addr f) fs) = mc_fatal mc e /\ x_status (run mc (AConvert save addr f) fs) = 1%Z
  | Panic => x_status (run mc (AConvert save addr f) fs) = 2%Z
  end.
Proof.
  intro H. unfold converted, run, main, runConvert. cbn [source parseArgs]. rewrite H. cbn [convertFile convertAddr formatSave].
  destruct (ConvertFile _ _ _ _ _); cbn; try split; reflexivity.
Qed.

Lemma write_other fs n d g : g <> n -> writeTo fs n d g = fs g.
Proof. intro H. unfold writeTo. destruct (String.eqb_spec g n); [contradiction|reflexivity]. Qed.
Lemma write_same fs n d : writeTo fs n d n = Some d.
Proof. unfold writeTo. now rewrite String.eqb_refl. Qed.
Theorem only_saves mc a fs g : x_files (run mc a fs) g <> fs g ->
  x_status (run mc a fs) = 0%Z /\ x_stdout (run mc a fs) = "" /\ x_stderr (run mc a fs) = "" /\
  ((exists p, a = AFormat p true g) \/ (exists k, a = ASign true k g)).
Proof.
  unfold run, main. destruct (fs (source a)) as [content|] eqn:E; [|now intro H; elim H].
  destruct a as [p s f|s u f|p f|s k f|k f|n c fl f]; cbn [source parseArgs].
  - unfold runFormat. destruct (parse _ _) as [m| |]; cbn [obind]; try (intro H; now elim H).
    destruct (print _ _ _ _ m); cbn [obind]; try (intro H; now elim H).
    cbn [formatSave formatFile]. destruct s; [|intro H; now elim H].
    unfold writeFile. destruct (mc_writable mc f); [|intro H; now elim H]. cbn [x_files x_status x_stdout x_stderr d_files d_stdout d_stderr].
    intro H. destruct (string_dec g f) as [->|n]; [|now rewrite write_other in H by assumption].
    repeat split. left. now exists p.
  - intro H. exfalso. revert H. unfold runConvert. destruct (ConvertFile _ _ _ _ _); cbn; now intros [].
  - unfold runLint. intro H. exfalso. revert H. destruct (parse _ _) as [m| |]; cbn [obind]; try now intros [].
    destruct (oiter _ _); cbn; now intros [].
  - unfold runSign. cbn [signSave signKey signFile]. destruct s.
    + destruct (SignUpdate _ _ _ _) as [out| |]; cbn [obind]; try (intro H; now elim H).
      unfold writeFile. destruct (mc_writable mc f); [|intro H; now elim H]. cbn [x_files x_status x_stdout x_stderr d_files d_stdout d_stderr].
      intro H. destruct (string_dec g f) as [->|n]; [|now rewrite write_other in H by assumption].
      repeat split. right. now exists k.
    + intro H. exfalso. revert H. destruct (Sign _ _ _ _); cbn; now intros [].
  - intro H. exfalso. revert H. unfold runVerify. destruct (Verify _ _ _ _) as [[]| |]; cbn; now intros [].
  - intro H. exfalso. revert H. unfold runCompile. destruct (parse _ _) as [m| |]; cbn [obind]; try now intros [].
    destruct (findPipeline _ _); [|now intros []]. destruct (registryAuths _); cbn [obind]; try now intros [].
    destruct (Compile _ _ _ _ _ _ _ _ _ _) as [[sp ?]| |]; cbn; now intros [].
Qed.

(** ** What is printed *)
Theorem streams mc a fs : let x := run mc a fs in
  (x_status x = 0%Z -> x_stderr x = "" \/ (exists p f, a = AFormat p false f) \/ exists s u f, a = AConvert s u f) /\
  (x_status x <> 0%Z -> Untouched fs x /\ x_stdout x = "" /\
     ((x_status x = 1%Z /\ exists e, x_stderr x = mc_fatal mc e) \/ (x_status x = 2%Z /\ x_stderr x = mc_trace mc))) /\
  (fs (source a) = None -> x_status x = 1%Z).
Proof.
  cbv zeta. unfold run, main. destruct (fs (source a)) as [content|] eqn:E.
  2:{ split; [discriminate|]. split; [|reflexivity]. intros _. split; [intro; reflexivity|]. split; [reflexivity|]. left. split; [reflexivity|]. eexists. reflexivity. }
  match goal with |- context [match ?r with Ok d => {| x_files := d_files d; x_stdout := _; x_stderr := _; x_status := _ |} | Err _ => _ | Panic => _ end] => set (r0 := r) end.
  assert (G : forall d, r0 = Ok d -> d_stderr d = "" \/ (exists p f, a = AFormat p false f) \/ exists s u f, a = AConvert s u f).
  { unfold r0. clear r0. destruct a as [p s f|s u f|p f|s k f|k f|n c fl f]; cbn [source parseArgs]; intros d H.
    - destruct s; [left|right; left; exists p, f; reflexivity]. revert H. unfold runFormat. destruct (parse _ _) as [m| |]; cbn [obind]; try discriminate.
      destruct (print _ _ _ _ m); cbn [obind]; try discriminate. cbn [formatSave formatFile]. unfold writeFile. destruct (mc_writable mc f); [|discriminate].
      intro H. injection H as <-. reflexivity.
    - right; right. exists s, u, f. reflexivity.
    - left. revert H. unfold runLint. destruct (parse _ _) as [m| |]; cbn [obind]; try discriminate. destruct (oiter _ _); cbn [obind]; try discriminate. intro H. injection H as <-. reflexivity.
    - left. revert H. unfold runSign. cbn [signSave signKey signFile]. destruct s.
      + destruct (SignUpdate _ _ _ _) as [out| |]; cbn [obind]; try discriminate. unfold writeFile. destruct (mc_writable mc f); [|discriminate]. intro H. injection H as <-. reflexivity.
      + destruct (Sign _ _ _ _); cbn [obind]; try discriminate. intro H. injection H as <-. reflexivity.
    - left. revert H. unfold runVerify. destruct (Verify _ _ _ _) as [[]| |]; cbn; try discriminate. intro H. injection H as <-. reflexivity.
    - left. revert H. unfold runCompile. destruct (parse _ _) as [m| |]; cbn [obind]; try discriminate. destruct (findPipeline _ _); [|discriminate].
      destruct (registryAuths _); cbn [obind]; try discriminate. destruct (Compile _ _ _ _ _ _ _ _ _ _) as [[sp ?]| |]; cbn; try discriminate. intro H. injection H as <-. reflexivity. }
  destruct r0 as [d|e|]; cbn [x_files x_status x_stdout x_stderr].
  - split; [intros _; exact (G d eq_refl)|]. split; [now intros []|discriminate].
  - split; [discriminate|]. split; [|discriminate]. intros _. split; [intro; reflexivity|]. split; [reflexivity|]. left. split; [reflexivity|]. exists e. reflexivity.
  - split; [discriminate|]. split; [|discriminate]. intros _. split; [intro; reflexivity|]. split; [reflexivity|]. right. split; reflexivity.
Qed.

(** ** fmt *)
Theorem format_result mc p save f fs content : fs f = Some content ->
  let x := run mc (AFormat p save f) fs in
  match parse (mc_decoder mc) content with
  | Ok m =>
      match formatted mc m with
      | Ok out =>
          if save
          then if mc_writable mc f then OnlyWritten fs f out x /\ x_stdout x = "" /\ x_stderr x = "" /\ x_status x = 0%Z
               else Untouched fs x /\ x_status x = 1%Z
          else Untouched fs x /\ x_stdout x = "" /\ x_stderr x = out /\ x_status x = 0%Z
      | _ => Untouched fs x /\ x_stdout x = "" /\ x_status x = 2%Z
      end
  | _ => Untouched fs x /\ x_stdout x = "" /\ x_status x = 1%Z
  end.
Proof.
  intro H. cbv zeta. unfold formatted, run, main, runFormat, Untouched, OnlyWritten. cbn [source parseArgs]. rewrite H.
  destruct (parse (mc_decoder mc) content) as [m|e|] eqn:E; cbn [obind]; [| repeat split; reflexivity |now apply parse_panic in E].
  destruct (print _ _ _ _ m) as [out|e|] eqn:E2; cbn [obind formatSave formatFile].
  - destruct save; [|repeat split; reflexivity]. unfold writeFile. destruct (mc_writable mc f); [|repeat split; reflexivity].
    cbn [x_files x_status x_stdout x_stderr d_files d_stdout d_stderr]. rewrite write_same. repeat split; auto. intros g Hg. now apply write_other.
  - now apply format_no_error in E2.
  - repeat split; reflexivity.
Qed.
Theorem format_stable mc resolve ramInBytes reader p f fs content m out :
  mc_decoder mc = treeDecoder ramInBytes reader -> Resolver resolve -> Reads resolve reader -> mc_writable mc f = true ->
  fs f = Some content -> parse (mc_decoder mc) content = Ok m -> mf_resources m <> [] ->
  Forall (Formattable resolve ramInBytes (w_formatFloat (mc_world mc)) (mc_bytesSize mc)) (mf_resources m) ->
  formatted mc m = Ok out -> (forall lines, ParseSpec.Lines out lines -> Forall ParseSpec.Short lines) ->
  let once := run mc (AFormat p true f) fs in
  let twice := run mc (AFormat p true f) (x_files once) in
  x_status once = 0%Z /\ x_status twice = 0%Z /\ forall g, x_files twice g = x_files once g.
Proof.
  intros HD HR HRd Hw Hf Hp Hn HF Ho Hl. cbv zeta.
  pose proof (format_result mc p true f fs content Hf) as H1. cbv zeta in H1. rewrite Hp, Ho, Hw in H1.
  destruct H1 as ((H1 & H1') & _ & _ & H1s).
  destruct (format_twice _ _ _ _ _ _ _ HR HRd m Hn HF out Ho Hl) as (m' & Hp' & Ho').
  rewrite <- HD in Hp'.
  pose proof (format_result mc p true f _ out H1) as H2. cbv zeta in H2. rewrite Hp' in H2. unfold formatted at 1 in H2.
  rewrite Ho', Hw in H2. destruct H2 as ((H2 & H2') & _ & _ & H2s).
  split; [exact H1s|]. split; [exact H2s|]. intro g. destruct (string_dec g f) as [->|Hg]; [congruence|auto].
Qed.

(** ** sign and verify *)
Theorem verify_result mc key f fs content : fs f = Some content ->
  let x := run mc (AVerify key f) fs in
  Untouched fs x /\
  (x_status x = 0%Z <-> Verify (mc_decoder mc) (mc_mac mc) content key = Ok true) /\
  (x_status x = 0%Z -> x_stdout x = ("success: yaml signature verified" +++ nl)%string) /\
  (x_status x <> 0%Z -> x_status x = 1%Z /\ x_stdout x = "").
Proof.
  intro H. cbv zeta. unfold run, main, runVerify, Untouched. cbn [source parseArgs]. rewrite H. cbn [verifyKey].
  destruct (Verify (mc_decoder mc) (mc_mac mc) content key) as [[]|e|] eqn:E; cbn; repeat split; try congruence; try discriminate.
  all: now apply Verify_panic in E.
Qed.
Theorem sign_result mc key f fs content : fs f = Some content ->
  let x := run mc (ASign false key f) fs in
  Untouched fs x /\
  match Sign (mc_decoder mc) (mc_mac mc) content key with
  | Ok h => x_stdout x = (h +++ nl)%string /\ x_status x = 0%Z
  | Err e => x_stderr x = mc_fatal mc e /\ x_stdout x = "" /\ x_status x = 1%Z
  | Panic => False
  end.
Proof.
  intro H. cbv zeta. unfold run, main, runSign, Untouched. cbn [source parseArgs]. rewrite H. cbn [signSave signKey].
  destruct (Sign (mc_decoder mc) (mc_mac mc) content key) as [h|e|] eqn:E; cbn; [repeat split..|].
  exfalso. revert E. unfold Sign. destruct (parseRawString (mc_decoder mc) content) eqn:E; cbn; [|discriminate|].
  - unfold sign. destruct (N.ltb _ _); discriminate.
  - now apply parseRawString_panic in E.
Qed.
Theorem sign_save mc key f fs content : fs f = Some content ->
  let x := run mc (ASign true key f) fs in
  match SignUpdate (mc_decoder mc) (mc_mac mc) content key with
  | Ok out => if mc_writable mc f then OnlyWritten fs f out x /\ x_stdout x = "" /\ x_status x = 0%Z
              else Untouched fs x /\ x_status x = 1%Z
  | _ => Untouched fs x /\ x_stdout x = "" /\ x_status x = 1%Z
  end.
Proof.
  intro H. cbv zeta. unfold run, main, runSign, Untouched, OnlyWritten. cbn [source parseArgs]. rewrite H. cbn [signSave signKey signFile].
  destruct (SignUpdate (mc_decoder mc) (mc_mac mc) content key) as [out|e|] eqn:E; cbn [obind]; [|repeat split; reflexivity|].
  - unfold writeFile. destruct (mc_writable mc f); [|repeat split; reflexivity].
    cbn [x_files x_status x_stdout x_stderr d_files d_stdout d_stderr]. rewrite write_same. repeat split; auto. intros g Hg. now apply write_other.
  - exfalso. revert E. unfold SignUpdate. destruct (parseRawString (mc_decoder mc) content) eqn:E; cbn; [|discriminate|].
    + unfold sign. destruct (N.ltb _ _); discriminate.
    + now apply parseRawString_panic in E.
Qed.
Theorem sign_verify mc key f fs content : ReadsSignature (mc_decoder mc) -> Mac32 (mc_mac mc) ->
  fs f = Some content -> NoCRCR content ->
  let signed := run mc (ASign true key f) fs in
  x_status signed = 0%Z -> x_status (run mc (AVerify key f) (x_files signed)) = 0%Z.
Proof.
  intros HD HM Hf Hc. cbv zeta. intro Hs.
  pose proof (sign_save mc key f fs content Hf) as H. cbv zeta in H.
  destruct (SignUpdate (mc_decoder mc) (mc_mac mc) content key) as [out|e|] eqn:E;
    [|destruct H as (_ & _ & H); congruence..].
  destruct (mc_writable mc f); [|destruct H as (_ & H); congruence].
  destruct H as ((H & _) & _).
  apply (verify_result mc key f _ out H). now apply (sign_then_verify _ _ content).
Qed.

(** ** lint *)
Lemma oiter_ok {A} (f : A -> outcome unit) l : oiter f l = Ok tt <-> Forall (fun a => f a = Ok tt) l.
Proof.
  induction l as [|a l IH]; cbn; [split; constructor|].
  destruct (f a) as [[]| |] eqn:E; cbn; rewrite ?Forall_cons_iff, ?E, ?IH; intuition congruence.
Qed.
Theorem lint_result mc p f fs content : fs f = Some content ->
  let x := run mc (ALint p f) fs in
  Untouched fs x /\ x_stdout x = "" /\
  (x_status x = 0%Z <-> exists m, parse (mc_decoder mc) content = Ok m /\ Forall (fun r => Lint r p = Ok tt) (mf_resources m)).
Proof.
  intro H. cbv zeta. unfold run, main, runLint, Untouched. cbn [source parseArgs]. rewrite H. cbn [lintPriv].
  destruct (parse (mc_decoder mc) content) as [m|e|] eqn:E; cbn [obind].
  - destruct (oiter _ _) as [[]|e|] eqn:E2; cbn; repeat split; intros; try congruence.
    + exists m. split; [reflexivity|]. now apply oiter_ok.
    + destruct H0 as (m' & Em & H0). injection Em as <-. apply (oiter_ok (fun r => Lint r p)) in H0. congruence.
    + destruct H0 as (m' & Em & H0). injection Em as <-. apply (oiter_ok (fun r => Lint r p)) in H0. congruence.
  - cbn. repeat split; intros; try congruence. destruct H0 as (m' & Em & _). discriminate.
  - now apply parse_panic in E.
Qed.
