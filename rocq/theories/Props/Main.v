(** * Main.v: theorems C69 and C84 to C87. *)
From Verif Require Import Model.Go Model.Types Model.RawParse Model.Decode Model.Lint Model.Signer Model.Pretty Model.Main
  Spec.LintSpec Spec.ParseSpec Spec.SignSpec Spec.YamlSpec Spec.PrettySpec Spec.CompileSpec Spec.TransformSpec Spec.MainSpec
  Proofs.MainFacts Proofs.MainCompile Proofs.SignMore Proofs.PrettyMore Proofs.PrettyClaims Conform.LineDecoder Conform.Machines.

(** ** C69 *)
Theorem C69_convert_never_saves : forall mc save addr f fs,
  Untouched fs (run mc (AConvert save addr f) fs) /\ x_stdout (run mc (AConvert save addr f) fs) = "".
Proof. exact convert_untouched. Qed.
Print Assumptions C69_convert_never_saves.
Theorem C69_convert_prints : forall mc save addr f fs content, fs f = Some content ->
  match converted mc f addr content with
  | Ok b => x_stderr (run mc (AConvert save addr f) fs) = b /\ x_status (run mc (AConvert save addr f) fs) = 0%Z
  | Err e => x_stderr (run mc (AConvert save addr f) fs) = mc_fatal mc e /\ x_status (run mc (AConvert save addr f) fs) = 1%Z
  | Panic => x_status (run mc (AConvert save addr f) fs) = 2%Z
  end.
Proof. exact convert_prints. Qed.
Print Assumptions C69_convert_prints.
Theorem C69_save_refuted : exists mc f fs content b, fs f = Some content /\ converted mc f "" content = Ok b /\ b <> content /\
  x_status (run mc (AConvert true "" f) fs) = 0%Z /\ x_files (run mc (AConvert true "" f) fs) f = Some content.
Proof.
  exists sampleMachine, ".drone.yml", (oneFile ".drone.yml" legacyFile), legacyFile. eexists. split; [reflexivity|]. split; [vm_compute; reflexivity|].
  split; [discriminate|]. split; vm_compute; reflexivity.
Qed.
Print Assumptions C69_save_refuted.

(** ** C84 *)
Theorem C84_only_saves : forall mc a fs g, x_files (run mc a fs) g <> fs g ->
  x_status (run mc a fs) = 0%Z /\ x_stdout (run mc a fs) = "" /\ x_stderr (run mc a fs) = "" /\
  ((exists p, a = AFormat p true g) \/ (exists k, a = ASign true k g)).
Proof. exact only_saves. Qed.
Print Assumptions C84_only_saves.
Theorem C84_format : forall mc p save f fs content, fs f = Some content ->
  let x := run mc (AFormat p save f) fs in
  match parse (mc_decoder mc) content with
  | Ok m =>
      match formatted mc m with
      | Ok out =>
          if save
          then if mc_writable mc f then OnlyWritten fs f out x /\ x_stdout x = "" /\ x_stderr x = "" /\ x_status x = 0%Z
               else Untouched fs x /\ x_status x = 1%Z
          else Untouched fs x /\ x_stdout x = "" /\ x_stderr x = out /\ x_status x = 0%Z
      | _ => Untouched fs x /\ x_stdout x = "" /\ x_status x = 2%Z
      end
  | _ => Untouched fs x /\ x_stdout x = "" /\ x_status x = 1%Z
  end.
Proof. exact format_result. Qed.
Print Assumptions C84_format.
Theorem C84_format_twice : forall mc resolve ramInBytes reader p f fs content m out,
  mc_decoder mc = treeDecoder ramInBytes reader -> Resolver resolve -> Reads resolve reader -> mc_writable mc f = true ->
  fs f = Some content -> parse (mc_decoder mc) content = Ok m -> mf_resources m <> [] ->
  Forall (Formattable resolve ramInBytes (w_formatFloat (mc_world mc)) (mc_bytesSize mc)) (mf_resources m) ->
  formatted mc m = Ok out -> (forall lines, ParseSpec.Lines out lines -> Forall ParseSpec.Short lines) ->
  let once := run mc (AFormat p true f) fs in
  let twice := run mc (AFormat p true f) (x_files once) in
  x_status once = 0%Z /\ x_status twice = 0%Z /\ forall g, x_files twice g = x_files once g.
Proof. exact format_stable. Qed.
Print Assumptions C84_format_twice.
Example C84_case :
  let x := run sampleMachine (AFormat false true "a.yml") (oneFile "a.yml" sampleText) in
  x_status x = 0%Z /\ x_files x "a.yml" <> Some sampleText /\ parse sampleDecoder sampleText = Ok sampleManifest /\
  x_status (run sampleMachine (AFormat false true "a.yml") (x_files x)) = 0%Z /\
  x_status (run sampleMachine (AFormat false true "a.yml") (oneFile "a.yml" nullFile)) = 2%Z /\
  x_files (run sampleMachine (AFormat false true "a.yml") (oneFile "a.yml" nullFile)) "a.yml" = Some nullFile.
Proof.
  cbv zeta. split; [vm_compute; reflexivity|]. split; [vm_compute; discriminate|]. split; [vm_compute; reflexivity|].
  split; [vm_compute; reflexivity|]. split; vm_compute; reflexivity.
Qed.

(** ** C85 *)
Theorem C85_verify : forall mc key f fs content, fs f = Some content ->
  let x := run mc (AVerify key f) fs in
  Untouched fs x /\
  (x_status x = 0%Z <-> Verify (mc_decoder mc) (mc_mac mc) content key = Ok true) /\
  (x_status x = 0%Z -> x_stdout x = ("success: yaml signature verified" +++ nl)%string) /\
  (x_status x <> 0%Z -> x_status x = 1%Z /\ x_stdout x = "").
Proof. exact verify_result. Qed.
Print Assumptions C85_verify.
Theorem C85_sign : forall mc key f fs content, fs f = Some content ->
  let x := run mc (ASign false key f) fs in
  Untouched fs x /\
  match Sign (mc_decoder mc) (mc_mac mc) content key with
  | Ok h => x_stdout x = (h +++ nl)%string /\ x_status x = 0%Z
  | Err e => x_stderr x = mc_fatal mc e /\ x_stdout x = "" /\ x_status x = 1%Z
  | Panic => False
  end.
Proof. exact sign_result. Qed.
Print Assumptions C85_sign.
Theorem C85_sign_save : forall mc key f fs content, fs f = Some content ->
  let x := run mc (ASign true key f) fs in
  match SignUpdate (mc_decoder mc) (mc_mac mc) content key with
  | Ok out => if mc_writable mc f then OnlyWritten fs f out x /\ x_stdout x = "" /\ x_status x = 0%Z
              else Untouched fs x /\ x_status x = 1%Z
  | _ => Untouched fs x /\ x_stdout x = "" /\ x_status x = 1%Z
  end.
Proof. exact sign_save. Qed.
Print Assumptions C85_sign_save.
Theorem C85_sign_then_verify : forall mc key f fs content, ReadsSignature (mc_decoder mc) -> Mac32 (mc_mac mc) ->
  fs f = Some content -> NoCRCR content ->
  let signed := run mc (ASign true key f) fs in
  x_status signed = 0%Z -> x_status (run mc (AVerify key f) (x_files signed)) = 0%Z.
Proof. exact sign_verify. Qed.
Print Assumptions C85_sign_then_verify.
Example C85_case :
  let signed := run lineMachine (ASign true testKey "a.yml") (oneFile "a.yml" badFile) in
  x_status signed = 0%Z /\ x_status (run lineMachine (AVerify testKey "a.yml") (x_files signed)) = 0%Z /\
  x_status (run lineMachine (AVerify testKey "a.yml") (oneFile "a.yml" badFile)) = 1%Z /\
  x_status (run lineMachine (AVerify "589396227fff5a93ba934965e8735f89" "a.yml") (x_files signed)) = 1%Z.
Proof. cbv zeta. split; [vm_compute; reflexivity|]. split; [vm_compute; reflexivity|]. split; vm_compute; reflexivity. Qed.

(** ** C86 *)
Theorem C86_streams : forall mc a fs, let x := run mc a fs in
  (x_status x = 0%Z -> x_stderr x = "" \/ (exists p f, a = AFormat p false f) \/ exists s u f, a = AConvert s u f) /\
  (x_status x <> 0%Z -> Untouched fs x /\ x_stdout x = "" /\
     ((x_status x = 1%Z /\ exists e, x_stderr x = mc_fatal mc e) \/ (x_status x = 2%Z /\ x_stderr x = mc_trace mc))) /\
  (fs (source a) = None -> x_status x = 1%Z).
Proof. exact streams. Qed.
Print Assumptions C86_streams.
Theorem C86_lint : forall mc p f fs content, fs f = Some content ->
  let x := run mc (ALint p f) fs in
  Untouched fs x /\ x_stdout x = "" /\
  (x_status x = 0%Z <-> exists m, parse (mc_decoder mc) content = Ok m /\ Forall (fun r => Lint r p = Ok tt) (mf_resources m)).
Proof. exact lint_result. Qed.
Print Assumptions C86_lint.
Theorem C86_lint_checks_the_manifest_refuted : exists mc f fs content m e, fs f = Some content /\ parse (mc_decoder mc) content = Ok m /\
  x_status (run mc (ALint false f) fs) = 0%Z /\ lintManifest m false = Err e.
Proof.
  exists sampleMachine, "a.yml", (oneFile "a.yml" twinFile), twinFile. eexists. eexists.
  split; [reflexivity|]. split; [vm_compute; reflexivity|]. split; vm_compute; reflexivity.
Qed.
Print Assumptions C86_lint_checks_the_manifest_refuted.
Example C86_case :
  x_status (run sampleMachine (ALint false "a.yml") (oneFile "a.yml" badFile)) = 1%Z /\
  x_status (run sampleMachine (ALint false "a.yml") (oneFile "a.yml" sampleText)) = 0%Z /\
  x_status (run sampleMachine (ALint false "b.yml") (oneFile "a.yml" sampleText)) = 1%Z.
Proof. split; [|split]; vm_compute; reflexivity. Qed.

(** ** C87 *)
Theorem C87_compile : forall mc name clone fl f fs content m,
  Orders mc -> NoDup (mkeys (cf_env fl)) -> NoDup (mkeys (cf_label fl)) ->
  fs f = Some content -> parse (mc_decoder mc) content = Ok m ->
  let x := run mc (ACompile name clone fl f) fs in
  let Asked p auths := Selected name (mf_resources m) p /\ Forall2 RegistryOf (cf_registry fl) auths in
  Untouched fs x /\
  (x_status x = 0%Z <-> exists p auths, Asked p auths /\ exists steps services vols, Complete p steps services vols) /\
  (x_status x = 1%Z <-> ~ exists p auths, Asked p auths) /\
  (x_status x = 2%Z <-> exists p auths, Asked p auths /\ ~ exists steps services vols, Complete p steps services vols) /\
  (forall p auths, Asked p auths -> x_status x = 0%Z ->
   exists q c base spec, (if clone then q = p else WithoutClone p q) /\ CommandCompiler mc fl c /\
     Compiled (mc_world mc) c q 0 base /\ Finished mc fl auths base spec /\ x_stdout x = mc_specJSON mc spec).
Proof. exact compile_result. Qed.
Print Assumptions C87_compile.
Theorem C87_commit_variables : forall mc f auths a b t k v,
  Finished mc f auths a b -> In t (Engine.sp_steps b) -> CommitVar f k v -> envOf t k = Some v.
Proof. exact commit_variables. Qed.
Print Assumptions C87_commit_variables.
Theorem C87_given_variables : forall mc f auths a b t k v, Finished mc f auths a b -> In t (Engine.sp_steps b) -> In (k, v) (cf_env f) ->
  (forall x, ~ ProxyVar (mc_env mc) k x) -> (forall x, ~ NetrcVar f k x) -> (forall x, ~ CommitVar f k x) -> envOf t k = Some v.
Proof. exact given_variables. Qed.
Print Assumptions C87_given_variables.
(** A commit given with --env is overwritten by the empty --git-sha. *)
Theorem C87_env_is_kept_refuted : exists mc f fs fl content, fs f = Some content /\ In ("DRONE_COMMIT_SHA", "a1b2c3") (cf_env fl) /\
  mc_specJSON mc = (fun s => join ";" (map (fun t => stepName t +++ ":" +++ match envOf t "DRONE_COMMIT_SHA" with Some v => v | None => "?" end)%string (Engine.sp_steps s))) /\
  x_stdout (run mc (ACompile "" true fl f) fs) = "clone:;build:;publish:".
Proof.
  exists sampleMachine, "a.yml", (oneFile "a.yml" sampleText), (withEnv [("DRONE_COMMIT_SHA", "a1b2c3")] ""), sampleText.
  split; [reflexivity|]. split; [left; reflexivity|]. split; [reflexivity|]. vm_compute. reflexivity.
Qed.
Print Assumptions C87_env_is_kept_refuted.
(** The command compiles what the lint command refuses. *)
Theorem C87_compiles_only_accepted_refuted : exists mc f fs fl content, fs f = Some content /\
  x_status (run mc (ALint true f) fs) = 1%Z /\ x_status (run mc (ACompile "" false fl f) fs) = 0%Z.
Proof.
  exists sampleMachine, "a.yml", (oneFile "a.yml" badFile), (withEnv [] ""), badFile. split; [reflexivity|]. split; vm_compute; reflexivity.
Qed.
Print Assumptions C87_compiles_only_accepted_refuted.
Example C87_case : Orders sampleMachine /\
  x_stdout (run sampleMachine (ACompile "default" false (withEnv [("A", "1"); ("B", "2")] "a1b2c3") "a.yml") (oneFile "a.yml" sampleText)) = "build:a1b2c3;publish:a1b2c3" /\
  x_status (run sampleMachine (ACompile "other" false (withEnv [] "") "a.yml") (oneFile "a.yml" sampleText)) = 1%Z.
Proof. split; [exact (machine_orders _)|]. split; vm_compute; reflexivity. Qed.
