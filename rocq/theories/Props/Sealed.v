(** * Sealed.v: theorem C112. *)
From Coq Require Import Lia.
From Verif Require Import Model.Go Model.Types Model.RawParse Model.Decode Model.Lint Model.Signer Model.Sha256 Model.Pretty Model.Compiler Model.Main
  Spec.ParseSpec Spec.YamlSpec Spec.PrettySpec Spec.SignSpec Spec.SignedSpec Spec.SealedSpec Spec.CompileSpec Spec.MainSpec
  Proofs.ShaFacts Proofs.SignMore Proofs.MainFacts Proofs.PrettyMore Proofs.PrettyClaims Proofs.SignFormat Proofs.Sealed Conform.LineDecoder Conform.Machines Conform.SealedCases.

(** ** C112 *)
Theorem C112_reads_as_written : forall resolve ramInBytes reader, Resolver resolve -> Reads resolve reader ->
  ReadsAsWritten (treeDecoder ramInBytes reader).
Proof. exact reads_as_written. Qed.
Print Assumptions C112_reads_as_written.
Theorem C112_resources : forall D mac, ReadsSignature D -> ReadsAsWritten D -> Mac32 mac ->
  forall content key out m, NoCRCR content -> SignUpdate D mac content key = Ok out -> parse D content = Ok m ->
  exists h, Sign D mac content key = Ok h /\ IsHex h /\ slen h = 64%N /\ parse D out = Ok (withSignature h m).
Proof. exact sealed_resources. Qed.
Print Assumptions C112_resources.
(** Also for files that cannot be read: the signed file is read exactly if the documents that are no signatures are. *)
Theorem C112_readable : forall D mac, ReadsSignature D -> ReadsAsWritten D -> Mac32 mac ->
  forall content key out, NoCRCR content -> SignUpdate D mac content key = Ok out ->
  exists raws rest h, parseRawString D content = Ok raws /\ Unsigned raws rest /\ Sign D mac content key = Ok h /\
  forall m', parse D out = Ok m' <->
    exists rs, Forall2 (fun raw res => Typed D raw res /\ getKind res <> "") rest rs /\
      mf_resources m' = rs ++ [RSignature {| si_version := ""; si_kind := "signature"; si_hmac := h |}].
Proof. exact sealed_iff. Qed.
Print Assumptions C112_readable.
Theorem C112_compile : forall mc, ReadsSignature (mc_decoder mc) -> ReadsAsWritten (mc_decoder mc) -> Mac32 (mc_mac mc) ->
  forall key f fs content m, (32 <= slen key)%N -> mc_writable mc f = true -> fs f = Some content -> NoCRCR content ->
  parse (mc_decoder mc) content = Ok m ->
  forall name clone fl,
  let signed := run mc (ASign true key f) fs in
  let x := run mc (ACompile name clone fl f) fs in
  let y := run mc (ACompile name clone fl f) (x_files signed) in
  x_status signed = 0%Z /\ x_status y = x_status x /\ x_stdout y = x_stdout x /\ x_stderr y = x_stderr x.
Proof. exact sealed_compile. Qed.
Print Assumptions C112_compile.
Theorem C112_lint : forall mc, ReadsSignature (mc_decoder mc) -> ReadsAsWritten (mc_decoder mc) -> Mac32 (mc_mac mc) ->
  forall key f fs content m, (32 <= slen key)%N -> mc_writable mc f = true -> fs f = Some content -> NoCRCR content ->
  parse (mc_decoder mc) content = Ok m ->
  forall trusted, Forall (fun r => ~ NotSignature r -> Lint r trusted = Ok tt) (mf_resources m) ->
  let x := run mc (ALint trusted f) fs in
  let y := run mc (ALint trusted f) (x_files (run mc (ASign true key f) fs)) in
  x_status y = x_status x /\ x_stdout y = x_stdout x /\ x_stderr y = x_stderr x.
Proof. exact sealed_lint. Qed.
Print Assumptions C112_lint.
Theorem C112_lint_status : forall mc, ReadsSignature (mc_decoder mc) -> ReadsAsWritten (mc_decoder mc) -> Mac32 (mc_mac mc) ->
  forall key f fs content m, (32 <= slen key)%N -> mc_writable mc f = true -> fs f = Some content -> NoCRCR content ->
  parse (mc_decoder mc) content = Ok m ->
  forall trusted, x_status (run mc (ALint trusted f) (x_files (run mc (ASign true key f) fs))) = 0%Z <->
    Forall (fun r => NotSignature r -> Lint r trusted = Ok tt) (mf_resources m).
Proof. exact sealed_lint_iff. Qed.
Print Assumptions C112_lint_status.
(** What follows a line that is too long is not only ignored: saving a signed or formatted file erases it. *)
Theorem C112_long_line : forall mc f fs fs' a long b,
  (a = "" \/ exists a', a = a' +++ nl)%string -> ~ In NL (list_ascii_of_string long) -> (65536 <= slen long)%N ->
  (b = "" \/ exists b', b = nl +++ b')%string -> fs f = Some (a +++ long +++ b)%string -> fs' f = Some a ->
  forall c, (exists key, c = ASign true key f) \/ (exists priv, c = AFormat priv true f) ->
  let x := run mc c fs in let y := run mc c fs' in
  x_status x = x_status y /\ (x_status x = 0%Z -> x_files x f = x_files y f).
Proof. exact long_saved. Qed.
Print Assumptions C112_long_line.
(** Verification does not notice: it sees what is left. *)
Theorem C112_everything_kept_refuted : exists mc key f fs content out, fs f = Some content /\ contains content "name: deploy" = true /\
  (let signed := run mc (ASign true key f) fs in x_status signed = 0%Z /\ x_files signed f = Some out /\
   contains out "name: deploy" = false /\ x_status (run mc (AVerify key f) (x_files signed)) = 0%Z).
Proof. exact tail_erased. Qed.
Print Assumptions C112_everything_kept_refuted.
Example C112_case : ReadsSignature sampleDecoder /\ ReadsAsWritten sampleDecoder /\ Mac32 hmac_sha256 /\ NoCRCR sampleText /\ (32 <= slen testKey)%N /\
  parse sampleDecoder sampleText = Ok sampleManifest /\
  (exists s, In (RSignature s) (mf_resources sampleManifest) /\ Lint (RSignature s) false = Ok tt) /\
  (exists p, In (RPipeline p) (mf_resources sampleManifest)) /\
  (let signed := run sampleMachine (ASign true testKey "a.yml") (oneFile "a.yml" sampleText) in
   x_files signed "a.yml" <> Some sampleText /\
   x_status (run sampleMachine (ALint true "a.yml") (x_files signed)) = 0%Z /\
   x_stdout (run sampleMachine (ACompile "default" true (withEnv [] "abc") "a.yml") (x_files signed)) <> "").
Proof.
  split; [apply (reads_signature (fun _ => true) noFloat noFloat noBytes plainResolve noSize _ plain_resolver (proj1 comment_reader))|].
  split; [apply (reads_as_written plainResolve noSize _ plain_resolver (proj1 comment_reader))|]. split; [exact hmac_sha256_32|].
  split; [apply no_crcr_check; vm_compute; reflexivity|]. split; [vm_compute; discriminate|]. split; [vm_compute; reflexivity|].
  split; [eexists; split; [do 3 right; left; reflexivity|reflexivity]|]. split; [eexists; left; reflexivity|]. cbv zeta.
  split; [vm_compute; discriminate|]. split; [vm_compute; reflexivity|]. vm_compute. discriminate.
Qed.
