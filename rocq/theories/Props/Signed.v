(** * Signed.v: theorem C108. *)
From Coq Require Import Lia.
From Verif Require Import Model.Go Model.Types Model.RawParse Model.Decode Model.Signer Model.Sha256 Model.Pretty Model.Compiler Model.Main
  Spec.ParseSpec Spec.YamlSpec Spec.PrettySpec Spec.SignSpec Spec.SignedSpec Spec.CompileSpec Spec.MainSpec
  Proofs.ShaFacts Proofs.SignMore Proofs.PrettyMore Proofs.PrettyClaims Proofs.SignFormat Proofs.SignMain Conform.LineDecoder Conform.Machines.

(** ** C108 *)
Theorem C108_signed_is_formatted : forall isPrintHigh formatFloat sprintFloat bytesSize resolve ramInBytes reader, Resolver resolve -> Reads resolve reader ->
  forall mac m out key, Mac32 mac -> (32 <= slen key)%N ->
  mf_resources m <> [] -> Forall (Formattable resolve ramInBytes formatFloat bytesSize) (mf_resources m) ->
  print isPrintHigh formatFloat sprintFloat bytesSize m = Ok out ->
  (forall lines, ParseSpec.Lines out lines -> Forall ParseSpec.Short lines) ->
  exists h signed m', Sign (treeDecoder ramInBytes reader) mac out key = Ok h /\
    SignUpdate (treeDecoder ramInBytes reader) mac out key = Ok signed /\
    print isPrintHigh formatFloat sprintFloat bytesSize (withSignature h m) = Ok signed /\
    Verify (treeDecoder ramInBytes reader) mac signed key = Ok true /\
    parse (treeDecoder ramInBytes reader) signed = Ok m' /\
    print isPrintHigh formatFloat sprintFloat bytesSize m' = Ok signed.
Proof. exact signed_is_formatted. Qed.
Print Assumptions C108_signed_is_formatted.
Theorem C108_reads_signatures : forall resolve ramInBytes reader, Resolver resolve -> Reads resolve reader ->
  ReadsSignature (treeDecoder ramInBytes reader).
Proof. exact (reads_signature (fun _ => true) noFloat noFloat noBytes). Qed.
Print Assumptions C108_reads_signatures.
Theorem C108_commands : forall mc resolve ramInBytes reader p q key f fs content m out,
  mc_decoder mc = treeDecoder ramInBytes reader -> Resolver resolve -> Reads resolve reader -> Mac32 (mc_mac mc) -> (32 <= slen key)%N ->
  mc_writable mc f = true -> fs f = Some content -> parse (mc_decoder mc) content = Ok m -> mf_resources m <> [] ->
  Forall (Formattable resolve ramInBytes (w_formatFloat (mc_world mc)) (mc_bytesSize mc)) (mf_resources m) ->
  formatted mc m = Ok out -> (forall lines, ParseSpec.Lines out lines -> Forall ParseSpec.Short lines) ->
  let a := run mc (AFormat p true f) fs in
  let b := run mc (ASign true key f) (x_files a) in
  let c := run mc (AFormat q true f) (x_files b) in
  x_status a = 0%Z /\ x_status b = 0%Z /\ x_status c = 0%Z /\ (forall g, x_files c g = x_files b g) /\
  x_status (run mc (AVerify key f) (x_files c)) = 0%Z.
Proof. exact format_sign_format. Qed.
Print Assumptions C108_commands.
(** Formatting after signing keeps the signature only if the file was formatted before it was signed. *)
Theorem C108_format_after_sign_refuted : exists mc key f fs,
  let signed := run mc (ASign true key f) fs in
  let after := run mc (AFormat false true f) (x_files signed) in
  x_status signed = 0%Z /\ x_status (run mc (AVerify key f) (x_files signed)) = 0%Z /\ x_status after = 0%Z /\
  x_status (run mc (AVerify key f) (x_files after)) = 1%Z.
Proof. exists sampleMachine, testKey, "a.yml", (oneFile "a.yml" sampleText). cbv zeta. split; [vm_compute; reflexivity|]. split; [vm_compute; reflexivity|]. split; vm_compute; reflexivity. Qed.
Print Assumptions C108_format_after_sign_refuted.
Example C108_case : Forall (Formattable plainResolve noSize noFloat noBytes) (mf_resources sampleManifest) /\ Mac32 hmac_sha256 /\
  parse sampleDecoder sampleText = Ok sampleManifest /\
  exists h, Sign sampleDecoder hmac_sha256 (printed sampleManifest) testKey = Ok h /\
    length (mf_resources sampleManifest) = 4%nat /\ length (mf_resources (withSignature h sampleManifest)) = 4%nat /\
    printed (withSignature h sampleManifest) <> printed sampleManifest.
Proof.
  split; [exact sample_formattable|]. split; [exact hmac_sha256_32|]. split; [vm_compute; reflexivity|].
  eexists. split; [vm_compute; reflexivity|]. split; [reflexivity|]. split; [vm_compute; reflexivity|]. vm_compute. discriminate.
Qed.
