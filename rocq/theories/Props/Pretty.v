(** * Pretty.v: theorems C64 to C68, C82 and C83. *)
From Coq Require Import Floats.SpecFloat.
From Verif Require Import Model.Go Model.Types Model.Decode Model.RawParse Model.Pretty
  Spec.DecodeSpec Spec.YamlSpec Spec.ParseSpec Spec.PrettySpec Spec.LayoutSpec
  Proofs.PrettyItems Proofs.PrettyMore Proofs.PrettyText Proofs.PrettySame Proofs.PrettyTrip Proofs.PrettyClaims.

(** ** C64 *)
Theorem C64_strings : forall isPrintHigh resolve, Resolver resolve -> forall s, Readable s ->
  exists n, readYaml resolve (encodeString isPrintHigh s) = Some n /\ IsText n s /\ n <> NNull.
Proof. exact read_string. Qed.
Print Assumptions C64_strings.
Theorem C64_entries : forall isPrintHigh resolve, Resolver resolve -> forall k s, ReadableKey k -> Readable s ->
  exists kn n, readYaml resolve (encodeString isPrintHigh k +++ ": " +++ encodeString isPrintHigh s) = Some (NMap [(kn, n)]) /\
    IsText kn k /\ kn <> NNull /\ IsText n s /\ n <> NNull.
Proof. exact read_entry. Qed.
Print Assumptions C64_entries.
Theorem C64_quoted_strings : forall isPrintHigh resolve s, Legible s ->
  hasPrefix (encodeString isPrintHigh s) (String """" "") = true ->
  readYaml resolve (encodeString isPrintHigh s) = Some (NStr s).
Proof. exact read_quoted. Qed.
Print Assumptions C64_quoted_strings.
Theorem C64_boundary : forall isPrintHigh resolve, Resolver resolve -> forall s, Legible s ->
  (exists n, readYaml resolve (encodeString isPrintHigh s) = Some n /\ IsText n s /\ n <> NNull) <->
  hasPrefix (encodeString isPrintHigh s) (String """" "") = true \/ Readable s.
Proof. exact read_back. Qed.
Print Assumptions C64_boundary.
Theorem C64_all_strings_refuted : forall isPrintHigh resolve, Resolver resolve ->
  exists s, Legible s /\ ~ exists n, readYaml resolve (encodeString isPrintHigh s) = Some n /\ IsText n s.
Proof. exact null_word. Qed.
Print Assumptions C64_all_strings_refuted.
Example C64_case :
  Readable "echo ""a: b"" # c" /\ encodeString (fun _ => true) "echo ""a: b"" # c" = """echo \""a: b\"" # c""" /\
  readYaml plainResolve (encodeString (fun _ => true) "echo ""a: b"" # c") = Some (NStr "echo ""a: b"" # c").
Proof. split; [apply plainly_readable; reflexivity|split; reflexivity]. Qed.

(** ** C65 *)
Theorem C65_documents : forall isPrintHigh formatFloat sprintFloat bytesSize rs out,
  print isPrintHigh formatFloat sprintFloat bytesSize {| mf_resources := rs |} = Ok out <->
  exists texts,
    Forall2 (fun r t => print isPrintHigh formatFloat sprintFloat bytesSize {| mf_resources := [r] |} = Ok (t +++ "..." +++ nl)%string) rs texts /\
    out = (concats texts +++ "..." +++ nl)%string.
Proof. exact format_documents. Qed.
Print Assumptions C65_documents.
Theorem C65_each : forall isPrintHigh formatFloat sprintFloat bytesSize r t,
  print isPrintHigh formatFloat sprintFloat bytesSize {| mf_resources := [r] |} = Ok (t +++ "..." +++ nl)%string ->
  if match r with RRegistry _ => true | _ => false end then t = ""
  else exists u v, t = ("---" +++ nl +++ u)%string /\ t = (v +++ nl)%string.
Proof. exact single_text. Qed.
Print Assumptions C65_each.
Theorem C65_keeps_every_resource_refuted : exists m out m',
  sample print m = Ok out /\ parse sampleDecoder out = Ok m' /\
  List.length (mf_resources m) = 2 /\ List.length (mf_resources m') = 1.
Proof. exact registry_dropped. Qed.
Print Assumptions C65_keeps_every_resource_refuted.
Theorem C65_output_parses_refuted : exists m out e, sample print m = Ok out /\ parse sampleDecoder out = Err e.
Proof. exact nothing_printed. Qed.
Print Assumptions C65_output_parses_refuted.

(** ** C66 *)
Theorem C66_balanced : forall isPrintHigh formatFloat sprintFloat bytesSize,
  let with_ {A} (f : (N -> bool) -> (float64 -> string) -> (float64 -> string) -> (Z -> string) -> A) := f isPrintHigh formatFloat sprintFloat bytesSize in
  (forall k v, Balanced (with_ writeTagValue k v)) /\
  (forall b, Balanced (with_ printBuild b)) /\ (forall l, Balanced (with_ printDeviceMounts l)) /\
  (forall m, Balanced (with_ printEnviron m)) /\ (forall l, Balanced (with_ printPorts l)) /\
  (forall r, Balanced (with_ printResources r)) /\ (forall m, Balanced (with_ printSettings m)) /\
  (forall l, Balanced (with_ printVolumeMounts l)) /\ (forall k w, Balanced (with_ printConditions k w)) /\
  (forall c, Balanced (with_ printContainer c)) /\ (forall k l, Balanced (with_ printContainers k l)) /\
  (forall l, Balanced (with_ printVolumes l)) /\ (forall v, Balanced (with_ printClone v)) /\
  (forall v, Balanced (with_ printConcurrency v)) /\ (forall v, Balanced (with_ printWorkspace v)) /\
  (forall v, Balanced (with_ printPlatform v)) /\ (forall c, Balanced (with_ printSpec c)) /\
  (forall s, Balanced (with_ printGet s)).
Proof. exact all_balanced. Qed.
Print Assumptions C66_balanced.
Theorem C66_documents_start_at_the_margin : forall isPrintHigh formatFloat sprintFloat bytesSize r out w',
  printResource isPrintHigh formatFloat sprintFloat bytesSize r {| w_out := out; w_depth := 0; w_zero := false; w_index := [] |} = Ok w' ->
  w_depth w' = 0%Z /\ w_zero w' = false /\ w_index w' = [] /\ exists t, w_out w' = (out +++ t)%string.
Proof. exact resource_balanced. Qed.
Print Assumptions C66_documents_start_at_the_margin.
Example C66_case :
  Steady {| w_out := "steps:"; w_depth := 1; w_zero := false; w_index := [(0, false)] |} /\
  exists i, sample printContainer sampleStep {| w_out := "steps:"; w_depth := 1; w_zero := false; w_index := [(0, false)] |} =
  Ok {| w_out := "steps:
- name: build
  image: golang
  commands:
  - go build
  settings:
    list:
    - 1
    - a: b
    - true
  environment:
    TOKEN:
      from_secret: token
    ZONE: eu
  when:
    branch:
    - master
"; w_depth := 1; w_zero := false; w_index := [(i, false)] |}.
Proof. split; [split; [discriminate|split; [reflexivity|discriminate]]|eexists; vm_compute; reflexivity]. Qed.

(** ** C67 *)
Theorem C67_panics : forall isPrintHigh formatFloat sprintFloat bytesSize m, Forall GoMaps (mf_resources m) ->
  print isPrintHigh formatFloat sprintFloat bytesSize m = Panic <-> Exists HasNull (mf_resources m).
Proof. exact format_panics. Qed.
Print Assumptions C67_panics.
Theorem C67_no_error : forall isPrintHigh formatFloat sprintFloat bytesSize m e,
  print isPrintHigh formatFloat sprintFloat bytesSize m <> Err e.
Proof. exact format_no_error. Qed.
Print Assumptions C67_no_error.
Theorem C67_never_panics_refuted : exists text m, parse sampleDecoder text = Ok m /\ sample print m = Panic.
Proof. exact null_entry. Qed.
Print Assumptions C67_never_panics_refuted.
Example C67_case : GoMaps (RPipeline samplePipeline) /\ ~ HasNull (RPipeline samplePipeline).
Proof. exact sample_no_null. Qed.

(** ** C68 *)
Theorem C68_secret : forall isPrintHigh formatFloat sprintFloat bytesSize s, exists data ps,
  squeezed (se_data s) data /\ (data = "" /\ ps = [""] \/ pieces data ps) /\
  let field n k v := if String.eqb v "" then "" else (nl +++ blanks n +++ k +++ ": " +++ encodeString isPrintHigh v)%string in
  print isPrintHigh formatFloat sprintFloat bytesSize {| mf_resources := [RSecret s] |} =
  Ok ("---" +++ field 0 "version" (se_version s) +++ field 0 "kind" (se_kind s) +++ field 0 "type" (se_type s) +++
      (if String.eqb (se_data s) "" then ""
       else field 0 "name" (se_name s) +++ nl +++ "data: >" +++ concats (map (fun p => nl +++ "  " +++ p) ps)) +++
      (if String.eqb (se_get_path s) "" && String.eqb (se_get_name s) "" && String.eqb (se_get_key s) "" then ""
       else field 0 "name" (se_name s) +++ nl +++ nl +++ "get:" +++
            field 2 "path" (se_get_path s) +++ field 2 "name" (se_get_name s) +++ field 2 "key" (se_get_key s)) +++
      nl +++ nl +++ "..." +++ nl)%string.
Proof. exact secret_lines. Qed.
Print Assumptions C68_secret.
Example C68_case :
  sample print {| mf_resources := [RSecret sampleSecret] |} = Ok "---
kind: secret
name: token
data: >
  ABCDEFGHIJKLMNOPQRSTUVWXYZABCDEFGHIJKLMNOPQRSTUVWXYZABCDEFGH
  IJKLMNOPQRSTUVWXYZ

...
".
Proof. vm_compute. reflexivity. Qed.

(** ** C82 *)
Theorem C82_round_trip : forall isPrintHigh formatFloat sprintFloat bytesSize resolve ramInBytes reader, Resolver resolve -> Reads resolve reader ->
  forall m, mf_resources m <> [] -> Forall (Formattable resolve ramInBytes formatFloat bytesSize) (mf_resources m) ->
  exists out, print isPrintHigh formatFloat sprintFloat bytesSize m = Ok out /\ YamlText out /\
    ((forall lines, ParseSpec.Lines out lines -> Forall ParseSpec.Short lines) ->
     exists m', parse (treeDecoder ramInBytes reader) out = Ok m' /\ Forall2 ReadBack (mf_resources m) (mf_resources m')).
Proof. exact round_trip. Qed.
Print Assumptions C82_round_trip.
Theorem C82_every_setting_refuted : exists m out m', sample print m = Ok out /\ parse sampleDecoder out = Ok m' /\
  settingsOf m = [("port", VStr "8080")] /\ settingsOf m' = [("port", VInt 8080)].
Proof. exact number_like. Qed.
Print Assumptions C82_every_setting_refuted.
Theorem C82_every_variable_refuted : exists m out m', sample print m = Ok out /\ parse sampleDecoder out = Ok m' /\
  variablesOf m = ["EMPTY"; "ZONE"] /\ variablesOf m' = ["ZONE"].
Proof. exact empty_variable. Qed.
Print Assumptions C82_every_variable_refuted.
Theorem C82_every_trigger_refuted : exists m out m' p p', sample print m = Ok out /\ parse sampleDecoder out = Ok m' /\
  mf_resources m = [RPipeline p] /\ mf_resources m' = [RPipeline p'] /\
  w_matrix (pi_trigger p) <> [] /\ w_matrix (pi_trigger p') = [].
Proof. exact matrix_dropped. Qed.
Print Assumptions C82_every_trigger_refuted.
Example C82_case : Forall (Formattable plainResolve noSize noFloat noBytes) (mf_resources sampleManifest).
Proof. exact sample_formattable. Qed.
Example C82_case_text : exists out m', sample print sampleManifest = Ok out /\ parse sampleDecoder out = Ok m' /\ sample print m' = Ok out.
Proof. exact sample_text. Qed.
(** Readers of more than the subset. *)
Example C82_reader : Reads plainResolve (readYaml plainResolve) /\ Reads plainResolve commentReader /\
  exists out m', readYaml plainResolve commented = None /\ parse (treeDecoder noSize commentReader) commented = Ok sampleManifest /\
    sample print sampleManifest = Ok out /\ parse (treeDecoder noSize commentReader) out = Ok m' /\ sample print m' = Ok out.
Proof. exact comment_reader. Qed.

(** ** C83 *)
Theorem C83_idempotent : forall isPrintHigh formatFloat sprintFloat bytesSize resolve ramInBytes reader, Resolver resolve -> Reads resolve reader ->
  forall m, mf_resources m <> [] -> Forall (Formattable resolve ramInBytes formatFloat bytesSize) (mf_resources m) ->
  forall out, print isPrintHigh formatFloat sprintFloat bytesSize m = Ok out ->
  (forall lines, ParseSpec.Lines out lines -> Forall ParseSpec.Short lines) ->
  exists m', parse (treeDecoder ramInBytes reader) out = Ok m' /\
    print isPrintHigh formatFloat sprintFloat bytesSize m' = Ok out.
Proof. exact format_twice. Qed.
Print Assumptions C83_idempotent.
Theorem C83_always_refuted : exists m out m' out', sample print m = Ok out /\ parse sampleDecoder out = Ok m' /\
  sample print m' = Ok out' /\ out' <> out.
Proof. exact not_always. Qed.
Print Assumptions C83_always_refuted.
