(** * Append.v: theorem C113. *)
From Verif Require Import Model.Go Model.Types Model.RawParse Model.Lint Model.Signer Model.Pretty Model.Main
  Spec.ParseSpec Spec.SignSpec Spec.CompileSpec Spec.MainSpec Spec.AppendSpec Proofs.GoFacts Proofs.SignMore Proofs.PrettyClaims Proofs.SignFormat Proofs.Append
  Conform.LineDecoder Conform.Machines.

(** ** C113 *)
Theorem C113_joined_documents : forall D a b, OpenText a -> (b = "" \/ Starts "---" b) -> forall raws,
  parseRawString D (a +++ b) = Ok raws <-> exists ra rb, parseRawString D a = Ok ra /\ parseRawString D b = Ok rb /\ raws = ra ++ rb.
Proof. exact joined_raw. Qed.
Print Assumptions C113_joined_documents.
Theorem C113_joined : forall D a b, OpenText a -> (b = "" \/ Starts "---" b) -> forall m,
  parse D (a +++ b) = Ok m <-> exists ma mb, parse D a = Ok ma /\ parse D b = Ok mb /\ mf_resources m = mf_resources ma ++ mf_resources mb.
Proof. exact joined. Qed.
Print Assumptions C113_joined.
Theorem C113_start_mark : forall r b, ~ In NL (list_ascii_of_string r) -> (slen r < 65533)%N ->
  (exists l ls, Lines b (l :: ls) /\ Short l /\ Plain l) -> SameDocuments ("---" +++ r +++ nl +++ b) b.
Proof. exact start_mark. Qed.
Print Assumptions C113_start_mark.
Theorem C113_after_end : forall s x, Ended s -> SameDocuments (s +++ x) s.
Proof. exact after_end. Qed.
Print Assumptions C113_after_end.
Theorem C113_formatted_ended : forall isPrintHigh formatFloat sprintFloat bytesSize m out,
  Pretty.print isPrintHigh formatFloat sprintFloat bytesSize m = Ok out -> Ended out.
Proof. exact formatted_ended. Qed.
Print Assumptions C113_formatted_ended.
Theorem C113_signed_ended : forall D mac data key out, SignUpdate D mac data key = Ok out -> Ended out.
Proof. exact signed_ended. Qed.
Print Assumptions C113_signed_ended.
Theorem C113_commands : forall mc c fs fs' s t, ~ Converts c -> fs (source c) = Some s -> fs' (source c) = Some t -> SameDocuments s t ->
  SameEffect mc c fs fs'.
Proof. exact same_effect. Qed.
Print Assumptions C113_commands.
Theorem C113_joined_lint : forall mc a b f fsa fsb fs, OpenText a -> (b = "" \/ Starts "---" b) ->
  fsa f = Some a -> fsb f = Some b -> fs f = Some (a +++ b)%string -> forall trusted,
  x_status (run mc (ALint trusted f) fs) = 0%Z <->
  x_status (run mc (ALint trusted f) fsa) = 0%Z /\ x_status (run mc (ALint trusted f) fsb) = 0%Z.
Proof. exact joined_lint. Qed.
Print Assumptions C113_joined_lint.
Theorem C113_joined_compile : forall mc a b f fsa fsb fs, OpenText a -> (b = "" \/ Starts "---" b) ->
  fsa f = Some a -> fsb f = Some b -> fs f = Some (a +++ b)%string ->
  forall ma mb, parse (mc_decoder mc) a = Ok ma -> parse (mc_decoder mc) b = Ok mb -> forall name clone fl,
  let x := run mc (ACompile name clone fl f) fs in
  let xa := run mc (ACompile name clone fl f) fsa in
  let xb := run mc (ACompile name clone fl f) fsb in
  ((exists p, MainSpec.Selected name (mf_resources ma) p) -> x_status x = x_status xa /\ x_stdout x = x_stdout xa /\ x_stderr x = x_stderr xa) /\
  (~ (exists p, MainSpec.Selected name (mf_resources ma) p) -> x_status x = x_status xb /\ x_stdout x = x_stdout xb /\ x_stderr x = x_stderr xb).
Proof. exact joined_compile. Qed.
Print Assumptions C113_joined_compile.
Theorem C113_append_to_signed : forall mc key f fs content x, ReadsSignature (mc_decoder mc) -> Mac32 (mc_mac mc) -> fs f = Some content -> NoCRCR content ->
  let signed := run mc (ASign true key f) fs in x_status signed = 0%Z ->
  exists out, x_files signed f = Some out /\
  forall fs', fs' f = Some (out +++ x)%string ->
    x_status (run mc (AVerify key f) fs') = 0%Z /\
    forall c, ~ Converts c -> source c = f -> SameEffect mc c (x_files signed) fs'.
Proof. exact append_signed. Qed.
Print Assumptions C113_append_to_signed.
(** So a file cannot be joined with what fmt printed before it: what follows is lost. *)
Definition firstFile : string := "---
kind: pipeline
name: build

platform:
  os: linux
  arch: amd64

...
".
Definition openFile : string := "kind: pipeline
name: build
".
Definition secondFile : string := "---
kind: pipeline
name: deploy
".
Theorem C113_joining_formatted_refuted : exists mc f m a b, formatted mc m = Ok a /\ Starts "---" b /\
  x_status (run mc (ACompile "deploy" true (withEnv [] "abc") f) (oneFile f b)) = 0%Z /\
  x_status (run mc (ALint false f) (oneFile f (a +++ b)%string)) = 0%Z /\
  x_status (run mc (ACompile "deploy" true (withEnv [] "abc") f) (oneFile f (a +++ b)%string)) = 1%Z.
Proof.
  exists sampleMachine, "a.yml", (parsed firstFile), firstFile, secondFile. split; [vm_compute; reflexivity|].
  split; [eexists; reflexivity|]. split; [vm_compute; reflexivity|]. split; vm_compute; reflexivity.
Qed.
Print Assumptions C113_joining_formatted_refuted.
(** The convert command does see what comes after the end mark. *)
Theorem C113_convert_refuted : exists mc c fs fs' s x, Converts c /\ Ended s /\ fs (source c) = Some (s +++ x)%string /\ fs' (source c) = Some s /\
  ~ SameEffect mc c fs fs'.
Proof.
  exists sampleMachine, (AConvert false "" "a.yml"), (oneFile "a.yml" (firstFile +++ "pipeline:" +++ nl)%string), (oneFile "a.yml" firstFile), firstFile, ("pipeline:" +++ nl)%string.
  split; [exact I|]. split; [apply (formatted_ended (fun _ => true) noFloat noFloat noBytes (parsed firstFile)); vm_compute; reflexivity|].
  split; [reflexivity|]. split; [reflexivity|]. intros (_ & _ & E & _). vm_compute in E. discriminate E.
Qed.
Print Assumptions C113_convert_refuted.
Example C113_case : OpenText openFile /\ Starts "---" secondFile /\ Ended firstFile /\
  x_status (run sampleMachine (ALint false "a.yml") (oneFile "a.yml" (openFile +++ secondFile)%string)) = 0%Z /\
  x_status (run sampleMachine (ACompile "deploy" true (withEnv [] "abc") "a.yml") (oneFile "a.yml" (openFile +++ secondFile)%string)) = 0%Z /\
  (exists l ls, Lines openFile (l :: ls) /\ Short l /\ Plain l).
Proof.
  assert (L : Lines openFile ["kind: pipeline"; "name: build"]).
  { apply (Lines_cons "kind: pipeline" ("name: build" +++ nl)); [vm_compute; intuition discriminate|].
    apply (Lines_cons "name: build" ""); [vm_compute; intuition discriminate|constructor]. }
  split.
  { split; [right; exists "kind: pipeline
name: build"; reflexivity|]. intros ls H. rewrite (Lines_fun _ _ _ H L).
    repeat (constructor; [split; [reflexivity|intros [r E]; discriminate]|]). constructor. }
  split; [eexists; reflexivity|]. split; [apply (formatted_ended (fun _ => true) noFloat noFloat noBytes (parsed firstFile)); vm_compute; reflexivity|].
  split; [vm_compute; reflexivity|]. split; [vm_compute; reflexivity|].
  eexists _, _. split; [exact L|]. split; [reflexivity|]. split; intros [r E]; discriminate.
Qed.
