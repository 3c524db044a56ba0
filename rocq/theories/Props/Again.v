(** * Again.v: theorem C111. *)
From Verif Require Import Model.Go Model.Types Model.Pretty Model.Gitlab Model.Bitbucket Model.Convert Model.Legacy Model.Main
  Spec.ConverterSpec Spec.CompileSpec Spec.MainSpec Spec.AgainSpec Proofs.ConverterFacts Proofs.MarginLines Proofs.Again
  Conform.Machines Conform.ConvertCases Conform.AgainCases.

(** ** C111 *)
Theorem C111_lines : forall isPrintHigh formatFloat sprintFloat bytesSize, OneLine formatFloat ->
  forall m out, Pretty.print isPrintHigh formatFloat sprintFloat bytesSize m = Ok out -> Forall MarginLine (split_on NL out).
Proof. exact format_lines. Qed.
Print Assumptions C111_lines.
Theorem C111_twice : forall isPrintHigh formatFloat sprintFloat bytesSize, OneLine formatFloat ->
  let print := Pretty.print isPrintHigh formatFloat sprintFloat bytesSize in
  forall pathMatch ordT ordB ordS readB available ordG readG getenv parseURL isPrintHigh' marshal unmarshal ordM ordA formatFloat' formatKey readL expand,
  let convert := ConvertFile (bitbucketConvert pathMatch ordT ordB ordS readB print) (gitlabConvert available ordG readG print)
    (Legacy.Convert getenv parseURL isPrintHigh' marshal unmarshal ordM ordA formatFloat' formatKey readL expand print) in
  forall d m out m', convert d m = Ok out -> OwnName (me_filename m') -> convert out m' = Ok out.
Proof. exact twice. Qed.
Print Assumptions C111_twice.
Theorem C111_commands : forall mc, OneLine (w_formatFloat (mc_world mc)) -> Converters mc ->
  forall save addr f fs content, fs f = Some content ->
  let x := run mc (AConvert save addr f) fs in x_status x = 0%Z ->
  forall save' addr' f' fs', fs' f' = Some (x_stderr x) -> OwnName f' ->
  let y := run mc (AConvert save' addr' f') fs' in x_status y = 0%Z /\ x_stderr y = x_stderr x.
Proof. exact commands_again. Qed.
Print Assumptions C111_commands.
Theorem C111_formatted : forall mc, OneLine (w_formatFloat (mc_world mc)) ->
  forall priv f fs, (exists content, fs f = Some content) ->
  let x := run mc (AFormat priv false f) fs in x_status x = 0%Z ->
  forall save' addr' f' fs', fs' f' = Some (x_stderr x) -> OwnName f' ->
  let y := run mc (AConvert save' addr' f') fs' in x_status y = 0%Z /\ x_stderr y = x_stderr x.
Proof. exact format_then_convert. Qed.
Print Assumptions C111_formatted.
Theorem C111_saved : forall mc, OneLine (w_formatFloat (mc_world mc)) ->
  forall priv f fs, (exists content, fs f = Some content) -> OwnName f ->
  let x := run mc (AFormat priv true f) fs in x_status x = 0%Z ->
  forall save' addr', let y := run mc (AConvert save' addr' f) (x_files x) in
  x_status y = 0%Z /\ x_files x f = Some (x_stderr y) /\ x_files y f = x_files x f.
Proof. exact saved_then_convert. Qed.
Print Assumptions C111_saved.
(** Under the name of another system the result of a conversion is converted again, and its steps are lost. *)
Theorem C111_other_name_refuted : exists mc f fs fs' mid, OneLine (w_formatFloat (mc_world mc)) /\ Converters mc /\
  (let x := run mc (AConvert false "" f) fs in x_status x = 0%Z /\ x_stderr x = mid) /\ fs' f = Some mid /\
  (let y := run mc (AConvert false "" f) fs' in x_status y = 0%Z /\ x_stderr y <> mid /\
   contains mid "npm publish" = true /\ contains (x_stderr y) "npm publish" = false).
Proof.
  exists everyMachine, "bitbucket-pipelines.yml", (oneFile "bitbucket-pipelines.yml" bitbucketFile), (oneFile "bitbucket-pipelines.yml" onceText), onceText.
  split; [intro; reflexivity|]. split; [exact everyMachine_converters|]. cbv zeta.
  split; [split; vm_compute; reflexivity|]. split; [reflexivity|].
  assert (E : x_stderr (run everyMachine (AConvert false "" "bitbucket-pipelines.yml") (oneFile "bitbucket-pipelines.yml" onceText)) = twiceText) by (vm_compute; reflexivity).
  rewrite E. split; [vm_compute; reflexivity|]. split; [discriminate|]. split; reflexivity.
Qed.
Print Assumptions C111_other_name_refuted.
Example C111_case : OneLine (w_formatFloat (mc_world everyMachine)) /\ Converters everyMachine /\
  HasPipelineLine trickyFile /\
  (let x := run everyMachine (AConvert false "" ".drone.yml") (oneFile ".drone.yml" trickyFile) in
   x_status x = 0%Z /\ x_stderr x <> trickyFile /\
   Forall MarginLine (split_on NL (x_stderr x)) /\
   x_stderr (run everyMachine (AConvert false "" ".drone.yml") (oneFile ".drone.yml" (x_stderr x))) = x_stderr x) /\
  (let x := run everyMachine (AConvert false "" ".gitlab-ci.yml") (oneFile ".gitlab-ci.yml" gitlabFile) in
   x_status x = 0%Z /\ OwnName ".drone.yml" /\
   x_stderr (run everyMachine (AConvert false "" ".drone.yml") (oneFile ".drone.yml" (x_stderr x))) = x_stderr x) /\
  (let x := run everyMachine (AFormat false true ".drone.yml") (oneFile ".drone.yml" onceText) in x_status x = 0%Z).
Proof.
  split; [intro; reflexivity|]. split; [exact everyMachine_converters|]. split; [apply legacyMatch_lines; vm_compute; reflexivity|]. cbv zeta.
  split.
  { split; [vm_compute; reflexivity|]. split; [vm_compute; discriminate|].
    split; [|vm_compute; reflexivity]. vm_compute.
    repeat (apply Forall_cons; [first [apply margin_empty|apply margin_start|apply margin_end|apply margin_deeper|apply (margin_item "name: build")
      |apply (margin_key "kind" " pipeline"); right; left; reflexivity|apply (margin_key "name" " default"); do 3 right; left; reflexivity
      |apply (margin_key "platform" ""); do 4 right; left; reflexivity|apply (margin_key "steps" ""); do 8 right; left; reflexivity]|]). apply Forall_nil. }
  split; [split; [vm_compute; reflexivity|]; split; [split; discriminate|vm_compute; reflexivity]|]. vm_compute. reflexivity.
Qed.
