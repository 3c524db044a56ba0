(** * Crash.v: theorem C117. *)
From Verif Require Import Model.Go Model.Types Model.RawParse Model.Lint Model.Main
  Spec.LintSpec Spec.PrettySpec Spec.MainSpec Spec.CrashSpec Proofs.Crash Proofs.CrashMain
  Conform.Pipelines Conform.Machines Conform.CrashCases.

(** ** C117 *)
Theorem C117_accepts : forall p trusted, Lint (RPipeline p) trusted = Ok tt <-> exists steps services vols,
  pi_steps p = map Some steps /\ pi_services p = map Some services /\ pi_volumes p = map Some vols /\
  Passes trusted p steps services vols.
Proof. exact accepts. Qed.
Print Assumptions C117_accepts.
Theorem C117_crashes : forall p trusted, Lint (RPipeline p) trusted = Panic <-> Crashes trusted p.
Proof. exact crashes. Qed.
Print Assumptions C117_crashes.
Theorem C117_lint : forall mc trusted f fs, x_status (run mc (ALint trusted f) fs) = 2%Z <->
  exists s m, fs f = Some s /\ parse (mc_decoder mc) s = Ok m /\ FileCrashes trusted (mf_resources m).
Proof. exact lint_crashes. Qed.
Print Assumptions C117_lint.
Theorem C117_format : forall mc p save f fs s m, fs f = Some s -> parse (mc_decoder mc) s = Ok m -> Forall GoMaps (mf_resources m) ->
  (x_status (run mc (AFormat p save f) fs) = 2%Z <-> Exists HasNull (mf_resources m)).
Proof. exact format_crashes. Qed.
Print Assumptions C117_format.
Theorem C117_signatures : forall mc fs a, (exists k f, a = AVerify k f) \/ (exists s k f, a = ASign s k f) ->
  x_status (run mc a fs) <> 2%Z.
Proof. exact signatures_never_crash. Qed.
Print Assumptions C117_signatures.
Theorem C117_without_nulls : forall mc a fs s m, Orders mc ->
  (forall name clone fl f, a = ACompile name clone fl f -> NoDup (mkeys (cf_env fl)) /\ NoDup (mkeys (cf_label fl))) ->
  (forall save addr f, a <> AConvert save addr f) ->
  fs (source a) = Some s -> parse (mc_decoder mc) s = Ok m -> Forall GoMaps (mf_resources m) ->
  (forall p, In (RPipeline p) (mf_resources m) -> NothingNull p) -> x_status (run mc a fs) <> 2%Z.
Proof. exact nothing_null_nothing_crashes. Qed.
Print Assumptions C117_without_nulls.
(** The commands do not crash on the same files, and no one of them tells what the others do. *)
Theorem C117_commands_agree_refuted :
  (exists s, lintStatus false s = 2%Z /\ lintStatus true s = 0%Z) /\
  (exists s, lintStatus false s = 0%Z /\ compileStatus s = 0%Z /\ formatStatus s = 2%Z) /\
  (exists s, lintStatus false s = 1%Z /\ compileStatus s = 2%Z /\ formatStatus s = 0%Z) /\
  (exists s, lintStatus true s = 2%Z /\ compileStatus s = 2%Z /\ formatStatus s = 0%Z).
Proof.
  split; [exists nullPortFile; split; vm_compute; reflexivity|].
  split; [exists nullFile; split; [|split]; vm_compute; reflexivity|].
  split; [exists lateServiceFile; split; [|split]; vm_compute; reflexivity|].
  exists nullServiceFile; split; [|split]; vm_compute; reflexivity.
Qed.
Print Assumptions C117_commands_agree_refuted.
(** A null mount crashes the linter; the same mount in a step without an image does not. *)
Example C117_case : Crashes false nullMount /\ Crashes true nullService /\
  parse (mc_decoder sampleMachine) nullMountFile = Ok {| mf_resources := [RPipeline nullMount] |} /\
  lintStatus true nullMountFile = 2%Z /\ lintStatus true lateMountFile = 1%Z /\ NothingNull samplePipeline.
Proof.
  split; [apply crashes; vm_compute; reflexivity|]. split; [apply crashes; vm_compute; reflexivity|].
  split; [vm_compute; reflexivity|]. split; [vm_compute; reflexivity|]. split; [vm_compute; reflexivity|].
  split; [intros [H|[H|[]]]; discriminate|]. split; [intros [H|[]]; discriminate|]. split; [intros [H|[]]; discriminate|].
  intros c [H|[H|[H|[]]]]; injection H as <-; repeat split; intro H; cbn in H; repeat (destruct H as [H|H]; [discriminate|]); exact H.
Qed.
