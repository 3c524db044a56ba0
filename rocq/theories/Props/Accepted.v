(** * Accepted.v: theorem C104, from the lint command to the compile command. *)
From Verif Require Import Model.Go Model.Types Model.RawParse Model.Lint Model.Engine Model.Compiler Model.Main
  Spec.LintSpec Spec.CompileSpec Spec.MainSpec Spec.AcceptedSpec Proofs.AcceptedFacts Proofs.PrettyClaims Conform.LineDecoder Conform.Machines.

(** ** C104 *)
Theorem C104_accepted_has_no_nulls : forall p trusted, Lint (RPipeline p) trusted = Ok tt ->
  NoNullEntries p /\ (trusted = false -> NoNullPorts p).
Proof. exact accepted_entries. Qed.
Print Assumptions C104_accepted_has_no_nulls.
Theorem C104_accepted_compiles : forall mc name clone fl f fs,
  Orders mc -> NoDup (mkeys (cf_env fl)) -> NoDup (mkeys (cf_label fl)) ->
  x_status (run mc (ALint false f) fs) = 0%Z ->
  let x := run mc (ACompile name clone fl f) fs in
  exists content m, fs f = Some content /\ parse (mc_decoder mc) content = Ok m /\
  (x_status x = 0%Z \/ x_status x = 1%Z) /\
  (x_status x = 0%Z <-> exists p auths, Selected name (mf_resources m) p /\ Forall2 RegistryOf (cf_registry fl) auths) /\
  (x_status x = 0%Z -> exists p spec, Selected name (mf_resources m) p /\ x_stdout x = mc_specJSON mc spec /\ Contained mc fl p spec /\
     (NobodyWaits clone p -> Executable (sp_steps spec))).
Proof. exact accepted_compiles. Qed.
Print Assumptions C104_accepted_compiles.
(** In a trusted repository a null port is accepted, and the compile command panics on it. *)
Theorem C104_trusted_refuted : exists mc f fs fl, Orders mc /\ NoDup (mkeys (cf_env fl)) /\ NoDup (mkeys (cf_label fl)) /\
  x_status (run mc (ALint true f) fs) = 0%Z /\ x_status (run mc (ACompile "" true fl f) fs) = 2%Z.
Proof.
  exists sampleMachine, "a.yml", (oneFile "a.yml" nullPortFile), (withEnv [] ""). split; [exact (machine_orders _)|].
  split; [constructor|]. split; [repeat constructor; intros []|]. split; vm_compute; reflexivity.
Qed.
Print Assumptions C104_trusted_refuted.
(** Without --clone the clone step is gone, a step that waits for it is still there. *)
Theorem C104_waits_refuted : exists mc f fs fl, Orders mc /\
  mc_specJSON mc = (fun s => join ";" (map (fun t => stepName t +++ ":" +++ join "," (st_depends t))%string (sp_steps s))) /\
  x_status (run mc (ALint false f) fs) = 0%Z /\
  x_stdout (run mc (ACompile "" true fl f) fs) = "clone:;build:clone;test:build" /\
  x_stdout (run mc (ACompile "" false fl f) fs) = "build:clone;test:build".
Proof.
  exists graphMachine, "a.yml", (oneFile "a.yml" waitsFile), (withEnv [] ""). split; [exact graph_orders|]. split; [reflexivity|].
  split; [|split]; vm_compute; reflexivity.
Qed.
Print Assumptions C104_waits_refuted.
Example C104_case :
  x_status (run sampleMachine (ALint false "a.yml") (oneFile "a.yml" sampleText)) = 0%Z /\
  x_status (run sampleMachine (ACompile "" true (withEnv [] "a1") "a.yml") (oneFile "a.yml" sampleText)) = 0%Z /\
  x_status (run sampleMachine (ACompile "other" true (withEnv [] "a1") "a.yml") (oneFile "a.yml" sampleText)) = 1%Z /\
  (exists p, parse sampleDecoder waitsFile = Ok {| mf_resources := [RPipeline p] |} /\ NobodyWaits true p /\ ~ NobodyWaits false p).
Proof.
  split; [vm_compute; reflexivity|]. split; [vm_compute; reflexivity|]. split; [vm_compute; reflexivity|].
  eexists. split; [vm_compute; reflexivity|]. split.
  - split; [intros c []|left; reflexivity].
  - intros [_ [X|[X|X]]]; [discriminate|discriminate|]. eapply X; [left; reflexivity|left; reflexivity].
Qed.
