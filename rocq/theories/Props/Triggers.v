(** * Triggers.v: theorem C103. *)
From Verif Require Import Model.Go Model.Types Model.DoubleStar Model.Cond Model.Legacy
  Spec.GlobSpec Spec.DoubleStarSpec Spec.LegacySpec Conform.LegacyCases Proofs.TriggerFacts.

(** ** C103 *)
Theorem C103_refs : forall getenv parseURL g remote p, CompleteConfig g -> toPipeline getenv parseURL g remote = Ok p ->
  c_include (lg_branches g) <> [] -> c_exclude (lg_branches g) = [] -> forall ref,
  Match doubleStar (w_ref (pi_trigger p)) ref = true <->
  (exists x b, ref = ("refs/heads/" +++ x)%string /\ In b (c_include (lg_branches g)) /\ doubleStar b x = Some true) \/
  Reviewed ref \/
  ((exists x, ref = ("refs/tags/" +++ x)%string) /\ exists c, In (Some c) (pi_steps p) /\ TagStep c).
Proof. exact converted_refs. Qed.
Print Assumptions C103_refs.
Theorem C103_only_refs : forall getenv parseURL g remote p, CompleteConfig g -> toPipeline getenv parseURL g remote = Ok p ->
  c_include (lg_branches g) <> [] -> c_exclude (lg_branches g) = [] -> forall glob v c,
  In c [w_action (pi_trigger p); w_cron (pi_trigger p); w_repo (pi_trigger p); w_instance (pi_trigger p); w_target (pi_trigger p);
        w_event (pi_trigger p); w_branch (pi_trigger p); w_status (pi_trigger p); w_paths (pi_trigger p)] ->
  Match glob c v = true.
Proof. exact converted_only_refs. Qed.
Print Assumptions C103_only_refs.
Theorem C103_listed : forall getenv parseURL g remote p, CompleteConfig g -> toPipeline getenv parseURL g remote = Ok p ->
  c_include (lg_branches g) <> [] -> c_exclude (lg_branches g) = [] ->
  (forall b, In b (c_include (lg_branches g)) -> exists t, b = utf8Text t /\ PlainText t) ->
  forall w, PlainValue w ->
  (Match doubleStar (w_ref (pi_trigger p)) ("refs/heads/" +++ utf8Text w) = true <-> In (utf8Text w) (c_include (lg_branches g))).
Proof. exact converted_listed. Qed.
Print Assumptions C103_listed.
Theorem C103_level_in_front : forall kind p ref, In kind ["heads"; "tags"; "pull"; "pull-requests"; "merge-requests"] ->
  (doubleStar ("refs/" +++ kind +++ "/" +++ p) ref = Some true <-> exists x, ref = ("refs/" +++ kind +++ "/" +++ x)%string /\ doubleStar p x = Some true).
Proof. exact ref_in_front. Qed.
Print Assumptions C103_level_in_front.

Definition ofBranches (bs : list string) : LConfig :=
  {| lg_base := ""; lg_path := ""; lg_clone := []; lg_pipeline := lg_pipeline (named ["a"]); lg_services := [];
     lg_branches := {| c_include := bs; c_exclude := [] |}; lg_matrix := VNull; lg_secrets := [] |}.
(** Builds that are not of a listed branch do run. *)
Theorem C103_only_listed_refuted : exists g p ref, CompleteConfig g /\ toPipeline noEnv (fun _ => None) g "" = Ok p /\
  c_include (lg_branches g) = ["master"] /\ (forall x, ref <> ("refs/heads/" +++ x)%string) /\
  Match doubleStar (w_ref (pi_trigger p)) ref = true.
Proof.
  exists (ofBranches ["master"]). eexists. exists "refs/pull/7/head". split; [exact (named_complete ["a"])|]. split; [vm_compute; reflexivity|].
  split; [reflexivity|]. split; [discriminate|reflexivity].
Qed.
Print Assumptions C103_only_listed_refuted.
Example C103_case : CompleteConfig (ofBranches ["master"; "release/*"]) /\ exists p, toPipeline noEnv (fun _ => None) (ofBranches ["master"; "release/*"]) "" = Ok p /\
  map (Match doubleStar (w_ref (pi_trigger p))) ["refs/heads/master"; "refs/heads/release/1"; "refs/heads/release/1/2"; "refs/heads/dev"; "refs/tags/v1"; "refs/merge-requests/3/head"] =
    [true; true; false; false; false; true].
Proof. split; [exact (named_complete ["a"])|]. eexists. split; [vm_compute; reflexivity|vm_compute; reflexivity]. Qed.
