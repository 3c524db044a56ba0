(** * ForeignRunSpec.v: what GitLab and Bitbucket files ask for, and what it means to run that. *)
From Coq Require Import Sorting.Permutation.
From Verif Require Import Model.Go Model.Types Model.Cond Model.Engine Model.Image Model.Script Model.Gitlab Model.Bitbucket Model.Compiler Model.Main
  Spec.CondSpec Spec.ScriptSpec Spec.CompileSpec Spec.MainSpec Spec.LegacyRunSpec.
From Verif Require Spec.ConverterSpec.

(** ** What the files ask for *)
(** [jb_lenient]: the job may fail. *)
Record Job : Type := {
  jb_name : string; jb_image : string; jb_entrypoint : list string; jb_command : list string;
  jb_commands : list string; jb_lenient : bool }.
Definition gitlabJob (g : GConfig) (kv : string * GJob) : Job :=
  let j := snd kv in
  {| jb_name := fst kv; jb_image := match gi_name (gj_image j) with "" => gi_name (gc_image g) | s => s end;
     jb_entrypoint := gi_entrypoint (gj_image j); jb_command := gi_command (gj_image j);
     jb_commands := gc_before g ++ gj_before j ++ gj_script j ++ gj_after j ++ gc_after g;
     jb_lenient := gj_allow_failure j |}.
(** A service without an alias is named after its image: a/b becomes a__b. *)
Definition gitlabService (available : string -> bool) (i : GImage) : Job :=
  {| jb_name := match gi_alias i with "" => join "__" (split_on "/" (Trim available (gi_name i))) | a => a end;
     jb_image := gi_name i; jb_entrypoint := gi_entrypoint i; jb_command := gi_command i; jb_commands := []; jb_lenient := false |}.
(** The pipelines of a GitLab file: one for each stage with the jobs of that stage, or one for each job. *)
Definition gitlabPlan (g : GConfig) (js : smap GJob) : list (string * smap GJob) :=
  match gc_stages g with
  | [] => map (fun kv => (fst kv, [kv])) js
  | stages => map (fun stage => (stage, ConverterSpec.inStage stage js)) stages
  end.
(** Jobs come in any order, and so do the pipelines if there are no stages. *)
Definition SamePlan (g : GConfig) (plan plan' : list (string * smap GJob)) : Prop :=
  (gc_stages g <> [] -> Forall2 (fun e e' => fst e = fst e' /\ Permutation (snd e) (snd e')) plan plan') /\
  (gc_stages g = [] -> Permutation plan plan').
Definition bitbucketJob (image : string) (i : nat) (s : BStep) : Job :=
  {| jb_name := match bs_name s with "" => ("step_" +++ itoa_nat i)%string | n => n end;
     jb_image := match bs_image s with "" => image | x => x end;
     jb_entrypoint := []; jb_command := []; jb_commands := bs_script s; jb_lenient := false |}.
Definition bitbucketJobs (image : string) (l : list BStep) : list Job :=
  map (fun e => bitbucketJob image (fst e) (snd e)) (combine (seq 0 (length l)) l).
Definition bitbucketService (kv : string * BStep) : Job :=
  {| jb_name := fst kv; jb_image := bs_image (snd kv); jb_entrypoint := []; jb_command := [];
     jb_commands := bs_script (snd kv); jb_lenient := false |}.

(** ** What lint accepts *)
Definition GoodJobs (jobs services : list Job) : Prop :=
  Forall (fun j => jb_name j <> "" /\ jb_image j <> "") (jobs ++ services) /\
  NoDup ("clone" :: map jb_name (jobs ++ services)).

(** ** What runs *)
(** The container a job becomes. *)
Definition IsJob (j : Job) (c : Container) : Prop :=
  ct_name c = jb_name j /\ ct_image c = jb_image j /\ ct_entrypoint c = jb_entrypoint j /\ ct_command c = jb_command j /\
  ct_commands c = jb_commands j /\ ct_failure c = (if jb_lenient j then "ignore" else "") /\ ConverterSpec.Bare c.
Definition sourceVars : list (string * string) := workspaceVars "/drone/src" "" "/drone/src".
Record RunsJob (w : World) (c : Compiler) (hostMount : bool) (spec : Spec) (service : bool) (j : Job) (s : Step) : Prop := {
  job_name : stepName s = jb_name j;
  job_alone : st_depends s = [];
  job_detached : st_detach s = service;
  job_image : ds_image (st_docker s) = Expand (w_available w) (jb_image j);
  job_program : jb_commands j = [] ->
    ds_command (st_docker s) = jb_entrypoint j /\ ds_args (st_docker s) = jb_command j /\ st_files s = [];
  job_commands : jb_commands j <> [] ->
    ds_command (st_docker s) = ["/bin/sh"] /\ ds_args (st_docker s) = [scriptPath] /\
    st_files s = [{| fm_name := jb_name j; fm_path := scriptPath; fm_mode := 511 |}] /\
    exists f, In f (sp_files spec) /\ md_name (fi_meta f) = jb_name j /\
      fi_data f = scriptText posixHead (posixLines (escaped (w_isPrintHigh w))) (jb_commands j);
  job_environment : forall k v, envOf s k = Some v <-> In (k, v) sourceVars;
  job_secrets : st_secrets s = [];
  job_pull : ds_pull (st_docker s) = PullDefault;
  job_network : ds_dns (st_docker s) = [] /\ ds_dns_search (st_docker s) = [] /\
    ds_extra_hosts (st_docker s) = [] /\ ds_network (st_docker s) = "" /\ ds_ports (st_docker s) = [];
  job_user : ds_user (st_docker s) = "" /\ st_resources s = None /\ st_devices s = [];
  job_failure : st_ignore_err s = jb_lenient j;
  job_mounts : st_volumes s = workspaceMounts hostMount "/drone/src" "" "/drone/src";
  job_working_dir : st_working_dir s = match service, jb_commands j with true, [] => "" | _, _ => "/drone/src" end;
  (** The compiler may make a container privileged or skip it, looking at what the job became. *)
  job_policy : exists ct, IsJob j ct /\
    (ds_privileged (st_docker s) = true <-> exists f, co_privileged c = Some f /\ f ct = true) /\
    (runsOnSuccess (st_policy s) = true <-> ~ Skipped c ct) /\ runsOnFailure (st_policy s) = false }.
(** The clone step, for a history of [depth] commits. *)
Record RunsClone (w : World) (depth : Z) (s : Step) : Prop := {
  clone_name : stepName s = "clone"; clone_detached : st_detach s = false; clone_alone : st_depends s = [];
  clone_image : ds_image (st_docker s) = Expand (w_available w) "drone/git";
  clone_plain : ds_privileged (st_docker s) = false; clone_policy : st_policy s = RunOnSuccess;
  clone_environment : forall k v, envOf s k = Some v <->
    In (k, v) sourceVars \/ (k = "PLUGIN_DEPTH" /\ (0 < depth)%Z /\ v = itoa depth) }.
(** The clone step if it is wanted, then the services, then the jobs one after another. *)
Definition RunsAll (w : World) (c : Compiler) (hostMount clone : bool) (depth : Z) (services jobs : list Job) (spec : Spec) : Prop :=
  exists cl ss js, sp_steps spec = cl ++ ss ++ js /\
    (clone = true -> exists s, cl = [s] /\ RunsClone w depth s) /\ (clone = false -> cl = []) /\
    Forall2 (RunsJob w c hostMount spec true) services ss /\ Forall2 (RunsJob w c hostMount spec false) jobs js.

(** ** What the compile command takes from a file with these pipelines *)
Definition Chosen {A} (name : string) (plan : list (string * A)) (e : string * A) : Prop :=
  exists before after, plan = before ++ e :: after /\ (name = "" \/ fst e = name) /\
    forall e', In e' before -> name <> "" /\ fst e' <> name.
(** What compiling with the flags prints, for jobs that need [depth] commits. *)
Definition CommandRuns (mc : Machine) (clone : bool) (fl : CompileFlags) (auths : list Auth) (depth : Z) (services jobs : list Job) (y : Exit) : Prop :=
  x_status y = 0%Z /\
  exists c base spec, CommandCompiler mc fl c /\ RunsAll (mc_world mc) c false clone depth services jobs base /\
    Finished mc fl auths base spec /\ x_stdout y = mc_specJSON mc spec.
