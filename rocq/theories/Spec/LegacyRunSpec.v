(** * LegacyRunSpec.v: what a 0.8 configuration does once it is converted and compiled. *)
From Verif Require Import Model.Go Model.Types Model.Cond Model.Engine Model.Image Model.Encode Model.Path Model.Script Model.Legacy Model.Compiler
  Spec.CondSpec Spec.ScriptSpec Spec.CompileSpec Spec.ConvertedSpec.
From Verif Require Spec.LegacySpec.

(** ** Where a step of the compiled pipeline comes from. *)
Inductive Source : Type :=
| OfClone
| OfService (l : LContainer)
| OfStep (l : LContainer).
(** The clone step that is added on request. *)
Definition addedClone : LContainer :=
  {| lc_command := []; lc_commands := []; lc_detached := false; lc_devices := []; lc_err_ignore := false;
     lc_tmpfs := []; lc_dns := []; lc_dns_search := []; lc_entrypoint := []; lc_environment := [];
     lc_extra_hosts := []; lc_image := "plugins/git"; lc_name := "clone"; lc_privileged := false; lc_pull := false;
     lc_shell := ""; lc_volumes := []; lc_secrets := []; lc_constraints := noLConstraints; lc_vargs := [] |}.
(** The containers that run one after another: those of the clone section, then those of the pipeline. *)
Definition inTurn (getenv : string -> string) (g : LConfig) : list LContainer :=
  match lg_clone g with
  | [] => if string_dec (getenv "DRONE_CONVERT_YAML_LEGACY_CLONE") "true" then [addedClone] else []
  | l => l
  end ++ lg_pipeline g.
(** The clone step of the new format comes first, if it is wanted and the file does not clone itself; then the services. *)
Definition newClone (clone : bool) (getenv : string -> string) (g : LConfig) : list string :=
  if clone then takenName getenv g else [].
Definition runs (clone : bool) (getenv : string -> string) (g : LConfig) : list Source :=
  map (fun _ => OfClone) (newClone clone getenv g) ++ map OfService (lg_services g) ++ map OfStep (inTurn getenv g).

(** ** One container *)
(** The value [k] has for the programs of the container, apart from the workspace and the settings. *)
Definition OwnVariable (l : LContainer) (k v : string) : Prop :=
  (LegacySpec.SecretFor l k "" /\ v = "") \/
  (In (k, v) (lc_environment l) /\ forall s, In (Some s) (lc_secrets l) -> toUpper (ls_target s) <> k).
Definition Setting (w : World) (l : LContainer) (k v : string) : Prop :=
  exists name x, In (name, x) (lc_vargs l) /\ k = ("PLUGIN_" +++ toUpper name)%string /\
    v = encode (w_formatFloat w) (w_toJSON w) x.
Definition ClearLegacy (l : LContainer) : Prop :=
  NoDup (mkeys (lc_environment l)) /\ NoDup (mkeys (lc_vargs l)) /\ NoDup (map toUpper (mkeys (lc_vargs l))).
(** No container has two variables or two settings of the same name. *)
Definition AllClear (g : LConfig) : Prop := Forall ClearLegacy (lg_clone g ++ lg_pipeline g ++ lg_services g).
(** The mount shows the directory of the host, if the configuration declares it. *)
Definition FromHost (g : LConfig) (spec : Spec) (m : Mount) (v : LVolume) : Prop :=
  mo_path m = lv_dest v /\
  exists d, sp_docker spec = Some d /\
    (In (lv_source v) (LegacySpec.sources g) -> exists ev, In ev (dc_volumes d) /\ md_name (ev_meta ev) = mo_name m) /\
    (forall ev, In ev (dc_volumes d) -> md_name (ev_meta ev) = mo_name m ->
       In (lv_source v) (LegacySpec.sources g) /\ ev_host ev = Some (lv_source v) /\ ev_empty ev = None).
Definition workspaceMounts (hostMount : bool) (base dir full : string) : list Mount :=
  if hostMount
  then {| mo_name := "host"; mo_path := full |} :: match dir with "" => [] | _ => [{| mo_name := "workspace"; mo_path := base |}] end
  else [{| mo_name := "workspace"; mo_path := base |}].
(** [service]: the container is listed under services. *)
Record Runs (w : World) (c : Compiler) (g : LConfig) (p : Pipeline) (hostMount : bool) (spec : Spec)
    (service : bool) (l : LContainer) (s : Step) : Prop := {
  runs_alone : st_depends s = [];
  runs_detached : st_detach s = (service || lc_detached l)%bool;
  runs_image : ds_image (st_docker s) = Expand (w_available w) (lc_image l);
  runs_program : lc_commands l = [] ->
    ds_command (st_docker s) = lc_entrypoint l /\ ds_args (st_docker s) = lc_command l /\ st_files s = [];
  runs_commands : lc_commands l <> [] ->
    ds_command (st_docker s) = ["/bin/sh"] /\ ds_args (st_docker s) = [scriptPath] /\
    st_files s = [{| fm_name := stepName s; fm_path := scriptPath; fm_mode := 511 |}] /\
    exists f, In f (sp_files spec) /\ md_name (fi_meta f) = stepName s /\
      fi_data f = scriptText posixHead (posixLines (escaped (w_isPrintHigh w))) (lc_commands l);
  runs_environment : ClearLegacy l -> forall k v, envOf s k = Some v <->
    WorkspaceVar p k v \/
    ((forall x, ~ WorkspaceVar p k x) /\
     (Setting w l k v \/ ((forall x, ~ Setting w l k x) /\ OwnVariable l k v)));
  runs_secrets : NoDup (mkeys (lc_environment l)) -> forall name k,
    In {| sv_name := name; sv_env := k |} (st_secrets s) <-> name <> "" /\ LegacySpec.SecretFor l k name;
  runs_pull : ds_pull (st_docker s) = if lc_pull l then PullAlways else PullIfNotExists;
  runs_network : ds_dns (st_docker s) = lc_dns l /\ ds_dns_search (st_docker s) = lc_dns_search l /\
    ds_extra_hosts (st_docker s) = lc_extra_hosts l /\ ds_network (st_docker s) = "" /\ ds_ports (st_docker s) = [];
  runs_user : ds_user (st_docker s) = "" /\ st_resources s = None /\ st_devices s = [];
  runs_failure : st_ignore_err s = false;
  runs_mounts : let '(base, dir, full) := createWorkspace p in
    exists own, st_volumes s = own ++ workspaceMounts hostMount base dir full /\
      Forall2 (fun v m => exists v0, v = Some v0 /\ FromHost g spec m v0) (lc_volumes l) own;
  runs_working_dir : st_working_dir s =
    match lc_commands l with
    | [] => if (service || lc_detached l)%bool then "" else snd (createWorkspace p)
    | _ => snd (createWorkspace p)
    end;
  (** The compiler may make a container privileged or skip it, looking at what it was converted to. *)
  runs_policy : exists ct, LegacySpec.RightContainer l ct /\ ct_name ct = stepName s /\
    let status := lw_status (lc_constraints l) in
    (ds_privileged (st_docker s) = true <->
       lc_privileged l = true \/ exists f, co_privileged c = Some f /\ f ct = true) /\
    (runsOnSuccess (st_policy s) = true <-> ~ Skipped c ct /\ Accepts (w_glob w) status "success") /\
    (runsOnFailure (st_policy s) = true <-> ~ Skipped c ct /\ c_include status <> [] /\ Accepts (w_glob w) status "failure") }.
Definition RunsAs (w : World) (c : Compiler) (g : LConfig) (p : Pipeline) (hostMount : bool) (spec : Spec)
    (src : Source) (s : Step) : Prop :=
  match src with
  | OfClone => stepName s = "clone" /\ st_detach s = false /\ st_depends s = [] /\
      ds_image (st_docker s) = Expand (w_available w) "drone/git" /\ ds_privileged (st_docker s) = false /\
      st_policy s = RunOnSuccess
  | OfService l => stepName s = lc_name l /\ Runs w c g p hostMount spec true l s
  | OfStep l => Runs w c g p hostMount spec false l s
  end.
(** The names of the clone step and of the services are kept, those of the steps made distinct. *)
Definition RightRunNames (clone : bool) (getenv : string -> string) (g : LConfig) (spec : Spec) : Prop :=
  exists final, LegacySpec.RightNames (legacyNames getenv g) final /\
    map stepName (sp_steps spec) = newClone clone getenv g ++ map lc_name (lg_services g) ++ final.
