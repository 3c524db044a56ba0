(** * MainSpec.v: what the commands of the program must do. *)
From Coq Require Import Sorting.Permutation.
From Verif Require Import Model.Go Model.Types Model.RawParse Model.Lint Model.Cond Model.Engine Model.Dind Model.Compiler
  Model.Convert Model.Pretty Model.Main Spec.CompileSpec Spec.TransformSpec.

(** Everything the program takes from its surroundings. *)
Record Machine : Type := {
  mc_decoder : Decoder; mc_mac : string -> string -> string;
  mc_bitbucket : string -> string -> outcome string; mc_gitlab : string -> outcome string;
  mc_legacy : string -> string -> outcome string; mc_world : World;
  mc_sprintFloat : float64 -> string; mc_bytesSize : Z -> string; mc_specJSON : Spec -> string;
  mc_env : string -> string; mc_envOrd : smap string -> smap string; mc_proxyOrd : smap string -> smap string;
  mc_labelOrd : nat -> smap string -> smap string; mc_writable : string -> bool;
  mc_fatal : string -> string; mc_trace : string }.
Definition run (mc : Machine) : Args -> Files -> Exit :=
  main (mc_decoder mc) (mc_mac mc) (mc_bitbucket mc) (mc_gitlab mc) (mc_legacy mc)
    (w_rnd (mc_world mc)) (w_glob (mc_world mc)) (w_available (mc_world mc)) (w_isPrintHigh (mc_world mc))
    (w_formatFloat (mc_world mc)) (mc_sprintFloat mc) (mc_bytesSize mc) (w_toJSON (mc_world mc)) (w_ord (mc_world mc))
    (mc_specJSON mc) (mc_env mc) (mc_envOrd mc) (mc_proxyOrd mc) (mc_labelOrd mc) (mc_writable mc)
    (mc_fatal mc) (mc_trace mc).
Definition formatted (mc : Machine) : Manifest -> outcome string :=
  print (w_isPrintHigh (mc_world mc)) (w_formatFloat (mc_world mc)) (mc_sprintFloat mc) (mc_bytesSize mc).
Definition converted (mc : Machine) (f addr content : string) : outcome string :=
  ConvertFile (mc_bitbucket mc) (mc_gitlab mc) (mc_legacy mc) content {| me_filename := f; me_url := addr; me_ref := "" |}.
(** Maps are visited in some order. *)
Definition Orders (mc : Machine) : Prop :=
  (forall m, Permutation m (mc_envOrd mc m)) /\ (forall m, Permutation m (mc_proxyOrd mc m)) /\
  (forall i m, Permutation m (mc_labelOrd mc i m)).
(** Nothing happened to the files. *)
Definition Untouched (fs : Files) (x : Exit) : Prop := forall g, x_files x g = fs g.
(** Nothing happened to any file but [f], which now reads [data]. *)
Definition OnlyWritten (fs : Files) (f data : string) (x : Exit) : Prop :=
  x_files x f = Some data /\ forall g, g <> f -> x_files x g = fs g.

(** The first pipeline with the name, or the first one if no name is given. *)
Definition Selected (name : string) (l : list Resource) (p : Pipeline) : Prop :=
  exists before after, l = before ++ RPipeline p :: after /\ (name = "" \/ pi_name p = name) /\
    forall q, In (RPipeline q) before -> name <> "" /\ pi_name q <> name.
(** The same pipeline without a clone step. *)
Definition WithoutClone (p q : Pipeline) : Prop :=
  cl_disable (pi_clone q) = true /\ cl_depth (pi_clone q) = cl_depth (pi_clone p) /\
  cl_skip_verify (pi_clone q) = cl_skip_verify (pi_clone p) /\
  pi_version q = pi_version p /\ pi_kind q = pi_kind p /\ pi_type q = pi_type p /\ pi_name q = pi_name p /\
  pi_concurrency q = pi_concurrency p /\ pi_depends q = pi_depends p /\ pi_node q = pi_node p /\
  pi_platform q = pi_platform p /\ pi_pull_secrets q = pi_pull_secrets p /\ pi_services q = pi_services p /\
  pi_steps q = pi_steps p /\ pi_trigger q = pi_trigger p /\ pi_volumes q = pi_volumes p /\ pi_workspace q = pi_workspace p.
(** A registry url with a name and a password. *)
Definition RegistryOf (u : URL) (a : Auth) : Prop :=
  u_user u = Some (au_username a, Some (au_password a)) /\ u_host u = au_address a.

(** The compiler the flags ask for, apart from its transform. *)
Definition CommandCompiler (mc : Machine) (f : CompileFlags) (c : Compiler) : Prop :=
  Standard (mc_world mc) c None false /\
  (exists creds, co_git c = Some creds /\ creds = concats (map (fun u => u_string u +++ nl)%string (cf_creds f))) /\
  (exists privileged, co_privileged c = Some privileged /\
     forall x, privileged x = DindFunc (w_available (mc_world mc)) (cf_dind f) x) /\
  (exists skip, co_skip c = Some skip /\ forall x, skip x = SkipFunc (w_glob (mc_world mc))
     {| sk_branch := cf_branch f; sk_cron := cf_cron f; sk_event := cf_event f; sk_instance := cf_instance f;
        sk_ref := cf_ref f; sk_repo := cf_repo f; sk_target := cf_deploy f; sk_action := "" |} x).

(** [Over new old]: what [new] says counts, otherwise what [old] says. *)
Definition Over (new old : string -> string -> Prop) (k v : string) : Prop :=
  new k v \/ ((forall x, ~ new k x) /\ old k v).
(** The variables about the commit. *)
Definition CommitVar (f : CompileFlags) (k v : string) : Prop :=
  (k = "DRONE_COMMIT_BRANCH" /\ v = cf_branch f) \/ (k = "DRONE_COMMIT_SHA" /\ v = cf_sha f) \/
  (k = "DRONE_COMMIT_REF" /\ v = cf_ref f) \/ (k = "DRONE_REMOTE_URL" /\ v = cf_remote f) \/
  (k = "DRONE_BUILD_EVENT" /\ v = cf_event f) \/ (k = "DRONE_TAG" /\ cf_ref f = ("refs/tags/" +++ v)%string).
Definition NetrcVar (f : CompileFlags) (k v : string) : Prop :=
  cf_username f <> "" /\ cf_password f <> "" /\
  In (k, v) (netrcVars (cf_machine f) (cf_username f) (cf_password f)).
(** A step before and after the transforms; [mounts] are the volumes of the command line. *)
Definition FinishedStep (mc : Machine) (f : CompileFlags) (mounts : list Mount) (s t : Step) : Prop :=
  SameMetaBut "labels" (st_meta s) (st_meta t) /\ Written (cf_label f) (md_labels (st_meta s)) (md_labels (st_meta t)) /\
  st_detach t = st_detach s /\ st_depends t = st_depends s /\ st_devices t = st_devices s /\
  SameDockerBut "networks" (st_docker s) (st_docker t) /\
  ds_networks (st_docker t) = ds_networks (st_docker s) ++ cf_network f /\
  (forall k v, envOf t k = Some v <->
     Over (ProxyVar (mc_env mc)) (Over (NetrcVar f) (Over (CommitVar f)
       (Over (fun k v => In (k, v) (cf_env f)) (fun k v => envOf s k = Some v)))) k v) /\
  st_files t = st_files s /\ st_ignore_err t = st_ignore_err s /\ st_ignore_stderr t = st_ignore_stderr s /\
  st_ignore_stdout t = st_ignore_stdout s /\ st_policy t = st_policy s /\ st_secrets t = st_secrets s /\
  st_working_dir t = st_working_dir s /\ st_volumes t = st_volumes s ++ mounts /\
  (cf_memlimit f = 0%Z -> st_resources t = st_resources s) /\
  (cf_memlimit f <> 0%Z -> exists r, st_resources t = Some r /\
     er_limits r = Some {| eo_cpu := 0; eo_memory := cf_memlimit f |} /\
     er_requests r = match st_resources s with Some b => er_requests b | None => None end).
Definition Finished (mc : Machine) (f : CompileFlags) (auths : list Auth) (a b : Spec) : Prop :=
  exists d vols added secrets,
    SameMetaBut "labels" (sp_meta a) (sp_meta b) /\ Written (cf_label f) (md_labels (sp_meta a)) (md_labels (sp_meta b)) /\
    sp_platform b = sp_platform a /\ sp_files b = sp_files a /\
    sp_secrets b = sp_secrets a ++ secrets /\ map (fun s => (md_name (es_meta s), es_data s)) secrets = cf_secret f /\
    sp_docker a = Some d /\ sp_docker b = Some {| dc_auths := dc_auths d ++ auths; dc_volumes := vols ++ added |} /\
    Forall2 (fun v w => ev_empty w = ev_empty v /\ ev_host w = ev_host v /\ SameMetaBut "labels" (ev_meta v) (ev_meta w) /\
      Written (cf_label f) (md_labels (ev_meta v)) (md_labels (ev_meta w))) (dc_volumes d) vols /\
    Forall2 (fun v kv => HostVolume (md_name (sp_meta a)) (fst kv) v) added (cf_volume f) /\
    Forall2 (FinishedStep mc f (map (fun vc => {| mo_name := md_name (ev_meta (fst vc)); mo_path := snd (snd vc) |}) (combine added (cf_volume f))))
      (sp_steps a) (sp_steps b).
