(** * TransformSpec.v: what the transforms may change. *)
From Verif Require Import Model.Go Model.Types Model.Cond Model.Engine Model.Compiler Spec.CompileSpec.

(** Steps that differ in nothing but one field. *)
Definition SameDockerBut (field : string) (a b : DockerStep) : Prop :=
  ds_args b = ds_args a /\ ds_command b = ds_command a /\ ds_dns b = ds_dns a /\ ds_dns_search b = ds_dns_search a /\
  ds_extra_hosts b = ds_extra_hosts a /\ ds_image b = ds_image a /\ ds_network b = ds_network a /\
  (field <> "networks" -> ds_networks b = ds_networks a) /\ ds_ports b = ds_ports a /\
  ds_privileged b = ds_privileged a /\ ds_pull b = ds_pull a /\ ds_user b = ds_user a.
Definition SameMetaBut (field : string) (a b : Metadata) : Prop :=
  md_uid b = md_uid a /\ md_namespace b = md_namespace a /\ md_name b = md_name a /\
  (field <> "labels" -> md_labels b = md_labels a).
Definition SameStepBut (field : string) (a b : Step) : Prop :=
  SameMetaBut field (st_meta a) (st_meta b) /\ st_detach b = st_detach a /\ st_depends b = st_depends a /\
  st_devices b = st_devices a /\ SameDockerBut field (st_docker a) (st_docker b) /\
  (field <> "envs" -> st_envs b = st_envs a) /\ st_files b = st_files a /\ st_ignore_err b = st_ignore_err a /\
  st_ignore_stderr b = st_ignore_stderr a /\ st_ignore_stdout b = st_ignore_stdout a /\
  (field <> "resources" -> st_resources b = st_resources a) /\ (field <> "policy" -> st_policy b = st_policy a) /\
  st_secrets b = st_secrets a /\ (field <> "volumes" -> st_volumes b = st_volumes a) /\
  st_working_dir b = st_working_dir a.
(** Specs that differ in nothing but some sections; the steps are related by [R]. *)
Definition SameSpecBut (sections : list string) (R : Step -> Step -> Prop) (a b : Spec) : Prop :=
  (~ In "metadata" sections -> sp_meta b = sp_meta a) /\ sp_platform b = sp_platform a /\
  (~ In "docker" sections -> sp_docker b = sp_docker a) /\ sp_files b = sp_files a /\
  (~ In "secrets" sections -> sp_secrets b = sp_secrets a) /\ Forall2 R (sp_steps a) (sp_steps b).

(** Writing [new] over a map: new entries win, the others stay. *)
Definition Written (new : smap string) (before after : option (smap string)) : Prop :=
  match after with
  | None => before = None /\ new = []
  | Some m => forall k v, mget k m = Some v <->
      In (k, v) new \/ (~ In k (mkeys new) /\ exists b, before = Some b /\ mget k b = Some v)
  end.

(** A name that can be switched off. *)
Definition notClone (s : Step) : Prop := stepName s <> "clone".
(** [b] is [a] switched off exactly when [off] holds. *)
Definition OffIff (off : Step -> Prop) (a b : Step) : Prop :=
  SameStepBut "policy" a b /\ (off a -> st_policy b = RunNever) /\ (~ off a -> st_policy b = st_policy a).

(** C44: the names of the secrets used by steps that can run. *)
Definition Used (spec : Spec) (name : string) : Prop :=
  exists s v, In s (sp_steps spec) /\ st_policy s <> RunNever /\ In v (st_secrets s) /\ sv_name v = name.
(** Asking a callback with memory for each name in turn. *)
Fixpoint answers {State} (f : string -> State -> State * option ESecret) (names : list string) (st : State)
  : State * list ESecret :=
  match names with
  | [] => (st, [])
  | name :: names' =>
      let '(st1, a) := f name st in
      let '(st2, l) := answers f names' st1 in
      (st2, match a with Some s => s :: l | None => l end)
  end.
(** The secret with a new identifier and the namespace of the spec. *)
Definition Stamped (ns uid : string) (a b : ESecret) : Prop :=
  es_meta b = {| md_uid := uid; md_namespace := ns; md_name := md_name (es_meta a); md_labels := md_labels (es_meta a) |} /\
  es_data b = es_data a.

(** C45 *)
Definition netrcVars (machine username password : string) : smap string :=
  [("CI_NETRC_MACHINE", machine); ("CI_NETRC_USERNAME", username); ("CI_NETRC_PASSWORD", password);
   ("DRONE_NETRC_MACHINE", machine); ("DRONE_NETRC_USERNAME", username); ("DRONE_NETRC_PASSWORD", password)].
(** The proxy settings of the process: the upper-case variable counts before the lower-case one. *)
Definition ProxySetting (env : string -> string) (lower upper value : string) : Prop :=
  value <> "" /\ (env upper = value \/ (env upper = "" /\ env lower = value)).
Definition ProxyVar (env : string -> string) (k value : string) : Prop :=
  (In k ["no_proxy"; "NO_PROXY"] /\ ProxySetting env "no_proxy" "NO_PROXY" value) \/
  (In k ["http_proxy"; "HTTP_PROXY"] /\ ProxySetting env "http_proxy" "HTTP_PROXY" value) \/
  (In k ["https_proxy"; "HTTPS_PROXY"] /\ ProxySetting env "https_proxy" "HTTPS_PROXY" value).

(** C47 *)
Definition HostVolume (ns : string) (path : string) (v : EVolume) : Prop :=
  md_namespace (ev_meta v) = ns /\ md_labels (ev_meta v) = Some [] /\ ev_empty v = None /\ ev_host v = Some path.
Definition NoColon (s : string) : Prop := hasChar ":" s = false.
(** [s] reads host:container. *)
Definition IsPair (s k v : string) : Prop := NoColon k /\ NoColon v /\ s = (k +++ ":" +++ v)%string.
(** The last pair for a host path wins. *)
Definition LastPair (entries : list string) (k v : string) : Prop :=
  exists before e after, entries = before ++ e :: after /\ IsPair e k v /\ forall e' w, In e' after -> ~ IsPair e' k w.
(** Every map of labels a transform writes to is there. *)
Definition Labelled (spec : Spec) : Prop :=
  md_labels (sp_meta spec) <> None /\
  Forall (fun v => md_labels (ev_meta v) <> None) (match sp_docker spec with Some d => dc_volumes d | None => [] end) /\
  Forall (fun s => md_labels (st_meta s) <> None) (sp_steps spec).

(** C49: running functions one after the other. *)
Inductive Chain (fns : list (Spec -> M Spec)) : Spec -> nat -> outcome (Spec * nat) -> Prop :=
| Chain_done s n : fns = [] -> Chain fns s n (Ok (s, n))
| Chain_next f rest s n s' n' r : fns = f :: rest -> f s n = Ok (s', n') -> Chain rest s' n' r -> Chain fns s n r
| Chain_err f rest s n e : fns = f :: rest -> f s n = Err e -> Chain fns s n (Err e)
| Chain_panic f rest s n : fns = f :: rest -> f s n = Panic -> Chain fns s n Panic.
(** The same compiler without its transform. *)
Definition noTransform (c : Compiler) : Compiler :=
  {| co_git := co_git c; co_privileged := co_privileged c; co_skip := co_skip c; co_transform := None;
     co_workspace := co_workspace c; co_mount := co_mount c |}.
