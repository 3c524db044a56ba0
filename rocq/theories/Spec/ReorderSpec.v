(** * ReorderSpec.v: pipelines that differ only in the order of their maps, and specs that differ
    only in what such an order can show. *)
From Coq Require Import Sorting.Permutation.
From Verif Require Import Model.Go Model.Types Model.Engine Model.Compiler Spec.CompileSpec.

(** ** Values and maps *)
Inductive SameValue : value -> value -> Prop :=
| same_value v : SameValue v v
| same_list l l' : Forall2 SameValue l l' -> SameValue (VList l) (VList l')
| same_map m m' m'' :
    Forall2 (fun e f => fst e = fst f /\ SameValue (snd e) (snd f)) m m' -> Permutation m' m'' -> SameValue (VMap m) (VMap m'').
Inductive SameParameter : option Parameter_ -> option Parameter_ -> Prop :=
| same_null : SameParameter None None
| same_parameter p p' : p_secret p = p_secret p' -> SameValue (p_value p) (p_value p') -> SameParameter (Some p) (Some p').
(** JSON text that does not depend on the order of mapping entries. *)
Definition OrderedJSON (toJSON : value -> string) : Prop := forall v v', SameValue v v' -> toJSON v = toJSON v'.

(** ** Pipelines *)
Inductive SameBuild : option Build -> option Build -> Prop :=
| same_no_build : SameBuild None None
| same_build b b' : Permutation (b_args b) (b_args b') -> Permutation (b_labels b) (b_labels b') ->
    b_cache_from b = b_cache_from b' -> b_context b = b_context b' -> b_dockerfile b = b_dockerfile b' ->
    b_image b = b_image b' -> SameBuild (Some b) (Some b').
Definition reordered (c : Container) (build : option Build) (env : smap (option Variable_)) (settings : smap (option Parameter_)) : Container :=
  {| ct_build := build; ct_command := ct_command c; ct_commands := ct_commands c;
     ct_detach := ct_detach c; ct_depends := ct_depends c; ct_devices := ct_devices c; ct_dns := ct_dns c;
     ct_dns_search := ct_dns_search c; ct_entrypoint := ct_entrypoint c; ct_environment := env;
     ct_extra_hosts := ct_extra_hosts c; ct_failure := ct_failure c; ct_image := ct_image c;
     ct_network := ct_network c; ct_name := ct_name c; ct_ports := ct_ports c; ct_privileged := ct_privileged c;
     ct_pull := ct_pull c; ct_push := ct_push c; ct_resources := ct_resources c; ct_settings := settings;
     ct_shell := ct_shell c; ct_user := ct_user c; ct_volumes := ct_volumes c; ct_when := ct_when c;
     ct_working_dir := ct_working_dir c |}.
Inductive SameContainer : Container -> Container -> Prop :=
| same_container c build env settings settings' :
    SameBuild (ct_build c) build -> Permutation (ct_environment c) env ->
    Forall2 (fun e f => fst e = fst f /\ SameParameter (snd e) (snd f)) (ct_settings c) settings -> Permutation settings settings' ->
    SameContainer c (reordered c build env settings').
Inductive SameEntry : option Container -> option Container -> Prop :=
| same_no_entry : SameEntry None None
| same_entry c c' : SameContainer c c' -> SameEntry (Some c) (Some c').
(** The platform may be spelled out, if there is none. *)
Definition SamePlatform (a b : Platform) : Prop :=
  a = b \/
  a = {| pl_os := ""; pl_arch := ""; pl_variant := ""; pl_version := "" |} /\
  b = {| pl_os := "linux"; pl_arch := "amd64"; pl_variant := ""; pl_version := "" |}.
Record SamePipeline (p p' : Pipeline) : Prop := {
  same_name : pi_name p = pi_name p';
  same_kind : pi_kind p = pi_kind p';
  same_type : pi_type p = pi_type p';
  same_clone : pi_clone p = pi_clone p';
  same_platform : SamePlatform (pi_platform p) (pi_platform p');
  same_services : Forall2 SameEntry (pi_services p) (pi_services p');
  same_steps : Forall2 SameEntry (pi_steps p) (pi_steps p');
  same_volumes : pi_volumes p = pi_volumes p';
  same_workspace : pi_workspace p = pi_workspace p' }.

(** ** Specs *)
(** Environments are equal as maps and secrets as multisets; all else is equal. *)
Record SameStep (s s' : Step) : Prop := {
  step_meta : st_meta s = st_meta s';
  step_detach : st_detach s = st_detach s';
  step_depends : st_depends s = st_depends s';
  step_devices : st_devices s = st_devices s';
  step_docker : st_docker s = st_docker s';
  step_envs : forall k, envOf s k = envOf s' k;
  step_no_envs : st_envs s = None <-> st_envs s' = None;
  step_files : st_files s = st_files s';
  step_ignore_err : st_ignore_err s = st_ignore_err s';
  step_ignore_stderr : st_ignore_stderr s = st_ignore_stderr s';
  step_ignore_stdout : st_ignore_stdout s = st_ignore_stdout s';
  step_resources : st_resources s = st_resources s';
  step_policy : st_policy s = st_policy s';
  step_secrets : Permutation (st_secrets s) (st_secrets s');
  step_volumes : st_volumes s = st_volumes s';
  step_working_dir : st_working_dir s = st_working_dir s' }.
Record SameSpec (a b : Spec) : Prop := {
  spec_meta : sp_meta a = sp_meta b;
  spec_platform : SamePlatform (sp_platform a) (sp_platform b);
  spec_docker : sp_docker a = sp_docker b;
  spec_files : sp_files a = sp_files b;
  spec_secrets : sp_secrets a = sp_secrets b;
  spec_steps : Forall2 SameStep (sp_steps a) (sp_steps b) }.

(** ** Conditions *)
(** The predicates the compiler is given do not look at the order of maps. *)
Definition OrderBlind (c : Compiler) : Prop :=
  forall f, co_privileged c = Some f \/ co_skip c = Some f -> forall x y, SameContainer x y -> f x = f y.
(** No two settings of a container collide by case, no two entries of a map have the same key. *)
Definition ClearMaps (p : Pipeline) : Prop :=
  Forall (fun c => MapsOk c /\ NoCollision c) (present (pi_services p) ++ present (pi_steps p)).
(** The same surroundings, but maps are visited in another order. *)
Definition SameWorld (w w' : World) : Prop :=
  w_rnd w = w_rnd w' /\ w_glob w = w_glob w' /\ w_available w = w_available w' /\ w_isPrintHigh w = w_isPrintHigh w' /\
  w_formatFloat w = w_formatFloat w' /\ w_toJSON w = w_toJSON w'.
(** Two runs end alike. *)
Definition SameResult (x y : outcome (Spec * nat)) : Prop :=
  match x, y with
  | Ok (a, n), Ok (b, m) => SameSpec a b /\ n = m
  | Err e, Err e' => e = e'
  | Panic, Panic => True
  | _, _ => False
  end.
(** A transform that does not look at the order of maps. *)
Definition OrderProof (t : Spec -> M Spec) : Prop := forall a b n, SameSpec a b -> SameResult (t a n) (t b n).
