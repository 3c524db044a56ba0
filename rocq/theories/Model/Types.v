(** * Types.v: the data types of package yaml (yaml/pipeline.go, cond.go, env.go, param.go,
    port.go, build.go, push.go, cron.go, secret.go, signature.go, registry.go, manifest.go). *)
From Coq Require Import Floats.SpecFloat.
From Verif Require Import Model.Go.

(** A float64: the axiom-free IEEE-754 specification type of the standard library,
    used at precision 53 and exponent bound 1024. *)
Definition float64 := spec_float.

(** A value of Go type interface{} as the yaml decoder produces it. []byte values
    (yaml !!binary) decode to strings, so they do not occur. Map keys are values too
    (map[interface{}]interface{}); the entry list is in iteration order. Timestamps are
    out of the model. *)
Inductive value : Type :=
| VNull
| VBool (b : bool)
| VInt (z : Z)
| VFloat (f : float64)
| VStr (s : string)
| VList (l : list value)
| VMap (m : list (value * value)).

(** yaml/cond.go 36-39. *)
Record Condition : Type := { c_include : list string; c_exclude : list string }.
Definition noCond : Condition := {| c_include := []; c_exclude := [] |}.

(** yaml/cond.go 20-32. *)
Record Conditions : Type := {
  w_action : Condition; w_cron : Condition; w_ref : Condition; w_repo : Condition;
  w_instance : Condition; w_target : Condition; w_event : Condition; w_branch : Condition;
  w_status : Condition; w_paths : Condition; w_matrix : smap string }.
Definition noConds : Conditions :=
  {| w_action := noCond; w_cron := noCond; w_ref := noCond; w_repo := noCond;
     w_instance := noCond; w_target := noCond; w_event := noCond; w_branch := noCond;
     w_status := noCond; w_paths := noCond; w_matrix := [] |}.

(** yaml/env.go 21-24. *)
Record Variable_ : Type := { v_value : string; v_secret : string }.
(** yaml/param.go 21-24. *)
Record Parameter_ : Type := { p_value : value; p_secret : string }.
(** yaml/port.go 20-24. *)
Record Port : Type := { po_port : Z; po_host : Z; po_protocol : string }.
(** yaml/build.go 19-26. *)
Record Build : Type := {
  b_args : smap string; b_cache_from : list string; b_context : string;
  b_dockerfile : string; b_image : string; b_labels : smap string }.
(** yaml/push.go 19-21. *)
Record Push : Type := { pu_image : string }.

(** yaml/pipeline.go 101-104 (BytesSize is an int64). *)
Record ResourceObject : Type := { ro_cpu : float64; ro_memory : Z }.
(** yaml/pipeline.go 89-97. *)
Record Resources : Type := { re_limits : option ResourceObject; re_requests : option ResourceObject }.

(** yaml/pipeline.go 123-126, 130-133, 138-141, 145-147, 115-119. *)
Record VolumeDevice : Type := { vd_name : string; vd_path : string }.
Record VolumeMount : Type := { vm_name : string; vm_path : string }.
Record VolumeEmptyDir : Type := { ve_medium : string; ve_size : Z }.
Record VolumeHostPath : Type := { vh_path : string }.
Record Volume : Type := {
  vo_name : string; vo_empty : option VolumeEmptyDir; vo_host : option VolumeHostPath }.

(** yaml/pipeline.go 58-85. Pointers that the yaml can leave nil are options. *)
Record Container : Type := {
  ct_build : option Build;
  ct_command : list string;
  ct_commands : list string;
  ct_detach : bool;
  ct_depends : list string;
  ct_devices : list (option VolumeDevice);
  ct_dns : list string;
  ct_dns_search : list string;
  ct_entrypoint : list string;
  ct_environment : smap (option Variable_);
  ct_extra_hosts : list string;
  ct_failure : string;
  ct_image : string;
  ct_network : string;
  ct_name : string;
  ct_ports : list (option Port);
  ct_privileged : bool;
  ct_pull : string;
  ct_push : option Push;
  ct_resources : option Resources;
  ct_settings : smap (option Parameter_);
  ct_shell : string;
  ct_user : string;
  ct_volumes : list (option VolumeMount);
  ct_when : Conditions;
  ct_working_dir : string }.

(** The zero value of yaml.Container. *)
Definition emptyContainer : Container :=
  {| ct_build := None; ct_command := []; ct_commands := []; ct_detach := false;
     ct_depends := []; ct_devices := []; ct_dns := []; ct_dns_search := [];
     ct_entrypoint := []; ct_environment := []; ct_extra_hosts := []; ct_failure := "";
     ct_image := ""; ct_network := ""; ct_name := ""; ct_ports := []; ct_privileged := false;
     ct_pull := ""; ct_push := None; ct_resources := None; ct_settings := []; ct_shell := "";
     ct_user := ""; ct_volumes := []; ct_when := noConds; ct_working_dir := "" |}.

(** yaml/pipeline.go 46-50, 106-111, 150-153. *)
Record Clone : Type := { cl_disable : bool; cl_depth : Z; cl_skip_verify : bool }.
Record Platform : Type := { pl_os : string; pl_arch : string; pl_variant : string; pl_version : string }.
Record Workspace : Type := { ws_base : string; ws_path : string }.

(** yaml/pipeline.go 19-36 (Concurrency is its only field, the limit). *)
Record Pipeline : Type := {
  pi_version : string; pi_kind : string; pi_type : string; pi_name : string;
  pi_clone : Clone;
  pi_concurrency : Z;
  pi_depends : list string;
  pi_node : smap string;
  pi_platform : Platform;
  pi_pull_secrets : list string;
  pi_services : list (option Container);
  pi_steps : list (option Container);
  pi_trigger : Conditions;
  pi_volumes : list (option Volume);
  pi_workspace : Workspace }.

Definition noClone : Clone := {| cl_disable := false; cl_depth := 0; cl_skip_verify := false |}.
Definition noPlatform : Platform := {| pl_os := ""; pl_arch := ""; pl_variant := ""; pl_version := "" |}.
Definition noWorkspace : Workspace := {| ws_base := ""; ws_path := "" |}.
Definition emptyPipeline : Pipeline :=
  {| pi_version := ""; pi_kind := ""; pi_type := ""; pi_name := ""; pi_clone := noClone;
     pi_concurrency := 0; pi_depends := []; pi_node := []; pi_platform := noPlatform;
     pi_pull_secrets := []; pi_services := []; pi_steps := []; pi_trigger := noConds;
     pi_volumes := []; pi_workspace := noWorkspace |}.

(** yaml/cron.go 22-41. *)
Record Cron : Type := {
  cr_version : string; cr_kind : string; cr_type : string; cr_name : string;
  cr_schedule : string; cr_branch : string; cr_target : string }.
(** yaml/secret.go 25-43. *)
Record Secret : Type := {
  se_version : string; se_kind : string; se_type : string; se_name : string;
  se_data : string; se_get_path : string; se_get_name : string; se_get_key : string }.
(** yaml/signature.go 24-28. *)
Record Signature : Type := { si_version : string; si_kind : string; si_hmac : string }.
(** yaml/registry.go 24-30. *)
Record Registry : Type := {
  rg_version : string; rg_kind : string; rg_type : string; rg_data : smap string }.

(** yaml/manifest.go 41-47: the values of interface Resource the package defines. *)
Inductive Resource : Type :=
| RCron (c : Cron)
| RPipeline (p : Pipeline)
| RSecret (s : Secret)
| RSignature (s : Signature)
| RRegistry (r : Registry).

(** yaml/pipeline.go 42, cron.go 48, secret.go 56, signature.go 34, registry.go 36: GetKind. *)
Definition getKind (r : Resource) : string :=
  match r with
  | RCron c => cr_kind c
  | RPipeline p => pi_kind p
  | RSecret s => se_kind s
  | RSignature s => si_kind s
  | RRegistry r => rg_kind r
  end.

(** yaml/manifest.go 36-38. *)
Record Manifest : Type := { mf_resources : list Resource }.
