(** * Lint.v: package linter (yaml/linter/linter.go, yaml/linter/config.go) and the Validate
    methods it calls. *)
From Verif Require Import Model.Go Model.Types.

(** [if b { return errors.New(e) }] *)
Definition refuse (b : bool) (e : string) : outcome unit := if b then Err e else Ok tt.

(** yaml/cron.go 51-58. *)
Definition validateCron (c : Cron) : outcome unit :=
  refuse (isEmpty (cr_branch c)) "yaml: invalid cron branch".
(** yaml/secret.go 59-64. *)
Definition validateSecret (s : Secret) : outcome unit :=
  refuse (isEmpty (se_data s) && isEmpty (se_get_path s) && isEmpty (se_get_name s))
    "yaml: invalid secret resource".
(** yaml/signature.go 37-42. *)
Definition validateSignature (s : Signature) : outcome unit :=
  refuse (isEmpty (si_hmac s)) "yaml: invalid signature. missing hash".
(** yaml/registry.go 39-44. *)
Definition validateRegistry (r : Registry) : outcome unit :=
  refuse (Nat.eqb (length (rg_data r)) 0) "yaml: invalid registry resource".

(** yaml/linter/linter.go 24-35. *)
Definition osNames : list string := ["linux"; "windows"].
Definition archNames : list string := ["arm"; "arm64"; "amd64"; "ppc64le"; "s390x"].
(** yaml/linter/linter.go 39, 43, 48. *)
Definition ErrDuplicateStepName : string := "linter: duplicate step names".
Definition ErrMissingDependency : string := "linter: invalid or unknown step dependency".
Definition ErrCyclicalDependency : string := "linter: cyclical step dependency detected".

(** yaml/linter/linter.go 113-127. *)
Definition checkPlatform (p : Platform) : outcome unit :=
  refuse (negb (isEmpty (pl_os p)) && negb (smem (pl_os p) osNames))
    ("linter: unsupported os: " +++ pl_os p)%string ;;;
  refuse (negb (isEmpty (pl_arch p)) && negb (smem (pl_arch p) archNames))
    ("linter: unsupported architecture: " +++ pl_arch p)%string.

(** yaml/linter/linter.go 180-185: the port is only looked at in an untrusted repository. *)
Definition checkPort (trusted : bool) (port : option Port) : outcome unit :=
  if trusted then Ok tt
  else p <- deref port ;;
       refuse (negb (Z.eqb (po_host p) 0)) "linter: untrusted repositories cannot map to a host port".
(** yaml/linter/linter.go 170-178. *)
Definition checkPorts (ports : list (option Port)) (trusted : bool) : outcome unit :=
  oiter (checkPort trusted) ports.

(** yaml/linter/linter.go 163 and 202. *)
Definition reservedVolume (name : string) : bool :=
  smem name ["workspace"; "_workspace"; "_docker_socket"].

(** yaml/linter/linter.go 161-166. *)
Definition checkMount (mount : option VolumeMount) : outcome unit :=
  m <- deref mount ;;
  refuse (reservedVolume (vm_name m)) ("linter: invalid volume name: " +++ vm_name m)%string.

(** yaml/linter/linter.go 129-168. *)
Definition checkContainer (c : Container) (trusted : bool) : outcome unit :=
  checkPorts (ct_ports c) trusted ;;;
  refuse (match ct_build c with None => isEmpty (ct_image c) | Some _ => false end)
    "linter: invalid or missing image" ;;;
  refuse (match ct_build c with Some b => isEmpty (b_image b) | None => false end)
    "linter: invalid or missing build image" ;;;
  refuse (isEmpty (ct_name c)) "linter: invalid or missing name" ;;;
  refuse (negb trusted && ct_privileged c)
    "linter: untrusted repositories cannot enable privileged mode" ;;;
  refuse (negb trusted && Nat.ltb 0 (length (ct_devices c)))
    "linter: untrusted repositories cannot mount devices" ;;;
  refuse (negb trusted && Nat.ltb 0 (length (ct_dns c)))
    "linter: untrusted repositories cannot configure dns" ;;;
  refuse (negb trusted && Nat.ltb 0 (length (ct_dns_search c)))
    "linter: untrusted repositories cannot configure dns_search" ;;;
  refuse (negb trusted && Nat.ltb 0 (length (ct_extra_hosts c)))
    "linter: untrusted repositories cannot configure extra_hosts" ;;;
  refuse (negb trusted && negb (isEmpty (ct_network c)))
    "linter: untrusted repositories cannot configure network_mode" ;;;
  oiter checkMount (ct_volumes c).

(** yaml/linter/linter.go 187-221. *)
Definition checkVolume (trusted : bool) (volume : option Volume) : outcome unit :=
  v <- deref volume ;;
  match vo_empty v with
  | Some e => refuse (negb trusted && String.eqb (ve_medium e) "memory")
                "linter: untrusted repositories cannot mount in-memory volumes"
  | None => Ok tt
  end ;;;
  match vo_host v with
  | Some _ => refuse (negb trusted) "linter: untrusted repositories cannot mount host volumes"
  | None => Ok tt
  end ;;;
  refuse (reservedVolume (vo_name v)) ("linter: invalid volume name: " +++ vo_name v)%string.
Definition checkVolumes (p : Pipeline) (trusted : bool) : outcome unit :=
  oiter (checkVolume trusted) (pi_volumes p).

(** yaml/linter/linter.go 223-234. *)
Definition checkDeps (c : Container) (names : list string) : outcome unit :=
  oiter (fun dep =>
    refuse (negb (smem dep names)) ErrMissingDependency ;;;
    refuse (String.eqb (ct_name c) dep) ErrCyclicalDependency) (ct_depends c).

(** yaml/linter/linter.go 81-97, one step; [names] is the set of names seen so far. *)
Definition checkStep (trusted : bool) (names : list string) (container : option Container) : outcome (list string) :=
  c <- deref container ;;
  refuse (smem (ct_name c) names) ErrDuplicateStepName ;;;
  let names' := ct_name c :: names in
  checkContainer c trusted ;;;
  checkDeps c names' ;;;
  Ok names'.
(** yaml/linter/linter.go 98-109, one service. *)
Definition checkService (trusted : bool) (names : list string) (container : option Container) : outcome (list string) :=
  c <- deref container ;;
  refuse (smem (ct_name c) names) ErrDuplicateStepName ;;;
  let names' := ct_name c :: names in
  checkContainer c trusted ;;;
  Ok names'.
(** yaml/linter/linter.go 68-111. *)
Definition checkPipeline (p : Pipeline) (trusted : bool) : outcome unit :=
  checkVolumes p trusted ;;;
  checkPlatform (pi_platform p) ;;;
  let names := if cl_disable (pi_clone p) then [] else ["clone"] in
  names1 <- ofold (checkStep trusted) (pi_steps p) names ;;
  names2 <- ofold (checkService trusted) (pi_services p) names1 ;;
  Ok tt.

(** yaml/linter/linter.go 51-66. *)
Definition Lint (r : Resource) (trusted : bool) : outcome unit :=
  match r with
  | RCron c => validateCron c
  | RPipeline p => checkPipeline p trusted
  | RSecret s => validateSecret s
  | RRegistry g => validateRegistry g
  | RSignature s => validateSignature s
  end.

(** yaml/linter/config.go 25, 29, 38. *)
Definition ErrDuplicatePipelineName : string := "linter: duplicate pipeline names".
Definition ErrMissingPipelineDependency : string := "linter: invalid or unknown pipeline dependency".
Definition ErrPipelineSelfDependency : string := "linter: pipeline cannot have a dependency on itself".

(** yaml/linter/config.go 70-81. *)
Definition checkPipelineDeps (p : Pipeline) (names : list string) : outcome unit :=
  oiter (fun dep =>
    refuse (negb (smem dep names)) ErrMissingPipelineDependency ;;;
    refuse (String.eqb (pi_name p) dep) ErrPipelineSelfDependency) (pi_depends p).
(** yaml/linter/config.go 47-66, one resource. *)
Definition checkManifestResource (names : list string) (r : Resource) : outcome (list string) :=
  match r with
  | RPipeline v =>
      refuse (smem (pi_name v) names) ErrDuplicatePipelineName ;;;
      let names' := pi_name v :: names in
      checkPipelineDeps v names' ;;;
      (if (String.eqb (pi_kind v) "pipeline" || isEmpty (pi_kind v)) &&
          (isEmpty (pi_type v) || String.eqb (pi_type v) "docker")
       then checkPlatform (pi_platform v) else Ok tt) ;;;
      Ok names'
  | _ => Ok names
  end.
(** yaml/linter/config.go 41-68; [trusted] is not used. *)
Definition lintManifest (m : Manifest) (trusted : bool) : outcome unit :=
  names <- ofold checkManifestResource (mf_resources m) [] ;; Ok tt.
