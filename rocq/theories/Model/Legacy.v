(** * Legacy.v: conversion of the 0.8 format (yaml/converter/legacy/internal/config.go,
    container.go, constraint.go, secret.go, slice_map.go, string_slice.go, volume.go, yaml.go).

    Printing the result (package pretty) is modelled elsewhere; here the result is the manifest
    handed to the printer. *)
From Verif Require Import Model.Go Model.Types Model.Decode Model.Path Model.Quote Model.Signer Model.Matrix.

(** ** The types *)
(** internal/volume.go 10-14. *)
Record LVolume : Type := { lv_source : string; lv_dest : string; lv_readonly : bool }.
(** internal/secret.go 14-17. *)
Record LSecret : Type := { ls_source : string; ls_target : string }.
(** internal/constraint.go 9-24. Constraint has the fields of yaml.Condition. *)
Record LConstraints : Type := {
  lw_ref : Condition; lw_repo : Condition; lw_instance : Condition; lw_environment : Condition;
  lw_event : Condition; lw_branch : Condition; lw_status : Condition; lw_matrix : smap string }.
Definition noLConstraints : LConstraints :=
  {| lw_ref := noCond; lw_repo := noCond; lw_instance := noCond; lw_environment := noCond;
     lw_event := noCond; lw_branch := noCond; lw_status := noCond; lw_matrix := [] |}.
(** internal/container.go 20-41. *)
Record LContainer : Type := {
  lc_command : list string; lc_commands : list string; lc_detached : bool; lc_devices : list string;
  lc_err_ignore : bool; lc_tmpfs : list string; lc_dns : list string; lc_dns_search : list string;
  lc_entrypoint : list string; lc_environment : smap string; lc_extra_hosts : list string;
  lc_image : string; lc_name : string; lc_privileged : bool; lc_pull : bool; lc_shell : string;
  lc_volumes : list (option LVolume); lc_secrets : list (option LSecret);
  lc_constraints : LConstraints; lc_vargs : smap value }.
Definition emptyLContainer : LContainer :=
  {| lc_command := []; lc_commands := []; lc_detached := false; lc_devices := []; lc_err_ignore := false;
     lc_tmpfs := []; lc_dns := []; lc_dns_search := []; lc_entrypoint := []; lc_environment := [];
     lc_extra_hosts := []; lc_image := ""; lc_name := ""; lc_privileged := false; lc_pull := false;
     lc_shell := ""; lc_volumes := []; lc_secrets := []; lc_constraints := noLConstraints; lc_vargs := [] |}.
(** internal/config.go 34-39. *)
Record LSecretDef : Type := {
  ld_driver : string; ld_opts : smap string; ld_path : string; ld_vault : string }.
(** internal/config.go 24-40. *)
Record LConfig : Type := {
  lg_base : string; lg_path : string;
  lg_clone : list LContainer; lg_pipeline : list LContainer; lg_services : list LContainer;
  lg_branches : Condition; lg_matrix : value; lg_secrets : smap LSecretDef }.
Definition emptyLConfig : LConfig :=
  {| lg_base := ""; lg_path := ""; lg_clone := []; lg_pipeline := []; lg_services := [];
     lg_branches := noCond; lg_matrix := VNull; lg_secrets := [] |}.

(** ** Decoding *)
(** internal/string_slice.go 11-24. The method is not called for null. *)
Definition decStringSlice (n : node) : option (list string) :=
  match n with
  | NNull => Some []
  | _ => match decString n with Some s => Some [s] | None => decSlice decString n end
  end.
(** internal/slice_map.go 15-36: lines key=value; other lines are skipped. *)
Definition addPair (m : smap string) (line : string) : smap string :=
  match splitn 2 "=" line with [k; v] => mset k v m | _ => m end.
Definition decSliceMap (n : node) : option (smap string) :=
  match n with
  | NNull => Some []
  | _ => match decMap decString n with
         | Some m => Some m
         | None => l <? decSlice decString n ;; Some (fold_left addPair l [])
         end
  end.
(** internal/volume.go 17-33. *)
Definition splitVolume (s : string) : LVolume :=
  match splitn 3 ":" s with
  | [a; b] => {| lv_source := a; lv_dest := b; lv_readonly := false |}
  | [a; b; c] => {| lv_source := a; lv_dest := b; lv_readonly := String.eqb c "ro" |}
  | _ => {| lv_source := ""; lv_dest := ""; lv_readonly := false |}
  end.
Definition decLVolume (n : node) : option LVolume := option_map splitVolume (decString n).
(** internal/secret.go 21-34. *)
Definition decLSecret : node -> option LSecret :=
  decStruct {| ls_source := ""; ls_target := "" |} (fun f =>
    s <? fString "source" f ;; t <? fString "target" f ;; Some {| ls_source := s; ls_target := t |}).
Definition plainSecret (s : string) : LSecret := {| ls_source := s; ls_target := s |}.
Definition decLSecrets (n : node) : option (list (option LSecret)) :=
  match decSlice decString n with
  | Some l => Some (map (fun s => Some (plainSecret s)) l)
  | None => decSlice (decPtr decLSecret) n
  end.
(** internal/constraint.go 34-51: errors are ignored, and what failed to decode stays empty.
    The method is not called for null. *)
Definition orNone (o : option (list string)) : list string := match o with Some l => l | None => [] end.
Definition constraintField (k : string) (n : node) : list string :=
  match n with
  | NMap m => match entry k m with Some v => orNone (decStringSlice v) | None => [] end
  | _ => []
  end.
Definition decConstraint (n : node) : option Condition :=
  Some {| c_include := constraintField "include" n ++ orNone (decStringSlice n);
          c_exclude := constraintField "exclude" n |}.
(** internal/constraint.go 9-18. *)
Definition decLConstraints : node -> option LConstraints :=
  decStruct noLConstraints (fun f =>
    let cond k := field decConstraint noCond k f in
    rf <? cond "ref" ;; rp <? cond "repo" ;; ins <? cond "instance" ;; en <? cond "environment" ;;
    ev <? cond "event" ;; br <? cond "branch" ;; st <? cond "status" ;; mx <? fStringMap "matrix" f ;;
    Some {| lw_ref := rf; lw_repo := rp; lw_instance := ins; lw_environment := en; lw_event := ev;
            lw_branch := br; lw_status := st; lw_matrix := mx |}).
(** internal/container.go 20-41: a key that is no field goes to the inline map Vargs. *)
Definition containerKeys : list string :=
  ["command"; "commands"; "detach"; "devices"; "allow_failure"; "tmpfs"; "dns"; "dns_search"; "entrypoint";
   "environment"; "extra_hosts"; "image"; "name"; "privileged"; "pull"; "shell"; "volumes"; "secrets"; "when"].
Definition decVargs (f : smap node) : option (smap value) :=
  optTraverse (fun kv => option_map (pair (fst kv)) (decValue (snd kv)))
    (filter (fun kv => negb (smem (fst kv) containerKeys)) f).
Definition fSlices := field decStringSlice [].
Definition decLContainer : node -> option LContainer :=
  decStruct emptyLContainer (fun f =>
    command <? fSlices "command" f ;;
    commands <? fSlices "commands" f ;;
    detached <? fBool "detach" f ;;
    devices <? fStrings "devices" f ;;
    err_ignore <? fBool "allow_failure" f ;;
    tmpfs <? fStrings "tmpfs" f ;;
    dns <? fSlices "dns" f ;;
    dns_search <? fSlices "dns_search" f ;;
    entrypoint <? fSlices "entrypoint" f ;;
    environment <? field decSliceMap [] "environment" f ;;
    extra_hosts <? fStrings "extra_hosts" f ;;
    image <? fString "image" f ;;
    name <? fString "name" f ;;
    privileged <? fBool "privileged" f ;;
    pull <? fBool "pull" f ;;
    shell <? fString "shell" f ;;
    volumes <? field (decSlice (decPtr decLVolume)) [] "volumes" f ;;
    secrets <? field decLSecrets [] "secrets" f ;;
    constraints <? field decLConstraints noLConstraints "when" f ;;
    vargs <? decVargs f ;;
    Some {| lc_command := command; lc_commands := commands; lc_detached := detached; lc_devices := devices;
            lc_err_ignore := err_ignore; lc_tmpfs := tmpfs; lc_dns := dns; lc_dns_search := dns_search;
            lc_entrypoint := entrypoint; lc_environment := environment; lc_extra_hosts := extra_hosts;
            lc_image := image; lc_name := name; lc_privileged := privileged; lc_pull := pull;
            lc_shell := shell; lc_volumes := volumes; lc_secrets := secrets;
            lc_constraints := constraints; lc_vargs := vargs |}).

Definition withName (name : string) (c : LContainer) : LContainer :=
  {| lc_command := lc_command c; lc_commands := lc_commands c; lc_detached := lc_detached c;
     lc_devices := lc_devices c; lc_err_ignore := lc_err_ignore c; lc_tmpfs := lc_tmpfs c; lc_dns := lc_dns c;
     lc_dns_search := lc_dns_search c; lc_entrypoint := lc_entrypoint c; lc_environment := lc_environment c;
     lc_extra_hosts := lc_extra_hosts c; lc_image := lc_image c; lc_name := name;
     lc_privileged := lc_privileged c; lc_pull := lc_pull c; lc_shell := lc_shell c;
     lc_volumes := lc_volumes c; lc_secrets := lc_secrets c; lc_constraints := lc_constraints c;
     lc_vargs := lc_vargs c |}.

Section Containers.
  (** The text the yaml library writes for a float64. *)
  Variable formatFloat : float64 -> string.
  (** %v of a key that is a float or a collection. *)
  Variable formatKey : node -> string.

  Definition boolText (b : bool) : string := if b then "true" else "false".
  (** internal/container.go 46-55: a value is decoded into interface{}, written and read again;
      numbers and truth values get the text the library writes for them. Assumed of the library:
      strings, nulls and the order of nested mappings (yaml.MapSlice) survive that. *)
  Fixpoint rewriteNode (n : node) : node :=
    match n with
    | NNull => NNull
    | NStr s => NStr s
    | NBool _ b => NBool (boolText b) b
    | NInt _ z => NInt (itoa z) z
    | NFloat _ f => NFloat (formatFloat f) f
    | NSeq l => NSeq (map rewriteNode l)
    | NMap m => NMap (map (fun kv => (rewriteNode (fst kv), rewriteNode (snd kv))) m)
    end.
  (** internal/container.go 58: fmt.Sprintf of the key. *)
  Definition keyText (n : node) : string :=
    match n with
    | NStr s => s
    | NBool _ b => boolText b
    | NInt _ z => itoa z
    | NNull => "<nil>"
    | NFloat _ _ | NSeq _ | NMap _ => formatKey n
    end.
  (** internal/container.go 45-62. The method is not called for null. *)
  Definition decContainers (n : node) : option (list LContainer) :=
    match n with
    | NNull => Some []
    | NMap m =>
        optTraverse (fun kv =>
          c <? decLContainer (rewriteNode (snd kv)) ;; Some (withName (keyText (fst kv)) c)) m
    | _ => None
    end.
  Definition decSecretDef : node -> option LSecretDef :=
    decStruct {| ld_driver := ""; ld_opts := []; ld_path := ""; ld_vault := "" |} (fun f =>
      d <? fString "driver" f ;; o <? fStringMap "driver_opts" f ;; p <? fString "path" f ;;
      v <? fString "vault" f ;;
      Some {| ld_driver := d; ld_opts := o; ld_path := p; ld_vault := v |}).
  (** internal/config.go 24-40. *)
  Definition decLConfig : node -> option LConfig :=
    decStruct emptyLConfig (fun f =>
      w <? field decWorkspace noWorkspace "workspace" f ;;
      clone <? field decContainers [] "clone" f ;;
      pipeline <? field decContainers [] "pipeline" f ;;
      services <? field decContainers [] "services" f ;;
      branches <? field decConstraint noCond "branches" f ;;
      mx <? field decValue VNull "matrix" f ;;
      secrets <? field (decMap decSecretDef) [] "secrets" f ;;
      Some {| lg_base := ws_base w; lg_path := ws_path w; lg_clone := clone; lg_pipeline := pipeline;
              lg_services := services; lg_branches := branches; lg_matrix := mx; lg_secrets := secrets |}).
End Containers.

(** ** Conversion *)
(** internal/config.go 325-333. *)
Definition promoteEvent (s : string) : string :=
  if String.eqb s "deploy" || String.eqb s "deployment" then "promote" else s.
Definition toPromote (events : list string) : list string := map promoteEvent events.
(** internal/config.go 289-321. *)
Definition toConditions (from : LConstraints) : Conditions :=
  {| w_action := noCond; w_cron := noCond;
     w_ref := lw_ref from; w_repo := lw_repo from; w_instance := lw_instance from;
     w_target := lw_environment from;
     w_event := {| c_include := toPromote (c_include (lw_event from));
                   c_exclude := toPromote (c_exclude (lw_event from)) |};
     w_branch := lw_branch from; w_status := lw_status from; w_paths := noCond;
     w_matrix := lw_matrix from |}.
(** internal/config.go 337-351. *)
Definition toEnvironment (c : LContainer) : outcome (smap (option Variable_)) :=
  let envs := map (fun kv => (fst kv, Some {| v_value := snd kv; v_secret := "" |})) (lc_environment c) in
  ofold (fun envs val =>
    s <- deref val ;;
    Ok (mset (toUpper (ls_target s)) (Some {| v_value := ""; v_secret := ls_source s |}) envs))
    (lc_secrets c) envs.
(** internal/config.go 355-362. *)
Definition toPullPolicy (pull : bool) : string := if pull then "always" else "if-not-exists".
(** internal/config.go 400-408. *)
Definition toSettings (from : smap value) : smap (option Parameter_) :=
  map (fun kv => (fst kv, Some {| p_value := snd kv; p_secret := "" |})) from.
(** internal/config.go 412-421. *)
Definition toVolumeMounts (from : list (option LVolume)) : outcome (list (option VolumeMount)) :=
  otraverse (fun v =>
    v <- deref v ;; Ok (Some {| vm_name := hexEncode (lv_source v); vm_path := lv_dest v |})) from.
(** internal/config.go 267-285. *)
Definition toContainer (from : LContainer) : outcome Container :=
  envs <- toEnvironment from ;;
  mounts <- toVolumeMounts (lc_volumes from) ;;
  Ok {| ct_build := None;
        ct_command := lc_command from;
        ct_commands := lc_commands from;
        ct_detach := lc_detached from;
        ct_depends := [];
        ct_devices := [];
        ct_dns := lc_dns from;
        ct_dns_search := lc_dns_search from;
        ct_entrypoint := lc_entrypoint from;
        ct_environment := envs;
        ct_extra_hosts := lc_extra_hosts from;
        ct_failure := "";
        ct_image := lc_image from;
        ct_network := "";
        ct_name := lc_name from;
        ct_ports := [];
        ct_privileged := lc_privileged from;
        ct_pull := toPullPolicy (lc_pull from);
        ct_push := None;
        ct_resources := None;
        ct_settings := toSettings (lc_vargs from);
        ct_shell := "";
        ct_user := "";
        ct_volumes := mounts;
        ct_when := toConditions (lc_constraints from);
        ct_working_dir := "" |}.

(** internal/config.go 425-449. The containers of the clone section are left out. *)
Definition addVolume (acc : list string * list (option Volume)) (v : option LVolume)
  : outcome (list string * list (option Volume)) :=
  let (set, to) := acc in
  v <- deref v ;;
  let name := hexEncode (lv_source v) in
  if smem name set then Ok (set, to)
  else Ok (name :: set,
           to ++ [Some {| vo_name := name; vo_empty := None; vo_host := Some {| vh_path := lv_source v |} |}]).
Definition toVolumes (from : LConfig) : outcome (list (option Volume)) :=
  r <- ofold addVolume (flat_map lc_volumes (lg_pipeline from ++ lg_services from)) ([], []) ;;
  Ok (snd r).

(** sort.Strings: any sort gives the same result, as equal strings are identical. *)
Definition sleb (a b : string) : bool := match String.compare a b with Gt => false | _ => true end.
Fixpoint insertSorted (s : string) (l : list string) : list string :=
  match l with
  | [] => [s]
  | t :: l' => if sleb s t then s :: l else t :: insertSorted s l'
  end.
Definition sortStrings (l : list string) : list string := fold_right insertSorted [] l.
(** internal/config.go 366-396. *)
Definition toSecret (key : string) (val : LSecretDef) : Secret :=
  let get path name :=
    {| se_version := ""; se_kind := "secret"; se_type := ""; se_name := key; se_data := "";
       se_get_path := path; se_get_name := name; se_get_key := "" |} in
  let opt k := match mget k (ld_opts val) with Some s => s | None => "" end in
  if String.eqb (ld_driver val) "vault" then get (opt "path") (opt "key")
  else if negb (isEmpty (ld_path val)) then get (ld_path val) ""
  else get (ld_vault val) "".
Definition toSecrets (from : LConfig) : list Secret :=
  flat_map (fun key => match mget key (lg_secrets from) with
                       | Some val => [toSecret key val]
                       | None => []
                       end) (sortStrings (mkeys (lg_secrets from))).

(** internal/config.go 138-144. *)
Definition setName (name : string) (c : Container) : Container :=
  {| ct_build := ct_build c; ct_command := ct_command c; ct_commands := ct_commands c;
     ct_detach := ct_detach c; ct_depends := ct_depends c; ct_devices := ct_devices c; ct_dns := ct_dns c;
     ct_dns_search := ct_dns_search c; ct_entrypoint := ct_entrypoint c; ct_environment := ct_environment c;
     ct_extra_hosts := ct_extra_hosts c; ct_failure := ct_failure c; ct_image := ct_image c;
     ct_network := ct_network c; ct_name := name; ct_ports := ct_ports c; ct_privileged := ct_privileged c;
     ct_pull := ct_pull c; ct_push := ct_push c; ct_resources := ct_resources c; ct_settings := ct_settings c;
     ct_shell := ct_shell c; ct_user := ct_user c; ct_volumes := ct_volumes c; ct_when := ct_when c;
     ct_working_dir := ct_working_dir c |}.
Fixpoint dedupe (names : list string) (i : nat) (steps : list Container) : list Container :=
  match steps with
  | [] => []
  | c :: steps' =>
      let name := if smem (ct_name c) names then (ct_name c +++ "_" +++ itoa_nat i)%string else ct_name c in
      setName name c :: dedupe (name :: names) (S i) steps'
  end.

(** internal/config.go 147-174. *)
Definition branchTrigger (branches : Condition) (steps : list Container) : Conditions :=
  let refs := ["refs/pull/**"; "refs/pull-requests/**"; "refs/merge-requests/**"]
    ++ map (fun b => "refs/heads/" +++ b)%string (c_include branches)
    ++ (if existsb (fun c => smem "tag" (c_include (w_event (ct_when c)))) steps then ["refs/tags/**"] else []) in
  let tr rf br := {| w_action := noCond; w_cron := noCond; w_ref := rf; w_repo := noCond; w_instance := noCond;
                     w_target := noCond; w_event := noCond; w_branch := br; w_status := noCond;
                     w_paths := noCond; w_matrix := [] |} in
  match c_include branches, c_exclude branches with
  | _ :: _, [] => tr {| c_include := refs; c_exclude := [] |} noCond
  | _, _ => tr noCond branches
  end.

(** internal/config.go 197-210 and 214-227: the containers of one axis. *)
Definition copies (environ : smap string) (c : Container) : list Container :=
  match w_matrix (ct_when c) with
  | [] => [c]
  | w => flat_map (fun kv =>
           flat_map (fun ev =>
             if String.eqb (fst kv) (fst ev) && String.eqb (snd kv) (snd ev) then [c] else []) environ) w
  end.

Section Convert.
  (** os.Getenv. *)
  Variable getenv : string -> string.
  (** url.Parse: host name and path, [None] for an error. *)
  Variable parseURL : string -> option (string * string).
  (** strconv.IsPrint above ASCII, for %q. *)
  Variable isPrintHigh : N -> bool.
  (** yaml.Marshal of a pipeline, and yaml.Unmarshal of a text into an existing pipeline. *)
  Variable marshal : Pipeline -> string.
  Variable unmarshal : Pipeline -> string -> option Pipeline.
  (** Iteration order of the matrix and, per entry of the product, of its variables. *)
  Variable ordM : smap (list string) -> smap (list string).
  Variable ordA : nat -> smap string -> smap string.

  (** internal/config.go 453-466. *)
  Definition toWorkspacePath (link : string) : string :=
    match parseURL link with
    | None => "src"
    | Some (host, path) =>
        if isEmpty host then "src"
        else ("src/" +++ host +++ "/" +++ trimSuffix (trimPrefix path "/") "/")%string
    end.

  (** internal/config.go 65-108: the workspace, and whether the pipeline type is kubernetes. *)
  Definition isSet (v : string) : bool := String.eqb (getenv v) "true".
  Definition kubernetes : bool := isSet "DRONE_CONVERT_YAML_LEGACY_TO_KUBERNETES".
  Definition toWorkspace (base path remote : string) : Workspace :=
    if kubernetes then
      {| ws_base := "";
         ws_path :=
           if negb (isEmpty base) && negb (isEmpty path) then pathJoin base path
           else if negb (isEmpty base) then pathJoin base (toWorkspacePath remote)
           else if negb (isEmpty path) then pathJoin "/drone" path
           else pathJoin "/drone" (toWorkspacePath remote) |}
    else
      let p := if String.eqb path "." then "" else path in
      if isEmpty remote then {| ws_base := base; ws_path := p |}
      else {| ws_base := if isEmpty base then "/drone" else base;
              ws_path := if isEmpty p then toWorkspacePath remote else p |}.

  (** internal/config.go 119-123. *)
  Definition cloneStep : Container :=
    {| ct_build := None; ct_command := []; ct_commands := []; ct_detach := false; ct_depends := [];
       ct_devices := []; ct_dns := []; ct_dns_search := []; ct_entrypoint := []; ct_environment := [];
       ct_extra_hosts := []; ct_failure := ""; ct_image := "plugins/git"; ct_network := ""; ct_name := "clone";
       ct_ports := []; ct_privileged := false; ct_pull := "if-not-exists"; ct_push := None; ct_resources := None;
       ct_settings := []; ct_shell := ""; ct_user := ""; ct_volumes := []; ct_when := noConds;
       ct_working_dir := "" |}.

  (** internal/config.go 61-183: the pipeline before the matrix. *)
  Definition toPipeline (from : LConfig) (remote : string) : outcome Pipeline :=
    clone <- otraverse toContainer (lg_clone from) ;;
    let legacyClone := isSet "DRONE_CONVERT_YAML_LEGACY_CLONE" in
    let clone' := match clone with
                  | [] => if legacyClone then [cloneStep] else []
                  | _ => clone
                  end in
    services <- otraverse toContainer (lg_services from) ;;
    steps <- otraverse toContainer (lg_pipeline from) ;;
    let steps := dedupe [] 0 (clone' ++ steps) in
    volumes <- toVolumes from ;;
    Ok {| pi_version := ""; pi_kind := "pipeline";
          pi_type := if kubernetes then "kubernetes" else "";
          pi_name := "default";
          pi_clone := {| cl_disable := match clone' with [] => false | _ => true end;
                         cl_depth := 0; cl_skip_verify := false |};
          pi_concurrency := 0; pi_depends := []; pi_node := []; pi_platform := noPlatform;
          pi_pull_secrets := if isSet "DRONE_CONVERT_YAML_DEFAULT_PULL_SECRETS" then [".dockerconfigjson"] else [];
          pi_services := map Some services;
          pi_steps := map Some steps;
          pi_trigger := branchTrigger (lg_branches from) steps;
          pi_volumes := volumes;
          pi_workspace := toWorkspace (lg_base from) (lg_path from) remote |}.

  (** internal/config.go 193-228. The lists of [toPipeline] hold no nil. *)
  Definition forAxis (p : Pipeline) (index : nat) (environ : smap string) : Pipeline :=
    let keep := flat_map (fun o => match o with
                                   | Some c => map Some (copies environ c)
                                   | None => []
                                   end) in
    {| pi_version := pi_version p; pi_kind := pi_kind p; pi_type := pi_type p;
       pi_name := ("matrix-" +++ itoa_nat (S index))%string;
       pi_clone := pi_clone p; pi_concurrency := pi_concurrency p; pi_depends := pi_depends p;
       pi_node := pi_node p; pi_platform := pi_platform p; pi_pull_secrets := pi_pull_secrets p;
       pi_services := keep (pi_services p);
       pi_steps := keep (pi_steps p);
       pi_trigger := pi_trigger p; pi_volumes := pi_volumes p; pi_workspace := pi_workspace p |}.
  (** internal/config.go 236-244. [environ] is in iteration order. *)
  Definition substitute (environ : smap string) (text : string) : string :=
    fold_left (fun text kv =>
      let value := if hasChar NL (snd kv) then quote isPrintHigh (snd kv) else snd kv in
      replaceAll text ("${" +++ fst kv +++ "}")%string value) environ text.
  (** internal/config.go 193-250, one axis. *)
  Definition expandAxis (p : Pipeline) (index : nat) (environ : smap string) : outcome Pipeline :=
    let current := forAxis p index environ in
    match unmarshal current (substitute (ordA index environ) (marshal current)) with
    | Some q => Ok q
    | None => Err "yaml"
    end.
  Fixpoint expandAxes (p : Pipeline) (index : nat) (axes : list (smap string)) : outcome (list Pipeline) :=
    match axes with
    | [] => Ok []
    | a :: axes' => q <- expandAxis p index a ;; qs <- expandAxes p (S index) axes' ;; Ok (q :: qs)
    end.

  (** internal/config.go 61-259, after decoding: [n] is the document, [from] what it decodes to. *)
  Definition toManifest (n : node) (from : LConfig) (remote : string) : outcome Manifest :=
    p <- toPipeline from remote ;;
    ps <- (match lg_matrix from with
           | VNull => Ok [p]
           | _ => axes <- parseMatrix ordM n ;; expandAxes p 0 axes
           end) ;;
    Ok {| mf_resources := map RPipeline ps ++ map RSecret (toSecrets from) |}.

  Section Text.
    (** The yaml reader, the expansion of merge keys (internal/yaml.go 19-29; on an error the
        input is kept), the printer. *)
    Variable formatFloat : float64 -> string.
    Variable formatKey : node -> string.
    Variable read : string -> option node.
    Variable expandMergeKeys : string -> string.
    Variable print : Manifest -> outcome string.

    (** internal/config.go 44-265 and yaml.go 31-33. *)
    Definition Convert (d remote : string) : outcome string :=
      let d := if contains d "<<:" then expandMergeKeys d else d in
      match read d with
      | None => Err "yaml"
      | Some n =>
          match decLConfig formatFloat formatKey n with
          | None => Err "yaml"
          | Some from => m <- toManifest n from remote ;; print m
          end
      end.
  End Text.
End Convert.
