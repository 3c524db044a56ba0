(** * Emit.v: a manifest as yaml (yaml/manifest.go 109-127; the struct tags of pipeline.go, cond.go, port.go,
    build.go, push.go, cron.go, secret.go, signature.go, registry.go; yaml/env.go 47-57, yaml/param.go 48-58).

    The yaml library turns Go values into a tree and a tree into text. The first half is modelled here,
    as the tree that is read back from the text: a string is a string however it is quoted. The second
    half is the parameter [render]. Writing cannot fail for the values of these types.

    Simplifications. Strings are taken to be read back as they are (the library quotes them, or encodes
    them as !!binary). A resource is never a nil pointer. *)
From Coq Require Import Floats.SpecFloat.
From Verif Require Import Model.Go Model.Types Model.Encode Model.Decode.

(** Library: strings, integers, booleans, slices, pointers and structs. A nil slice is written as an
    empty one, a nil pointer as null, and every field of a struct is written. *)
Definition nInt (z : Z) : node := NInt (itoa z) z.
Definition nBool (b : bool) : node := NBool (formatBool b) b.
Definition nTexts (l : list string) : node := NSeq (map NStr l).
Definition nPtr {A} (enc : A -> node) (o : option A) : node := match o with Some a => enc a | None => NNull end.
Definition nPtrs {A} (enc : A -> node) (l : list (option A)) : node := NSeq (map (nPtr enc) l).
Definition nStruct (l : list (string * node)) : node := NMap (map (fun e => (NStr (fst e), snd e)) l).
(** Library: fields with omitempty are left out when they are empty lists. *)
Definition unlessEmpty (k : string) (l : list string) : list (string * node) :=
  match l with [] => [] | _ => [(k, nTexts l)] end.

(** yaml/cond.go 36-39. *)
Definition nCondition (c : Condition) : node :=
  nStruct (unlessEmpty "include" (c_include c) ++ unlessEmpty "exclude" (c_exclude c)).

Section Emit.
  (** Library: the tree of the text of a float, which is an integer for the text 2. *)
  Variable floatNode : float64 -> node.
  (** Library: the order of the keys of a map (keyList.Less). *)
  Variable less : node -> node -> bool.

  (** Library: the entries of a map in the order of their keys. sort.Sort is taken to be this one:
      the keys of a map are distinct. *)
  Fixpoint place (e : node * node) (l : list (node * node)) : list (node * node) :=
    match l with
    | [] => [e]
    | x :: l' => if less (fst e) (fst x) then e :: l else x :: place e l'
    end.
  Definition arrange (l : list (node * node)) : list (node * node) := fold_right place [] l.
  Definition nMap {A} (enc : A -> node) (m : smap A) : node :=
    NMap (arrange (map (fun e => (NStr (fst e), enc (snd e))) m)).
  Definition nTextMap : smap string -> node := nMap NStr.

  (** Library: a value of type interface{}. *)
  Fixpoint nValue (v : value) : node :=
    match v with
    | VNull => NNull
    | VBool b => nBool b
    | VInt z => nInt z
    | VFloat f => floatNode f
    | VStr s => NStr s
    | VList l => NSeq (map nValue l)
    | VMap m => NMap (arrange (map (fun kv : value * value => let (k, x) := kv in (nValue k, nValue x)) m))
    end.

  (** yaml/cond.go 20-32. *)
  Definition nConditions (w : Conditions) : node :=
    nStruct [("action", nCondition (w_action w)); ("cron", nCondition (w_cron w)); ("ref", nCondition (w_ref w));
             ("repo", nCondition (w_repo w)); ("instance", nCondition (w_instance w)); ("target", nCondition (w_target w));
             ("event", nCondition (w_event w)); ("branch", nCondition (w_branch w)); ("status", nCondition (w_status w));
             ("paths", nCondition (w_paths w)); ("matrix", nTextMap (w_matrix w))].
  (** yaml/port.go 20-24. *)
  Definition nPort (p : Port) : node :=
    nStruct [("port", nInt (po_port p)); ("host", nInt (po_host p)); ("protocol", NStr (po_protocol p))].
  (** yaml/build.go 19-26. *)
  Definition nBuild (b : Build) : node :=
    nStruct [("args", nTextMap (b_args b)); ("cache_from", nTexts (b_cache_from b)); ("context", NStr (b_context b));
             ("dockerfile", NStr (b_dockerfile b)); ("image", NStr (b_image b)); ("labels", nTextMap (b_labels b))].
  (** yaml/push.go 19-21. *)
  Definition nPush (p : Push) : node := nStruct [("image", NStr (pu_image p))].
  (** yaml/pipeline.go 101-104 and 89-97. *)
  Definition nResourceObject (r : ResourceObject) : node :=
    nStruct [("cpu", floatNode (ro_cpu r)); ("memory", nInt (ro_memory r))].
  Definition nResources (r : Resources) : node :=
    nStruct [("limits", nPtr nResourceObject (re_limits r)); ("requests", nPtr nResourceObject (re_requests r))].
  (** yaml/pipeline.go 123-126, 130-133, 138-141, 145-147, 115-119. *)
  Definition nDevice (d : VolumeDevice) : node := nStruct [("name", NStr (vd_name d)); ("path", NStr (vd_path d))].
  Definition nMount (d : VolumeMount) : node := nStruct [("name", NStr (vm_name d)); ("path", NStr (vm_path d))].
  Definition nEmptyDir (d : VolumeEmptyDir) : node :=
    nStruct [("medium", NStr (ve_medium d)); ("size_limit", nInt (ve_size d))].
  Definition nHostPath (d : VolumeHostPath) : node := nStruct [("path", NStr (vh_path d))].
  Definition nVolume (v : Volume) : node :=
    nStruct [("name", NStr (vo_name v)); ("temp", nPtr nEmptyDir (vo_empty v)); ("host", nPtr nHostPath (vo_host v))].
  (** yaml/param.go 48-58; the result of MarshalYAML is written in its place. *)
  Definition nParameter (p : Parameter_) : node := nValue (marshalParameter p).

  (** yaml/pipeline.go 58-85. *)
  Definition nContainer (c : Container) : node :=
    nStruct [("build", nPtr nBuild (ct_build c)); ("command", nTexts (ct_command c)); ("commands", nTexts (ct_commands c));
             ("detach", nBool (ct_detach c)); ("depends_on", nTexts (ct_depends c)); ("devices", nPtrs nDevice (ct_devices c));
             ("dns", nTexts (ct_dns c)); ("dns_search", nTexts (ct_dns_search c)); ("entrypoint", nTexts (ct_entrypoint c));
             ("environment", nMap (nPtr marshalVariable) (ct_environment c)); ("extra_hosts", nTexts (ct_extra_hosts c));
             ("failure", NStr (ct_failure c)); ("image", NStr (ct_image c)); ("network_mode", NStr (ct_network c));
             ("name", NStr (ct_name c)); ("ports", nPtrs nPort (ct_ports c)); ("privileged", nBool (ct_privileged c));
             ("pull", NStr (ct_pull c)); ("push", nPtr nPush (ct_push c)); ("resources", nPtr nResources (ct_resources c));
             ("settings", nMap (nPtr nParameter) (ct_settings c)); ("shell", NStr (ct_shell c)); ("user", NStr (ct_user c));
             ("volumes", nPtrs nMount (ct_volumes c)); ("when", nConditions (ct_when c)); ("working_dir", NStr (ct_working_dir c))].

  (** yaml/pipeline.go 46-50, 53-55, 106-111, 150-153. *)
  Definition nClone (c : Clone) : node :=
    nStruct [("disable", nBool (cl_disable c)); ("depth", nInt (cl_depth c)); ("skip_verify", nBool (cl_skip_verify c))].
  Definition nPlatform (p : Platform) : node :=
    nStruct [("os", NStr (pl_os p)); ("arch", NStr (pl_arch p)); ("variant", NStr (pl_variant p));
             ("version", NStr (pl_version p))].
  Definition nWorkspace (w : Workspace) : node := nStruct [("base", NStr (ws_base w)); ("path", NStr (ws_path w))].
  (** yaml/pipeline.go 19-36. *)
  Definition nPipeline (p : Pipeline) : node :=
    nStruct [("version", NStr (pi_version p)); ("kind", NStr (pi_kind p)); ("type", NStr (pi_type p)); ("name", NStr (pi_name p));
             ("clone", nClone (pi_clone p)); ("concurrency", nStruct [("limit", nInt (pi_concurrency p))]);
             ("depends_on", nTexts (pi_depends p)); ("node", nTextMap (pi_node p)); ("platform", nPlatform (pi_platform p));
             ("image_pull_secrets", nTexts (pi_pull_secrets p)); ("services", nPtrs nContainer (pi_services p));
             ("steps", nPtrs nContainer (pi_steps p)); ("trigger", nConditions (pi_trigger p));
             ("volumes", nPtrs nVolume (pi_volumes p)); ("workspace", nWorkspace (pi_workspace p))].
  (** yaml/cron.go 22-41. *)
  Definition nCron (c : Cron) : node :=
    nStruct [("version", NStr (cr_version c)); ("kind", NStr (cr_kind c)); ("type", NStr (cr_type c)); ("name", NStr (cr_name c));
             ("spec", nStruct [("schedule", NStr (cr_schedule c)); ("branch", NStr (cr_branch c));
                               ("deployment", nStruct [("target", NStr (cr_target c))])])].
  (** yaml/secret.go 25-43. *)
  Definition nSecret (s : Secret) : node :=
    nStruct [("version", NStr (se_version s)); ("kind", NStr (se_kind s)); ("type", NStr (se_type s)); ("name", NStr (se_name s));
             ("data", NStr (se_data s));
             ("get", nStruct [("path", NStr (se_get_path s)); ("name", NStr (se_get_name s)); ("key", NStr (se_get_key s))])].
  (** yaml/signature.go 24-28. *)
  Definition nSignature (s : Signature) : node :=
    nStruct [("version", NStr (si_version s)); ("kind", NStr (si_kind s)); ("hmac", NStr (si_hmac s))].
  (** yaml/registry.go 22-30. *)
  Definition nRegistry (r : Registry) : node :=
    nStruct [("version", NStr (rg_version r)); ("kind", NStr (rg_kind r)); ("type", NStr (rg_type r));
             ("data", nTextMap (rg_data r))].
  Definition nResource (r : Resource) : node :=
    match r with
    | RCron c => nCron c
    | RPipeline p => nPipeline p
    | RSecret s => nSecret s
    | RSignature s => nSignature s
    | RRegistry g => nRegistry g
    end.

  (** Library: the text of a mapping as a document of its own. *)
  Variable render : node -> string.
  (** yaml/manifest.go 114-127. The library writes a separator line before every document but the
      first. It keeps nothing back until Close, which is never called. *)
  Definition documentsText (ns : list node) : string :=
    match ns with
    | [] => ""
    | n :: ns' => (render n +++ concats (map (fun n => "---" +++ nl +++ render n)%string ns'))%string
    end.
  Definition encodeManifest (m : Manifest) : outcome string := Ok (documentsText (map nResource (mf_resources m))).
End Emit.

(** yaml/manifest.go 109-111. *)
Definition marshalYAML (m : Manifest) : outcome node := Err "yaml: marshal not implemented".
