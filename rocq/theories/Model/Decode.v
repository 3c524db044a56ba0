(** * Decode.v: yaml trees into the types of package yaml (yaml/cond.go, env.go, param.go,
    port.go, build.go, push.go, unit.go and the struct tags of pipeline.go, cron.go,
    secret.go, signature.go, registry.go, manifest.go).

    The yaml library turns text into a tree and a tree into Go values. The first half is a
    parameter; the second half, together with the UnmarshalYAML methods of /repo it calls,
    is modelled here. A decoder returns [None] for any error: yaml.Unmarshal goes on after
    a type error and returns what it could decode beside the error, but parse.go uses the
    value only when there is no error. The one place where a partial result is used,
    Condition, is modelled on its own.

    Simplifications. Aliases and merge keys are taken to be expanded in the tree; the keys
    of one mapping are distinct; timestamps and !!binary scalars do not occur; null is one
    of the spellings null, ~ and nothing (the library treats Null and NULL differently when
    the target is a pointer). *)
From Coq Require Import Floats.SpecFloat.
From Verif Require Import Model.Go Model.Types Model.Encode.
From Verif Require Model.RawParse.

(** A tree. Scalars other than strings keep the text they were written with. *)
Inductive node : Type :=
| NNull
| NStr (s : string)
| NBool (text : string) (b : bool)
| NInt (text : string) (z : Z)
| NFloat (text : string) (f : float64)
| NSeq (l : list node)
| NMap (m : list (node * node)).

Definition optBind {A B} (m : option A) (k : A -> option B) : option B :=
  match m with Some a => k a | None => None end.
Notation "x <? m ;; k" := (optBind m (fun x => k))
  (at level 61, m at next level, right associativity).
Definition optTraverse {A B} (f : A -> option B) : list A -> option (list B) :=
  fix go (l : list A) : option (list B) :=
    match l with
    | [] => Some []
    | a :: l' => match f a with
                 | Some b => match go l' with Some bs => Some (b :: bs) | None => None end
                 | None => None
                 end
    end.

(** Library: a tree into a string, an int, a bool, a float64. *)
Definition decString (n : node) : option string :=
  match n with
  | NNull => Some ""
  | NStr s => Some s
  | NBool t _ | NInt t _ | NFloat t _ => Some t
  | NSeq _ | NMap _ => None
  end.
(** The test f <= math.MaxInt64, i.e. f <= 2^63; no float64 lies between 2^63 and 2^63 + 1. *)
Definition atMost63 (f : float64) : bool :=
  match f with
  | S754_nan | S754_infinity false => false
  | S754_finite false m e => Z.leb (magnitude m e) (2 ^ 63)
  | _ => true
  end.
Definition decInt (n : node) : option Z :=
  match n with
  | NNull => Some 0%Z
  | NInt _ z => if (Z.leb int64Min z && Z.ltb z (2 ^ 63))%Z then Some z else None
  | NFloat _ f => if atMost63 f then Some (int64_of_float f) else None
  | _ => None
  end.
Definition decBool (n : node) : option bool :=
  match n with NNull => Some false | NBool _ b => Some b | _ => None end.
Definition decFloat (n : node) : option float64 :=
  match n with
  | NNull => Some (S754_zero false)
  | NInt _ z => Some (binary_normalize 53 1024 z 0 false)
  | NFloat _ f => Some f
  | _ => None
  end.

(** Library: a tree into a slice, a pointer, a map with string keys, a struct. *)
Definition decSlice {A} (dec : node -> option A) (n : node) : option (list A) :=
  match n with NNull => Some [] | NSeq l => optTraverse dec l | _ => None end.
Definition decPtr {A} (dec : node -> option A) (n : node) : option (option A) :=
  match n with NNull => Some None | _ => option_map Some (dec n) end.
Definition keyed (m : list (node * node)) : option (smap node) :=
  optTraverse (fun kv => option_map (fun k => (k, snd kv)) (decString (fst kv))) m.
Definition decMap {A} (dec : node -> option A) (n : node) : option (smap A) :=
  match n with
  | NNull => Some []
  | NMap m => f <? keyed m ;; optTraverse (fun kv => option_map (pair (fst kv)) (dec (snd kv))) f
  | _ => None
  end.
Definition decStruct {A} (zero : A) (body : smap node -> option A) (n : node) : option A :=
  match n with NNull => Some zero | NMap m => f <? keyed m ;; body f | _ => None end.
Definition field {A} (dec : node -> option A) (zero : A) (k : string) (f : smap node) : option A :=
  match mget k f with None => Some zero | Some n => dec n end.
Definition fString := field decString "".
Definition fStrings := field (decSlice decString) [].
Definition fStringMap := field (decMap decString) [].
Definition fBool := field decBool false.
Definition fInt := field decInt 0%Z.

(** Library: a tree into interface{}. A mapping or sequence as a key is an error. *)
Fixpoint decValue (n : node) : option value :=
  match n with
  | NNull => Some VNull
  | NStr s => Some (VStr s)
  | NBool _ b => Some (VBool b)
  | NInt _ z => Some (VInt z)
  | NFloat _ f => Some (VFloat f)
  | NSeq l => option_map VList (optTraverse decValue l)
  | NMap m =>
      option_map VMap (optTraverse (fun kv : node * node =>
        let (k, v) := kv in
        match k with
        | NSeq _ | NMap _ => None
        | _ => match decValue k, decValue v with Some k', Some v' => Some (k', v') | _, _ => None end
        end) m)
  end.

(** Library: the strings of a sequence, skipping the elements that are errors; nothing when
    the tree is not a sequence. This is what remains in a []string after an error. *)
Fixpoint lenientList (l : list node) : list string :=
  match l with
  | [] => []
  | n :: l' => match decString n with Some s => s :: lenientList l' | None => lenientList l' end
  end.
Definition lenientStrings (n : node) : list string :=
  match n with NSeq l => lenientList l | _ => [] end.
(** The entry of a mapping with a given key, in a mapping that may have keys that are errors. *)
Fixpoint entry (k : string) (m : list (node * node)) : option node :=
  match m with
  | [] => None
  | (k', v) :: m' =>
      match decString k' with
      | Some s => if String.eqb k s then Some v else entry k m'
      | None => entry k m'
      end
  end.
Definition lenientField (k : string) (n : node) : list string :=
  match n with
  | NMap m => match entry k m with Some v => lenientStrings v | None => [] end
  | _ => []
  end.
(** yaml/cond.go 78-102. The method is not called for null. *)
Definition decCondition (n : node) : option Condition :=
  match n with
  | NNull => Some noCond
  | _ =>
      match decString n with
      | Some out1 => Some {| c_include := [out1]; c_exclude := [] |}
      | None =>
          let out2 := lenientStrings n in
          Some {| c_include := lenientField "include" n ++ out2; c_exclude := lenientField "exclude" n |}
      end
  end.

(** yaml/env.go 28-31 and 35-44. The method is not called for null. *)
Definition decVariable : node -> option Variable_ :=
  fun n => match decString n with
  | Some s => Some {| v_value := s; v_secret := "" |}
  | None =>
      decStruct {| v_value := ""; v_secret := "" |} (fun f =>
        v <? fString "value" f ;; s <? fString "from_secret" f ;;
        Some {| v_value := v; v_secret := s |}) n
  end.
(** yaml/env.go 47-57: the tree MarshalYAML hands to the library. *)
Definition marshalVariable (v : Variable_) : node :=
  if negb (isEmpty (v_secret v)) then NMap [(NStr "from_secret", NStr (v_secret v))]
  else if negb (isEmpty (v_value v)) then NStr (v_value v)
  else NNull.

(** yaml/param.go 28-30 and 34-45. The method is not called for null. *)
Definition decParameter (n : node) : option Parameter_ :=
  let lit := option_map (fun v => {| p_value := v; p_secret := "" |}) (decValue n) in
  match decStruct "" (fString "from_secret") n with
  | Some s => if isEmpty s then lit else Some {| p_value := VNull; p_secret := s |}
  | None => lit
  end.
(** yaml/param.go 48-58: the value MarshalYAML hands to the library. *)
Definition marshalParameter (p : Parameter_) : value :=
  if negb (isEmpty (p_secret p)) then VMap [(VStr "from_secret", VStr (p_secret p))]
  else match p_value p with VStr "" => VNull | v => v end.

(** yaml/port.go 34-44. *)
Definition decPort (n : node) : option Port :=
  match decInt n with
  | Some z => Some {| po_port := z; po_host := 0; po_protocol := "" |}
  | None =>
      decStruct {| po_port := 0; po_host := 0; po_protocol := "" |} (fun f =>
        p <? fInt "port" f ;; h <? fInt "host" f ;; pr <? fString "protocol" f ;;
        Some {| po_port := p; po_host := h; po_protocol := pr |}) n
  end.

(** yaml/build.go 29-38 and 41-54. *)
Definition imageBuild (image : string) : Build :=
  {| b_args := []; b_cache_from := []; b_context := ""; b_dockerfile := ""; b_image := image; b_labels := [] |}.
Definition decBuild (n : node) : option Build :=
  match decString n with
  | Some s => Some (imageBuild s)
  | None =>
      decStruct (imageBuild "") (fun f =>
        a <? fStringMap "args" f ;; cf <? fStrings "cache_from" f ;; c <? fString "context" f ;;
        d <? fString "dockerfile" f ;; i <? fString "image" f ;; l <? fStringMap "labels" f ;;
        Some {| b_args := a; b_cache_from := cf; b_context := c; b_dockerfile := d; b_image := i; b_labels := l |}) n
  end.

(** yaml/push.go 25-28 and 31-39. *)
Definition decPush (n : node) : option Push :=
  match decString n with
  | Some s => Some {| pu_image := s |}
  | None => decStruct {| pu_image := "" |} (fun f => i <? fString "image" f ;; Some {| pu_image := i |}) n
  end.

(** yaml/cond.go 20-32. *)
Definition decConditions : node -> option Conditions :=
  decStruct noConds (fun f =>
    let cond k := field decCondition noCond k f in
    ac <? cond "action" ;; cr <? cond "cron" ;; rf <? cond "ref" ;; rp <? cond "repo" ;;
    ins <? cond "instance" ;; tg <? cond "target" ;; ev <? cond "event" ;; br <? cond "branch" ;;
    st <? cond "status" ;; pa <? cond "paths" ;; mx <? fStringMap "matrix" f ;;
    Some {| w_action := ac; w_cron := cr; w_ref := rf; w_repo := rp; w_instance := ins; w_target := tg;
            w_event := ev; w_branch := br; w_status := st; w_paths := pa; w_matrix := mx |}).

Section Sizes.
  (** units.RAMInBytes; [None] is an error. *)
  Variable ramInBytes : string -> option Z.

  (** yaml/unit.go 27-44. *)
  Definition decSize (n : node) : option Z :=
    match decInt n with
    | Some z => Some z
    | None => s <? decString n ;; ramInBytes s
    end.
  Definition fSize := field decSize 0%Z.

  (** yaml/pipeline.go 101-104. *)
  Definition decResourceObject : node -> option ResourceObject :=
    decStruct {| ro_cpu := S754_zero false; ro_memory := 0 |} (fun f =>
      c <? field decFloat (S754_zero false) "cpu" f ;; m <? fSize "memory" f ;;
      Some {| ro_cpu := c; ro_memory := m |}).
  (** yaml/pipeline.go 89-97. *)
  Definition decResources : node -> option Resources :=
    decStruct {| re_limits := None; re_requests := None |} (fun f =>
      l <? field (decPtr decResourceObject) None "limits" f ;;
      r <? field (decPtr decResourceObject) None "requests" f ;;
      Some {| re_limits := l; re_requests := r |}).
  (** yaml/pipeline.go 123-126. *)
  Definition decDevice : node -> option VolumeDevice :=
    decStruct {| vd_name := ""; vd_path := "" |} (fun f =>
      n <? fString "name" f ;; p <? fString "path" f ;; Some {| vd_name := n; vd_path := p |}).
  (** yaml/pipeline.go 130-133. *)
  Definition decMount : node -> option VolumeMount :=
    decStruct {| vm_name := ""; vm_path := "" |} (fun f =>
      n <? fString "name" f ;; p <? fString "path" f ;; Some {| vm_name := n; vm_path := p |}).
  (** yaml/pipeline.go 138-141. *)
  Definition decEmptyDir : node -> option VolumeEmptyDir :=
    decStruct {| ve_medium := ""; ve_size := 0 |} (fun f =>
      m <? fString "medium" f ;; s <? fSize "size_limit" f ;; Some {| ve_medium := m; ve_size := s |}).
  (** yaml/pipeline.go 145-147. *)
  Definition decHostPath : node -> option VolumeHostPath :=
    decStruct {| vh_path := "" |} (fun f => p <? fString "path" f ;; Some {| vh_path := p |}).
  (** yaml/pipeline.go 115-119. *)
  Definition decVolume : node -> option Volume :=
    decStruct {| vo_name := ""; vo_empty := None; vo_host := None |} (fun f =>
      n <? fString "name" f ;; e <? field (decPtr decEmptyDir) None "temp" f ;;
      h <? field (decPtr decHostPath) None "host" f ;;
      Some {| vo_name := n; vo_empty := e; vo_host := h |}).

  (** yaml/pipeline.go 58-85. *)
  Definition decContainer : node -> option Container :=
    decStruct emptyContainer (fun f =>
      build <? field (decPtr decBuild) None "build" f ;;
      command <? fStrings "command" f ;;
      commands <? fStrings "commands" f ;;
      detach <? fBool "detach" f ;;
      depends <? fStrings "depends_on" f ;;
      devices <? field (decSlice (decPtr decDevice)) [] "devices" f ;;
      dns <? fStrings "dns" f ;;
      dns_search <? fStrings "dns_search" f ;;
      entrypoint <? fStrings "entrypoint" f ;;
      environment <? field (decMap (decPtr decVariable)) [] "environment" f ;;
      extra_hosts <? fStrings "extra_hosts" f ;;
      failure <? fString "failure" f ;;
      image <? fString "image" f ;;
      network <? fString "network_mode" f ;;
      name <? fString "name" f ;;
      ports <? field (decSlice (decPtr decPort)) [] "ports" f ;;
      privileged <? fBool "privileged" f ;;
      pull <? fString "pull" f ;;
      push <? field (decPtr decPush) None "push" f ;;
      resources <? field (decPtr decResources) None "resources" f ;;
      settings <? field (decMap (decPtr decParameter)) [] "settings" f ;;
      shell <? fString "shell" f ;;
      user <? fString "user" f ;;
      volumes <? field (decSlice (decPtr decMount)) [] "volumes" f ;;
      when <? field decConditions noConds "when" f ;;
      working_dir <? fString "working_dir" f ;;
      Some {| ct_build := build; ct_command := command; ct_commands := commands; ct_detach := detach;
              ct_depends := depends; ct_devices := devices; ct_dns := dns; ct_dns_search := dns_search;
              ct_entrypoint := entrypoint; ct_environment := environment; ct_extra_hosts := extra_hosts;
              ct_failure := failure; ct_image := image; ct_network := network; ct_name := name;
              ct_ports := ports; ct_privileged := privileged; ct_pull := pull; ct_push := push;
              ct_resources := resources; ct_settings := settings; ct_shell := shell; ct_user := user;
              ct_volumes := volumes; ct_when := when; ct_working_dir := working_dir |}).

  (** yaml/pipeline.go 46-50, 53-55, 106-111, 150-153. *)
  Definition decClone : node -> option Clone :=
    decStruct noClone (fun f =>
      d <? fBool "disable" f ;; n <? fInt "depth" f ;; s <? fBool "skip_verify" f ;;
      Some {| cl_disable := d; cl_depth := n; cl_skip_verify := s |}).
  Definition decConcurrency : node -> option Z := decStruct 0%Z (fInt "limit").
  Definition decPlatform : node -> option Platform :=
    decStruct noPlatform (fun f =>
      o <? fString "os" f ;; a <? fString "arch" f ;; v <? fString "variant" f ;; w <? fString "version" f ;;
      Some {| pl_os := o; pl_arch := a; pl_variant := v; pl_version := w |}).
  Definition decWorkspace : node -> option Workspace :=
    decStruct noWorkspace (fun f =>
      b <? fString "base" f ;; p <? fString "path" f ;; Some {| ws_base := b; ws_path := p |}).

  (** yaml/pipeline.go 19-36. *)
  Definition decPipeline : node -> option Pipeline :=
    decStruct emptyPipeline (fun f =>
      version <? fString "version" f ;;
      kind <? fString "kind" f ;;
      type <? fString "type" f ;;
      name <? fString "name" f ;;
      clone <? field decClone noClone "clone" f ;;
      concurrency <? field decConcurrency 0%Z "concurrency" f ;;
      depends <? fStrings "depends_on" f ;;
      node <? fStringMap "node" f ;;
      platform <? field decPlatform noPlatform "platform" f ;;
      pull_secrets <? fStrings "image_pull_secrets" f ;;
      services <? field (decSlice (decPtr decContainer)) [] "services" f ;;
      steps <? field (decSlice (decPtr decContainer)) [] "steps" f ;;
      trigger <? field decConditions noConds "trigger" f ;;
      volumes <? field (decSlice (decPtr decVolume)) [] "volumes" f ;;
      workspace <? field decWorkspace noWorkspace "workspace" f ;;
      Some {| pi_version := version; pi_kind := kind; pi_type := type; pi_name := name; pi_clone := clone;
              pi_concurrency := concurrency; pi_depends := depends; pi_node := node; pi_platform := platform;
              pi_pull_secrets := pull_secrets; pi_services := services; pi_steps := steps;
              pi_trigger := trigger; pi_volumes := volumes; pi_workspace := workspace |}).
End Sizes.

(** yaml/cron.go 22-41. *)
Definition emptyCron : Cron :=
  {| cr_version := ""; cr_kind := ""; cr_type := ""; cr_name := ""; cr_schedule := ""; cr_branch := ""; cr_target := "" |}.
Definition decCron : node -> option Cron :=
  decStruct emptyCron (fun f =>
    v <? fString "version" f ;; k <? fString "kind" f ;; t <? fString "type" f ;; n <? fString "name" f ;;
    spec <? field (decStruct ("", "", "") (fun g =>
      s <? fString "schedule" g ;; b <? fString "branch" g ;;
      d <? field (decStruct "" (fString "target")) "" "deployment" g ;;
      Some (s, b, d))) ("", "", "") "spec" f ;;
    let '(s, b, d) := spec in
    Some {| cr_version := v; cr_kind := k; cr_type := t; cr_name := n; cr_schedule := s; cr_branch := b; cr_target := d |}).
(** yaml/secret.go 25-43. *)
Definition emptySecret : Secret :=
  {| se_version := ""; se_kind := ""; se_type := ""; se_name := ""; se_data := "";
     se_get_path := ""; se_get_name := ""; se_get_key := "" |}.
Definition decSecret : node -> option Secret :=
  decStruct emptySecret (fun f =>
    v <? fString "version" f ;; k <? fString "kind" f ;; t <? fString "type" f ;; n <? fString "name" f ;;
    d <? fString "data" f ;;
    get <? field (decStruct ("", "", "") (fun g =>
      p <? fString "path" g ;; n <? fString "name" g ;; k <? fString "key" g ;; Some (p, n, k)))
      ("", "", "") "get" f ;;
    let '(p, gn, gk) := get in
    Some {| se_version := v; se_kind := k; se_type := t; se_name := n; se_data := d;
            se_get_path := p; se_get_name := gn; se_get_key := gk |}).
(** yaml/signature.go 24-28. *)
Definition decSignature : node -> option Signature :=
  decStruct {| si_version := ""; si_kind := ""; si_hmac := "" |} (fun f =>
    v <? fString "version" f ;; k <? fString "kind" f ;; h <? fString "hmac" f ;;
    Some {| si_version := v; si_kind := k; si_hmac := h |}).
(** yaml/registry.go 24-30. *)
Definition decRegistry : node -> option Registry :=
  decStruct {| rg_version := ""; rg_kind := ""; rg_type := ""; rg_data := [] |} (fun f =>
    v <? fString "version" f ;; k <? fString "kind" f ;; t <? fString "type" f ;; d <? fStringMap "data" f ;;
    Some {| rg_version := v; rg_kind := k; rg_type := t; rg_data := d |}).

(** yaml/manifest.go 51-56. *)
Definition decHeader : node -> option RawParse.Header :=
  decStruct {| RawParse.h_version := ""; RawParse.h_kind := ""; RawParse.h_type := "" |} (fun f =>
    v <? fString "version" f ;; k <? fString "kind" f ;; t <? fString "type" f ;;
    Some {| RawParse.h_version := v; RawParse.h_kind := k; RawParse.h_type := t |}).

(** yaml.Unmarshal of a document into each type (yaml/parse.go 80-96 and 133-138). [read] is
    the library's parser: the tree of a document, [NNull] for a document without content,
    [None] for a syntax error. *)
Definition treeDecoder (ramInBytes : string -> option Z) (read : string -> option node) : RawParse.Decoder :=
  {| RawParse.dec_header := fun s => n <? read s ;; decHeader n;
     RawParse.dec_cron := fun s => n <? read s ;; decCron n;
     RawParse.dec_secret := fun s => n <? read s ;; decSecret n;
     RawParse.dec_signature := fun s => n <? read s ;; decSignature n;
     RawParse.dec_registry := fun s => n <? read s ;; decRegistry n;
     RawParse.dec_pipeline := fun s => n <? read s ;; decPipeline ramInBytes n |}.
