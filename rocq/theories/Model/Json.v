(** * Json.v: Manifest.MarshalJSON and Manifest.UnmarshalJSON (yaml/manifest.go 65-103) with the
    json tags of the types they reach (yaml/pipeline.go, cond.go, env.go, param.go, port.go,
    build.go, push.go, cron.go, secret.go, signature.go, registry.go).

    encoding/json turns Go values into text and back. The model works on the tree of that text.

    Simplifications. The keys of one object are distinct, also when their case is ignored; of
    the letters Go takes for another case of an ASCII letter only the ASCII ones are known; an
    object read into interface{} is a map[string]interface{}, modelled as a [VMap] with string
    keys, while [marshalValue] takes a [VMap] to be a map[interface{}]interface{}, the type the
    yaml decoder gives mappings. The texts of errors are shortened. *)
From Coq Require Import Floats.SpecFloat Decimal DecimalString.
From Verif Require Import Model.Go Model.Types Model.Decode.
From Verif Require Model.Legacy Model.Quote.

(** A JSON text. Numbers keep their spelling. *)
Inductive json : Type :=
| JNull
| JBool (b : bool)
| JNum (literal : string)
| JStr (s : string)
| JArr (l : list json)
| JObj (m : list (string * json)).

(** Library: a byte that is not part of a UTF-8 encoded character is written as U+FFFD. [skip]
    counts the bytes of a character that are already handled. *)
Definition replacement : string := String (byte 239) (String (byte 191) (String (byte 189) "")).
Fixpoint coerceFrom (skip : nat) (s : string) : string :=
  match s with
  | "" => ""
  | String c s' =>
      match skip with
      | S k => String c (coerceFrom k s')
      | 0 =>
          if N.ltb (code c) 128 then String c (coerceFrom 0 s')
          else match Quote.decodeRune c s' with
               | Some (_, width) => String c (coerceFrom (width - 1) s')
               | None => (replacement +++ coerceFrom 0 s')%string
               end
      end
  end.
Definition coerce : string -> string := coerceFrom 0.

(** ** Marshal *)

(** Library: the entries of a struct. An entry with omitempty is left out if its value is false, 0,
    "", nil or an empty slice or map; structs are never empty. *)
Definition entries := list (string * json).
Definition jString (s : string) : json := JStr (coerce s).
Definition eString (k s : string) : entries := if isEmpty s then [] else [(k, jString s)].
Definition eBool (k : string) (b : bool) : entries := if b then [(k, JBool true)] else [].
Definition eInt (k : string) (z : Z) : entries := if Z.eqb z 0 then [] else [(k, JNum (itoa z))].
Definition eList {A} (enc : A -> json) (k : string) (l : list A) : entries :=
  match l with [] => [] | _ => [(k, JArr (map enc l))] end.
Definition eStrings := eList jString.
Definition ePtr {A} (enc : A -> json) (k : string) (o : option A) : entries :=
  match o with None => [] | Some a => [(k, enc a)] end.
(** Library: maps are written in the order of their keys. *)
Definition jMap {A} (enc : A -> json) (m : smap A) : json :=
  JObj (flat_map (fun k => match mget k m with Some a => [(coerce k, enc a)] | None => [] end)
                 (Legacy.sortStrings (mkeys m))).
Definition eMap {A} (enc : A -> json) (k : string) (m : smap A) : entries :=
  match m with [] => [] | _ => [(k, jMap enc m)] end.
Definition nullable {A} (enc : A -> json) (o : option A) : json :=
  match o with None => JNull | Some a => enc a end.

(** cond.go 36-39 and 20-32. *)
Definition jCondition (c : Condition) : json :=
  JObj (eStrings "include" (c_include c) ++ eStrings "exclude" (c_exclude c)).
Definition jConditions (w : Conditions) : json :=
  JObj ([("action", jCondition (w_action w)); ("cron", jCondition (w_cron w)); ("ref", jCondition (w_ref w));
         ("repo", jCondition (w_repo w)); ("instance", jCondition (w_instance w)); ("target", jCondition (w_target w));
         ("event", jCondition (w_event w)); ("branch", jCondition (w_branch w)); ("status", jCondition (w_status w));
         ("paths", jCondition (w_paths w))] ++ eMap jString "matrix" (w_matrix w)).
(** env.go 21-24. *)
Definition jVariable (v : Variable_) : json :=
  JObj (eString "value" (v_value v) ++ eString "from_secret" (v_secret v)).
(** port.go 20-24. *)
Definition jPort (p : Port) : json :=
  JObj (eInt "port" (po_port p) ++ eInt "host" (po_host p) ++ eString "protocol" (po_protocol p)).
(** build.go 19-26. *)
Definition jBuild (b : Build) : json :=
  JObj (eMap jString "args" (b_args b) ++ eStrings "cache_from" (b_cache_from b) ++ eString "context" (b_context b) ++
        eString "dockerfile" (b_dockerfile b) ++ eString "image" (b_image b) ++ eMap jString "labels" (b_labels b)).
(** push.go 19-21. *)
Definition jPush (p : Push) : json := JObj (eString "image" (pu_image p)).
(** pipeline.go 123-126, 130-133, 138-141, 145-147, 115-119. *)
Definition jDevice (d : VolumeDevice) : json := JObj (eString "name" (vd_name d) ++ eString "path" (vd_path d)).
Definition jMount (d : VolumeMount) : json := JObj (eString "name" (vm_name d) ++ eString "path" (vm_path d)).
Definition jEmptyDir (d : VolumeEmptyDir) : json := JObj (eString "medium" (ve_medium d) ++ eInt "size_limit" (ve_size d)).
Definition jHostPath (d : VolumeHostPath) : json := JObj (eString "path" (vh_path d)).
Definition jVolume (v : Volume) : json :=
  JObj (eString "name" (vo_name v) ++ ePtr jEmptyDir "temp" (vo_empty v) ++ ePtr jHostPath "host" (vo_host v)).
(** pipeline.go 46-50, 53-55, 106-111, 150-153. *)
Definition jClone (c : Clone) : json :=
  JObj (eBool "disable" (cl_disable c) ++ eInt "depth" (cl_depth c) ++ eBool "skip_verify" (cl_skip_verify c)).
Definition jConcurrency (limit : Z) : json := JObj (eInt "limit" limit).
Definition jPlatform (p : Platform) : json :=
  JObj (eString "os" (pl_os p) ++ eString "arch" (pl_arch p) ++ eString "variant" (pl_variant p) ++
        eString "version" (pl_version p)).
Definition jWorkspace (w : Workspace) : json := JObj (eString "base" (ws_base w) ++ eString "path" (ws_path w)).

Section Numbers.
  (** Library: the shortest spelling of a finite float64. *)
  Variable formatFloat : float64 -> string.

  Definition marshalFloat (f : float64) : outcome json :=
    match f with
    | S754_nan | S754_infinity _ => Err "json: unsupported value"
    | _ => Ok (JNum (formatFloat f))
    end.
  Definition each {A B} (f : A -> outcome B) : list A -> outcome (list B) :=
    fix go (l : list A) : outcome (list B) :=
      match l with
      | [] => Ok []
      | a :: l' => match f a with
                   | Ok b => match go l' with Ok bs => Ok (b :: bs) | Err e => Err e | Panic => Panic end
                   | Err e => Err e
                   | Panic => Panic
                   end
      end.
  (** Library: a value of interface{}. *)
  Fixpoint marshalValue (v : value) : outcome json :=
    match v with
    | VNull => Ok JNull
    | VBool b => Ok (JBool b)
    | VInt z => Ok (JNum (itoa z))
    | VFloat f => marshalFloat f
    | VStr s => Ok (jString s)
    | VList l => js <- each marshalValue l ;; Ok (JArr js)
    | VMap _ => Err "json: unsupported type: map[interface {}]interface {}"
    end.
  (** param.go 21-24. *)
  Definition marshalParameter (p : Parameter_) : outcome json :=
    value <- match p_value p with VNull => Ok [] | v => j <- marshalValue v ;; Ok [("value", j)] end ;;
    Ok (JObj (value ++ eString "from_secret" (p_secret p))).
  (** pipeline.go 101-104 and 89-97. *)
  Definition marshalResourceObject (r : ResourceObject) : outcome json :=
    cpu <- marshalFloat (ro_cpu r) ;;
    Ok (JObj [("cpu", cpu); ("memory", JNum (itoa (ro_memory r)))]).
  Definition marshalPtr {A} (enc : A -> outcome json) (k : string) (o : option A) : outcome entries :=
    match o with None => Ok [] | Some a => j <- enc a ;; Ok [(k, j)] end.
  Definition marshalResources (r : Resources) : outcome json :=
    limits <- marshalPtr marshalResourceObject "limits" (re_limits r) ;;
    requests <- marshalPtr marshalResourceObject "requests" (re_requests r) ;;
    Ok (JObj (limits ++ requests)).
  Definition marshalNullable {A} (enc : A -> outcome json) (o : option A) : outcome json :=
    match o with None => Ok JNull | Some a => enc a end.
  Definition marshalSettings (m : smap (option Parameter_)) : outcome entries :=
    match m with
    | [] => Ok []
    | _ =>
        es <- each (fun k => match mget k m with
                                  | Some p => j <- marshalNullable marshalParameter p ;; Ok [(coerce k, j)]
                                  | None => Ok []
                                  end) (Legacy.sortStrings (mkeys m)) ;;
        Ok [("settings", JObj (List.concat es))]
    end.
  (** pipeline.go 58-85. *)
  Definition marshalContainer (c : Container) : outcome json :=
    resources <- marshalPtr marshalResources "resources" (ct_resources c) ;;
    settings <- marshalSettings (ct_settings c) ;;
    Ok (JObj (ePtr jBuild "build" (ct_build c) ++ eStrings "command" (ct_command c) ++
              eStrings "commands" (ct_commands c) ++ eBool "detach" (ct_detach c) ++
              eStrings "depends_on" (ct_depends c) ++ eList (nullable jDevice) "devices" (ct_devices c) ++
              eStrings "dns" (ct_dns c) ++ eStrings "dns_search" (ct_dns_search c) ++
              eStrings "entrypoint" (ct_entrypoint c) ++ eMap (nullable jVariable) "environment" (ct_environment c) ++
              eStrings "extra_hosts" (ct_extra_hosts c) ++ eString "failure" (ct_failure c) ++
              eString "image" (ct_image c) ++ eString "network_mode" (ct_network c) ++ eString "name" (ct_name c) ++
              eList (nullable jPort) "ports" (ct_ports c) ++ eBool "privileged" (ct_privileged c) ++
              eString "pull" (ct_pull c) ++ ePtr jPush "push" (ct_push c) ++ resources ++ settings ++
              eString "shell" (ct_shell c) ++ eString "user" (ct_user c) ++
              eList (nullable jMount) "volumes" (ct_volumes c) ++ [("when", jConditions (ct_when c))] ++
              eString "working_dir" (ct_working_dir c))).
  Definition marshalContainers (k : string) (l : list (option Container)) : outcome entries :=
    match l with
    | [] => Ok []
    | _ => js <- each (marshalNullable marshalContainer) l ;; Ok [(k, JArr js)]
    end.
  (** pipeline.go 19-36. *)
  Definition marshalPipeline (p : Pipeline) : outcome json :=
    services <- marshalContainers "services" (pi_services p) ;;
    steps <- marshalContainers "steps" (pi_steps p) ;;
    Ok (JObj (eString "version" (pi_version p) ++ eString "kind" (pi_kind p) ++ eString "type" (pi_type p) ++
              eString "name" (pi_name p) ++ [("clone", jClone (pi_clone p))] ++
              [("concurrency", jConcurrency (pi_concurrency p))] ++ eStrings "depends_on" (pi_depends p) ++
              eMap jString "node" (pi_node p) ++ [("platform", jPlatform (pi_platform p))] ++
              eStrings "image_pull_secrets" (pi_pull_secrets p) ++ services ++ steps ++
              [("trigger", jConditions (pi_trigger p))] ++ eList (nullable jVolume) "volumes" (pi_volumes p) ++
              [("workspace", jWorkspace (pi_workspace p))])).
  (** cron.go 22-41. *)
  Definition jCron (c : Cron) : json :=
    JObj (eString "version" (cr_version c) ++ eString "kind" (cr_kind c) ++ eString "type" (cr_type c) ++
          eString "name" (cr_name c) ++
          [("spec", JObj (eString "schedule" (cr_schedule c) ++ eString "branch" (cr_branch c) ++
                          [("deployment", JObj (eString "target" (cr_target c)))]))]).
  (** secret.go 25-43. *)
  Definition jSecret (s : Secret) : json :=
    JObj (eString "version" (se_version s) ++ eString "kind" (se_kind s) ++ eString "type" (se_type s) ++
          eString "name" (se_name s) ++ eString "data" (se_data s) ++
          [("get", JObj (eString "path" (se_get_path s) ++ eString "name" (se_get_name s) ++ eString "key" (se_get_key s)))]).
  (** signature.go 24-28. *)
  Definition jSignature (s : Signature) : json :=
    JObj (eString "version" (si_version s) ++ [("kind", jString (si_kind s)); ("hmac", jString (si_hmac s))]).
  (** registry.go 24-30; the tag of the version reads "omitempt". *)
  Definition jRegistry (r : Registry) : json :=
    JObj ([("version", jString (rg_version r))] ++ eString "kind" (rg_kind r) ++ eString "type" (rg_type r) ++
          eMap jString "data" (rg_data r)).
  Definition marshalResource (r : Resource) : outcome json :=
    match r with
    | RCron c => Ok (jCron c)
    | RPipeline p => marshalPipeline p
    | RSecret s => Ok (jSecret s)
    | RSignature s => Ok (jSignature s)
    | RRegistry r => Ok (jRegistry r)
    end.
  (** manifest.go 101-103. A manifest without resources has the nil slice, which is null. *)
  Definition marshalJSON (m : Manifest) : outcome json :=
    match mf_resources m with
    | [] => Ok JNull
    | rs => js <- each marshalResource rs ;; Ok (JArr js)
    end.
End Numbers.

(** ** Unmarshal *)

(** Library: a tree into a string, a bool, an int, a slice, a pointer, a map, a struct. null leaves
    the zero value. A number is an int only if it is spelled like one. *)
Definition parseInt (s : string) : option Z :=
  match NilZero.int_of_string s with
  | Some i => let z := Z.of_int i in if (Z.leb (- 2 ^ 63) z && Z.ltb z (2 ^ 63))%Z then Some z else None
  | None => None
  end.
Definition uString (j : json) : option string :=
  match j with JNull => Some "" | JStr s => Some s | _ => None end.
Definition uBool (j : json) : option bool :=
  match j with JNull => Some false | JBool b => Some b | _ => None end.
Definition uInt (j : json) : option Z :=
  match j with JNull => Some 0%Z | JNum t => parseInt t | _ => None end.
Definition uList {A} (dec : json -> option A) (j : json) : option (list A) :=
  match j with JNull => Some [] | JArr l => optTraverse dec l | _ => None end.
Definition uPtr {A} (dec : json -> option A) (j : json) : option (option A) :=
  match j with JNull => Some None | _ => option_map Some (dec j) end.
Definition uMap {A} (dec : json -> option A) (j : json) : option (smap A) :=
  match j with
  | JNull => Some []
  | JObj m => optTraverse (fun e => option_map (pair (fst e)) (dec (snd e))) m
  | _ => None
  end.
Definition uStruct {A} (zero : A) (body : entries -> option A) (j : json) : option A :=
  match j with JNull => Some zero | JObj m => body m | _ => None end.
(** Library: the case of a key does not matter. *)
Fixpoint jget (k : string) (f : entries) : option json :=
  match f with
  | [] => None
  | (k', j) :: f' => if String.eqb (toLower k') k then Some j else jget k f'
  end.
Definition ufield {A} (dec : json -> option A) (zero : A) (k : string) (f : entries) : option A :=
  match jget k f with None => Some zero | Some j => dec j end.
Definition ufString := ufield uString "".
Definition ufStrings := ufield (uList uString) [].
Definition ufStringMap := ufield (uMap uString) [].
Definition ufBool := ufield uBool false.
Definition ufInt := ufield uInt 0%Z.

(** cond.go 36-39 and 20-32. *)
Definition uCondition : json -> option Condition :=
  uStruct noCond (fun f =>
    i <? ufStrings "include" f ;; e <? ufStrings "exclude" f ;; Some {| c_include := i; c_exclude := e |}).
Definition uConditions : json -> option Conditions :=
  uStruct noConds (fun f =>
    let cond k := ufield uCondition noCond k f in
    ac <? cond "action" ;; cr <? cond "cron" ;; rf <? cond "ref" ;; rp <? cond "repo" ;;
    ins <? cond "instance" ;; tg <? cond "target" ;; ev <? cond "event" ;; br <? cond "branch" ;;
    st <? cond "status" ;; pa <? cond "paths" ;; mx <? ufStringMap "matrix" f ;;
    Some {| w_action := ac; w_cron := cr; w_ref := rf; w_repo := rp; w_instance := ins; w_target := tg;
            w_event := ev; w_branch := br; w_status := st; w_paths := pa; w_matrix := mx |}).
(** env.go 21-24: there is no UnmarshalJSON, so a variable is always an object. *)
Definition uVariable : json -> option Variable_ :=
  uStruct {| v_value := ""; v_secret := "" |} (fun f =>
    v <? ufString "value" f ;; s <? ufString "from_secret" f ;; Some {| v_value := v; v_secret := s |}).
(** port.go 20-24. *)
Definition uPort : json -> option Port :=
  uStruct {| po_port := 0; po_host := 0; po_protocol := "" |} (fun f =>
    p <? ufInt "port" f ;; h <? ufInt "host" f ;; pr <? ufString "protocol" f ;;
    Some {| po_port := p; po_host := h; po_protocol := pr |}).
(** build.go 19-26. *)
Definition uBuild : json -> option Build :=
  uStruct (imageBuild "") (fun f =>
    a <? ufStringMap "args" f ;; cf <? ufStrings "cache_from" f ;; c <? ufString "context" f ;;
    d <? ufString "dockerfile" f ;; i <? ufString "image" f ;; l <? ufStringMap "labels" f ;;
    Some {| b_args := a; b_cache_from := cf; b_context := c; b_dockerfile := d; b_image := i; b_labels := l |}).
(** push.go 19-21. *)
Definition uPush : json -> option Push :=
  uStruct {| pu_image := "" |} (fun f => i <? ufString "image" f ;; Some {| pu_image := i |}).
(** pipeline.go 123-126, 130-133, 138-141, 145-147, 115-119. *)
Definition uDevice : json -> option VolumeDevice :=
  uStruct {| vd_name := ""; vd_path := "" |} (fun f =>
    n <? ufString "name" f ;; p <? ufString "path" f ;; Some {| vd_name := n; vd_path := p |}).
Definition uMount : json -> option VolumeMount :=
  uStruct {| vm_name := ""; vm_path := "" |} (fun f =>
    n <? ufString "name" f ;; p <? ufString "path" f ;; Some {| vm_name := n; vm_path := p |}).
Definition uEmptyDir : json -> option VolumeEmptyDir :=
  uStruct {| ve_medium := ""; ve_size := 0 |} (fun f =>
    m <? ufString "medium" f ;; s <? ufInt "size_limit" f ;; Some {| ve_medium := m; ve_size := s |}).
Definition uHostPath : json -> option VolumeHostPath :=
  uStruct {| vh_path := "" |} (fun f => p <? ufString "path" f ;; Some {| vh_path := p |}).
Definition uVolume : json -> option Volume :=
  uStruct {| vo_name := ""; vo_empty := None; vo_host := None |} (fun f =>
    n <? ufString "name" f ;; e <? ufield (uPtr uEmptyDir) None "temp" f ;;
    h <? ufield (uPtr uHostPath) None "host" f ;;
    Some {| vo_name := n; vo_empty := e; vo_host := h |}).
(** pipeline.go 46-50, 53-55, 106-111, 150-153. *)
Definition uClone : json -> option Clone :=
  uStruct noClone (fun f =>
    d <? ufBool "disable" f ;; n <? ufInt "depth" f ;; s <? ufBool "skip_verify" f ;;
    Some {| cl_disable := d; cl_depth := n; cl_skip_verify := s |}).
Definition uConcurrency : json -> option Z := uStruct 0%Z (ufInt "limit").
Definition uPlatform : json -> option Platform :=
  uStruct noPlatform (fun f =>
    o <? ufString "os" f ;; a <? ufString "arch" f ;; v <? ufString "variant" f ;; w <? ufString "version" f ;;
    Some {| pl_os := o; pl_arch := a; pl_variant := v; pl_version := w |}).
Definition uWorkspace : json -> option Workspace :=
  uStruct noWorkspace (fun f =>
    b <? ufString "base" f ;; p <? ufString "path" f ;; Some {| ws_base := b; ws_path := p |}).

Section Floats.
  (** Library: strconv.ParseFloat on the spelling of a number; [None] if it is out of range. *)
  Variable parseFloat : string -> option float64.

  Definition uFloat (j : json) : option float64 :=
    match j with JNull => Some (S754_zero false) | JNum t => parseFloat t | _ => None end.
  (** Library: a tree into interface{}. Every number is a float64. *)
  Fixpoint uValue (j : json) : option value :=
    match j with
    | JNull => Some VNull
    | JBool b => Some (VBool b)
    | JNum t => option_map VFloat (parseFloat t)
    | JStr s => Some (VStr s)
    | JArr l => option_map VList (optTraverse uValue l)
    | JObj m => option_map VMap (optTraverse (fun e : string * json =>
                  let (k, x) := e in option_map (pair (VStr k)) (uValue x)) m)
    end.
  (** param.go 21-24. *)
  Definition uParameter : json -> option Parameter_ :=
    uStruct {| p_value := VNull; p_secret := "" |} (fun f =>
      v <? ufield uValue VNull "value" f ;; s <? ufString "from_secret" f ;; Some {| p_value := v; p_secret := s |}).
  (** pipeline.go 101-104 and 89-97. *)
  Definition uResourceObject : json -> option ResourceObject :=
    uStruct {| ro_cpu := S754_zero false; ro_memory := 0 |} (fun f =>
      c <? ufield uFloat (S754_zero false) "cpu" f ;; m <? ufInt "memory" f ;;
      Some {| ro_cpu := c; ro_memory := m |}).
  Definition uResources : json -> option Resources :=
    uStruct {| re_limits := None; re_requests := None |} (fun f =>
      l <? ufield (uPtr uResourceObject) None "limits" f ;;
      r <? ufield (uPtr uResourceObject) None "requests" f ;;
      Some {| re_limits := l; re_requests := r |}).
  (** pipeline.go 58-85. *)
  Definition uContainer : json -> option Container :=
    uStruct emptyContainer (fun f =>
      build <? ufield (uPtr uBuild) None "build" f ;;
      command <? ufStrings "command" f ;;
      commands <? ufStrings "commands" f ;;
      detach <? ufBool "detach" f ;;
      depends <? ufStrings "depends_on" f ;;
      devices <? ufield (uList (uPtr uDevice)) [] "devices" f ;;
      dns <? ufStrings "dns" f ;;
      dns_search <? ufStrings "dns_search" f ;;
      entrypoint <? ufStrings "entrypoint" f ;;
      environment <? ufield (uMap (uPtr uVariable)) [] "environment" f ;;
      extra_hosts <? ufStrings "extra_hosts" f ;;
      failure <? ufString "failure" f ;;
      image <? ufString "image" f ;;
      network <? ufString "network_mode" f ;;
      name <? ufString "name" f ;;
      ports <? ufield (uList (uPtr uPort)) [] "ports" f ;;
      privileged <? ufBool "privileged" f ;;
      pull <? ufString "pull" f ;;
      push <? ufield (uPtr uPush) None "push" f ;;
      resources <? ufield (uPtr uResources) None "resources" f ;;
      settings <? ufield (uMap (uPtr uParameter)) [] "settings" f ;;
      shell <? ufString "shell" f ;;
      user <? ufString "user" f ;;
      volumes <? ufield (uList (uPtr uMount)) [] "volumes" f ;;
      when <? ufield uConditions noConds "when" f ;;
      working_dir <? ufString "working_dir" f ;;
      Some {| ct_build := build; ct_command := command; ct_commands := commands; ct_detach := detach;
              ct_depends := depends; ct_devices := devices; ct_dns := dns; ct_dns_search := dns_search;
              ct_entrypoint := entrypoint; ct_environment := environment; ct_extra_hosts := extra_hosts;
              ct_failure := failure; ct_image := image; ct_network := network; ct_name := name;
              ct_ports := ports; ct_privileged := privileged; ct_pull := pull; ct_push := push;
              ct_resources := resources; ct_settings := settings; ct_shell := shell; ct_user := user;
              ct_volumes := volumes; ct_when := when; ct_working_dir := working_dir |}).
  (** pipeline.go 19-36. *)
  Definition uPipeline : json -> option Pipeline :=
    uStruct emptyPipeline (fun f =>
      version <? ufString "version" f ;;
      kind <? ufString "kind" f ;;
      type <? ufString "type" f ;;
      name <? ufString "name" f ;;
      clone <? ufield uClone noClone "clone" f ;;
      concurrency <? ufield uConcurrency 0%Z "concurrency" f ;;
      depends <? ufStrings "depends_on" f ;;
      node <? ufStringMap "node" f ;;
      platform <? ufield uPlatform noPlatform "platform" f ;;
      pull_secrets <? ufStrings "image_pull_secrets" f ;;
      services <? ufield (uList (uPtr uContainer)) [] "services" f ;;
      steps <? ufield (uList (uPtr uContainer)) [] "steps" f ;;
      trigger <? ufield uConditions noConds "trigger" f ;;
      volumes <? ufield (uList (uPtr uVolume)) [] "volumes" f ;;
      workspace <? ufield uWorkspace noWorkspace "workspace" f ;;
      Some {| pi_version := version; pi_kind := kind; pi_type := type; pi_name := name; pi_clone := clone;
              pi_concurrency := concurrency; pi_depends := depends; pi_node := node; pi_platform := platform;
              pi_pull_secrets := pull_secrets; pi_services := services; pi_steps := steps;
              pi_trigger := trigger; pi_volumes := volumes; pi_workspace := workspace |}).
  (** cron.go 22-41. *)
  Definition uCron : json -> option Cron :=
    uStruct emptyCron (fun f =>
      v <? ufString "version" f ;; k <? ufString "kind" f ;; t <? ufString "type" f ;; n <? ufString "name" f ;;
      spec <? ufield (uStruct ("", "", "") (fun g =>
        s <? ufString "schedule" g ;; b <? ufString "branch" g ;;
        d <? ufield (uStruct "" (ufString "target")) "" "deployment" g ;;
        Some (s, b, d))) ("", "", "") "spec" f ;;
      let '(s, b, d) := spec in
      Some {| cr_version := v; cr_kind := k; cr_type := t; cr_name := n; cr_schedule := s; cr_branch := b; cr_target := d |}).
  (** secret.go 25-43. *)
  Definition uSecret : json -> option Secret :=
    uStruct emptySecret (fun f =>
      v <? ufString "version" f ;; k <? ufString "kind" f ;; t <? ufString "type" f ;; n <? ufString "name" f ;;
      d <? ufString "data" f ;;
      get <? ufield (uStruct ("", "", "") (fun g =>
        p <? ufString "path" g ;; n <? ufString "name" g ;; k <? ufString "key" g ;; Some (p, n, k)))
        ("", "", "") "get" f ;;
      let '(p, gn, gk) := get in
      Some {| se_version := v; se_kind := k; se_type := t; se_name := n; se_data := d;
              se_get_path := p; se_get_name := gn; se_get_key := gk |}).
  (** signature.go 24-28. *)
  Definition uSignature : json -> option Signature :=
    uStruct {| si_version := ""; si_kind := ""; si_hmac := "" |} (fun f =>
      v <? ufString "version" f ;; k <? ufString "kind" f ;; h <? ufString "hmac" f ;;
      Some {| si_version := v; si_kind := k; si_hmac := h |}).
  (** registry.go 24-30. *)
  Definition uRegistry : json -> option Registry :=
    uStruct {| rg_version := ""; rg_kind := ""; rg_type := ""; rg_data := [] |} (fun f =>
      v <? ufString "version" f ;; k <? ufString "kind" f ;; t <? ufString "type" f ;; d <? ufStringMap "data" f ;;
      Some {| rg_version := v; rg_kind := k; rg_type := t; rg_data := d |}).

  (** manifest.go 58-62: the header of a message; only the kind is used. *)
  Definition uHeader : json -> option string :=
    uStruct "" (fun f => _ <? ufString "version" f ;; k <? ufString "kind" f ;; _ <? ufString "type" f ;; Some k).
  (** manifest.go 72-96: one message. *)
  Definition unmarshalResource (j : json) : option Resource :=
    kind <? uHeader j ;;
    if String.eqb kind "cron" then option_map RCron (uCron j)
    else if String.eqb kind "secret" then option_map RSecret (uSecret j)
    else if String.eqb kind "signature" then option_map RSignature (uSignature j)
    else if String.eqb kind "registry" then option_map RRegistry (uRegistry j)
    else option_map RPipeline (uPipeline j).
  (** manifest.go 65-98. The resources are added to the ones [m] has. After an error those of the
      messages before it have been added as well, but the caller gets the error. *)
  Definition unmarshalJSON (m : Manifest) (j : json) : option Manifest :=
    messages <? match j with JNull => Some [] | JArr l => Some l | _ => None end ;;
    rs <? optTraverse unmarshalResource messages ;;
    Some {| mf_resources := mf_resources m ++ rs |}.
End Floats.
