(** * JsonSpec.v: what a JSON document means as a manifest, and what of a manifest survives as JSON. *)
From Coq Require Import Floats.SpecFloat Decimal DecimalString.
From Verif Require Import Model.Go Model.Types Model.Json Spec.DecodeSpec Spec.PrettySpec.
From Verif Require Import Spec.ScriptSpec.

(** ** Reading *)

(** No object of a document has two keys that differ in case only. *)
Inductive Clear : json -> Prop :=
| clear_null : Clear JNull
| clear_bool b : Clear (JBool b)
| clear_num t : Clear (JNum t)
| clear_str s : Clear (JStr s)
| clear_arr l : (forall j, In j l -> Clear j) -> Clear (JArr l)
| clear_obj m : NoDup (map (fun e => toLower (fst e)) m) -> (forall k j, In (k, j) m -> Clear j) -> Clear (JObj m).

Inductive JText : json -> string -> Prop :=
| jtext_null : JText JNull ""
| jtext_str s : JText (JStr s) s.
Inductive JFlag : json -> bool -> Prop :=
| jflag_null : JFlag JNull false
| jflag_bool b : JFlag (JBool b) b.
(** An integer is spelled without fraction and exponent. *)
Inductive JInteger : json -> Z -> Prop :=
| jint_null : JInteger JNull 0
| jint_num t i : NilZero.int_of_string t = Some i -> Fits (Z.of_int i) -> JInteger (JNum t) (Z.of_int i).
Definition JList {A} (R : json -> A -> Prop) (j : json) (xs : list A) : Prop :=
  j = JNull /\ xs = [] \/ exists l, j = JArr l /\ Forall2 R l xs.
Definition JPtr {A} (R : json -> A -> Prop) (j : json) (o : option A) : Prop :=
  j = JNull /\ o = None \/ j <> JNull /\ exists x, o = Some x /\ R j x.
Definition JMap {A} (R : json -> A -> Prop) (j : json) (m : smap A) : Prop :=
  j = JNull /\ m = [] \/
  exists l, j = JObj l /\ Forall2 (fun (e : string * json) (x : string * A) => fst x = fst e /\ R (snd e) (snd x)) l m.
(** The entries of an object. Null is the empty object. *)
Definition Members (j : json) (f : list (string * json)) : Prop := j = JNull /\ f = [] \/ j = JObj f.
(** The entry with a key in any case, the default if there is none. *)
Definition JHas {A} (f : list (string * json)) (k : string) (R : json -> A -> Prop) (zero x : A) : Prop :=
  (exists k' j, In (k', j) f /\ toLower k' = k /\ R j x) \/
  ((forall k' j, In (k', j) f -> toLower k' <> k) /\ x = zero).
Definition JHasText f k x := JHas f k JText "" x.
Definition JHasTexts f k x := JHas f k (JList JText) [] x.
Definition JHasTextMap f k x := JHas f k (JMap JText) [] x.
Definition JHasFlag f k x := JHas f k JFlag false x.
Definition JHasInt f k x := JHas f k JInteger 0%Z x.
(** An entry that is itself an object; an absent one is an empty one. *)
Definition JHasStruct {A} (f : list (string * json)) (k : string) (R : json -> A -> Prop) (x : A) : Prop :=
  (exists k' j, In (k', j) f /\ toLower k' = k /\ R j x) \/
  ((forall k' j, In (k', j) f -> toLower k' <> k) /\ R JNull x).

Definition JCondition (j : json) (c : Condition) : Prop := exists f, Members j f /\
  JHasTexts f "include" (c_include c) /\ JHasTexts f "exclude" (c_exclude c).
Definition JConditions (j : json) (w : Conditions) : Prop := exists f, Members j f /\
  JHasStruct f "action" JCondition (w_action w) /\ JHasStruct f "cron" JCondition (w_cron w) /\
  JHasStruct f "ref" JCondition (w_ref w) /\ JHasStruct f "repo" JCondition (w_repo w) /\
  JHasStruct f "instance" JCondition (w_instance w) /\ JHasStruct f "target" JCondition (w_target w) /\
  JHasStruct f "event" JCondition (w_event w) /\ JHasStruct f "branch" JCondition (w_branch w) /\
  JHasStruct f "status" JCondition (w_status w) /\ JHasStruct f "paths" JCondition (w_paths w) /\
  JHasTextMap f "matrix" (w_matrix w).
Definition JVariable (j : json) (v : Variable_) : Prop := exists f, Members j f /\
  JHasText f "value" (v_value v) /\ JHasText f "from_secret" (v_secret v).
Definition JPort (j : json) (p : Port) : Prop := exists f, Members j f /\
  JHasInt f "port" (po_port p) /\ JHasInt f "host" (po_host p) /\ JHasText f "protocol" (po_protocol p).
Definition JBuild (j : json) (b : Build) : Prop := exists f, Members j f /\
  JHasTextMap f "args" (b_args b) /\ JHasTexts f "cache_from" (b_cache_from b) /\ JHasText f "context" (b_context b) /\
  JHasText f "dockerfile" (b_dockerfile b) /\ JHasText f "image" (b_image b) /\ JHasTextMap f "labels" (b_labels b).
Definition JPush (j : json) (p : Push) : Prop := exists f, Members j f /\ JHasText f "image" (pu_image p).
Definition JDevice (j : json) (d : VolumeDevice) : Prop := exists f, Members j f /\
  JHasText f "name" (vd_name d) /\ JHasText f "path" (vd_path d).
Definition JMount (j : json) (d : VolumeMount) : Prop := exists f, Members j f /\
  JHasText f "name" (vm_name d) /\ JHasText f "path" (vm_path d).
(** Sizes are numbers of bytes; texts with a unit are not accepted. *)
Definition JEmptyDir (j : json) (d : VolumeEmptyDir) : Prop := exists f, Members j f /\
  JHasText f "medium" (ve_medium d) /\ JHasInt f "size_limit" (ve_size d).
Definition JHostPath (j : json) (d : VolumeHostPath) : Prop := exists f, Members j f /\ JHasText f "path" (vh_path d).
Definition JVolume (j : json) (v : Volume) : Prop := exists f, Members j f /\
  JHasText f "name" (vo_name v) /\ JHas f "temp" (JPtr JEmptyDir) None (vo_empty v) /\
  JHas f "host" (JPtr JHostPath) None (vo_host v).
Definition JClone (j : json) (c : Clone) : Prop := exists f, Members j f /\
  JHasFlag f "disable" (cl_disable c) /\ JHasInt f "depth" (cl_depth c) /\ JHasFlag f "skip_verify" (cl_skip_verify c).
Definition JConcurrency (j : json) (z : Z) : Prop := exists f, Members j f /\ JHasInt f "limit" z.
Definition JPlatform (j : json) (p : Platform) : Prop := exists f, Members j f /\
  JHasText f "os" (pl_os p) /\ JHasText f "arch" (pl_arch p) /\ JHasText f "variant" (pl_variant p) /\
  JHasText f "version" (pl_version p).
Definition JWorkspace (j : json) (w : Workspace) : Prop := exists f, Members j f /\
  JHasText f "base" (ws_base w) /\ JHasText f "path" (ws_path w).
Definition JCron (j : json) (c : Cron) : Prop := exists f, Members j f /\
  JHasText f "version" (cr_version c) /\ JHasText f "kind" (cr_kind c) /\ JHasText f "type" (cr_type c) /\
  JHasText f "name" (cr_name c) /\
  exists spec g deploy h, JHasStruct f "spec" eq spec /\ Members spec g /\ JHasStruct g "deployment" eq deploy /\
    Members deploy h /\ JHasText g "schedule" (cr_schedule c) /\ JHasText g "branch" (cr_branch c) /\
    JHasText h "target" (cr_target c).
Definition JSecret (j : json) (s : Secret) : Prop := exists f, Members j f /\
  JHasText f "version" (se_version s) /\ JHasText f "kind" (se_kind s) /\ JHasText f "type" (se_type s) /\
  JHasText f "name" (se_name s) /\ JHasText f "data" (se_data s) /\
  exists get g, JHasStruct f "get" eq get /\ Members get g /\
    JHasText g "path" (se_get_path s) /\ JHasText g "name" (se_get_name s) /\ JHasText g "key" (se_get_key s).
Definition JSignature (j : json) (s : Signature) : Prop := exists f, Members j f /\
  JHasText f "version" (si_version s) /\ JHasText f "kind" (si_kind s) /\ JHasText f "hmac" (si_hmac s).
Definition JRegistry (j : json) (r : Registry) : Prop := exists f, Members j f /\
  JHasText f "version" (rg_version r) /\ JHasText f "kind" (rg_kind r) /\ JHasText f "type" (rg_type r) /\
  JHasTextMap f "data" (rg_data r).

Section Floats.
  Variable parseFloat : string -> option float64.
  Inductive JFloat : json -> float64 -> Prop :=
  | jfloat_null : JFloat JNull (S754_zero false)
  | jfloat_num t f : parseFloat t = Some f -> JFloat (JNum t) f.
  (** Any value: all numbers are floats. *)
  Inductive JValue : json -> value -> Prop :=
  | jvalue_null : JValue JNull VNull
  | jvalue_bool b : JValue (JBool b) (VBool b)
  | jvalue_num t f : parseFloat t = Some f -> JValue (JNum t) (VFloat f)
  | jvalue_str s : JValue (JStr s) (VStr s)
  | jvalue_arr l vs : Forall2 JValue l vs -> JValue (JArr l) (VList vs)
  | jvalue_obj m es :
      Forall2 (fun (e : string * json) (x : value * value) => fst x = VStr (fst e) /\ JValue (snd e) (snd x)) m es ->
      JValue (JObj m) (VMap es).
  (** Unlike in yaml, a setting is an object with a value or the name of a secret. *)
  Definition JParameter (j : json) (p : Parameter_) : Prop := exists f, Members j f /\
    JHas f "value" JValue VNull (p_value p) /\ JHasText f "from_secret" (p_secret p).
  Definition JResourceObject (j : json) (r : ResourceObject) : Prop := exists f, Members j f /\
    JHas f "cpu" JFloat (S754_zero false) (ro_cpu r) /\ JHasInt f "memory" (ro_memory r).
  Definition JResources (j : json) (r : Resources) : Prop := exists f, Members j f /\
    JHas f "limits" (JPtr JResourceObject) None (re_limits r) /\
    JHas f "requests" (JPtr JResourceObject) None (re_requests r).
  Definition JContainer (j : json) (c : Container) : Prop := exists f, Members j f /\
    JHas f "build" (JPtr JBuild) None (ct_build c) /\
    JHasTexts f "command" (ct_command c) /\
    JHasTexts f "commands" (ct_commands c) /\
    JHasFlag f "detach" (ct_detach c) /\
    JHasTexts f "depends_on" (ct_depends c) /\
    JHas f "devices" (JList (JPtr JDevice)) [] (ct_devices c) /\
    JHasTexts f "dns" (ct_dns c) /\
    JHasTexts f "dns_search" (ct_dns_search c) /\
    JHasTexts f "entrypoint" (ct_entrypoint c) /\
    JHas f "environment" (JMap (JPtr JVariable)) [] (ct_environment c) /\
    JHasTexts f "extra_hosts" (ct_extra_hosts c) /\
    JHasText f "failure" (ct_failure c) /\
    JHasText f "image" (ct_image c) /\
    JHasText f "network_mode" (ct_network c) /\
    JHasText f "name" (ct_name c) /\
    JHas f "ports" (JList (JPtr JPort)) [] (ct_ports c) /\
    JHasFlag f "privileged" (ct_privileged c) /\
    JHasText f "pull" (ct_pull c) /\
    JHas f "push" (JPtr JPush) None (ct_push c) /\
    JHas f "resources" (JPtr JResources) None (ct_resources c) /\
    JHas f "settings" (JMap (JPtr JParameter)) [] (ct_settings c) /\
    JHasText f "shell" (ct_shell c) /\
    JHasText f "user" (ct_user c) /\
    JHas f "volumes" (JList (JPtr JMount)) [] (ct_volumes c) /\
    JHasStruct f "when" JConditions (ct_when c) /\
    JHasText f "working_dir" (ct_working_dir c).
  Definition JPipeline (j : json) (p : Pipeline) : Prop := exists f, Members j f /\
    JHasText f "version" (pi_version p) /\ JHasText f "kind" (pi_kind p) /\ JHasText f "type" (pi_type p) /\
    JHasText f "name" (pi_name p) /\
    JHasStruct f "clone" JClone (pi_clone p) /\
    JHasStruct f "concurrency" JConcurrency (pi_concurrency p) /\
    JHasTexts f "depends_on" (pi_depends p) /\
    JHasTextMap f "node" (pi_node p) /\
    JHasStruct f "platform" JPlatform (pi_platform p) /\
    JHasTexts f "image_pull_secrets" (pi_pull_secrets p) /\
    JHas f "services" (JList (JPtr JContainer)) [] (pi_services p) /\
    JHas f "steps" (JList (JPtr JContainer)) [] (pi_steps p) /\
    JHasStruct f "trigger" JConditions (pi_trigger p) /\
    JHas f "volumes" (JList (JPtr JVolume)) [] (pi_volumes p) /\
    JHasStruct f "workspace" JWorkspace (pi_workspace p).
  (** The kind of an object decides which resource it is; an object without a known one is a pipeline. *)
  Definition JResource (j : json) (r : Resource) : Prop :=
    exists kind f version type, Members j f /\ JHasText f "kind" kind /\ JHasText f "version" version /\ JHasText f "type" type /\
    match r with
    | RCron c => kind = "cron" /\ JCron j c
    | RSecret s => kind = "secret" /\ JSecret j s
    | RSignature s => kind = "signature" /\ JSignature j s
    | RRegistry g => kind = "registry" /\ JRegistry j g
    | RPipeline p => ~ In kind ["cron"; "secret"; "signature"; "registry"] /\ JPipeline j p
    end.
  Definition JResourceList : json -> list Resource -> Prop := JList JResource.
End Floats.

(** ** Text: bytes that belong to no UTF-8 encoded character become U+FFFD. *)
Definition Character (r : N) : Prop := (r < 55296 \/ 57344 <= r < 1114112)%N.
Inductive Cleaned : string -> string -> Prop :=
| cleaned_nil : Cleaned "" ""
| cleaned_char r s t : Character r -> Cleaned s t -> Cleaned (utf8 r +++ s) (utf8 r +++ t)
| cleaned_byte c s t : (forall r x, Character r -> String c s <> (utf8 r +++ x)%string) -> Cleaned s t ->
    Cleaned (String c s) (utf8 65533 +++ t).

(** ** What can be written: no mapping among the settings, and no infinite or undefined number. *)
Definition Finite (f : float64) : Prop :=
  match f with S754_zero _ | S754_finite _ _ _ => True | S754_infinity _ | S754_nan => False end.
Inductive Writable : value -> Prop :=
| writable_null : Writable VNull
| writable_bool b : Writable (VBool b)
| writable_int z : Writable (VInt z)
| writable_float f : Finite f -> Writable (VFloat f)
| writable_str s : Writable (VStr s)
| writable_list l : (forall v, In v l -> Writable v) -> Writable (VList l).
Definition WritableStep (c : Container) : Prop :=
  (forall k p, In (k, Some p) (ct_settings c) -> Writable (p_value p)) /\
  (forall r o, ct_resources c = Some r -> re_limits r = Some o \/ re_requests r = Some o -> Finite (ro_cpu o)).
Definition WritableResource (r : Resource) : Prop :=
  match r with
  | RPipeline p => forall c, In (Some c) (pi_services p ++ pi_steps p) -> WritableStep c
  | _ => True
  end.

(** ** What is written: an object lists the entries of a struct in order, without the empty ones. *)
Definition Entry := option json -> Prop.
Definition flatten (l : list (string * option json)) : list (string * json) :=
  flat_map (fun e => match snd e with Some j => [(fst e, j)] | None => [] end) l.
Definition Object (l : list (string * Entry)) (j : json) : Prop :=
  exists os, Forall2 (fun (e : string * Entry) o => snd e o) l os /\ j = JObj (flatten (combine (map fst l) os)).
Definition Always (P : json -> Prop) : Entry := fun o => exists j, o = Some j /\ P j.
Definition Unless (empty : Prop) (P : json -> Prop) : Entry :=
  fun o => empty /\ o = None \/ ~ empty /\ exists j, o = Some j /\ P j.
Definition Given {A} (R : A -> json -> Prop) (a : option A) : Entry :=
  fun o => a = None /\ o = None \/ exists x j, a = Some x /\ o = Some j /\ R x j.
Definition OrNull {A} (R : A -> json -> Prop) (a : option A) (j : json) : Prop :=
  a = None /\ j = JNull \/ exists x, a = Some x /\ R x j.
Definition WText (s : string) (j : json) : Prop := exists t, Cleaned s t /\ j = JStr t.
Definition WInt (z : Z) (j : json) : Prop := j = JNum (NilZero.string_of_int (Z.to_int z)).
Definition OText (s : string) : Entry := Unless (s = "") (WText s).
Definition OFlag (b : bool) : Entry := Unless (b = false) (fun j => j = JBool true).
Definition OInt (z : Z) : Entry := Unless (z = 0%Z) (WInt z).
Definition OList {A} (R : A -> json -> Prop) (l : list A) : Entry :=
  Unless (l = []) (fun j => exists js, j = JArr js /\ Forall2 R l js).
Definition OTexts : list string -> Entry := OList WText.
(** Maps in the order of their keys. *)
Definition OMap {A} (R : A -> json -> Prop) (m : smap A) : Entry :=
  Unless (m = []) (fun j => exists es, j = JObj es /\
    Forall2 (fun (e : string * A) (x : string * json) => Cleaned (fst e) (fst x) /\ R (snd e) (snd x)) (byKey m) es).

Definition WCondition (c : Condition) : json -> Prop :=
  Object [("include", OTexts (c_include c)); ("exclude", OTexts (c_exclude c))].
Definition WConditions (w : Conditions) : json -> Prop :=
  Object [("action", Always (WCondition (w_action w))); ("cron", Always (WCondition (w_cron w)));
          ("ref", Always (WCondition (w_ref w))); ("repo", Always (WCondition (w_repo w)));
          ("instance", Always (WCondition (w_instance w))); ("target", Always (WCondition (w_target w)));
          ("event", Always (WCondition (w_event w))); ("branch", Always (WCondition (w_branch w)));
          ("status", Always (WCondition (w_status w))); ("paths", Always (WCondition (w_paths w)));
          ("matrix", OMap WText (w_matrix w))].
Definition WVariable (v : Variable_) : json -> Prop :=
  Object [("value", OText (v_value v)); ("from_secret", OText (v_secret v))].
Definition WPort (p : Port) : json -> Prop :=
  Object [("port", OInt (po_port p)); ("host", OInt (po_host p)); ("protocol", OText (po_protocol p))].
Definition WBuild (b : Build) : json -> Prop :=
  Object [("args", OMap WText (b_args b)); ("cache_from", OTexts (b_cache_from b)); ("context", OText (b_context b));
          ("dockerfile", OText (b_dockerfile b)); ("image", OText (b_image b)); ("labels", OMap WText (b_labels b))].
Definition WPush (p : Push) : json -> Prop := Object [("image", OText (pu_image p))].
Definition WDevice (d : VolumeDevice) : json -> Prop := Object [("name", OText (vd_name d)); ("path", OText (vd_path d))].
Definition WMount (d : VolumeMount) : json -> Prop := Object [("name", OText (vm_name d)); ("path", OText (vm_path d))].
Definition WEmptyDir (d : VolumeEmptyDir) : json -> Prop :=
  Object [("medium", OText (ve_medium d)); ("size_limit", OInt (ve_size d))].
Definition WHostPath (d : VolumeHostPath) : json -> Prop := Object [("path", OText (vh_path d))].
Definition WVolume (v : Volume) : json -> Prop :=
  Object [("name", OText (vo_name v)); ("temp", Given WEmptyDir (vo_empty v)); ("host", Given WHostPath (vo_host v))].
Definition WClone (c : Clone) : json -> Prop :=
  Object [("disable", OFlag (cl_disable c)); ("depth", OInt (cl_depth c)); ("skip_verify", OFlag (cl_skip_verify c))].
Definition WConcurrency (limit : Z) : json -> Prop := Object [("limit", OInt limit)].
Definition WPlatform (p : Platform) : json -> Prop :=
  Object [("os", OText (pl_os p)); ("arch", OText (pl_arch p)); ("variant", OText (pl_variant p));
          ("version", OText (pl_version p))].
Definition WWorkspace (w : Workspace) : json -> Prop := Object [("base", OText (ws_base w)); ("path", OText (ws_path w))].
Definition WCron (c : Cron) : json -> Prop :=
  Object [("version", OText (cr_version c)); ("kind", OText (cr_kind c)); ("type", OText (cr_type c));
          ("name", OText (cr_name c));
          ("spec", Always (Object [("schedule", OText (cr_schedule c)); ("branch", OText (cr_branch c));
                                   ("deployment", Always (Object [("target", OText (cr_target c))]))]))].
Definition WSecret (s : Secret) : json -> Prop :=
  Object [("version", OText (se_version s)); ("kind", OText (se_kind s)); ("type", OText (se_type s));
          ("name", OText (se_name s)); ("data", OText (se_data s));
          ("get", Always (Object [("path", OText (se_get_path s)); ("name", OText (se_get_name s));
                                  ("key", OText (se_get_key s))]))].
Definition WSignature (s : Signature) : json -> Prop :=
  Object [("version", OText (si_version s)); ("kind", Always (WText (si_kind s))); ("hmac", Always (WText (si_hmac s)))].
Definition WRegistry (r : Registry) : json -> Prop :=
  Object [("version", Always (WText (rg_version r))); ("kind", OText (rg_kind r)); ("type", OText (rg_type r));
          ("data", OMap WText (rg_data r))].
Section Numbers.
  Variable formatFloat : float64 -> string.
  Definition WFloat (f : float64) (j : json) : Prop := Finite f /\ j = JNum (formatFloat f).
  (** There is no rule for a mapping. *)
  Inductive WValue : value -> json -> Prop :=
  | wvalue_null : WValue VNull JNull
  | wvalue_bool b : WValue (VBool b) (JBool b)
  | wvalue_int z j : WInt z j -> WValue (VInt z) j
  | wvalue_float f j : WFloat f j -> WValue (VFloat f) j
  | wvalue_str s j : WText s j -> WValue (VStr s) j
  | wvalue_list l js : Forall2 WValue l js -> WValue (VList l) (JArr js).
  Definition WParameter (p : Parameter_) : json -> Prop :=
    Object [("value", Unless (p_value p = VNull) (WValue (p_value p))); ("from_secret", OText (p_secret p))].
  Definition WResourceObject (r : ResourceObject) : json -> Prop :=
    Object [("cpu", Always (WFloat (ro_cpu r))); ("memory", Always (WInt (ro_memory r)))].
  Definition WResources (r : Resources) : json -> Prop :=
    Object [("limits", Given WResourceObject (re_limits r)); ("requests", Given WResourceObject (re_requests r))].
  Definition WContainer (c : Container) : json -> Prop :=
    Object [("build", Given WBuild (ct_build c)); ("command", OTexts (ct_command c)); ("commands", OTexts (ct_commands c));
            ("detach", OFlag (ct_detach c)); ("depends_on", OTexts (ct_depends c));
            ("devices", OList (OrNull WDevice) (ct_devices c)); ("dns", OTexts (ct_dns c));
            ("dns_search", OTexts (ct_dns_search c)); ("entrypoint", OTexts (ct_entrypoint c));
            ("environment", OMap (OrNull WVariable) (ct_environment c)); ("extra_hosts", OTexts (ct_extra_hosts c));
            ("failure", OText (ct_failure c)); ("image", OText (ct_image c)); ("network_mode", OText (ct_network c));
            ("name", OText (ct_name c)); ("ports", OList (OrNull WPort) (ct_ports c));
            ("privileged", OFlag (ct_privileged c)); ("pull", OText (ct_pull c)); ("push", Given WPush (ct_push c));
            ("resources", Given WResources (ct_resources c)); ("settings", OMap (OrNull WParameter) (ct_settings c));
            ("shell", OText (ct_shell c)); ("user", OText (ct_user c)); ("volumes", OList (OrNull WMount) (ct_volumes c));
            ("when", Always (WConditions (ct_when c))); ("working_dir", OText (ct_working_dir c))].
  Definition WPipeline (p : Pipeline) : json -> Prop :=
    Object [("version", OText (pi_version p)); ("kind", OText (pi_kind p)); ("type", OText (pi_type p));
            ("name", OText (pi_name p)); ("clone", Always (WClone (pi_clone p)));
            ("concurrency", Always (WConcurrency (pi_concurrency p))); ("depends_on", OTexts (pi_depends p));
            ("node", OMap WText (pi_node p)); ("platform", Always (WPlatform (pi_platform p)));
            ("image_pull_secrets", OTexts (pi_pull_secrets p)); ("services", OList (OrNull WContainer) (pi_services p));
            ("steps", OList (OrNull WContainer) (pi_steps p)); ("trigger", Always (WConditions (pi_trigger p)));
            ("volumes", OList (OrNull WVolume) (pi_volumes p)); ("workspace", Always (WWorkspace (pi_workspace p)))].
  Definition WResource (r : Resource) : json -> Prop :=
    match r with
    | RCron c => WCron c
    | RPipeline p => WPipeline p
    | RSecret s => WSecret s
    | RSignature s => WSignature s
    | RRegistry g => WRegistry g
    end.
  Definition WManifest (rs : list Resource) (j : json) : Prop :=
    rs = [] /\ j = JNull \/ rs <> [] /\ exists js, j = JArr js /\ Forall2 WResource rs js.
End Numbers.

(** ** What is read back: maps in the order of their keys, integers among the settings as floats. *)
Section Back.
  Variable clean : string -> string.
  Definition cleanMap {A} (g : A -> A) (m : smap A) : smap A := map (fun e => (clean (fst e), g (snd e))) (byKey m).
  Fixpoint backValue (v : value) : value :=
    match v with
    | VInt z => VFloat (binary_normalize 53 1024 z 0 false)
    | VStr s => VStr (clean s)
    | VList l => VList (map backValue l)
    | _ => v
    end.
  Definition backParameter (p : Parameter_) : Parameter_ :=
    {| p_value := backValue (p_value p); p_secret := clean (p_secret p) |}.
  Definition backVariable (v : Variable_) : Variable_ := {| v_value := clean (v_value v); v_secret := clean (v_secret v) |}.
  Definition backPort (p : Port) : Port :=
    {| po_port := po_port p; po_host := po_host p; po_protocol := clean (po_protocol p) |}.
  Definition backBuild (b : Build) : Build :=
    {| b_args := cleanMap clean (b_args b); b_cache_from := map clean (b_cache_from b); b_context := clean (b_context b);
       b_dockerfile := clean (b_dockerfile b); b_image := clean (b_image b); b_labels := cleanMap clean (b_labels b) |}.
  Definition backPush (p : Push) : Push := {| pu_image := clean (pu_image p) |}.
  Definition backDevice (d : VolumeDevice) : VolumeDevice := {| vd_name := clean (vd_name d); vd_path := clean (vd_path d) |}.
  Definition backMount (d : VolumeMount) : VolumeMount := {| vm_name := clean (vm_name d); vm_path := clean (vm_path d) |}.
  Definition backEmptyDir (d : VolumeEmptyDir) : VolumeEmptyDir := {| ve_medium := clean (ve_medium d); ve_size := ve_size d |}.
  Definition backHostPath (d : VolumeHostPath) : VolumeHostPath := {| vh_path := clean (vh_path d) |}.
  Definition backVolume (v : Volume) : Volume :=
    {| vo_name := clean (vo_name v); vo_empty := option_map backEmptyDir (vo_empty v);
       vo_host := option_map backHostPath (vo_host v) |}.
  Definition backCondition (c : Condition) : Condition :=
    {| c_include := map clean (c_include c); c_exclude := map clean (c_exclude c) |}.
  Definition backConditions (w : Conditions) : Conditions :=
    {| w_action := backCondition (w_action w); w_cron := backCondition (w_cron w); w_ref := backCondition (w_ref w);
       w_repo := backCondition (w_repo w); w_instance := backCondition (w_instance w);
       w_target := backCondition (w_target w); w_event := backCondition (w_event w);
       w_branch := backCondition (w_branch w); w_status := backCondition (w_status w);
       w_paths := backCondition (w_paths w); w_matrix := cleanMap clean (w_matrix w) |}.
  Definition backContainer (c : Container) : Container :=
    {| ct_build := option_map backBuild (ct_build c); ct_command := map clean (ct_command c);
       ct_commands := map clean (ct_commands c); ct_detach := ct_detach c; ct_depends := map clean (ct_depends c);
       ct_devices := map (option_map backDevice) (ct_devices c); ct_dns := map clean (ct_dns c);
       ct_dns_search := map clean (ct_dns_search c); ct_entrypoint := map clean (ct_entrypoint c);
       ct_environment := cleanMap (option_map backVariable) (ct_environment c);
       ct_extra_hosts := map clean (ct_extra_hosts c); ct_failure := clean (ct_failure c); ct_image := clean (ct_image c);
       ct_network := clean (ct_network c); ct_name := clean (ct_name c); ct_ports := map (option_map backPort) (ct_ports c);
       ct_privileged := ct_privileged c; ct_pull := clean (ct_pull c); ct_push := option_map backPush (ct_push c);
       ct_resources := ct_resources c; ct_settings := cleanMap (option_map backParameter) (ct_settings c);
       ct_shell := clean (ct_shell c); ct_user := clean (ct_user c); ct_volumes := map (option_map backMount) (ct_volumes c);
       ct_when := backConditions (ct_when c); ct_working_dir := clean (ct_working_dir c) |}.
  Definition backPipeline (p : Pipeline) : Pipeline :=
    {| pi_version := clean (pi_version p); pi_kind := clean (pi_kind p); pi_type := clean (pi_type p);
       pi_name := clean (pi_name p); pi_clone := pi_clone p; pi_concurrency := pi_concurrency p;
       pi_depends := map clean (pi_depends p); pi_node := cleanMap clean (pi_node p);
       pi_platform := {| pl_os := clean (pl_os (pi_platform p)); pl_arch := clean (pl_arch (pi_platform p));
                         pl_variant := clean (pl_variant (pi_platform p)); pl_version := clean (pl_version (pi_platform p)) |};
       pi_pull_secrets := map clean (pi_pull_secrets p);
       pi_services := map (option_map backContainer) (pi_services p);
       pi_steps := map (option_map backContainer) (pi_steps p);
       pi_trigger := backConditions (pi_trigger p); pi_volumes := map (option_map backVolume) (pi_volumes p);
       pi_workspace := {| ws_base := clean (ws_base (pi_workspace p)); ws_path := clean (ws_path (pi_workspace p)) |} |}.
  Definition backResource (r : Resource) : Resource :=
    match r with
    | RPipeline p => RPipeline (backPipeline p)
    | RCron c =>
        RCron {| cr_version := clean (cr_version c); cr_kind := clean (cr_kind c); cr_type := clean (cr_type c);
                 cr_name := clean (cr_name c); cr_schedule := clean (cr_schedule c); cr_branch := clean (cr_branch c);
                 cr_target := clean (cr_target c) |}
    | RSecret s =>
        RSecret {| se_version := clean (se_version s); se_kind := clean (se_kind s); se_type := clean (se_type s);
                   se_name := clean (se_name s); se_data := clean (se_data s); se_get_path := clean (se_get_path s);
                   se_get_name := clean (se_get_name s); se_get_key := clean (se_get_key s) |}
    | RSignature s =>
        RSignature {| si_version := clean (si_version s); si_kind := clean (si_kind s); si_hmac := clean (si_hmac s) |}
    | RRegistry r =>
        RRegistry {| rg_version := clean (rg_version r); rg_kind := clean (rg_kind r); rg_type := clean (rg_type r);
                     rg_data := cleanMap clean (rg_data r) |}
    end.
End Back.

(** A Go value: the keys of a map are distinct (and stay so as text), integers fit into 64 bits, floats are doubles. *)
Definition Double (f : float64) : Prop := valid_binary 53 1024 f = true.
Inductive GoValue : value -> Prop :=
| go_null : GoValue VNull
| go_bool b : GoValue (VBool b)
| go_int z : GoValue (VInt z)
| go_float f : Double f -> GoValue (VFloat f)
| go_str s : GoValue (VStr s)
| go_list l : (forall v, In v l -> GoValue v) -> GoValue (VList l)
| go_map m : GoValue (VMap m).
Definition OneEach {A} (m : smap A) : Prop :=
  NoDup (map fst m) /\ forall k k' t, In k (map fst m) -> In k' (map fst m) -> Cleaned k t -> Cleaned k' t -> k = k'.
Definition GoBuild (b : Build) : Prop := OneEach (b_args b) /\ OneEach (b_labels b).
Definition GoPort (p : Port) : Prop := Fits (po_port p) /\ Fits (po_host p).
Definition GoResources (r : Resources) : Prop :=
  forall o, re_limits r = Some o \/ re_requests r = Some o -> Double (ro_cpu o) /\ Fits (ro_memory o).
Definition GoContainer (c : Container) : Prop :=
  Optional GoBuild (ct_build c) /\ OneEach (ct_environment c) /\ OneEach (ct_settings c) /\
  (forall k p, In (k, Some p) (ct_settings c) -> GoValue (p_value p)) /\
  (forall p, In (Some p) (ct_ports c) -> GoPort p) /\ Optional GoResources (ct_resources c) /\ OneEach (w_matrix (ct_when c)).
Definition GoPipeline (p : Pipeline) : Prop :=
  Fits (cl_depth (pi_clone p)) /\ Fits (pi_concurrency p) /\ OneEach (pi_node p) /\
  (forall c, In (Some c) (pi_services p) \/ In (Some c) (pi_steps p) -> GoContainer c) /\
  OneEach (w_matrix (pi_trigger p)) /\
  (forall v d, In (Some v) (pi_volumes p) -> vo_empty v = Some d -> Fits (ve_size d)).
Definition GoResource (r : Resource) : Prop :=
  match r with RPipeline p => GoPipeline p | RRegistry r => OneEach (rg_data r) | _ => True end.
(** The kind of a resource is the one of its type. *)
Definition Kinded (r : Resource) : Prop :=
  match r with
  | RCron c => cr_kind c = "cron"
  | RSecret s => se_kind s = "secret"
  | RSignature s => si_kind s = "signature"
  | RRegistry r => rg_kind r = "registry"
  | RPipeline p => ~ In (pi_kind p) ["cron"; "secret"; "signature"; "registry"]
  end.
(** Spellings of numbers that are read back as the number, or as the nearest float to an integer. *)
Definition Spelling (formatFloat : float64 -> string) (parseFloat : string -> option float64) : Prop :=
  (forall f, Finite f -> Double f -> parseFloat (formatFloat f) = Some f) /\
  (forall z, parseFloat (itoa z) = Some (binary_normalize 53 1024 z 0 false)).
