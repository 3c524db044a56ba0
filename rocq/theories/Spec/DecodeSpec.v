(** * DecodeSpec.v: what a yaml tree means as a value of each type of package yaml. *)
From Coq Require Import Floats.SpecFloat.
From Verif Require Import Model.Go Model.Types Model.Decode.

(** ** Scalars *)
Inductive IsText : node -> string -> Prop :=
| text_null : IsText NNull ""
| text_str s : IsText (NStr s) s
| text_bool s b : IsText (NBool s b) s
| text_int s z : IsText (NInt s z) s
| text_float s f : IsText (NFloat s f) s.

(** The integer part of a float, towards zero. *)
Definition IntegerPart (f : float64) (z : Z) : Prop :=
  match f with
  | S754_zero _ => z = 0%Z
  | S754_finite s m e =>
      (if s then z <= 0 else 0 <= z)%Z /\
      (Z.abs z * 2 ^ Z.max 0 (- e) <= Zpos m * 2 ^ Z.max 0 e < (Z.abs z + 1) * 2 ^ Z.max 0 (- e))%Z
  | _ => False
  end.
Definition Fits (z : Z) : Prop := (- 2 ^ 63 <= z < 2 ^ 63)%Z.
(** An integer may be written as a float, which loses its fraction. A float that is too
    negative (and 2^63 itself) becomes the smallest integer instead of an error. *)
Inductive IsInt : node -> Z -> Prop :=
| int_null : IsInt NNull 0
| int_int s z : Fits z -> IsInt (NInt s z) z
| int_float s f z : IntegerPart f z -> Fits z -> IsInt (NFloat s f) z
| int_float_wrapped s f :
    (f = S754_infinity true \/ exists z, IntegerPart f z /\ (z < - 2 ^ 63 \/ z = 2 ^ 63)%Z) ->
    IsInt (NFloat s f) (- 2 ^ 63).
Inductive IsBool : node -> bool -> Prop :=
| bool_null : IsBool NNull false
| bool_bool s b : IsBool (NBool s b) b.
Inductive IsFloat : node -> float64 -> Prop :=
| float_null : IsFloat NNull (S754_zero false)
| float_int s z : IsFloat (NInt s z) (binary_normalize 53 1024 z 0 false)
| float_float s f : IsFloat (NFloat s f) f.

(** ** Lists, pointers, maps and structs *)
Definition IsList {A} (R : node -> A -> Prop) (n : node) (xs : list A) : Prop :=
  n = NNull /\ xs = [] \/ exists l, n = NSeq l /\ Forall2 R l xs.
Definition IsPtr {A} (R : node -> A -> Prop) (n : node) (o : option A) : Prop :=
  n = NNull /\ o = None \/ n <> NNull /\ exists x, o = Some x /\ R n x.
Definition IsMap {A} (R : node -> A -> Prop) (n : node) (m : smap A) : Prop :=
  n = NNull /\ m = [] \/
  exists l, n = NMap l /\ Forall2 (fun kv e => IsText (fst kv) (fst e) /\ R (snd kv) (snd e)) l m.
(** The entries of a mapping by the text of their keys. Null is the empty mapping. *)
Definition Fields : node -> smap node -> Prop := IsMap (fun v n => n = v).
(** The value of an entry, the default if there is none. *)
Definition Has {A} (f : smap node) (k : string) (R : node -> A -> Prop) (zero x : A) : Prop :=
  (exists n, In (k, n) f /\ R n x) \/ (~ In k (map fst f) /\ x = zero).
Definition HasText f k x := Has f k IsText "" x.
Definition HasTexts f k x := Has f k (IsList IsText) [] x.
Definition HasTextMap f k x := Has f k (IsMap IsText) [] x.
Definition HasBool f k x := Has f k IsBool false x.
Definition HasInt f k x := Has f k IsInt 0%Z x.

(** No mapping of a tree has two keys with the same text. *)
Definition texts (n : node) : list string :=
  match n with
  | NNull => [""] | NStr s => [s] | NBool s _ => [s] | NInt s _ => [s] | NFloat s _ => [s]
  | NSeq _ | NMap _ => []
  end.
Inductive Distinct : node -> Prop :=
| distinct_null : Distinct NNull
| distinct_str s : Distinct (NStr s)
| distinct_bool s b : Distinct (NBool s b)
| distinct_int s z : Distinct (NInt s z)
| distinct_float s f : Distinct (NFloat s f)
| distinct_seq l : (forall n, In n l -> Distinct n) -> Distinct (NSeq l)
| distinct_map m : NoDup (flat_map (fun kv => texts (fst kv)) m) ->
    (forall k v, In (k, v) m -> Distinct k /\ Distinct v) -> Distinct (NMap m).

(** ** Any value *)
Definition IsScalar (n : node) : Prop := exists s, IsText n s.
Inductive IsValue : node -> value -> Prop :=
| value_null : IsValue NNull VNull
| value_str s : IsValue (NStr s) (VStr s)
| value_bool s b : IsValue (NBool s b) (VBool b)
| value_int s z : IsValue (NInt s z) (VInt z)
| value_float s f : IsValue (NFloat s f) (VFloat f)
| value_list l vs : Forall2 IsValue l vs -> IsValue (NSeq l) (VList vs)
| value_map m es :
    Forall2 (fun kv e => IsScalar (fst kv) /\ IsValue (fst kv) (fst e) /\ IsValue (snd kv) (snd e)) m es ->
    IsValue (NMap m) (VMap es).

(** ** The parts of a pipeline that have a short form *)

(** The strings of a list, leaving out nested lists and mappings. *)
Inductive Strings : list node -> list string -> Prop :=
| strings_nil : Strings [] []
| strings_text n s l ss : IsText n s -> Strings l ss -> Strings (n :: l) (s :: ss)
| strings_skip n l ss : ~ IsScalar n -> Strings l ss -> Strings (n :: l) ss.
(** The strings under a key of a mapping; none if the key is absent or holds no list. *)
Definition StringsAt (m : list (node * node)) (k : string) (ss : list string) : Prop :=
  (exists key l, In (key, NSeq l) m /\ IsText key k /\ Strings l ss) \/
  ((forall key l, In (key, NSeq l) m -> ~ IsText key k) /\ ss = []).
Inductive IsCondition : node -> Condition -> Prop :=
| cond_null : IsCondition NNull {| c_include := []; c_exclude := [] |}
| cond_text n s : n <> NNull -> IsText n s -> IsCondition n {| c_include := [s]; c_exclude := [] |}
| cond_list l ss : Strings l ss -> IsCondition (NSeq l) {| c_include := ss; c_exclude := [] |}
| cond_map m inc exc : StringsAt m "include" inc -> StringsAt m "exclude" exc ->
    IsCondition (NMap m) {| c_include := inc; c_exclude := exc |}.

Inductive IsVariable : node -> Variable_ -> Prop :=
| var_text n s : IsText n s -> IsVariable n {| v_value := s; v_secret := "" |}
| var_map m f v s : Fields (NMap m) f -> HasText f "value" v -> HasText f "from_secret" s ->
    IsVariable (NMap m) {| v_value := v; v_secret := s |}.

(** A mapping with a non-empty from_secret, whatever else it has. *)
Definition RefersTo (n : node) (s : string) : Prop :=
  s <> "" /\ exists f, Fields n f /\ HasText f "from_secret" s.
Inductive IsParameter : node -> Parameter_ -> Prop :=
| param_secret n s : RefersTo n s -> IsParameter n {| p_value := VNull; p_secret := s |}
| param_value n v : (forall s, ~ RefersTo n s) -> IsValue n v -> IsParameter n {| p_value := v; p_secret := "" |}.

Inductive IsPort : node -> Port -> Prop :=
| port_int n z : IsInt n z -> IsPort n {| po_port := z; po_host := 0; po_protocol := "" |}
| port_map m f p h pr : Fields (NMap m) f -> HasInt f "port" p -> HasInt f "host" h -> HasText f "protocol" pr ->
    IsPort (NMap m) {| po_port := p; po_host := h; po_protocol := pr |}.

Inductive IsBuild : node -> Build -> Prop :=
| build_text n s : IsText n s ->
    IsBuild n {| b_args := []; b_cache_from := []; b_context := ""; b_dockerfile := ""; b_image := s; b_labels := [] |}
| build_map m f b : Fields (NMap m) f ->
    HasTextMap f "args" (b_args b) -> HasTexts f "cache_from" (b_cache_from b) -> HasText f "context" (b_context b) ->
    HasText f "dockerfile" (b_dockerfile b) -> HasText f "image" (b_image b) -> HasTextMap f "labels" (b_labels b) ->
    IsBuild (NMap m) b.

Inductive IsPush : node -> Push -> Prop :=
| push_text n s : IsText n s -> IsPush n {| pu_image := s |}
| push_map m f s : Fields (NMap m) f -> HasText f "image" s -> IsPush (NMap m) {| pu_image := s |}.

(** ** The structs *)
Definition HasCond f k x := Has f k IsCondition {| c_include := []; c_exclude := [] |} x.
Definition IsConditions (n : node) (w : Conditions) : Prop := exists f, Fields n f /\
  HasCond f "action" (w_action w) /\ HasCond f "cron" (w_cron w) /\ HasCond f "ref" (w_ref w) /\
  HasCond f "repo" (w_repo w) /\ HasCond f "instance" (w_instance w) /\ HasCond f "target" (w_target w) /\
  HasCond f "event" (w_event w) /\ HasCond f "branch" (w_branch w) /\ HasCond f "status" (w_status w) /\
  HasCond f "paths" (w_paths w) /\ HasTextMap f "matrix" (w_matrix w).
(** An entry that is itself a struct; an absent one is an empty one. *)
Definition HasStruct {A} (f : smap node) (k : string) (R : node -> A -> Prop) (x : A) : Prop :=
  (exists n, In (k, n) f /\ R n x) \/ (~ In k (map fst f) /\ R NNull x).

Section Sizes.
  Variable ramInBytes : string -> option Z.
  (** A size is a number of bytes or a text with a unit. *)
  Definition IsSize (n : node) (z : Z) : Prop :=
    IsInt n z \/ (~ (exists z', IsInt n z') /\ exists s, IsText n s /\ ramInBytes s = Some z).
  Definition HasSize f k x := Has f k IsSize 0%Z x.

  Definition IsResourceObject (n : node) (r : ResourceObject) : Prop := exists f, Fields n f /\
    Has f "cpu" IsFloat (S754_zero false) (ro_cpu r) /\ HasSize f "memory" (ro_memory r).
  Definition IsResources (n : node) (r : Resources) : Prop := exists f, Fields n f /\
    Has f "limits" (IsPtr IsResourceObject) None (re_limits r) /\
    Has f "requests" (IsPtr IsResourceObject) None (re_requests r).
  Definition IsDevice (n : node) (d : VolumeDevice) : Prop := exists f, Fields n f /\
    HasText f "name" (vd_name d) /\ HasText f "path" (vd_path d).
  Definition IsMount (n : node) (d : VolumeMount) : Prop := exists f, Fields n f /\
    HasText f "name" (vm_name d) /\ HasText f "path" (vm_path d).
  Definition IsEmptyDir (n : node) (d : VolumeEmptyDir) : Prop := exists f, Fields n f /\
    HasText f "medium" (ve_medium d) /\ HasSize f "size_limit" (ve_size d).
  Definition IsHostPath (n : node) (d : VolumeHostPath) : Prop := exists f, Fields n f /\
    HasText f "path" (vh_path d).
  Definition IsVolume (n : node) (v : Volume) : Prop := exists f, Fields n f /\
    HasText f "name" (vo_name v) /\ Has f "temp" (IsPtr IsEmptyDir) None (vo_empty v) /\
    Has f "host" (IsPtr IsHostPath) None (vo_host v).
  Definition IsContainer (n : node) (c : Container) : Prop := exists f, Fields n f /\
    Has f "build" (IsPtr IsBuild) None (ct_build c) /\
    HasTexts f "command" (ct_command c) /\
    HasTexts f "commands" (ct_commands c) /\
    HasBool f "detach" (ct_detach c) /\
    HasTexts f "depends_on" (ct_depends c) /\
    Has f "devices" (IsList (IsPtr IsDevice)) [] (ct_devices c) /\
    HasTexts f "dns" (ct_dns c) /\
    HasTexts f "dns_search" (ct_dns_search c) /\
    HasTexts f "entrypoint" (ct_entrypoint c) /\
    Has f "environment" (IsMap (IsPtr IsVariable)) [] (ct_environment c) /\
    HasTexts f "extra_hosts" (ct_extra_hosts c) /\
    HasText f "failure" (ct_failure c) /\
    HasText f "image" (ct_image c) /\
    HasText f "network_mode" (ct_network c) /\
    HasText f "name" (ct_name c) /\
    Has f "ports" (IsList (IsPtr IsPort)) [] (ct_ports c) /\
    HasBool f "privileged" (ct_privileged c) /\
    HasText f "pull" (ct_pull c) /\
    Has f "push" (IsPtr IsPush) None (ct_push c) /\
    Has f "resources" (IsPtr IsResources) None (ct_resources c) /\
    Has f "settings" (IsMap (IsPtr IsParameter)) [] (ct_settings c) /\
    HasText f "shell" (ct_shell c) /\
    HasText f "user" (ct_user c) /\
    Has f "volumes" (IsList (IsPtr IsMount)) [] (ct_volumes c) /\
    HasStruct f "when" IsConditions (ct_when c) /\
    HasText f "working_dir" (ct_working_dir c).
  Definition IsClone (n : node) (c : Clone) : Prop := exists f, Fields n f /\
    HasBool f "disable" (cl_disable c) /\ HasInt f "depth" (cl_depth c) /\ HasBool f "skip_verify" (cl_skip_verify c).
  Definition IsConcurrency (n : node) (z : Z) : Prop := exists f, Fields n f /\ HasInt f "limit" z.
  Definition IsPlatform (n : node) (p : Platform) : Prop := exists f, Fields n f /\
    HasText f "os" (pl_os p) /\ HasText f "arch" (pl_arch p) /\ HasText f "variant" (pl_variant p) /\
    HasText f "version" (pl_version p).
  Definition IsWorkspace (n : node) (w : Workspace) : Prop := exists f, Fields n f /\
    HasText f "base" (ws_base w) /\ HasText f "path" (ws_path w).
  Definition IsPipeline (n : node) (p : Pipeline) : Prop := exists f, Fields n f /\
    HasText f "version" (pi_version p) /\ HasText f "kind" (pi_kind p) /\ HasText f "type" (pi_type p) /\
    HasText f "name" (pi_name p) /\
    HasStruct f "clone" IsClone (pi_clone p) /\
    HasStruct f "concurrency" IsConcurrency (pi_concurrency p) /\
    HasTexts f "depends_on" (pi_depends p) /\
    HasTextMap f "node" (pi_node p) /\
    HasStruct f "platform" IsPlatform (pi_platform p) /\
    HasTexts f "image_pull_secrets" (pi_pull_secrets p) /\
    Has f "services" (IsList (IsPtr IsContainer)) [] (pi_services p) /\
    Has f "steps" (IsList (IsPtr IsContainer)) [] (pi_steps p) /\
    HasStruct f "trigger" IsConditions (pi_trigger p) /\
    Has f "volumes" (IsList (IsPtr IsVolume)) [] (pi_volumes p) /\
    HasStruct f "workspace" IsWorkspace (pi_workspace p).
End Sizes.

Definition IsCron (n : node) (c : Cron) : Prop := exists f, Fields n f /\
  HasText f "version" (cr_version c) /\ HasText f "kind" (cr_kind c) /\ HasText f "type" (cr_type c) /\
  HasText f "name" (cr_name c) /\
  exists spec g deploy h, HasStruct f "spec" eq spec /\ Fields spec g /\ HasStruct g "deployment" eq deploy /\
    Fields deploy h /\ HasText g "schedule" (cr_schedule c) /\ HasText g "branch" (cr_branch c) /\
    HasText h "target" (cr_target c).
Definition IsSecret (n : node) (s : Secret) : Prop := exists f, Fields n f /\
  HasText f "version" (se_version s) /\ HasText f "kind" (se_kind s) /\ HasText f "type" (se_type s) /\
  HasText f "name" (se_name s) /\ HasText f "data" (se_data s) /\
  exists get g, HasStruct f "get" eq get /\ Fields get g /\
    HasText g "path" (se_get_path s) /\ HasText g "name" (se_get_name s) /\ HasText g "key" (se_get_key s).
Definition IsSignature (n : node) (s : Signature) : Prop := exists f, Fields n f /\
  HasText f "version" (si_version s) /\ HasText f "kind" (si_kind s) /\ HasText f "hmac" (si_hmac s).
Definition IsRegistry (n : node) (r : Registry) : Prop := exists f, Fields n f /\
  HasText f "version" (rg_version r) /\ HasText f "kind" (rg_kind r) /\ HasText f "type" (rg_type r) /\
  HasTextMap f "data" (rg_data r).

(** The resource a document stands for, given its kind. *)
Definition IsResource (ramInBytes : string -> option Z) (kind : string) (n : node) (r : Resource) : Prop :=
  match r with
  | RCron c => kind = "cron" /\ IsCron n c
  | RSecret s => kind = "secret" /\ IsSecret n s
  | RSignature s => kind = "signature" /\ IsSignature n s
  | RRegistry g => kind = "registry" /\ IsRegistry n g
  | RPipeline p => ~ In kind ["cron"; "secret"; "signature"; "registry"] /\ IsPipeline ramInBytes n p
  end.
(** The kind a document gives, none being the empty one. *)
Definition HasKind (n : node) (k : string) : Prop := exists f, Fields n f /\ HasText f "kind" k.

(** The keys a pipeline and a step may have. *)
Definition pipelineKeys : list string :=
  ["version"; "kind"; "type"; "name"; "clone"; "concurrency"; "depends_on"; "node"; "platform";
   "image_pull_secrets"; "services"; "steps"; "trigger"; "volumes"; "workspace"].
Definition stepKeys : list string :=
  ["build"; "command"; "commands"; "detach"; "depends_on"; "devices"; "dns"; "dns_search"; "entrypoint";
   "environment"; "extra_hosts"; "failure"; "image"; "network_mode"; "name"; "ports"; "privileged"; "pull";
   "push"; "resources"; "settings"; "shell"; "user"; "volumes"; "when"; "working_dir"].

(** The long forms, as the yaml library writes these structs. *)
Definition portNode (p : Port) : node :=
  NMap [(NStr "port", NInt (itoa (po_port p)) (po_port p)); (NStr "host", NInt (itoa (po_host p)) (po_host p));
        (NStr "protocol", NStr (po_protocol p))].
Definition textMap (m : smap string) : node := NMap (map (fun kv => (NStr (fst kv), NStr (snd kv))) m).
Definition textList (l : list string) : node := NSeq (map NStr l).
Definition buildNode (b : Build) : node :=
  NMap [(NStr "args", textMap (b_args b)); (NStr "cache_from", textList (b_cache_from b)); (NStr "context", NStr (b_context b));
        (NStr "dockerfile", NStr (b_dockerfile b)); (NStr "image", NStr (b_image b)); (NStr "labels", textMap (b_labels b))].
Definition pushNode (p : Push) : node := NMap [(NStr "image", NStr (pu_image p))].
