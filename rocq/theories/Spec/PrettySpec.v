(** * PrettySpec.v: what formatting a configuration preserves. *)
From Coq Require Import Floats.SpecFloat.
From Verif Require Import Model.Go Model.Types Model.Decode Spec.DecodeSpec Spec.YamlSpec.
From Verif Require Spec.ScriptSpec.

(** ** Strings *)

(** The words yaml reads as null. *)
Definition nullWords : list string := [""; "~"; "null"; "Null"; "NULL"].
(** Text of yaml characters and the control characters from bell to carriage return. *)
Definition Legible (s : string) : Prop :=
  exists rs, s = concats (map ScriptSpec.utf8 rs) /\ Forall (fun r => YamlChar r \/ (7 <= r <= 13)%N) rs.
(** The strings the formatter writes so that yaml reads them back as text. *)
Definition Readable (s : string) : Prop :=
  Legible s /\ (s <> "" -> ~ In s nullWords) /\ s <> "-" /\ s <> "?" /\
  match s with String c _ => c <> "&"%char /\ c <> "!"%char | "" => True end.
(** Keys are bounded in length. The key << would be a merge. *)
Definition ReadableKey (s : string) : Prop := Readable s /\ s <> "<<" /\ String.length s <= 340.

(** What a yaml library makes of plain scalars: the null words are null, the text of all others is
    kept whatever type they have. *)
Record Resolver (resolve : string -> node) : Prop := {
  resolve_text : forall s, ~ In s nullWords -> IsText (resolve s) s /\ resolve s <> NNull;
  resolve_null : forall s, In s nullWords -> resolve s = NNull;
  resolve_true : resolve "true" = NBool "true" true;
  resolve_false : resolve "false" = NBool "false" false;
  resolve_int : forall z, resolve (itoa z) = NInt (itoa z) z }.

(** A number as it is written: a plain scalar of printable characters. *)
Definition Printed (s : string) : Prop :=
  isPlain s = true /\ exists rs, s = concats (map ScriptSpec.utf8 rs) /\ Forall YamlChar rs.

(** ** Maps are written in the order of their keys *)
Fixpoint insertKey {V} (e : string * V) (m : smap V) : smap V :=
  match m with
  | [] => [e]
  | f :: m' => match String.compare (fst e) (fst f) with Gt => f :: insertKey e m' | _ => e :: m end
  end.
Definition byKey {V} (m : smap V) : smap V := fold_right insertKey [] m.
Fixpoint insertValue (e : value * value) (m : list (value * value)) : list (value * value) :=
  match m with
  | [] => [e]
  | f :: m' =>
      match fst e, fst f with
      | VStr a, VStr b => match String.compare a b with Gt => f :: insertValue e m' | _ => e :: m end
      | _, _ => e :: m
      end
  end.
Fixpoint sortedValue (v : value) : value :=
  match v with
  | VList l => VList (map sortedValue l)
  | VMap m => VMap (fold_right insertValue [] (map (fun kv => (fst kv, sortedValue (snd kv))) m))
  | _ => v
  end.

(** ** What is read back *)
Definition sortedParameter (p : Parameter_) : Parameter_ := {| p_value := sortedValue (p_value p); p_secret := p_secret p |}.
Definition sortedBuild (b : Build) : Build :=
  {| b_args := byKey (b_args b); b_cache_from := b_cache_from b; b_context := b_context b;
     b_dockerfile := b_dockerfile b; b_image := b_image b; b_labels := byKey (b_labels b) |}.
Definition sortedContainer (c : Container) : Container :=
  {| ct_build := option_map sortedBuild (ct_build c); ct_command := ct_command c; ct_commands := ct_commands c;
     ct_detach := ct_detach c; ct_depends := ct_depends c; ct_devices := ct_devices c; ct_dns := ct_dns c;
     ct_dns_search := ct_dns_search c; ct_entrypoint := ct_entrypoint c; ct_environment := byKey (ct_environment c);
     ct_extra_hosts := ct_extra_hosts c; ct_failure := ct_failure c; ct_image := ct_image c;
     ct_network := ct_network c; ct_name := ct_name c; ct_ports := ct_ports c; ct_privileged := ct_privileged c;
     ct_pull := ct_pull c; ct_push := ct_push c; ct_resources := ct_resources c;
     ct_settings := byKey (map (fun e => (fst e, option_map sortedParameter (snd e))) (ct_settings c));
     ct_shell := ct_shell c; ct_user := ct_user c; ct_volumes := ct_volumes c; ct_when := ct_when c;
     ct_working_dir := ct_working_dir c |}.
(** The platform a pipeline runs on if it names none. *)
Definition defaultPlatform : Platform := {| pl_os := "linux"; pl_arch := "amd64"; pl_variant := ""; pl_version := "" |}.
Definition sortedPipeline (p : Pipeline) : Pipeline :=
  {| pi_version := pi_version p; pi_kind := pi_kind p; pi_type := pi_type p; pi_name := pi_name p;
     pi_clone := pi_clone p; pi_concurrency := pi_concurrency p; pi_depends := pi_depends p;
     pi_node := byKey (pi_node p);
     pi_platform :=
       match pi_platform p with
       | {| pl_os := ""; pl_arch := ""; pl_variant := ""; pl_version := "" |} => defaultPlatform
       | pl => pl
       end;
     pi_pull_secrets := pi_pull_secrets p;
     pi_services := map (option_map sortedContainer) (pi_services p);
     pi_steps := map (option_map sortedContainer) (pi_steps p);
     pi_trigger := pi_trigger p; pi_volumes := pi_volumes p; pi_workspace := pi_workspace p |}.
(** The data of a secret is broken into lines of sixty characters, which are read back with a blank
    between them and a newline at the end. *)
Definition pieces (s : string) (ps : list string) : Prop :=
  s = concats ps /\
  exists whole last, ps = whole ++ [last] /\ Forall (fun p => String.length p = 60) whole /\ 1 <= String.length last <= 60.
Definition squeezed (s t : string) : Prop :=
  list_ascii_of_string t = filter (fun c => negb (Ascii.eqb c " " || Ascii.eqb c NL)) (list_ascii_of_string s).
Definition FoldedData (s t : string) : Prop :=
  s = "" /\ t = "" \/ exists u ps, squeezed s u /\ pieces u ps /\ t = (join " " ps +++ nl)%string.
Inductive ReadBack : Resource -> Resource -> Prop :=
| back_pipeline p : ReadBack (RPipeline p) (RPipeline (sortedPipeline p))
| back_cron c : ReadBack (RCron c) (RCron c)
| back_signature s : ReadBack (RSignature s) (RSignature s)
| back_secret s d : FoldedData (se_data s) d ->
    ReadBack (RSecret s)
      (RSecret {| se_version := se_version s; se_kind := se_kind s; se_type := se_type s; se_name := se_name s;
                  se_data := d; se_get_path := se_get_path s; se_get_name := se_get_name s; se_get_key := se_get_key s |}).

(** ** The configurations that are read back: text yaml can write, and nothing null or empty where
    the formatter would drop it or fail. *)
Section Formattable.
  Variable resolve : string -> node.
  Variable ramInBytes : string -> option Z.
  Variable formatFloat : float64 -> string.
  Variable bytesSize : Z -> string.

  Definition Present {A} (P : A -> Prop) (o : option A) : Prop := exists a, o = Some a /\ P a.
  Definition Optional {A} (P : A -> Prop) (o : option A) : Prop := forall a, o = Some a -> P a.
  Definition KeysOk {V} (m : smap V) : Prop := NoDup (map fst m) /\ Forall ReadableKey (map fst m).
  Definition TextMapOk (m : smap string) : Prop := KeysOk m /\ Forall Readable (map snd m).
  Definition SizeOk (z : Z) : Prop :=
    z = 0%Z \/ Readable (bytesSize z) /\ resolve (bytesSize z) = NStr (bytesSize z) /\ ramInBytes (bytesSize z) = Some z.
  (** Strings that a plain scalar keeps strings. *)
  Definition StringOk (s : string) : Prop := Readable s /\ (s = "" \/ resolve s = NStr s).
  Inductive ValueOk : value -> Prop :=
  | ok_null : ValueOk VNull
  | ok_bool b : ValueOk (VBool b)
  | ok_int z : Fits z -> ValueOk (VInt z)
  | ok_float f : Printed (formatFloat f) -> (exists s, resolve (formatFloat f) = NFloat s f) -> ValueOk (VFloat f)
  | ok_str s : StringOk s -> ValueOk (VStr s)
  | ok_list l : (forall v, In v l -> ValueOk v) -> ValueOk (VList l)
  | ok_map ks vs : List.length ks = List.length vs -> NoDup ks ->
      (forall k, In k ks -> ReadableKey k /\ StringOk k) -> (forall v, In v vs -> ValueOk v) ->
      ValueOk (VMap (combine (map VStr ks) vs)).
  (** A setting is a secret or a value, and not a value that would be read as a secret. *)
  Definition ParameterOk (p : Parameter_) : Prop :=
    p_secret p <> "" /\ Readable (p_secret p) /\ p_value p = VNull \/
    p_secret p = "" /\ ValueOk (p_value p) /\ p_value p <> VNull /\ p_value p <> VList [] /\
    forall m v, p_value p = VMap m -> ~ In (VStr "from_secret", v) m.
  Definition VariableOk (v : Variable_) : Prop :=
    Readable (v_value v) /\ Readable (v_secret v) /\ (v_value v = "" <-> v_secret v <> "").
  Definition PortOk (p : Port) : Prop := Fits (po_port p) /\ Fits (po_host p) /\ Readable (po_protocol p).
  Definition BuildOk (b : Build) : Prop :=
    TextMapOk (b_args b) /\ Forall Readable (b_cache_from b) /\ Readable (b_context b) /\ Readable (b_dockerfile b) /\
    Readable (b_image b) /\ TextMapOk (b_labels b) /\
    b <> {| b_args := []; b_cache_from := []; b_context := ""; b_dockerfile := ""; b_image := ""; b_labels := [] |}.
  Definition PushOk (p : Push) : Prop := Readable (pu_image p) /\ pu_image p <> "".
  Definition ResourceObjectOk (r : ResourceObject) : Prop :=
    (ro_cpu r = S754_zero false \/ (forall s, ro_cpu r <> S754_zero s) /\ Printed (formatFloat (ro_cpu r)) /\
                                   IsFloat (resolve (formatFloat (ro_cpu r))) (ro_cpu r)) /\
    SizeOk (ro_memory r) /\ r <> {| ro_cpu := S754_zero false; ro_memory := 0 |}.
  Definition ResourcesOk (r : Resources) : Prop :=
    Optional ResourceObjectOk (re_limits r) /\ Optional ResourceObjectOk (re_requests r) /\
    (re_limits r <> None \/ re_requests r <> None).
  Definition DeviceOk (d : VolumeDevice) : Prop := Readable (vd_name d) /\ Readable (vd_path d) /\ (vd_name d <> "" \/ vd_path d <> "").
  Definition MountOk (d : VolumeMount) : Prop := Readable (vm_name d) /\ Readable (vm_path d) /\ (vm_name d <> "" \/ vm_path d <> "").
  Definition VolumeOk (v : Volume) : Prop :=
    Readable (vo_name v) /\ vo_name v <> "" /\
    Optional (fun d => Readable (ve_medium d) /\ SizeOk (ve_size d)) (vo_empty v) /\
    Optional (fun d => Readable (vh_path d) /\ vh_path d <> "") (vo_host v).
  Definition ConditionOk (c : Condition) : Prop := Forall Readable (c_include c) /\ Forall Readable (c_exclude c).
  Definition ConditionsOk (w : Conditions) : Prop :=
    ConditionOk (w_action w) /\ ConditionOk (w_cron w) /\ ConditionOk (w_ref w) /\ ConditionOk (w_repo w) /\
    ConditionOk (w_instance w) /\ ConditionOk (w_target w) /\ ConditionOk (w_event w) /\ ConditionOk (w_branch w) /\
    ConditionOk (w_status w) /\ ConditionOk (w_paths w) /\ w_matrix w = [].
  Record ContainerOk (c : Container) : Prop := {
    ok_build : Optional BuildOk (ct_build c);
    ok_command : Forall Readable (ct_command c);
    ok_commands : Forall Readable (ct_commands c);
    ok_depends : Forall Readable (ct_depends c);
    ok_devices : Forall (Present DeviceOk) (ct_devices c);
    ok_dns : Forall Readable (ct_dns c);
    ok_dns_search : Forall Readable (ct_dns_search c);
    ok_entrypoint : Forall Readable (ct_entrypoint c);
    ok_environment : KeysOk (ct_environment c) /\ Forall (Present VariableOk) (map snd (ct_environment c));
    ok_extra_hosts : Forall Readable (ct_extra_hosts c);
    ok_failure : Readable (ct_failure c);
    ok_image : Readable (ct_image c);
    ok_network : Readable (ct_network c);
    ok_name : Readable (ct_name c) /\ ct_name c <> "";
    ok_ports : Forall (Present PortOk) (ct_ports c);
    ok_pull : Readable (ct_pull c);
    ok_push : Optional PushOk (ct_push c);
    ok_resources : Optional ResourcesOk (ct_resources c);
    ok_settings : KeysOk (ct_settings c) /\ Forall (Present ParameterOk) (map snd (ct_settings c));
    ok_shell : Readable (ct_shell c);
    ok_user : Readable (ct_user c);
    ok_mounts : Forall (Present MountOk) (ct_volumes c);
    ok_when : ConditionsOk (ct_when c);
    ok_working_dir : Readable (ct_working_dir c) }.
  Record PipelineOk (p : Pipeline) : Prop := {
    ok_version : Readable (pi_version p);
    ok_kind : Readable (pi_kind p) /\ ~ In (pi_kind p) [""; "cron"; "secret"; "signature"; "registry"];
    ok_type : Readable (pi_type p);
    ok_pname : Readable (pi_name p);
    ok_clone : Fits (cl_depth (pi_clone p));
    ok_concurrency : Fits (pi_concurrency p);
    ok_pdepends : Forall Readable (pi_depends p);
    ok_node : TextMapOk (pi_node p);
    ok_platform : Readable (pl_os (pi_platform p)) /\ Readable (pl_arch (pi_platform p)) /\
                  Readable (pl_variant (pi_platform p)) /\ Readable (pl_version (pi_platform p));
    ok_pull_secrets : Forall Readable (pi_pull_secrets p);
    ok_services : Forall (Present ContainerOk) (pi_services p);
    ok_steps : Forall (Present ContainerOk) (pi_steps p);
    ok_trigger : ConditionsOk (pi_trigger p);
    ok_volumes : Forall (Present VolumeOk) (pi_volumes p);
    ok_workspace : Readable (ws_base (pi_workspace p)) /\ Readable (ws_path (pi_workspace p)) }.
  Definition CronOk (c : Cron) : Prop :=
    Readable (cr_version c) /\ cr_kind c = "cron" /\ cr_type c = "" /\ Readable (cr_name c) /\
    Readable (cr_schedule c) /\ Readable (cr_branch c) /\ Readable (cr_target c).
  Definition SignatureOk (s : Signature) : Prop := Readable (si_version s) /\ si_kind s = "signature" /\ Readable (si_hmac s).
  (** Data of printable ASCII characters that is not blank. *)
  Definition DataOk (d : string) : Prop :=
    Forall (fun c => c = NL \/ (32 <= code c <= 126)%N) (list_ascii_of_string d) /\
    exists c, In c (list_ascii_of_string d) /\ c <> " "%char /\ c <> NL.
  (** A secret has data or refers to some, not both. *)
  Definition SecretOk (s : Secret) : Prop :=
    Readable (se_version s) /\ se_kind s = "secret" /\ Readable (se_type s) /\ Readable (se_name s) /\
    Readable (se_get_path s) /\ Readable (se_get_name s) /\ Readable (se_get_key s) /\
    (DataOk (se_data s) /\ se_get_path s = "" /\ se_get_name s = "" /\ se_get_key s = "" \/
     se_data s = "" /\ (se_get_path s <> "" \/ se_get_name s <> "" \/ se_get_key s <> "")).
  Definition Formattable (r : Resource) : Prop :=
    match r with
    | RPipeline p => PipelineOk p
    | RCron c => CronOk c
    | RSecret s => SecretOk s
    | RSignature s => SignatureOk s
    | RRegistry _ => False
    end.
End Formattable.

(** ** Null entries *)
Definition StepNull (c : Container) : Prop :=
  In None (ct_devices c) \/ In None (map snd (ct_environment c)) \/ In None (ct_ports c) \/
  In None (map snd (ct_settings c)) \/ In None (ct_volumes c).
Definition HasNull (r : Resource) : Prop :=
  match r with
  | RPipeline p => (exists c, In (Some c) (pi_steps p ++ pi_services p) /\ StepNull c) \/ In None (pi_volumes p)
  | _ => False
  end.
(** The keys of a Go map are distinct. *)
Definition GoMaps (r : Resource) : Prop :=
  match r with
  | RPipeline p => forall c, In (Some c) (pi_steps p ++ pi_services p) ->
      NoDup (map fst (ct_environment c)) /\ NoDup (map fst (ct_settings c))
  | _ => True
  end.
