(** * Pretty.v: the yaml formatter (yaml/pretty).

    Simplifications: BytesSize.String, strconv.FormatFloat and fmt.Sprint of a float are
    parameters; the values of settings are those the yaml decoder produces, so int64 occurs
    nowhere and an integer outside its range is a uint64. *)
From Coq Require Import Floats.SpecFloat.
From Verif Require Import Model.Go Model.Types Model.Encode Model.Quote.
From Verif Require Model.Legacy.

(** ** Writers (writer.go 77-81 and 137-141)

    The state of the base writer, and the index writers wrapped around it: the innermost one,
    which is the writer the functions are called with, comes first. *)
Record writer : Type := {
  w_out : string;
  w_depth : Z;
  w_zero : bool;
  w_index : list (nat * bool) }.
(** Writing either succeeds or dereferences a nil pointer. *)
Definition writing : Type := writer -> outcome writer.
Definition skip : writing := fun w => Ok w.
Definition andThen (f g : writing) : writing := fun w => w' <- f w ;; g w'.
Infix ">>" := andThen (at level 62, right associativity).
Definition each {A} (f : A -> writing) : list A -> writing :=
  fix go (l : list A) : writing := match l with [] => skip | a :: l' => f a >> go l' end.
Definition whenever (b : bool) (f : writing) : writing := if b then f else skip.
(** A nil pointer panics when its fields are read. *)
Definition reading {A} (p : option A) (f : A -> writing) : writing :=
  fun w => a <- deref p ;; f a w.
(** [if v != nil { ... }] *)
Definition ifSet {A} (p : option A) (f : A -> writing) : writing :=
  match p with Some a => f a | None => skip end.

(** Write, WriteByte and WriteString. *)
Definition emit (s : string) : writing := fun w =>
  Ok {| w_out := (w_out w +++ s)%string; w_depth := w_depth w; w_zero := w_zero w; w_index := w_index w |}.
Fixpoint spaces (n : nat) : string := match n with 0 => "" | S n' => ("  " +++ spaces n')%string end.
(** writer.go 83-87. *)
Definition indent : writing := fun w => emit (spaces (Z.to_nat (w_depth w))) w.
Definition shift (by_ : Z) : writing := fun w =>
  Ok {| w_out := w_out w; w_depth := (w_depth w + by_)%Z; w_zero := w_zero w; w_index := w_index w |}.
(** writer.go 89-95. *)
Definition indentIncrease : writing := shift 1.
Definition indentDecrease : writing := shift (-1).
(** writer.go 97-103 and 143-149. *)
Definition setZero (b : bool) : writing := fun w =>
  match w_index w with
  | [] => Ok {| w_out := w_out w; w_depth := w_depth w; w_zero := b; w_index := [] |}
  | (i, _) :: ix => Ok {| w_out := w_out w; w_depth := w_depth w; w_zero := w_zero w; w_index := (i, b) :: ix |}
  end.
Definition includeZero : writing := setZero true.
Definition excludeZero : writing := setZero false.
Definition keepsZero (w : writer) : bool :=
  match w_index w with [] => w_zero w | (_, z) :: _ => z end.
(** [s := new(indexWriter); s.writer = w] and the end of the scope of [s]. *)
Definition newIndexWriter : writing := fun w =>
  Ok {| w_out := w_out w; w_depth := w_depth w; w_zero := w_zero w; w_index := (0, false) :: w_index w |}.
Definition dropIndexWriter : writing := fun w =>
  Ok {| w_out := w_out w; w_depth := w_depth w; w_zero := w_zero w; w_index := tl (w_index w) |}.

(** ** Strings (util.go) *)

(** The characters unicode.IsSpace accepts. *)
Definition bytes (l : list N) : string := fold_right (fun n s => String (byte n) s) "" l.
Definition spaceChars : list string :=
  map bytes ([[9]; [10]; [11]; [12]; [13]; [32]; [194; 133]; [194; 160]; [225; 154; 128];
    [226; 128; 128]; [226; 128; 129]; [226; 128; 130]; [226; 128; 131]; [226; 128; 132]; [226; 128; 133];
    [226; 128; 134]; [226; 128; 135]; [226; 128; 136]; [226; 128; 137]; [226; 128; 138];
    [226; 128; 168]; [226; 128; 169]; [226; 128; 175]; [226; 129; 159]; [227; 128; 128]])%N.
(** strings.TrimSpace(s) != s: the string starts or ends with a space. *)
Definition trimChanges (s : string) : bool :=
  existsb (fun c => hasPrefix s c || hasSuffix s c) spaceChars.
(** util.go 70-77. *)
Definition isEscapeCode (c : ascii) : bool := smem (String c "") (map bytes [[7]; [8]; [12]; [10]; [13]; [9]; [11]])%N.
(** util.go 105-106. *)
Definition alwaysQuoted (c : ascii) : bool := hasChar c ",[]{}*""'%@`|>#".
(** util.go 108-113. *)
Definition quotedBeforeSpace (c : ascii) : bool := hasChar c "&!-:?".
(** util.go 117-128. The characters the loop looks for are ASCII, so going through the bytes
    instead of the code points finds the same; [prev] is the previous byte. *)
Fixpoint quotedInside (prev : ascii) (s : string) : bool :=
  match s with
  | "" => false
  | String c s' =>
      if isEscapeCode c then true
      else if (Ascii.eqb c " " && Ascii.eqb prev ":")%char then true
      else if (Ascii.eqb c "#" && Ascii.eqb prev " ")%char then true
      else quotedInside c s'
  end.
(** util.go 79-132. *)
Definition isQuoted (s : string) : bool :=
  if isEmpty s then true
  else if trimChanges s then true
  else
    let r0 := match s with String c _ => c | "" => zero end in
    let r1 := match s with String _ (String c _) => c | _ => zero end in
    if alwaysQuoted r0 then true
    else if quotedBeforeSpace r0 && Ascii.eqb r1 " " then true
    else if quotedInside zero s then true
    else hasSuffix s ":".

(** util.go 134-147. The loop variable is the rest of the string; [fuel] bounds the number of
    chunks by its length. *)
Fixpoint chunkFrom (fuel : nat) (size : nat) (s : string) : list string :=
  match fuel with
  | 0 => []
  | S f => if isEmpty s then [] else stake size s :: chunkFrom f size (sdrop size s)
  end.
Definition chunk (s : string) (size : nat) : list string :=
  if isEmpty s then [s] else chunkFrom (String.length s) size s.

(** A value passed as interface{}: what the decoder makes of a setting, or a field. *)
Inductive any : Type :=
| AValue (v : value)
| AStrings (l : list string)
| AMap (m : smap string)
| ASize (z : Z).
Definition AString (s : string) : any := AValue (VStr s).
Definition ABool (b : bool) : any := AValue (VBool b).
Definition AInt (z : Z) : any := AValue (VInt z).
Definition AFloat (f : float64) : any := AValue (VFloat f).

Definition isInt (z : Z) : bool := (Z.leb int64Min z && Z.ltb z (2 ^ 63))%Z.
Definition isZeroFloat (f : float64) : bool := match f with S754_zero _ => true | _ => false end.
Definition emptyList {A} (l : list A) : bool := match l with [] => true | _ => false end.

(** util.go 23-32. *)
Definition isPrimative (v : any) : bool :=
  match v with
  | AValue (VBool _) | AValue (VStr _) | AValue (VFloat _) => true
  | AValue (VInt z) => isInt z
  | ASize _ => true
  | _ => false
  end.
(** util.go 34-43. *)
Definition isSlice (v : any) : bool :=
  match v with AValue (VList _) | AStrings _ => true | _ => false end.
(** util.go 45-68. *)
Definition isZero (v : any) : bool :=
  match v with
  | AValue (VBool b) => negb b
  | AValue (VStr s) => isEmpty s
  | AValue (VInt z) => isInt z && Z.eqb z 0
  | AValue (VFloat f) => isZeroFloat f
  | AValue (VList l) => emptyList l
  | AValue (VMap m) => emptyList m
  | AValue VNull => false
  | AStrings l => emptyList l
  | AMap m => emptyList m
  | ASize z => Z.eqb z 0
  end.

Section Pretty.
  Variable isPrintHigh : N -> bool.
  Variable formatFloat : float64 -> string.
  (** fmt.Sprint of a float. *)
  Variable sprintFloat : float64 -> string.
  (** units.BytesSize(float64(b)) (yaml/unit.go 52-54). *)
  Variable bytesSize : Z -> string.

  (** ** Values (writer.go 192-361) *)

  (** writer.go 216-227. *)
  Definition encodeString (s : string) : string :=
    if isEmpty s then String """" (String """" "")
    else if isQuoted s then quote isPrintHigh s
    else s.
  Definition writeEncode (s : string) : writing := emit (encodeString s).

  (** fmt.Sprint of a map key. Sequences and mappings are never keys. *)
  Definition sprint (v : value) : string :=
    match v with
    | VNull => "<nil>"
    | VBool b => formatBool b
    | VInt z => itoa z
    | VFloat f => sprintFloat f
    | VStr s => s
    | VList _ | VMap _ => ""
    end.
  (** v[k] for a string k: entries whose key is not a string are not found. *)
  Fixpoint lookup {A} (k : string) (m : list (value * A)) : option A :=
    match m with
    | [] => None
    | (VStr k', a) :: m' => if String.eqb k k' then Some a else lookup k m'
    | _ :: m' => lookup k m'
    end.

  (** The body of the loop of writeMapping (writer.go 313-336). [write] writes the value. *)
  Definition writeEntry (k : string) (v : value) (write : writing) : writing :=
    writeEncode k >> emit ":" >>
    (if (match v with VNull => true | _ => false end) || isPrimative (AValue v) || isZero (AValue v) then
       emit " " >> write
     else
       whenever (negb (isSlice (AValue v))) indentIncrease >>
       emit nl >> indent >> write >>
       whenever (negb (isSlice (AValue v))) indentDecrease).
  Fixpoint writeEntries (first : bool) (keys : list string) (m : list (value * (value * writing))) : writing :=
    match keys with
    | [] => skip
    | k :: ks =>
        let (v, write) := match lookup k m with Some e => e | None => (VNull, emit "~") end in
        whenever (negb first) (emit nl >> indent) >> writeEntry k v write >> writeEntries false ks m
    end.

  (** writer.go 229-337: writeValue, writeScalar, writeSequence and writeMapping, on what the
      decoder produces. A uint64 has no case in the type switch and writes nothing. *)
  Fixpoint writeDecoded (v : value) : writing :=
    match v with
    | VNull => emit "~"
    | VBool b => emit (formatBool b)
    | VInt z => if isInt z then emit (itoa z) else skip
    | VFloat f => emit (formatFloat f)
    | VStr s => writeEncode s
    | VList [] => emit "[]"
    | VList l =>
        (fix items (first : bool) (l : list value) : writing :=
           match l with
           | [] => skip
           | x :: l' =>
               whenever (negb first) (emit nl >> indent) >> emit "- " >>
               indentIncrease >> writeDecoded x >> indentDecrease >> items false l'
           end) true l
    | VMap [] => emit "{}"
    | VMap m =>
        writeEntries true (Legacy.sortStrings (map (fun kv => sprint (fst kv)) m))
          (map (fun kv => (fst kv, (snd kv, writeDecoded (snd kv)))) m)
    end.
  (** writer.go 284-299. *)
  Fixpoint stringItems (first : bool) (l : list string) : writing :=
    match l with
    | [] => skip
    | s :: l' => whenever (negb first) (emit nl >> indent) >> emit "- " >> writeEncode s >> stringItems false l'
    end.
  Definition writeSequenceStr (l : list string) : writing :=
    if emptyList l then emit "[]" else stringItems true l.
  (** writer.go 339-361. *)
  Fixpoint stringEntries (first : bool) (keys : list string) (m : smap string) : writing :=
    match keys with
    | [] => skip
    | k :: ks =>
        let v := match mget k m with Some v => v | None => "" end in
        whenever (negb first) (emit nl >> indent) >>
        writeEncode k >> emit ":" >> emit " " >> writeEncode v >> stringEntries false ks m
    end.
  Definition writeMappingStr (m : smap string) : writing :=
    if emptyList m then emit "{}" else stringEntries true (Legacy.sortStrings (mkeys m)) m.
  (** writer.go 229-248. *)
  Definition writeValue (v : any) : writing :=
    match v with
    | AValue v => writeDecoded v
    | AStrings l => writeSequenceStr l
    | AMap m => writeMappingStr m
    | ASize z => writeEncode (bytesSize z)
    end.

  (** writer.go 105-110 and 151-165. *)
  Definition writeTag (k : string) : writing := fun w =>
    (match w_index w with
     | [] => emit nl >> indent >> writeEncode k >> emit ":"
     | (i, z) :: ix =>
         emit nl >>
         (if Nat.eqb i 0 then indentDecrease >> indent >> indentIncrease >> emit "-" >> emit " " else indent) >>
         writeEncode k >> emit ":" >>
         (fun w' => Ok {| w_out := w_out w'; w_depth := w_depth w'; w_zero := w_zero w'; w_index := (S i, z) :: ix |})
     end) w.
  (** writer.go 112-131 and 167-186. *)
  Definition writeTagValue (k : string) (v : any) : writing := fun w =>
    if isZero v && negb (keepsZero w) then Ok w
    else
      (writeTag k >>
       if isPrimative v then emit " " >> writeValue v
       else if isSlice v then emit nl >> indent >> writeValue v
       else indentIncrease >> emit nl >> indent >> writeValue v >> indentDecrease) w.

  (** One element of a sequence: an index writer one level deeper. *)
  Definition element (f : writing) : writing :=
    newIndexWriter >> indentIncrease >> f >> indentDecrease >> dropIndexWriter.
  Definition nested (f : writing) : writing := indentIncrease >> f >> indentDecrease.

  (** ** Containers (container.go) *)

  (** container.go 225-231. *)
  Definition shortBuild (b : Build) : bool :=
    emptyList (b_args b) && emptyList (b_cache_from b) && isEmpty (b_context b)
    && isEmpty (b_dockerfile b) && emptyList (b_labels b).
  (** container.go 81-95. *)
  Definition printBuild (b : Build) : writing :=
    if shortBuild b then writeTagValue "build" (AString (b_image b))
    else
      writeTag "build" >> nested (
        writeTagValue "image" (AString (b_image b)) >>
        writeTagValue "args" (AMap (b_args b)) >>
        writeTagValue "cache_from" (AStrings (b_cache_from b)) >>
        writeTagValue "context" (AString (b_context b)) >>
        writeTagValue "dockerfile" (AString (b_dockerfile b)) >>
        writeTagValue "labels" (AMap (b_labels b))).
  (** container.go 98-100. *)
  Definition printDependsOn (l : list string) : writing := writeTagValue "depends_on" (AStrings l).
  (** container.go 103-113. *)
  Definition printDeviceMounts (l : list (option VolumeDevice)) : writing :=
    writeTag "devices" >>
    each (fun v => element (
      reading v (fun v => writeTagValue "name" (AString (vd_name v))) >>
      reading v (fun v => writeTagValue "path" (AString (vd_path v))))) l.
  (** container.go 116-137. *)
  Definition printVariable (k : string) (v : Variable_) : writing :=
    if isEmpty (v_secret v) then writeTagValue k (AString (v_value v))
    else writeTag k >> nested (writeTagValue "from_secret" (AString (v_secret v))).
  Definition printEnviron (m : smap (option Variable_)) : writing :=
    writeTag "environment" >> nested (
      each (fun k => reading (match mget k m with Some v => v | None => None end) (printVariable k))
        (Legacy.sortStrings (mkeys m))).
  (** container.go 235-237. *)
  Definition shortPort (p : Port) : bool := Z.eqb (po_host p) 0 && isEmpty (po_protocol p).
  (** container.go 140-160. *)
  Definition printPort (p : Port) : writing :=
    if shortPort p then emit nl >> indent >> emit "-" >> emit " " >> emit (itoa (po_port p))
    else element (
      writeTagValue "port" (AInt (po_port p)) >>
      writeTagValue "host" (AInt (po_host p)) >>
      writeTagValue "protocol" (AString (po_protocol p))).
  Definition printPorts (l : list (option Port)) : writing :=
    writeTag "ports" >> each (fun v => reading v printPort) l.
  (** container.go 163-182. *)
  Definition printResourceObject (k : string) (r : ResourceObject) : writing :=
    writeTag k >> nested (
      writeTagValue "cpu" (AFloat (ro_cpu r)) >>
      writeTagValue "memory" (ASize (ro_memory r))).
  Definition printResources (r : Resources) : writing :=
    writeTag "resources" >> nested (
      ifSet (re_limits r) (printResourceObject "limits") >>
      ifSet (re_requests r) (printResourceObject "requests")).
  (** container.go 185-208. *)
  Definition printParameter (k : string) (p : Parameter_) : writing :=
    if isEmpty (p_secret p) then includeZero >> writeTagValue k (AValue (p_value p)) >> excludeZero
    else writeTag k >> nested (writeTagValue "from_secret" (AString (p_secret p))).
  Definition printSettings (m : smap (option Parameter_)) : writing :=
    writeTag "settings" >> nested (
      each (fun k => reading (match mget k m with Some v => v | None => None end) (printParameter k))
        (Legacy.sortStrings (mkeys m))).
  (** container.go 211-221. *)
  Definition printVolumeMounts (l : list (option VolumeMount)) : writing :=
    writeTag "volumes" >>
    each (fun v => element (
      reading v (fun v => writeTagValue "name" (AString (vm_name v))) >>
      reading v (fun v => writeTagValue "path" (AString (vm_path v))))) l.

  (** pipeline.go 296-298 and 281-292. *)
  Definition isConditionEmpty (c : Condition) : bool := emptyList (c_exclude c) && emptyList (c_include c).
  Definition isConditionsEmpty (w : Conditions) : bool :=
    isConditionEmpty (w_action w) && isConditionEmpty (w_branch w) && isConditionEmpty (w_cron w)
    && isConditionEmpty (w_event w) && isConditionEmpty (w_instance w) && isConditionEmpty (w_paths w)
    && isConditionEmpty (w_ref w) && isConditionEmpty (w_repo w) && isConditionEmpty (w_status w)
    && isConditionEmpty (w_target w).
  (** pipeline.go 159-176. *)
  Definition printCondition (k : string) (c : Condition) : writing :=
    writeTag k >>
    whenever (negb (emptyList (c_include c)) && emptyList (c_exclude c))
      (emit nl >> indent >> writeValue (AStrings (c_include c))) >>
    whenever (negb (emptyList (c_include c)) && negb (emptyList (c_exclude c)))
      (nested (writeTagValue "include" (AStrings (c_include c)))) >>
    whenever (negb (emptyList (c_exclude c)))
      (nested (writeTagValue "exclude" (AStrings (c_exclude c)))).
  (** pipeline.go 122-156. *)
  Definition printConditions (name : string) (w : Conditions) : writing :=
    let print k c := whenever (negb (isConditionEmpty c)) (printCondition k c) in
    writeTag name >> nested (
      print "action" (w_action w) >> print "branch" (w_branch w) >> print "cron" (w_cron w) >>
      print "event" (w_event w) >> print "instance" (w_instance w) >> print "paths" (w_paths w) >>
      print "ref" (w_ref w) >> print "repo" (w_repo w) >> print "status" (w_status w) >>
      print "target" (w_target w)).

  (** container.go 24-78. *)
  Definition printContainer (c : Container) : writing :=
    writeTagValue "name" (AString (ct_name c)) >>
    writeTagValue "pull" (AString (ct_pull c)) >>
    writeTagValue "image" (AString (ct_image c)) >>
    ifSet (ct_build c) printBuild >>
    ifSet (ct_push c) (fun p => writeTagValue "push" (AString (pu_image p))) >>
    writeTagValue "detach" (ABool (ct_detach c)) >>
    writeTagValue "user" (AString (ct_user c)) >>
    writeTagValue "shell" (AString (ct_shell c)) >>
    writeTagValue "entrypoint" (AStrings (ct_entrypoint c)) >>
    writeTagValue "command" (AStrings (ct_command c)) >>
    writeTagValue "commands" (AStrings (ct_commands c)) >>
    writeTagValue "dns" (AStrings (ct_dns c)) >>
    writeTagValue "dns_search" (AStrings (ct_dns_search c)) >>
    writeTagValue "extra_hosts" (AStrings (ct_extra_hosts c)) >>
    writeTagValue "network_mode" (AString (ct_network c)) >>
    whenever (negb (emptyList (ct_settings c))) (printSettings (ct_settings c)) >>
    whenever (negb (emptyList (ct_environment c))) (printEnviron (ct_environment c)) >>
    writeTagValue "failure" (AString (ct_failure c)) >>
    writeTagValue "privileged" (ABool (ct_privileged c)) >>
    writeTagValue "working_dir" (AString (ct_working_dir c)) >>
    whenever (negb (emptyList (ct_devices c))) (printDeviceMounts (ct_devices c)) >>
    whenever (negb (emptyList (ct_ports c))) (printPorts (ct_ports c)) >>
    ifSet (ct_resources c) printResources >>
    whenever (negb (emptyList (ct_volumes c))) (printVolumeMounts (ct_volumes c)) >>
    whenever (negb (isConditionsEmpty (ct_when c))) (printConditions "when" (ct_when c)) >>
    whenever (negb (emptyList (ct_depends c))) (printDependsOn (ct_depends c)) >>
    emit nl.

  (** ** Pipelines (pipeline.go) *)

  (** pipeline.go 252-277 and 302-304. *)
  Definition isWorkspaceEmpty (v : Workspace) : bool := isEmpty (ws_path v) && isEmpty (ws_base v).
  Definition isPlatformEmpty (v : Platform) : bool :=
    isEmpty (pl_os v) && isEmpty (pl_arch v) && isEmpty (pl_variant v) && isEmpty (pl_version v).
  Definition isCloneEmpty (v : Clone) : bool :=
    Z.eqb (cl_depth v) 0 && negb (cl_disable v) && negb (cl_skip_verify v).
  Definition isEmptyDirEmpty (v : VolumeEmptyDir) : bool := Z.eqb (ve_size v) 0 && isEmpty (ve_medium v).
  (** pipeline.go 102-110. *)
  Definition printClone (v : Clone) : writing :=
    writeTag "clone" >> nested (
      writeTagValue "depth" (AInt (cl_depth v)) >>
      writeTagValue "disable" (ABool (cl_disable v)) >>
      writeTagValue "skip_verify" (ABool (cl_skip_verify v)) >>
      emit nl).
  (** pipeline.go 113-119. *)
  Definition printConcurrency (limit : Z) : writing :=
    writeTag "concurrency" >> nested (writeTagValue "limit" (AInt limit) >> emit nl).
  (** pipeline.go 179-181. *)
  Definition printNode (m : smap string) : writing := writeTagValue "node" (AMap m).
  (** pipeline.go 184-193. *)
  Definition printPlatform (v : Platform) : writing :=
    writeTag "platform" >> nested (
      writeTagValue "os" (AString (pl_os v)) >>
      writeTagValue "arch" (AString (pl_arch v)) >>
      writeTagValue "variant" (AString (pl_variant v)) >>
      writeTagValue "version" (AString (pl_version v)) >>
      emit nl).
  (** pipeline.go 197-204. *)
  Definition printPlatformDefault : writing :=
    writeTag "platform" >> nested (
      writeTagValue "os" (AString "linux") >>
      writeTagValue "arch" (AString "amd64") >>
      emit nl).
  (** pipeline.go 207-238. *)
  Definition printEmptyDir (v : VolumeEmptyDir) : writing :=
    writeTag "temp" >>
    if isEmptyDirEmpty v then emit " " >> emit "{" >> emit "}"
    else nested (
      writeTagValue "medium" (AString (ve_medium v)) >>
      writeTagValue "size_limit" (ASize (ve_size v))).
  Definition printHostPath (v : VolumeHostPath) : writing :=
    writeTag "host" >> nested (writeTagValue "path" (AString (vh_path v))).
  Definition printVolumes (l : list (option Volume)) : writing :=
    writeTag "volumes" >>
    each (fun v => element (
      reading v (fun v => writeTagValue "name" (AString (vo_name v))) >>
      reading v (fun v => ifSet (vo_empty v) printEmptyDir) >>
      reading v (fun v => ifSet (vo_host v) printHostPath))) l.
  (** pipeline.go 241-248. *)
  Definition printWorkspace (v : Workspace) : writing :=
    writeTag "workspace" >> nested (
      writeTagValue "base" (AString (ws_base v)) >>
      writeTagValue "path" (AString (ws_path v)) >>
      emit nl).
  (** pipeline.go 45-57 and 59-71. *)
  Definition printContainers (k : string) (l : list (option Container)) : writing :=
    whenever (negb (emptyList l)) (
      writeTag k >> each (fun step => ifSet step (fun c => element (printContainer c))) l).
  (** pipeline.go 22-99. *)
  Definition printPipeline (p : Pipeline) : writing :=
    emit "---" >>
    writeTagValue "version" (AString (pi_version p)) >>
    writeTagValue "kind" (AString (pi_kind p)) >>
    writeTagValue "type" (AString (pi_type p)) >>
    writeTagValue "name" (AString (pi_name p)) >>
    emit nl >>
    (if isPlatformEmpty (pi_platform p) then printPlatformDefault else printPlatform (pi_platform p)) >>
    whenever (negb (isCloneEmpty (pi_clone p))) (printClone (pi_clone p)) >>
    whenever (negb (Z.eqb (pi_concurrency p) 0)) (printConcurrency (pi_concurrency p)) >>
    whenever (negb (isWorkspaceEmpty (pi_workspace p))) (printWorkspace (pi_workspace p)) >>
    printContainers "steps" (pi_steps p) >>
    printContainers "services" (pi_services p) >>
    whenever (negb (emptyList (pi_volumes p))) (printVolumes (pi_volumes p) >> emit nl) >>
    whenever (negb (emptyList (pi_pull_secrets p)))
      (writeTagValue "image_pull_secrets" (AStrings (pi_pull_secrets p)) >> emit nl) >>
    whenever (negb (emptyList (pi_node p))) (printNode (pi_node p) >> emit nl) >>
    whenever (negb (isConditionsEmpty (pi_trigger p))) (printConditions "trigger" (pi_trigger p) >> emit nl) >>
    whenever (negb (emptyList (pi_depends p))) (printDependsOn (pi_depends p) >> emit nl) >>
    emit nl.

  (** ** The other resources (cron.go, secret.go, signature.go, pretty.go) *)

  (** cron.go 44-55. *)
  Definition hasDeployment (c : Cron) : bool := negb (isEmpty (cr_target c)).
  Definition printDeploy (c : Cron) : writing :=
    writeTag "deployment" >> nested (writeTagValue "target" (AString (cr_target c))).
  (** cron.go 31-41. *)
  Definition printSpec (c : Cron) : writing :=
    writeTag "spec" >> nested (
      writeTagValue "schedule" (AString (cr_schedule c)) >>
      writeTagValue "branch" (AString (cr_branch c)) >>
      whenever (hasDeployment c) (printDeploy c)).
  (** cron.go 20-28. *)
  Definition printCron (c : Cron) : writing :=
    emit "---" >>
    writeTagValue "version" (AString (cr_version c)) >>
    writeTagValue "kind" (AString (cr_kind c)) >>
    writeTagValue "name" (AString (cr_name c)) >>
    printSpec c >>
    emit nl >> emit nl.

  (** secret.go 96-100. *)
  Definition isSecretGetEmpty (s : Secret) : bool :=
    isEmpty (se_get_key s) && isEmpty (se_get_name s) && isEmpty (se_get_path s).
  (** secret.go 47-54. printExternalData (57-75) is never called. *)
  Definition printGet (s : Secret) : writing :=
    writeTag "get" >> nested (
      writeTagValue "path" (AString (se_get_path s)) >>
      writeTagValue "name" (AString (se_get_name s)) >>
      writeTagValue "key" (AString (se_get_key s))).
  (** secret.go 92: both replacements are of one byte by nothing. *)
  Definition removeSpaces (s : string) : string := replaceAll (replaceAll s " " "") nl "".
  (** secret.go 77-89. *)
  Definition printData (d : string) : writing :=
    writeTag "data" >> emit " " >> emit ">" >> nested (
      each (fun s => emit nl >> indent >> emit s) (chunk (removeSpaces d) 60)).
  (** secret.go 27-44. *)
  Definition printSecret (s : Secret) : writing :=
    emit "---" >>
    writeTagValue "version" (AString (se_version s)) >>
    writeTagValue "kind" (AString (se_kind s)) >>
    writeTagValue "type" (AString (se_type s)) >>
    whenever (negb (isEmpty (se_data s)))
      (writeTagValue "name" (AString (se_name s)) >> printData (se_data s)) >>
    whenever (negb (isSecretGetEmpty s))
      (writeTagValue "name" (AString (se_name s)) >> emit nl >> printGet s) >>
    emit nl >> emit nl.
  (** signature.go 22-29. *)
  Definition printSignature (s : Signature) : writing :=
    emit "---" >>
    writeTagValue "version" (AString (si_version s)) >>
    writeTagValue "kind" (AString (si_kind s)) >>
    writeTagValue "hmac" (AString (si_hmac s)) >>
    emit nl >> emit nl.

  (** pretty.go 27-36: the type switch has no case for registries. *)
  Definition printResource (r : Resource) : writing :=
    match r with
    | RCron c => printCron c
    | RSecret s => printSecret s
    | RSignature s => printSignature s
    | RPipeline p => printPipeline p
    | RRegistry _ => skip
    end.
  Definition newWriter : writer := {| w_out := ""; w_depth := 0; w_zero := false; w_index := [] |}.
  (** pretty.go 24-41. *)
  Definition print (m : Manifest) : outcome string :=
    omap w_out ((each printResource (mf_resources m) >> emit "..." >> emit nl) newWriter).
End Pretty.
