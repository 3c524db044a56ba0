(** * FormatSpec.v: the text of a formatted configuration. *)
From Coq Require Import Floats.SpecFloat.
From Verif Require Import Model.Go Model.Types Spec.DecodeSpec Spec.PrettySpec Spec.TreeSpec.
From Verif Require Spec.ScriptSpec.

(** ** Strings *)
(** The code points that count as white space. *)
Definition White (r : N) : Prop :=
  (9 <= r <= 13 \/ r = 32 \/ r = 133 \/ r = 160 \/ r = 5760 \/ 8192 <= r <= 8202 \/ r = 8232 \/ r = 8233 \/ r = 8239 \/ r = 8287 \/ r = 12288)%N.
Definition Starts (s p : string) : Prop := exists r, s = (p +++ r)%string.
Definition Ends (s p : string) : Prop := exists r, s = (r +++ p)%string.
Definition Contains (s p : string) : Prop := exists a b, s = (a +++ p +++ b)%string.
(** The strings that are written in quotes. *)
Inductive NeedsQuotes : string -> Prop :=
| quote_empty : NeedsQuotes ""
| quote_white s r : White r -> Starts s (ScriptSpec.utf8 r) \/ Ends s (ScriptSpec.utf8 r) -> NeedsQuotes s
| quote_start s c : In c (list_ascii_of_string ",[]{}*""'%@`|>#") -> Starts s (String c "") -> NeedsQuotes s
| quote_mark s c : In c (list_ascii_of_string "&!-:?") -> Starts s (String c " ") -> NeedsQuotes s
| quote_control s r : (7 <= r <= 13)%N -> Contains s (ScriptSpec.utf8 r) -> NeedsQuotes s
| quote_colon s : Contains s ": " -> NeedsQuotes s
| quote_comment s : Contains s " #" -> NeedsQuotes s
| quote_end s : Ends s ":" -> NeedsQuotes s.

(** ** Values *)
Section Format.
  (** A string as it is written. *)
  Variable enc : string -> string.
  Variable formatFloat sprintFloat : float64 -> string.
  Variable bytesSize : Z -> string.
  Notation entries := (list (option (string * tree))) (only parsing).

  Definition truth (b : bool) : string := if b then "true" else "false".
  Definition small (z : Z) : bool := ((- 2 ^ 63 <=? z) && (z <? 2 ^ 63))%Z.
  Definition scalar (v : value) : string :=
    match v with
    | VNull => "~" | VBool b => truth b | VInt z => if small z then itoa z else ""
    | VFloat f => formatFloat f | VStr s => enc s | VList _ => "[]" | VMap _ => "{}"
    end.
  (** The text of a key. *)
  Definition keyText (v : value) : string :=
    match v with
    | VNull => "<nil>" | VBool b => truth b | VInt z => itoa z | VFloat f => sprintFloat f | VStr s => s
    | VList _ | VMap _ => ""
    end.
  (** Integers that do not fit are left out, but their line is not. *)
  Definition beside (v : value) (t : tree) : tree :=
    match v with VInt z => if small z then t else TBelow 2 "" | _ => t end.
  (** Keys are in order. Values are looked up by text: the value of a key that is no string is not found. *)
  Definition inOrder (ks : list string) : list string := map fst (byKey (map (fun k => (k, tt)) ks)).
  Fixpoint shown (v : value) : tree :=
    match v with
    | VList ((_ :: _) as l) => TSeq (map (fun x => Some (shown x)) l)
    | VMap ((_ :: _) as m) =>
        let trees := map (fun kv => (fst kv, beside (snd kv) (shown (snd kv)))) m in
        TMap (map (fun k => Some (enc k,
                match find (fun e => match fst e with VStr k' => String.eqb k' k | _ => false end) trees with
                | Some (_, t) => t
                | None => TScalar "~"
                end)) (inOrder (map (fun kv => keyText (fst kv)) m)))
    | _ => TScalar (scalar v)
    end.
  (** The value of a setting. Null and empty values are on a line of their own. *)
  Definition setting (v : value) : tree :=
    match v with
    | VNull => TBelow 2 "~"
    | VMap [] => TBelow 2 "{}"
    | VList [] => TBelow 0 "[]"
    | _ => beside v (shown v)
    end.

  (** ** Entries: nothing is written for what is empty *)
  Definition filled (s : string) : bool := negb (String.eqb s "").
  Definition entry (k : string) (t : tree) : entries := [Some (k, t)].
  Definition iff_ {A} (b : bool) (l : list A) : list A := if b then l else [].
  Definition word (k s : string) : entries := iff_ (filled s) (entry k (TScalar (enc s))).
  Definition flag (k : string) (b : bool) : entries := iff_ b (entry k (TScalar "true")).
  Definition number (k : string) (z : Z) : entries := iff_ (negb (Z.eqb z 0)) (entry k (TScalar (itoa z))).
  Definition size (k : string) (z : Z) : entries := iff_ (negb (Z.eqb z 0)) (entry k (TScalar (enc (bytesSize z)))).
  Definition float (k : string) (f : float64) : entries :=
    match f with S754_zero _ => [] | _ => entry k (TScalar (formatFloat f)) end.
  Definition wordList (l : list string) : tree := TSeq (map (fun s => Some (TScalar (enc s))) l).
  Definition words (k : string) (l : list string) : entries :=
    match l with [] => [] | _ => entry k (wordList l) end.
  Definition table (k : string) (m : smap string) : entries :=
    match m with [] => [] | _ => entry k (TMap (map (fun e => Some (enc (fst e), TScalar (enc (snd e)))) (byKey m))) end.
  Definition section (k : string) (es : entries) : entries := entry k (TMap es).
  Definition sequence (k : string) (l : list (option tree)) : entries :=
    match l with [] => [] | _ => entry k (TSeq l) end.
  Definition blankLine : entries := [None].
  Definition optional {A} (o : option A) (f : A -> entries) : entries := match o with Some a => f a | None => [] end.
  Definition present {A} (l : list (option A)) : list A := flat_map (fun o => match o with Some a => [a] | None => [] end) l.
  (** The entries of a map that are not null, in order. *)
  Definition ordered {A} (m : smap (option A)) : list (string * A) :=
    flat_map (fun e => match snd e with Some a => [(fst e, a)] | None => [] end) (byKey m).

  (** ** Steps *)
  Definition secretOr (k secret : string) (es : entries) : entries :=
    if filled secret then section (enc k) (word "from_secret" secret) else es.
  Definition build (b : Build) : entries :=
    match b with
    | {| b_args := []; b_cache_from := []; b_context := ""; b_dockerfile := ""; b_labels := [] |} => word "build" (b_image b)
    | _ => section "build" (word "image" (b_image b) ++ table "args" (b_args b) ++ words "cache_from" (b_cache_from b) ++
             word "context" (b_context b) ++ word "dockerfile" (b_dockerfile b) ++ table "labels" (b_labels b))
    end.
  Definition port (p : Port) : tree :=
    match p with
    | {| po_host := 0%Z; po_protocol := "" |} => TScalar (itoa (po_port p))
    | _ => TMap (number "port" (po_port p) ++ number "host" (po_host p) ++ word "protocol" (po_protocol p))
    end.
  Definition amounts (r : ResourceObject) : entries := float "cpu" (ro_cpu r) ++ size "memory" (ro_memory r).
  Definition resources (r : Resources) : entries :=
    section "resources" (optional (re_limits r) (fun o => section "limits" (amounts o)) ++
                         optional (re_requests r) (fun o => section "requests" (amounts o))).
  Definition condition (k : string) (c : Condition) : entries :=
    match c_include c, c_exclude c with
    | [], [] => []
    | inc, [] => entry k (wordList inc)
    | inc, exc => section k (words "include" inc ++ words "exclude" exc)
    end.
  Definition conditions (k : string) (w : Conditions) : entries :=
    let es := condition "action" (w_action w) ++ condition "branch" (w_branch w) ++ condition "cron" (w_cron w) ++
      condition "event" (w_event w) ++ condition "instance" (w_instance w) ++ condition "paths" (w_paths w) ++
      condition "ref" (w_ref w) ++ condition "repo" (w_repo w) ++ condition "status" (w_status w) ++
      condition "target" (w_target w) in
    match es with [] => [] | _ => section k es end.
  Definition step (c : Container) : tree :=
    TMap (
      word "name" (ct_name c) ++ word "pull" (ct_pull c) ++ word "image" (ct_image c) ++
      optional (ct_build c) build ++ optional (ct_push c) (fun p => word "push" (pu_image p)) ++
      flag "detach" (ct_detach c) ++ word "user" (ct_user c) ++ word "shell" (ct_shell c) ++
      words "entrypoint" (ct_entrypoint c) ++ words "command" (ct_command c) ++ words "commands" (ct_commands c) ++
      words "dns" (ct_dns c) ++ words "dns_search" (ct_dns_search c) ++ words "extra_hosts" (ct_extra_hosts c) ++
      word "network_mode" (ct_network c) ++
      iff_ (match ct_settings c with [] => false | _ => true end) (section "settings"
        (flat_map (fun e => secretOr (fst e) (p_secret (snd e)) (entry (enc (fst e)) (setting (p_value (snd e))))) (ordered (ct_settings c)))) ++
      iff_ (match ct_environment c with [] => false | _ => true end) (section "environment"
        (flat_map (fun e => secretOr (fst e) (v_secret (snd e)) (word (enc (fst e)) (v_value (snd e)))) (ordered (ct_environment c)))) ++
      word "failure" (ct_failure c) ++ flag "privileged" (ct_privileged c) ++ word "working_dir" (ct_working_dir c) ++
      sequence "devices" (map (fun d => Some (TMap (word "name" (vd_name d) ++ word "path" (vd_path d)))) (present (ct_devices c))) ++
      sequence "ports" (map (fun p => Some (port p)) (present (ct_ports c))) ++
      optional (ct_resources c) resources ++
      sequence "volumes" (map (fun d => Some (TMap (word "name" (vm_name d) ++ word "path" (vm_path d)))) (present (ct_volumes c))) ++
      conditions "when" (ct_when c) ++ words "depends_on" (ct_depends c) ++ blankLine).

  (** ** Resources *)
  Definition volume (v : Volume) : tree :=
    TMap (word "name" (vo_name v) ++
      optional (vo_empty v) (fun d =>
        match d with
        | {| ve_medium := ""; ve_size := 0%Z |} => entry "temp" (TScalar "{}")
        | _ => section "temp" (word "medium" (ve_medium d) ++ size "size_limit" (ve_size d))
        end) ++
      optional (vo_host v) (fun d => section "host" (word "path" (vh_path d)))).
  Definition platform (p : Platform) : entries :=
    let p := match p with
             | {| pl_os := ""; pl_arch := ""; pl_variant := ""; pl_version := "" |} => defaultPlatform
             | p => p
             end in
    section "platform" (word "os" (pl_os p) ++ word "arch" (pl_arch p) ++ word "variant" (pl_variant p) ++ word "version" (pl_version p) ++ blankLine).
  (** The key is there if there are steps, even if all are null. *)
  Definition steps (k : string) (l : list (option Container)) : entries :=
    match l with [] => [] | _ => entry k (TSeq (map (fun c => Some (step c)) (present l))) end.
  (** A group is followed by an empty line. *)
  Definition group (es : entries) : entries := match es with [] => [] | _ => es ++ blankLine end.
  Definition pipeline (p : Pipeline) : entries :=
    word "version" (pi_version p) ++ word "kind" (pi_kind p) ++ word "type" (pi_type p) ++ word "name" (pi_name p) ++ blankLine ++
    platform (pi_platform p) ++
    match number "depth" (cl_depth (pi_clone p)) ++ flag "disable" (cl_disable (pi_clone p)) ++ flag "skip_verify" (cl_skip_verify (pi_clone p)) with
    | [] => []
    | es => section "clone" (es ++ blankLine)
    end ++
    match number "limit" (pi_concurrency p) with [] => [] | es => section "concurrency" (es ++ blankLine) end ++
    match word "base" (ws_base (pi_workspace p)) ++ word "path" (ws_path (pi_workspace p)) with
    | [] => []
    | es => section "workspace" (es ++ blankLine)
    end ++
    steps "steps" (pi_steps p) ++ steps "services" (pi_services p) ++
    group (sequence "volumes" (map (fun v => Some (volume v)) (present (pi_volumes p)))) ++
    group (words "image_pull_secrets" (pi_pull_secrets p)) ++
    group (table "node" (pi_node p)) ++
    group (conditions "trigger" (pi_trigger p)) ++
    group (words "depends_on" (pi_depends p)) ++ blankLine.
  Definition cron (c : Cron) : entries :=
    word "version" (cr_version c) ++ word "kind" (cr_kind c) ++ word "name" (cr_name c) ++
    section "spec" (word "schedule" (cr_schedule c) ++ word "branch" (cr_branch c) ++
      match word "target" (cr_target c) with [] => [] | es => section "deployment" es end) ++ blankLine ++ blankLine.
  Definition signature (s : Signature) : entries :=
    word "version" (si_version s) ++ word "kind" (si_kind s) ++ word "hmac" (si_hmac s) ++ blankLine ++ blankLine.
  (** The name of a secret is written with its data and with its path. *)
  Definition secret (s : Secret) (lines : list string) : entries :=
    word "version" (se_version s) ++ word "kind" (se_kind s) ++ word "type" (se_type s) ++
    iff_ (filled (se_data s)) (word "name" (se_name s) ++ entry "data" (TFold lines)) ++
    match word "path" (se_get_path s) ++ word "name" (se_get_name s) ++ word "key" (se_get_key s) with
    | [] => []
    | es => word "name" (se_name s) ++ blankLine ++ section "get" es
    end ++ blankLine ++ blankLine.
  Definition DataLines (d : string) (lines : list string) : Prop :=
    exists u, squeezed d u /\ (u = "" /\ lines = [""] \/ pieces u lines).

  (** Registries are not written. *)
  Inductive Document : Resource -> list entries -> Prop :=
  | doc_pipeline p : Document (RPipeline p) [pipeline p]
  | doc_cron c : Document (RCron c) [cron c]
  | doc_signature s : Document (RSignature s) [signature s]
  | doc_secret s lines : DataLines (se_data s) lines -> Document (RSecret s) [secret s lines]
  | doc_registry r : Document (RRegistry r) [].
  Definition formatted (docs : list entries) : string :=
    (concats (map (fun es => "---" +++ text (render 0 (TMap es))) docs) +++ "..." +++ nl)%string.
End Format.

(** Integers of Go, and the distinct keys of its maps. *)
Definition GoStep (c : Container) : Prop :=
  NoDup (map fst (ct_environment c)) /\ NoDup (map fst (ct_settings c)) /\
  (forall b, ct_build c = Some b -> NoDup (map fst (b_args b)) /\ NoDup (map fst (b_labels b))) /\
  (forall p, In (Some p) (ct_ports c) -> Fits (po_port p) /\ Fits (po_host p)).
Definition GoResource (r : Resource) : Prop :=
  match r with
  | RPipeline p => Fits (cl_depth (pi_clone p)) /\ Fits (pi_concurrency p) /\ NoDup (map fst (pi_node p)) /\
      forall c, In (Some c) (pi_steps p ++ pi_services p) -> GoStep c
  | _ => True
  end.
