(** * PrettyItems.v: the entries each printing function of the formatter writes. *)
From Coq Require Import Lia Floats.SpecFloat.
From Verif Require Import Model.Go Model.Types Model.Encode Model.Quote Model.Pretty.
From Verif Require Import Proofs.GoFacts Proofs.PrettyTree Proofs.PrettyLayout.
From Verif Require Model.Legacy.

Opaque render text.

Definition only {A} (b : bool) (o : option (list A)) : option (list A) := if b then o else Some [].
Definition isSet {A B} (p : option A) (f : A -> option (list B)) : option (list B) :=
  match p with Some a => f a | None => Some [] end.
Definition needs {A B} (p : option A) (f : A -> option (list B)) : option (list B) :=
  match p with Some a => f a | None => None end.

Lemma follows_ext : forall f g o, (forall w, f w = g w) -> Follows f o -> Follows g o.
Proof. intros f g o E F out d z ix R N. rewrite <- E. exact (F out d z ix R N). Qed.
Lemma elems_ext : forall f g o, (forall w, f w = g w) -> Elems f o -> Elems g o.
Proof. intros f g o E F out d z ix. rewrite <- E. apply F. Qed.
Lemma skip_then : forall f w, (skip >> f) w = f w.
Proof. reflexivity. Qed.
Lemma then_skip : forall f w, (f >> skip) w = f w.
Proof. intros. unfold andThen, skip. destruct (f w); reflexivity. Qed.
Lemma then_ext : forall (f g g' : writing) w, (forall w, g w = g' w) -> (f >> g) w = (f >> g') w.
Proof. intros f g g' w E. unfold andThen. destruct (f w); [apply E|reflexivity|reflexivity]. Qed.

Section Items.
  Variable iph : N -> bool.
  Variable formatFloat sprintFloat : float64 -> string.
  Variable bytesSize : Z -> string.
  Notation enc := (encodeString iph).
  Notation anyTree := (PrettyTree.anyTree iph formatFloat sprintFloat bytesSize).
  Notation tag := (tagItems iph formatFloat sprintFloat bytesSize).
  Notation items := (option (list (option (string * tree)))) (only parsing).
  Definition under (k : string) (o : option tree) : items := option_map (fun t => [Some (enc k, t)]) o.
  Definition inMap (k : string) (o : items) : items := under k (option_map TMap o).
  Definition inSeq (k : string) (o : option (list (option tree))) : items := under k (option_map TSeq o).
  Definition asItem (o : items) : option (list (option tree)) := option_map (fun its => [Some (TMap its)]) o.
  Definition blank : items := Some [None].

  Lemma acts_inMap : forall k f o, Acts f o -> Acts (writeTag iph k >> nested f) (inMap k o).
  Proof. intros. apply acts_tag, follows_nested. assumption. Qed.
  Lemma acts_inSeq : forall k f o, Elems f o -> Acts (writeTag iph k >> f) (inSeq k o).
  Proof. intros. apply acts_tag, follows_elems. assumption. Qed.

  Definition buildItems (b : Build) : items :=
    if shortBuild b then tag "build" (AString (b_image b))
    else inMap "build" (
      tag "image" (AString (b_image b)) +?
      tag "args" (AMap (b_args b)) +?
      tag "cache_from" (AStrings (b_cache_from b)) +?
      tag "context" (AString (b_context b)) +?
      tag "dockerfile" (AString (b_dockerfile b)) +?
      tag "labels" (AMap (b_labels b))).
  Definition deviceItems (l : list (option VolumeDevice)) : items :=
    inSeq "devices" (optConcat (map (fun v => asItem (
      needs v (fun v => tag "name" (AString (vd_name v))) +? needs v (fun v => tag "path" (AString (vd_path v))))) l)).
  Definition variableItems (k : string) (v : Variable_) : items :=
    if isEmpty (v_secret v) then tag k (AString (v_value v)) else inMap k (tag "from_secret" (AString (v_secret v))).
  Definition environItems (m : smap (option Variable_)) : items :=
    inMap "environment" (optConcat (map (fun k =>
      needs (match mget k m with Some v => v | None => None end) (variableItems k)) (Legacy.sortStrings (mkeys m)))).
  Definition portElems (p : Port) : option (list (option tree)) :=
    if shortPort p then Some [Some (TScalar (itoa (po_port p)))]
    else asItem (tag "port" (AInt (po_port p)) +? tag "host" (AInt (po_host p)) +? tag "protocol" (AString (po_protocol p))).
  Definition portItems (l : list (option Port)) : items :=
    inSeq "ports" (optConcat (map (fun v => needs v portElems) l)).
  Definition resourceObjectItems (k : string) (r : ResourceObject) : items :=
    inMap k (tag "cpu" (AFloat (ro_cpu r)) +? tag "memory" (ASize (ro_memory r))).
  Definition resourcesItems (r : Resources) : items :=
    inMap "resources" (isSet (re_limits r) (resourceObjectItems "limits") +? isSet (re_requests r) (resourceObjectItems "requests")).
  Definition parameterItems (k : string) (p : Parameter_) : items :=
    if isEmpty (p_secret p) then under k (Some (anyTree (AValue (p_value p)))) else inMap k (tag "from_secret" (AString (p_secret p))).
  Definition settingItems (m : smap (option Parameter_)) : items :=
    inMap "settings" (optConcat (map (fun k =>
      needs (match mget k m with Some v => v | None => None end) (parameterItems k)) (Legacy.sortStrings (mkeys m)))).
  Definition mountItems (l : list (option VolumeMount)) : items :=
    inSeq "volumes" (optConcat (map (fun v => asItem (
      needs v (fun v => tag "name" (AString (vm_name v))) +? needs v (fun v => tag "path" (AString (vm_path v))))) l)).
  Definition conditionTree (c : Condition) : option tree :=
    if negb (emptyList (c_include c)) && emptyList (c_exclude c) then Some (anyTree (AStrings (c_include c)))
    else option_map TMap (tag "include" (AStrings (c_include c)) +? tag "exclude" (AStrings (c_exclude c))).
  Definition conditionsItems (name : string) (w : Conditions) : items :=
    let print k c := only (negb (isConditionEmpty c)) (under k (conditionTree c)) in
    inMap name (
      print "action" (w_action w) +? print "branch" (w_branch w) +? print "cron" (w_cron w) +?
      print "event" (w_event w) +? print "instance" (w_instance w) +? print "paths" (w_paths w) +?
      print "ref" (w_ref w) +? print "repo" (w_repo w) +? print "status" (w_status w) +?
      print "target" (w_target w)).
  Definition containerItems (c : Container) : items :=
    tag "name" (AString (ct_name c)) +?
    tag "pull" (AString (ct_pull c)) +?
    tag "image" (AString (ct_image c)) +?
    isSet (ct_build c) buildItems +?
    isSet (ct_push c) (fun p => tag "push" (AString (pu_image p))) +?
    tag "detach" (ABool (ct_detach c)) +?
    tag "user" (AString (ct_user c)) +?
    tag "shell" (AString (ct_shell c)) +?
    tag "entrypoint" (AStrings (ct_entrypoint c)) +?
    tag "command" (AStrings (ct_command c)) +?
    tag "commands" (AStrings (ct_commands c)) +?
    tag "dns" (AStrings (ct_dns c)) +?
    tag "dns_search" (AStrings (ct_dns_search c)) +?
    tag "extra_hosts" (AStrings (ct_extra_hosts c)) +?
    tag "network_mode" (AString (ct_network c)) +?
    only (negb (emptyList (ct_settings c))) (settingItems (ct_settings c)) +?
    only (negb (emptyList (ct_environment c))) (environItems (ct_environment c)) +?
    tag "failure" (AString (ct_failure c)) +?
    tag "privileged" (ABool (ct_privileged c)) +?
    tag "working_dir" (AString (ct_working_dir c)) +?
    only (negb (emptyList (ct_devices c))) (deviceItems (ct_devices c)) +?
    only (negb (emptyList (ct_ports c))) (portItems (ct_ports c)) +?
    isSet (ct_resources c) resourcesItems +?
    only (negb (emptyList (ct_volumes c))) (mountItems (ct_volumes c)) +?
    only (negb (isConditionsEmpty (ct_when c))) (conditionsItems "when" (ct_when c)) +?
    only (negb (emptyList (ct_depends c))) (tag "depends_on" (AStrings (ct_depends c))) +?
    blank.
  Definition cloneItems (v : Clone) : items :=
    inMap "clone" (tag "depth" (AInt (cl_depth v)) +? tag "disable" (ABool (cl_disable v)) +?
      tag "skip_verify" (ABool (cl_skip_verify v)) +? blank).
  Definition concurrencyItems (limit : Z) : items := inMap "concurrency" (tag "limit" (AInt limit) +? blank).
  Definition platformItems (v : Platform) : items :=
    inMap "platform" (tag "os" (AString (pl_os v)) +? tag "arch" (AString (pl_arch v)) +?
      tag "variant" (AString (pl_variant v)) +? tag "version" (AString (pl_version v)) +? blank).
  Definition defaultItems : items := inMap "platform" (tag "os" (AString "linux") +? tag "arch" (AString "amd64") +? blank).
  Definition emptyDirItems (v : VolumeEmptyDir) : items :=
    if isEmptyDirEmpty v then under "temp" (Some (TScalar "{}"))
    else inMap "temp" (tag "medium" (AString (ve_medium v)) +? tag "size_limit" (ASize (ve_size v))).
  Definition hostPathItems (v : VolumeHostPath) : items := inMap "host" (tag "path" (AString (vh_path v))).
  Definition volumeItems (l : list (option Volume)) : items :=
    inSeq "volumes" (optConcat (map (fun v => asItem (
      needs v (fun v => tag "name" (AString (vo_name v))) +?
      needs v (fun v => isSet (vo_empty v) emptyDirItems) +?
      needs v (fun v => isSet (vo_host v) hostPathItems))) l)).
  Definition workspaceItems (v : Workspace) : items :=
    inMap "workspace" (tag "base" (AString (ws_base v)) +? tag "path" (AString (ws_path v)) +? blank).
  Definition containersItems (k : string) (l : list (option Container)) : items :=
    only (negb (emptyList l)) (inSeq k (optConcat (map (fun s => isSet s (fun c => asItem (containerItems c))) l))).
  Definition pipelineItems (p : Pipeline) : items :=
    tag "version" (AString (pi_version p)) +?
    tag "kind" (AString (pi_kind p)) +?
    tag "type" (AString (pi_type p)) +?
    tag "name" (AString (pi_name p)) +?
    blank +?
    (if isPlatformEmpty (pi_platform p) then defaultItems else platformItems (pi_platform p)) +?
    only (negb (isCloneEmpty (pi_clone p))) (cloneItems (pi_clone p)) +?
    only (negb (Z.eqb (pi_concurrency p) 0)) (concurrencyItems (pi_concurrency p)) +?
    only (negb (isWorkspaceEmpty (pi_workspace p))) (workspaceItems (pi_workspace p)) +?
    containersItems "steps" (pi_steps p) +?
    containersItems "services" (pi_services p) +?
    only (negb (emptyList (pi_volumes p))) (volumeItems (pi_volumes p) +? blank) +?
    only (negb (emptyList (pi_pull_secrets p))) (tag "image_pull_secrets" (AStrings (pi_pull_secrets p)) +? blank) +?
    only (negb (emptyList (pi_node p))) (tag "node" (AMap (pi_node p)) +? blank) +?
    only (negb (isConditionsEmpty (pi_trigger p))) (conditionsItems "trigger" (pi_trigger p) +? blank) +?
    only (negb (emptyList (pi_depends p))) (tag "depends_on" (AStrings (pi_depends p)) +? blank) +?
    blank.
  Definition specItems (c : Cron) : items :=
    inMap "spec" (
      tag "schedule" (AString (cr_schedule c)) +?
      tag "branch" (AString (cr_branch c)) +?
      only (hasDeployment c) (inMap "deployment" (tag "target" (AString (cr_target c))))).
  Definition cronItems (c : Cron) : items :=
    tag "version" (AString (cr_version c)) +?
    tag "kind" (AString (cr_kind c)) +?
    tag "name" (AString (cr_name c)) +?
    specItems c +? blank +? blank.
  Definition getItems (s : Secret) : items :=
    inMap "get" (tag "path" (AString (se_get_path s)) +? tag "name" (AString (se_get_name s)) +? tag "key" (AString (se_get_key s))).
  Definition dataItems (d : string) : items := under "data" (Some (TFold (chunk (removeSpaces d) 60))).
  Definition secretItems (s : Secret) : items :=
    tag "version" (AString (se_version s)) +?
    tag "kind" (AString (se_kind s)) +?
    tag "type" (AString (se_type s)) +?
    only (negb (isEmpty (se_data s))) (tag "name" (AString (se_name s)) +? dataItems (se_data s)) +?
    only (negb (isSecretGetEmpty s)) (tag "name" (AString (se_name s)) +? blank +? getItems s) +?
    blank +? blank.
  Definition signatureItems (s : Signature) : items :=
    tag "version" (AString (si_version s)) +?
    tag "kind" (AString (si_kind s)) +?
    tag "hmac" (AString (si_hmac s)) +?
    blank +? blank.

  (** ** They are what is written *)
  Notation "'act' f" := (f iph formatFloat sprintFloat bytesSize) (at level 10, f at level 8, only parsing).

  Lemma acts_tags : forall k v, Acts (act writeTagValue k v) (tag k v).
  Proof. intros. apply acts_tagValue. Qed.
  Ltac go := repeat lazymatch goal with
    | |- Acts (Pretty.writeTagValue _ _ _ _ _ _) _ => apply acts_tags
    | |- Acts (emit nl) _ => apply acts_nl
    | |- Acts (Pretty.writeTag _ _ >> nested _) _ => apply acts_inMap
    | |- Acts (Pretty.writeTag _ _ >> each _ _) _ => apply acts_inSeq
    | |- Acts (Pretty.writeTag _ _ >> _) _ => fail
    | |- Acts (_ >> _) _ => apply acts_then
    | |- Acts (whenever _ _) _ => apply acts_whenever
    | |- Acts (ifSet _ _) _ => apply acts_ifSet; intro
    | |- Acts (reading _ _) _ => apply acts_reading; intro
    | |- Acts (each _ _) _ => apply acts_each; intro
    | |- Elems (each _ _) _ => apply elems_each; intro
    | |- Elems (ifSet _ _) _ => apply elems_ifSet; intro
    | |- Elems (reading _ _) _ => apply elems_reading; intro
    | |- Elems (element _) _ => apply elems_element
    end.

  Lemma acts_build : forall b, Acts (act printBuild b) (buildItems b).
  Proof. intro b. unfold printBuild, buildItems. destruct (shortBuild b); go. Qed.
  Lemma acts_devices : forall l, Acts (act printDeviceMounts l) (deviceItems l).
  Proof. intro l. unfold printDeviceMounts, deviceItems. go. Qed.
  Lemma acts_variable : forall k v, Acts (act printVariable k v) (variableItems k v).
  Proof. intros k v. unfold printVariable, variableItems. destruct (isEmpty (v_secret v)); go. Qed.
  Lemma acts_environ : forall m, Acts (act printEnviron m) (environItems m).
  Proof. intro m. unfold printEnviron, environItems. go. apply acts_variable. Qed.
  Lemma elems_port : forall p, Elems (act printPort p) (portElems p).
  Proof.
    intro p. unfold printPort, portElems. destruct (shortPort p); [apply elems_scalar|]. go.
  Qed.
  Lemma acts_ports : forall l, Acts (act printPorts l) (portItems l).
  Proof. intro l. unfold printPorts, portItems. go. apply elems_port. Qed.
  Lemma acts_resources : forall r, Acts (act printResources r) (resourcesItems r).
  Proof. intro r. unfold printResources, resourcesItems, printResourceObject. go. Qed.
  Lemma acts_parameter : forall k p, Acts (act printParameter k p) (parameterItems k p).
  Proof.
    intros k v. unfold printParameter, parameterItems. destruct (isEmpty (p_secret v)); [apply acts_zeroValue|]. go.
  Qed.
  Lemma acts_settings : forall m, Acts (act printSettings m) (settingItems m).
  Proof. intro m. unfold printSettings, settingItems. go. apply acts_parameter. Qed.
  Lemma acts_mounts : forall l, Acts (act printVolumeMounts l) (mountItems l).
  Proof. intro l. unfold printVolumeMounts, mountItems. go. Qed.
  Lemma acts_condition : forall k c, Acts (act printCondition k c) (under k (conditionTree c)).
  Proof.
    intros k c. unfold printCondition. apply acts_tag. unfold conditionTree.
    destruct (c_include c) as [|i inc] eqn:Ei, (c_exclude c) as [|e exc] eqn:Ee; cbn [emptyList negb andb whenever].
    - apply (follows_ext skip); [reflexivity|apply follows_skip].
    - apply (follows_ext (nested (act writeTagValue "exclude" (AStrings (e :: exc))))); [reflexivity|].
      change (tag "include" (AStrings []) +? tag "exclude" (AStrings (e :: exc))) with (tag "exclude" (AStrings (e :: exc))).
      apply follows_nested. go.
    - apply (follows_ext (emit nl >> indent >> act writeValue (AStrings (i :: inc)))).
      + intro w. symmetry. etransitivity; [apply then_ext with (g' := skip); reflexivity|]. apply then_skip.
      + apply (follows_value iph formatFloat sprintFloat bytesSize (AStrings (i :: inc))).
    - apply (follows_ext (nested (act writeTagValue "include" (AStrings (i :: inc))) >> nested (act writeTagValue "exclude" (AStrings (e :: exc))))); [reflexivity|].
      apply follows_nested2; go.
  Qed.
  Lemma acts_conditions : forall k w, Acts (act printConditions k w) (conditionsItems k w).
  Proof. intros k w. unfold printConditions, conditionsItems. go; apply acts_condition. Qed.
  Lemma acts_container : forall c, Acts (act printContainer c) (containerItems c).
  Proof.
    intro c. unfold printContainer, containerItems, printDependsOn.
    repeat (lazymatch goal with |- Acts (_ >> _) _ => idtac end; apply acts_then; [go; first [apply acts_build | apply acts_settings | apply acts_environ | apply acts_devices | apply acts_ports
      | apply acts_resources | apply acts_mounts | apply acts_conditions]|]). go.
  Qed.
  Lemma acts_emptyDir : forall v, Acts (act printEmptyDir v) (emptyDirItems v).
  Proof.
    intro v. unfold printEmptyDir, emptyDirItems. destruct (isEmptyDirEmpty v); [|go]. apply acts_tag. intros out d z ix R N.
    exists ix. split; [|exact (after_more _ _ _ N (after_refl ix) 1)]. do 3 step. apply mk_eq. cbn [tailText]. rewrite !sapp_assoc. reflexivity.
  Qed.
  Lemma acts_volumes : forall l, Acts (act printVolumes l) (volumeItems l).
  Proof. intro l. unfold printVolumes, volumeItems, printHostPath, hostPathItems. go. apply acts_emptyDir. Qed.
  Lemma acts_containers : forall k l, Acts (act printContainers k l) (containersItems k l).
  Proof. intros k l. unfold printContainers, containersItems. go. apply acts_container. Qed.
  Lemma acts_clone : forall v, Acts (act printClone v) (cloneItems v).
  Proof. intro v. unfold printClone, cloneItems. go. Qed.
  Lemma acts_concurrency : forall v, Acts (act printConcurrency v) (concurrencyItems v).
  Proof. intro v. unfold printConcurrency, concurrencyItems. go. Qed.
  Lemma acts_workspace : forall v, Acts (act printWorkspace v) (workspaceItems v).
  Proof. intro v. unfold printWorkspace, workspaceItems. go. Qed.
  Lemma acts_platform : forall v, Acts (act printPlatform v) (platformItems v).
  Proof. intro v. unfold printPlatform, platformItems. go. Qed.
  Lemma acts_default : Acts (act printPlatformDefault) defaultItems.
  Proof. unfold printPlatformDefault, defaultItems. go. Qed.
  Lemma acts_spec : forall c, Acts (act printSpec c) (specItems c).
  Proof. intro c. unfold printSpec, specItems, printDeploy. go. Qed.
  Lemma acts_get : forall s, Acts (act printGet s) (getItems s).
  Proof. intro s. unfold printGet, getItems. go. Qed.
  Definition body (p : Pipeline) : writing :=
    act writeTagValue "version" (AString (pi_version p)) >>
    act writeTagValue "kind" (AString (pi_kind p)) >>
    act writeTagValue "type" (AString (pi_type p)) >>
    act writeTagValue "name" (AString (pi_name p)) >>
    emit nl >>
    (if isPlatformEmpty (pi_platform p) then act printPlatformDefault else act printPlatform (pi_platform p)) >>
    whenever (negb (isCloneEmpty (pi_clone p))) (act printClone (pi_clone p)) >>
    whenever (negb (Z.eqb (pi_concurrency p) 0)) (act printConcurrency (pi_concurrency p)) >>
    whenever (negb (isWorkspaceEmpty (pi_workspace p))) (act printWorkspace (pi_workspace p)) >>
    act printContainers "steps" (pi_steps p) >>
    act printContainers "services" (pi_services p) >>
    whenever (negb (emptyList (pi_volumes p))) (act printVolumes (pi_volumes p) >> emit nl) >>
    whenever (negb (emptyList (pi_pull_secrets p)))
      (act writeTagValue "image_pull_secrets" (AStrings (pi_pull_secrets p)) >> emit nl) >>
    whenever (negb (emptyList (pi_node p))) (act printNode (pi_node p) >> emit nl) >>
    whenever (negb (isConditionsEmpty (pi_trigger p))) (act printConditions "trigger" (pi_trigger p) >> emit nl) >>
    whenever (negb (emptyList (pi_depends p))) (act printDependsOn (pi_depends p) >> emit nl) >>
    emit nl.
  Lemma acts_body : forall p, Acts (body p) (pipelineItems p).
  Proof.
    intro p. unfold body, pipelineItems, printClone, cloneItems, printConcurrency, concurrencyItems, printWorkspace, workspaceItems, printNode, printDependsOn.
    repeat (lazymatch goal with |- Acts (_ >> _) _ => idtac end; apply acts_then; [go; first [apply acts_containers | apply acts_volumes | apply acts_conditions | idtac]|]); [|go].
    destruct (isPlatformEmpty (pi_platform p)); unfold printPlatformDefault, printPlatform, defaultItems, platformItems; go.
  Qed.
  Lemma follows_data : forall d, Follows (emit " " >> emit ">" >> nested (
      each (fun s => emit nl >> indent >> emit s) (chunk (removeSpaces d) 60))) (Some (TFold (chunk (removeSpaces d) 60))).
  Proof.
    intros s out d z ix R N. exists ix. split; [|exact (after_more _ _ _ N (after_refl ix) 1)]. do 2 step. unfold nested. step.
    assert (E : forall l out, each (fun s => emit nl >> indent >> emit s) l (mk out (S d) z ix) = Ok (mk (out +++ text (render (2 * S d) (TFold l))) (S d) z ix)).
    { clear. induction l as [|x l IH]; intro out.
      - cbn [each]. unfold skip. apply mk_eq. Transparent render. cbn [render map]. Opaque render. rewrite text_nil, sapp_nil_r. reflexivity.
      - cbn [each]. rewrite then_assoc. step. rewrite then_assoc. do 2 step. rewrite IH. apply mk_eq.
        Transparent render. cbn [render map]. Opaque render. rewrite text_cons. cbn [rtext]. rewrite !sapp_assoc. reflexivity. }
    rewrite (then_ok _ _ _ _ (E _ _)), dec_mk. apply mk_eq. cbn [tailText]. replace (2 + 2 * d) with (2 * S d) by lia. rewrite !sapp_assoc. reflexivity.
  Qed.

  Definition resourceItems (r : Resource) : items :=
    match r with
    | RCron c => cronItems c
    | RSecret s => secretItems s
    | RSignature s => signatureItems s
    | RPipeline p => pipelineItems p
    | RRegistry _ => Some []
    end.
  Definition isRegistry (r : Resource) : bool := match r with RRegistry _ => true | _ => false end.
  Lemma print_resource : forall r, exists f, (forall w, act printResource r w = if isRegistry r then Ok w else (emit "---" >> f) w) /\ Acts f (resourceItems r).
  Proof.
    intros [c|p|s|g|r]; cbn [printResource isRegistry resourceItems].
    - eexists; (split; [intro w; reflexivity|]). unfold cronItems, printSpec, specItems, printDeploy; go.
    - exists (body p). split; [reflexivity|apply acts_body].
    - eexists; (split; [intro w; reflexivity|]). unfold secretItems, printGet, getItems. go. apply acts_tag, follows_data.
    - eexists; (split; [intro w; reflexivity|]). unfold signatureItems; go.
    - exists skip. split; [reflexivity|apply acts_skip].
  Qed.

  (** ** Documents *)
  Definition docText (its : list (option (string * tree))) : string := ("---" +++ text (render 0 (TMap its)))%string.
  Definition docs (rs : list Resource) : option (list (list (option (string * tree)))) :=
    optConcat (map (fun r => if isRegistry r then Some [] else option_map (fun its => [its]) (resourceItems r)) rs).
  Lemma print_docs : forall rs out, each (act printResource) rs (mk out 0 false []) =
    match docs rs with Some ds => Ok (mk (out +++ concats (map docText ds)) 0 false []) | None => Panic end.
  Proof.
    induction rs as [|r rs IH]; intro out.
    - cbn. unfold skip. apply mk_eq. symmetry. apply sapp_nil_r.
    - unfold docs. cbn [each map optConcat]. destruct (print_resource r) as (f & E & A).
      assert (T : act printResource r (mk out 0 false []) = match resourceItems r with
        | Some its => Ok (mk (if isRegistry r then out else out +++ docText its) 0 false [])
        | None => Panic end).
      { rewrite E. destruct (isRegistry r) eqn:Hr; [destruct r; try discriminate; reflexivity|].
        assert (R0 : Ready 0 false []) by (split; [reflexivity|congruence]). step. specialize (A (out +++ "---")%string 0 false [] R0).
        destruct (resourceItems r) as [its|]; [|exact A]. destruct A as (ix' & A1 & A2). cbn in A2. subst ix'. rewrite A1. apply mk_eq.
        unfold docText. rewrite !sapp_assoc. reflexivity. }
      destruct (resourceItems r) as [its|] eqn:Hr.
      + rewrite (then_ok _ _ _ _ T), IH. fold (docs rs). destruct (isRegistry r); cbn [option_map optApp]; destruct (docs rs) as [ds|]; cbn [optApp app]; try reflexivity.
        apply mk_eq. cbn [map concats]. rewrite !sapp_assoc. reflexivity.
      + rewrite (then_panic _ _ _ T). destruct (isRegistry r) eqn:Hs; [destruct r; discriminate|]. reflexivity.
  Qed.
  Theorem print_text : forall m, act Pretty.print m =
    match docs (mf_resources m) with Some ds => Ok (concats (map docText ds) +++ "..." +++ nl)%string | None => Panic end.
  Proof.
    intro m. unfold Pretty.print. change newWriter with (mk "" 0 false []). pose proof (print_docs (mf_resources m) "") as P.
    destruct (docs (mf_resources m)) as [ds|].
    - rewrite (then_ok _ _ _ _ P). do 2 step. cbn [omap w_out mk]. f_equal. rewrite !sapp_assoc. reflexivity.
    - rewrite (then_panic _ _ _ P). reflexivity.
  Qed.
End Items.
