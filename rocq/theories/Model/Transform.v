(** * Transform.v: package transform (yaml/compiler/transform).

    A transform changes the spec it is given. A map that the code ranges over is given in the
    order of the iteration; where it ranges over the same map several times, [ord] gives the
    order of each time. Steps, volumes and their maps are not shared inside a spec. *)
From Verif Require Import Model.Go Model.Types Model.Cond Model.Engine.

(** The spec after each step was changed by [f]. *)
Definition eachStep (f : Step -> outcome Step) (spec : Spec) : outcome Spec :=
  steps <- otraverse f (sp_steps spec) ;; Ok (sp_set_steps steps spec).

(** yaml/compiler/transform/combine.go 21-27. *)
Fixpoint Combine (fns : list (Spec -> M Spec)) (spec : Spec) : M Spec :=
  match fns with
  | [] => mret spec
  | fn :: fns' => spec <~ fn spec ;; Combine fns' spec
  end.

(** yaml/compiler/transform/auths.go 21-25; panics without a docker section. *)
Definition WithAuths (auths : list Auth) (spec : Spec) : outcome Spec :=
  d <- deref (sp_docker spec) ;;
  Ok (sp_set_docker (Some {| dc_auths := dc_auths d ++ auths; dc_volumes := dc_volumes d |}) spec).
(** yaml/compiler/transform/auths.go 34-41; [auths] is the result of the callback. *)
Definition WithAuthsFunc (auths : list Auth) (spec : Spec) : outcome Spec :=
  if negb (Nat.eqb (length auths) 0)
  then d <- deref (sp_docker spec) ;;
       Ok (sp_set_docker (Some {| dc_auths := dc_auths d ++ auths; dc_volumes := dc_volumes d |}) spec)
  else Ok spec.

(** yaml/compiler/transform/env.go 21-29. *)
Fixpoint WithEnviron (envs : smap string) (spec : Spec) : outcome Spec :=
  match envs with
  | [] => Ok spec
  | (key, value) :: envs' => spec <- eachStep (setEnv key value) spec ;; WithEnviron envs' spec
  end.

(** yaml/compiler/transform/filter.go 21-42. *)
Definition includeStep (names : list string) (step : Step) : Step :=
  if String.eqb (md_name (st_meta step)) "clone" then step
  else if negb (smem (md_name (st_meta step)) names) then set_policy RunNever step else step.
Definition Include (names : list string) (spec : Spec) : Spec :=
  if Nat.eqb (length names) 0 then spec
  else sp_set_steps (map (includeStep names) (sp_steps spec)) spec.
(** yaml/compiler/transform/filter.go 46-67. *)
Definition excludeStep (names : list string) (step : Step) : Step :=
  if String.eqb (md_name (st_meta step)) "clone" then step
  else if smem (md_name (st_meta step)) names then set_policy RunNever step else step.
Definition Exclude (names : list string) (spec : Spec) : Spec :=
  if Nat.eqb (length names) 0 then spec
  else sp_set_steps (map (excludeStep names) (sp_steps spec)) spec.
(** yaml/compiler/transform/filter.go 71-86. *)
Fixpoint resumeSteps (name : string) (steps : list Step) : list Step :=
  match steps with
  | [] => []
  | step :: steps' =>
      if String.eqb (md_name (st_meta step)) name then step :: steps'
      else if String.eqb (md_name (st_meta step)) "clone" then step :: resumeSteps name steps'
      else set_policy RunNever step :: resumeSteps name steps'
  end.
Definition ResumeAt (name : string) (spec : Spec) : Spec :=
  if isEmpty name then spec else sp_set_steps (resumeSteps name (sp_steps spec)) spec.

(** yaml/compiler/transform/labels.go 23-25, 27-29 and 32-34: writing to a nil map panics, which
    happens only when there is something to write. *)
Fixpoint addLabels (labels : smap string) (m : Metadata) : outcome Metadata :=
  match labels with
  | [] => Ok m
  | (k, v) :: labels' =>
      l <- deref (md_labels m) ;;
      addLabels labels' {| md_uid := md_uid m; md_namespace := md_namespace m; md_name := md_name m;
                           md_labels := Some (mset k v l) |}
  end.
Section Labels.
  (** The order of the iteration for the i-th resource. *)
  Variable ord : nat -> smap string -> smap string.
  Fixpoint labelVolumes (labels : smap string) (i : nat) (vs : list EVolume) : outcome (list EVolume) :=
    match vs with
    | [] => Ok []
    | v :: vs' =>
        m <- addLabels (ord i labels) (ev_meta v) ;;
        r <- labelVolumes labels (S i) vs' ;;
        Ok ({| ev_meta := m; ev_empty := ev_empty v; ev_host := ev_host v |} :: r)
    end.
  Fixpoint labelSteps (labels : smap string) (i : nat) (steps : list Step) : outcome (list Step) :=
    match steps with
    | [] => Ok []
    | s :: steps' =>
        m <- addLabels (ord i labels) (st_meta s) ;;
        r <- labelSteps labels (S i) steps' ;;
        Ok (set_meta m s :: r)
    end.
  (** yaml/compiler/transform/labels.go 21-37. *)
  Definition WithLables (labels : smap string) (spec : Spec) : outcome Spec :=
    m <- addLabels (ord 0 labels) (sp_meta spec) ;;
    let spec := sp_set_meta m spec in
    d <- deref (sp_docker spec) ;;
    vs <- labelVolumes labels 1 (dc_volumes d) ;;
    let spec := sp_set_docker (Some {| dc_auths := dc_auths d; dc_volumes := vs |}) spec in
    steps <- labelSteps labels (S (length vs)) (sp_steps spec) ;;
    Ok (sp_set_steps steps spec).
End Labels.

(** yaml/compiler/transform/limits.go 30-38. *)
Definition limitStep (memlimit cpulimit : Z) (step : Step) : Step :=
  let r := match st_resources step with Some r => r | None => {| er_limits := None; er_requests := None |} end in
  let l := match er_limits r with Some l => l | None => {| eo_cpu := 0; eo_memory := 0 |} end in
  let l := {| eo_cpu := eo_cpu l; eo_memory := memlimit |} in
  let l := {| eo_cpu := cpulimit; eo_memory := eo_memory l |} in
  set_resources (Some {| er_limits := Some l; er_requests := er_requests r |}) step.
(** yaml/compiler/transform/limits.go 21-40. *)
Definition WithLimits (memlimit cpulimit : Z) (spec : Spec) : Spec :=
  if Z.eqb memlimit 0 && Z.eqb cpulimit 0 then spec
  else sp_set_steps (map (limitStep memlimit cpulimit) (sp_steps spec)) spec.

(** yaml/compiler/transform/netrc.go 70-79. *)
Definition netrcStep (machine username password : string) (step : Step) : outcome Step :=
  let step := match st_envs step with None => set_envs (Some []) step | Some _ => step end in
  step <- setEnv "CI_NETRC_MACHINE" machine step ;;
  step <- setEnv "CI_NETRC_USERNAME" username step ;;
  step <- setEnv "CI_NETRC_PASSWORD" password step ;;
  step <- setEnv "DRONE_NETRC_MACHINE" machine step ;;
  step <- setEnv "DRONE_NETRC_USERNAME" username step ;;
  setEnv "DRONE_NETRC_PASSWORD" password step.
(** yaml/compiler/transform/netrc.go 34-82. The branch of lines 43-65 is dead: disableNetrcMount
    is the constant true. *)
Definition WithNetrc (machine username password : string) (spec : Spec) : outcome Spec :=
  if isEmpty username || isEmpty password then Ok spec
  else eachStep (netrcStep machine username password) spec.

(** yaml/compiler/transform/network.go 21-28. *)
Definition networkStep (networks : list string) (step : Step) : Step :=
  set_docker (set_networks (ds_networks (st_docker step) ++ networks) (st_docker step)) step.
Definition WithNetworks (networks : list string) (spec : Spec) : Spec :=
  sp_set_steps (map (networkStep networks) (sp_steps spec)) spec.

Section Proxy.
  (** os.Getenv. *)
  Variable env : string -> string.
  (** yaml/compiler/transform/proxy.go 43-53. *)
  Definition getenv (name : string) : string :=
    let name := toUpper name in
    if negb (isEmpty (env name)) then env name
    else let name := toLower name in
         if negb (isEmpty (env name)) then env name else "".
  (** yaml/compiler/transform/proxy.go 27-39. *)
  Definition proxyVar (name NAME : string) (environ : smap string) : smap string :=
    let value := getenv name in
    if negb (isEmpty value) then mset NAME value (mset name value environ) else environ.
  Definition proxyEnviron : smap string :=
    proxyVar "https_proxy" "HTTPS_PROXY" (proxyVar "http_proxy" "HTTP_PROXY" (proxyVar "no_proxy" "NO_PROXY" [])).
  (** yaml/compiler/transform/proxy.go 26-41; [ord] is the order in which the map is ranged over. *)
  Definition WithProxy (ord : smap string -> smap string) (spec : Spec) : outcome Spec :=
    WithEnviron (ord proxyEnviron) spec.
End Proxy.

Section Secrets.
  Variable rnd : nat -> string.
  (** yaml/compiler/transform/secret.go 24-39. *)
  Fixpoint WithSecrets (secrets : smap string) (spec : Spec) : M Spec :=
    match secrets with
    | [] => mret spec
    | (key, value) :: secrets' =>
        uid <~ fresh rnd ;;
        WithSecrets secrets' (sp_set_secrets (sp_secrets spec ++
          [{| es_meta := {| md_uid := uid; md_namespace := md_namespace (sp_meta spec); md_name := key; md_labels := None |};
              es_data := value |}]) spec)
    end.

  (** yaml/compiler/transform/secret.go 52-62: the set of names, in the order of their first use. *)
  Definition addName (set : list string) (v : SecretVar) : list string :=
    if smem (sv_name v) set then set else set ++ [sv_name v].
  Definition addNames (set : list string) (step : Step) : list string :=
    match st_policy step with
    | RunNever => set
    | _ => fold_left addName (st_secrets step) set
    end.
  Definition secretNames (spec : Spec) : list string := fold_left addNames (sp_steps spec) [].

  (** The callback: what it returns and what it does to its own state. It returns a new secret
      each time it returns one. *)
  Variable State : Type.
  Variable f : string -> State -> State * option ESecret.
  (** yaml/compiler/transform/secret.go 67-74. *)
  Fixpoint requestSecrets (names : list string) (st : State) (spec : Spec) : M (State * Spec) :=
    match names with
    | [] => mret (st, spec)
    | name :: names' =>
        match f name st with
        | (st, None) => requestSecrets names' st spec
        | (st, Some secret) =>
            uid <~ fresh rnd ;;
            requestSecrets names' st (sp_set_secrets (sp_secrets spec ++
              [{| es_meta := {| md_uid := uid; md_namespace := md_namespace (sp_meta spec);
                                md_name := md_name (es_meta secret); md_labels := md_labels (es_meta secret) |};
                  es_data := es_data secret |}]) spec)
        end
    end.
  (** yaml/compiler/transform/secret.go 48-76; [ord] is the order in which the set is ranged over. *)
  Definition WithSecretFunc (ord : list string -> list string) (st : State) (spec : Spec) : M (State * Spec) :=
    requestSecrets (ord (secretNames spec)) st spec.

  (** yaml/compiler/transform/volume.go 42-46. *)
  Definition mountStep (name path : string) (step : Step) : Step :=
    set_mounts (st_volumes step ++ [{| mo_name := name; mo_path := path |}]) step.
  (** yaml/compiler/transform/volume.go 26-50. *)
  Fixpoint WithVolumes (volumes : smap string) (spec : Spec) : M Spec :=
    match volumes with
    | [] => mret spec
    | (key, value) :: volumes' =>
        uid <~ fresh rnd ;;
        name <~ fresh rnd ;;
        spec <~ mlift (addVolume
          {| ev_meta := {| md_uid := uid; md_namespace := md_name (sp_meta spec); md_name := name; md_labels := Some [] |};
             ev_empty := None; ev_host := Some key |} spec) ;;
        WithVolumes volumes' (sp_set_steps (map (mountStep name value) (sp_steps spec)) spec)
    end.
  (** yaml/compiler/transform/volume.go 56-65. *)
  Fixpoint volumeMap (volumes : list string) (to : smap string) : smap string :=
    match volumes with
    | [] => to
    | s :: volumes' =>
        match split_on ":" s with
        | [key; val] => volumeMap volumes' (mset key val to)
        | _ => volumeMap volumes' to
        end
    end.
  (** yaml/compiler/transform/volume.go 55-67. *)
  Definition WithVolumeSlice (ord : smap string -> smap string) (volumes : list string) (spec : Spec) : M Spec :=
    WithVolumes (ord (volumeMap volumes [])) spec.
End Secrets.
