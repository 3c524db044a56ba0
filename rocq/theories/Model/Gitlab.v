(** * Gitlab.v: conversion of .gitlab-ci.yml (yaml/converter/gitlab/config.go and convert.go).

    Printing the result (package pretty) is modelled elsewhere; here the result is the manifest
    handed to the printer. *)
From Verif Require Import Model.Go Model.Types Model.Decode Model.Image Model.Legacy.

(** gitlab/config.go 98-103. *)
Record GImage : Type := { gi_name : string; gi_entrypoint : list string; gi_command : list string; gi_alias : string }.
Definition noImage : GImage := {| gi_name := ""; gi_entrypoint := []; gi_command := []; gi_alias := "" |}.
(** gitlab/config.go 47-95. *)
Record GJob : Type := {
  gj_name : string; gj_stage : string; gj_image : GImage; gj_script : list string; gj_before : list string;
  gj_after : list string; gj_services : list (option GImage); gj_only : list string; gj_except : list string;
  gj_variables : smap string; gj_allow_failure : bool; gj_when : list string }.
Definition emptyJob : GJob :=
  {| gj_name := ""; gj_stage := ""; gj_image := noImage; gj_script := []; gj_before := []; gj_after := [];
     gj_services := []; gj_only := []; gj_except := []; gj_variables := []; gj_allow_failure := false;
     gj_when := [] |}.
(** gitlab/config.go 13-44. *)
Record GConfig : Type := {
  gc_image : GImage; gc_stages : list string; gc_services : list (option GImage); gc_variables : smap string;
  gc_before : list string; gc_after : list string; gc_jobs : smap (option GJob) }.
Definition emptyGConfig : GConfig :=
  {| gc_image := noImage; gc_stages := []; gc_services := []; gc_variables := []; gc_before := [];
     gc_after := []; gc_jobs := [] |}.

(** ** Decoding. internal/string_slice.go is the same as legacy/internal/string_slice.go. *)
(** gitlab/config.go 107-129. The method is not called for null. *)
Definition decGImage (n : node) : option GImage :=
  match n with
  | NNull => Some noImage
  | _ => match decString n with
         | Some s => Some {| gi_name := s; gi_entrypoint := []; gi_command := []; gi_alias := "" |}
         | None => decStruct noImage (fun f =>
             name <? fString "name" f ;; entrypoint <? fSlices "entrypoint" f ;;
             command <? fSlices "command" f ;; alias <? fString "alias" f ;;
             Some {| gi_name := name; gi_entrypoint := entrypoint; gi_command := command; gi_alias := alias |}) n
         end
  end.
Definition fImages := field (decSlice (decPtr decGImage)) [].
(** gitlab/config.go 47-95. AllowFailure has no tag, so its key is the field name in lower case. *)
Definition decGJob : node -> option GJob :=
  decStruct emptyJob (fun f =>
    name <? fString "name" f ;; stage <? fString "stage" f ;; image <? field decGImage noImage "image" f ;;
    script <? fSlices "script" f ;; before <? fSlices "before_script" f ;; after <? fSlices "after_script" f ;;
    services <? fImages "services" f ;; only <? fSlices "only" f ;; except <? fSlices "except" f ;;
    variables <? fStringMap "variables" f ;; allow <? fBool "allowfailure" f ;; when <? fSlices "when" f ;;
    Some {| gj_name := name; gj_stage := stage; gj_image := image; gj_script := script; gj_before := before;
            gj_after := after; gj_services := services; gj_only := only; gj_except := except;
            gj_variables := variables; gj_allow_failure := allow; gj_when := when |}).
(** gitlab/config.go 13-44: a key that is no field is a job. *)
Definition configKeys : list string := ["image"; "stages"; "services"; "variables"; "before_script"; "after_script"].
Definition decJobs (f : smap node) : option (smap (option GJob)) :=
  optTraverse (fun kv => option_map (pair (fst kv)) (decPtr decGJob (snd kv)))
    (filter (fun kv => negb (smem (fst kv) configKeys)) f).
Definition decGConfig : node -> option GConfig :=
  decStruct emptyGConfig (fun f =>
    image <? field decGImage noImage "image" f ;; stages <? fStrings "stages" f ;;
    services <? fImages "services" f ;; variables <? fStringMap "variables" f ;;
    before <? fSlices "before_script" f ;; after <? fSlices "after_script" f ;; jobs <? decJobs f ;;
    Some {| gc_image := image; gc_stages := stages; gc_services := services; gc_variables := variables;
            gc_before := before; gc_after := after; gc_jobs := jobs |}).

(** ** Conversion *)
Definition setStage (stage : string) (j : GJob) : GJob :=
  {| gj_name := gj_name j; gj_stage := stage; gj_image := gj_image j; gj_script := gj_script j;
     gj_before := gj_before j; gj_after := gj_after j; gj_services := gj_services j; gj_only := gj_only j;
     gj_except := gj_except j; gj_variables := gj_variables j; gj_allow_failure := gj_allow_failure j;
     gj_when := gj_when j |}.
Definition stepWith (name image : string) (command entrypoint commands : list string) (failure : string) : Container :=
  {| ct_build := None; ct_command := command; ct_commands := commands; ct_detach := false; ct_depends := [];
     ct_devices := []; ct_dns := []; ct_dns_search := []; ct_entrypoint := entrypoint; ct_environment := [];
     ct_extra_hosts := []; ct_failure := failure; ct_image := image; ct_network := ""; ct_name := name;
     ct_ports := []; ct_privileged := false; ct_pull := ""; ct_push := None; ct_resources := None;
     ct_settings := []; ct_shell := ""; ct_user := ""; ct_volumes := []; ct_when := noConds;
     ct_working_dir := "" |}.
Definition pipelineWith (name : string) (depth : Z) (depends : list string) (steps services : list Container) : Pipeline :=
  {| pi_version := ""; pi_kind := "pipeline"; pi_type := ""; pi_name := name;
     pi_clone := {| cl_disable := false; cl_depth := depth; cl_skip_verify := false |};
     pi_concurrency := 0; pi_depends := depends; pi_node := []; pi_platform := noPlatform;
     pi_pull_secrets := []; pi_services := map Some services; pi_steps := map Some steps;
     pi_trigger := noConds; pi_volumes := []; pi_workspace := noWorkspace |}.

Section Gitlab.
  (** Hash algorithms compiled in, for image.Trim. *)
  Variable available : string -> bool.
  (** Iteration order of the map of jobs, per loop. *)
  Variable ord : nat -> smap (option GJob) -> smap (option GJob).

  (** gitlab/convert.go 102-106. *)
  Definition serviceSlug (s : string) : string := replaceAll (Trim available s) "/" "__".
  (** gitlab/convert.go 48-69. Decoding leaves no spare capacity in config.Before, so the first
      append copies it and jobs do not share commands. *)
  Definition jobStep (config : GConfig) (name : string) (j : GJob) : Container :=
    stepWith name (if isEmpty (gi_name (gj_image j)) then gi_name (gc_image config) else gi_name (gj_image j))
      (gi_command (gj_image j)) (gi_entrypoint (gj_image j))
      (gc_before config ++ gj_before j ++ gj_script j ++ gj_after j ++ gc_after config)
      (if gj_allow_failure j then "ignore" else "").
  (** gitlab/convert.go 44-76. *)
  Definition stageSteps (config : GConfig) (stage : string) (jobs : smap (option GJob)) : outcome (list Container) :=
    ofold (fun steps kv =>
      j <- deref (snd kv) ;;
      Ok (if String.eqb (gj_stage j) stage then steps ++ [jobStep config (fst kv) j] else steps)) jobs [].
  (** gitlab/convert.go 78-89. *)
  Definition serviceStep (i : GImage) : Container :=
    stepWith (if isEmpty (gi_alias i) then serviceSlug (gi_name i) else gi_alias i)
      (gi_name i) (gi_command i) (gi_entrypoint i) [] "".
  Definition stageServices (services : list (option GImage)) : outcome (list Container) :=
    otraverse (fun s => i <- deref s ;; Ok (serviceStep i)) services.
  (** gitlab/convert.go 39-95. *)
  Fixpoint stagePipelines (config : GConfig) (jobs : smap (option GJob)) (i : nat) (prev : string)
    (stages : list string) : outcome (list Pipeline) :=
    match stages with
    | [] => Ok []
    | stage :: stages' =>
        steps <- stageSteps config stage (ord i jobs) ;;
        services <- stageServices (gc_services config) ;;
        rest <- stagePipelines config jobs (S i) stage stages' ;;
        Ok (pipelineWith stage 0 (if isEmpty prev then [] else [prev]) steps services :: rest)
    end.
  (** gitlab/convert.go 30-35: without stages every job is its own stage. *)
  Definition ownStages (jobs : smap (option GJob)) : outcome (smap (option GJob)) :=
    otraverse (fun kv => j <- deref (snd kv) ;; Ok (fst kv, Some (setStage (fst kv) j))) jobs.
  (** gitlab/convert.go 26-95. *)
  Definition gitlabManifest (config : GConfig) : outcome Manifest :=
    ps <- (match gc_stages config with
           | [] =>
               jobs <- ownStages (gc_jobs config) ;;
               stagePipelines config jobs 1 "" (mkeys (ord 0 (gc_jobs config)))
           | stages => stagePipelines config (gc_jobs config) 1 "" stages
           end) ;;
    Ok {| mf_resources := map RPipeline ps |}.
  (** gitlab/convert.go 20-100. pretty.Print returns no error. *)
  Definition gitlabConvert (read : string -> option node) (print : Manifest -> outcome string) (b : string) : outcome string :=
    match read b with
    | None => Err "yaml"
    | Some n => match decGConfig n with
                | None => Err "yaml"
                | Some config => m <- gitlabManifest config ;; print m
                end
    end.
End Gitlab.
