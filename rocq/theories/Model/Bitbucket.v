(** * Bitbucket.v: conversion of bitbucket-pipelines.yml (yaml/converter/bitbucket/config.go and
    convert.go). The result is the manifest handed to the printer. *)
From Verif Require Import Model.Go Model.Types Model.Decode Model.Gitlab.

(** bitbucket/config.go 48-70. *)
Record BStep : Type := {
  bs_name : string; bs_image : string; bs_script : list string; bs_variables : smap string;
  bs_artifacts : list string }.
Definition emptyBStep : BStep :=
  {| bs_name := ""; bs_image := ""; bs_script := []; bs_variables := []; bs_artifacts := [] |}.
(** bitbucket/config.go 42-45. The name of a stage is never set. *)
Definition BStage : Type := list (option BStep).
(** bitbucket/config.go 14-38. *)
Record BConfig : Type := {
  bc_image : string; bc_depth : Z; bc_default : BStage; bc_tags : smap BStage; bc_branches : smap BStage;
  bc_services : smap (option BStep); bc_caches : smap string }.
Definition emptyBConfig : BConfig :=
  {| bc_image := ""; bc_depth := 0; bc_default := []; bc_tags := []; bc_branches := []; bc_services := [];
     bc_caches := [] |}.

(** ** Decoding *)
Definition decBStep : node -> option BStep :=
  decStruct emptyBStep (fun f =>
    name <? fString "name" f ;; image <? fString "image" f ;; script <? fStrings "script" f ;;
    variables <? fStringMap "variables" f ;; artifacts <? fStrings "artifacts" f ;;
    Some {| bs_name := name; bs_image := image; bs_script := script; bs_variables := variables;
            bs_artifacts := artifacts |}).
(** bitbucket/config.go 96-109: every element is a mapping with the key step; null and other
    mappings give a nil step. *)
Definition decItem : node -> option (option BStep) :=
  decStruct None (fun f => field (decPtr decBStep) None "step" f).
Definition decBStage : node -> option BStage := decSlice decItem.
Definition decBConfig : node -> option BConfig :=
  decStruct emptyBConfig (fun f =>
    image <? fString "image" f ;;
    depth <? field (decStruct 0%Z (fInt "depth")) 0%Z "clone" f ;;
    ps <? field (decStruct ([], [], []) (fun g =>
            d <? field decBStage [] "default" g ;;
            t <? field (decMap decBStage) [] "tags" g ;;
            b <? field (decMap decBStage) [] "branches" g ;; Some (d, t, b))) ([], [], []) "pipelines" f ;;
    ds <? field (decStruct ([], []) (fun g =>
            s <? field (decMap (decPtr decBStep)) [] "services" g ;;
            c <? fStringMap "caches" g ;; Some (s, c))) ([], []) "definitions" f ;;
    Some {| bc_image := image; bc_depth := depth; bc_default := fst (fst ps); bc_tags := snd (fst ps);
            bc_branches := snd ps; bc_services := fst ds; bc_caches := snd ds |}).

(** ** Conversion *)
Section Bitbucket.
  (** path.Match; [None] for a malformed pattern. *)
  Variable pathMatch : string -> string -> option bool.
  (** Iteration order of the maps. *)
  Variable ordT ordB : smap BStage -> smap BStage.
  Variable ordS : smap (option BStep) -> smap (option BStep).

  (** bitbucket/config.go 78-82 and 85-89. *)
  Fixpoint firstMatch (name : string) (m : smap BStage) : option BStage :=
    match m with
    | [] => None
    | (pattern, stage) :: m' =>
        match pathMatch pattern name with Some true => Some stage | _ => firstMatch name m' end
    end.
  (** bitbucket/config.go 75-92. *)
  Definition pipelineFor (c : BConfig) (ref : string) : BStage :=
    match firstMatch (trimPrefix ref "refs/tags/") (ordT (bc_tags c)) with
    | Some s => s
    | None => match firstMatch (trimPrefix ref "refs/heads/") (ordB (bc_branches c)) with
              | Some s => s
              | None => bc_default c
              end
    end.
  (** bitbucket/convert.go 80-86. *)
  Definition bToContainer (from : option BStep) : outcome Container :=
    s <- deref from ;; Ok (stepWith (bs_name s) (bs_image s) [] [] (bs_script s) "").
  (** bitbucket/convert.go 45-56. *)
  Fixpoint bSteps (image : string) (i : nat) (steps : BStage) : outcome (list Container) :=
    match steps with
    | [] => Ok []
    | from :: steps' =>
        to <- bToContainer from ;;
        rest <- bSteps image (S i) steps' ;;
        Ok (stepWith (if isEmpty (ct_name to) then ("step_" +++ itoa_nat i)%string else ct_name to)
              (if isEmpty (ct_image to) then image else ct_image to) [] [] (ct_commands to) "" :: rest)
    end.
  (** bitbucket/convert.go 62-66. *)
  Definition bServices (m : smap (option BStep)) : outcome (list Container) :=
    otraverse (fun kv =>
      to <- bToContainer (snd kv) ;; Ok (stepWith (fst kv) (ct_image to) [] [] (ct_commands to) "")) m.
  (** bitbucket/convert.go 26-73. *)
  Definition bitbucketManifest (c : BConfig) (ref : string) : outcome Manifest :=
    steps <- bSteps (bc_image c) 0 (pipelineFor c ref) ;;
    services <- bServices (ordS (bc_services c)) ;;
    Ok {| mf_resources := [RPipeline (pipelineWith "default" (bc_depth c) [] steps services)] |}.
  (** bitbucket/convert.go 19-78. *)
  Definition bitbucketConvert (read : string -> option node) (print : Manifest -> outcome string) (b ref : string) : outcome string :=
    match read b with
    | None => Err "yaml"
    | Some n => match decBConfig n with
                | None => Err "yaml"
                | Some c => m <- bitbucketManifest c ref ;; print m
                end
    end.
End Bitbucket.
