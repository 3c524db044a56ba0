(** * TitleSpec.v: other names for the pipelines of a manifest. *)
From Verif Require Import Model.Go Model.Types Model.Engine.

Section Title.
  Variable r : string -> string.
  Definition titlePipeline (p : Pipeline) : Pipeline :=
    {| pi_version := pi_version p; pi_kind := pi_kind p; pi_type := pi_type p; pi_name := r (pi_name p); pi_clone := pi_clone p;
       pi_concurrency := pi_concurrency p; pi_depends := map r (pi_depends p); pi_node := pi_node p;
       pi_platform := pi_platform p; pi_pull_secrets := pi_pull_secrets p; pi_services := pi_services p; pi_steps := pi_steps p;
       pi_trigger := pi_trigger p; pi_volumes := pi_volumes p; pi_workspace := pi_workspace p |}.
  Definition titleResource (x : Resource) : Resource := match x with RPipeline p => RPipeline (titlePipeline p) | _ => x end.
  Definition titleManifest (m : Manifest) : Manifest := {| mf_resources := map titleResource (mf_resources m) |}.
  (** A compiled spec has the name in one label. *)
  Definition titleLabel (x : string * string) : string * string :=
    (fst x, if String.eqb (fst x) "io.drone.pipeline.name" then r (snd x) else snd x).
  Definition titleSpec (s : Spec) : Spec :=
    {| sp_meta := {| md_uid := md_uid (sp_meta s); md_namespace := md_namespace (sp_meta s); md_name := md_name (sp_meta s);
                     md_labels := option_map (map titleLabel) (md_labels (sp_meta s)) |};
       sp_platform := sp_platform s; sp_docker := sp_docker s; sp_files := sp_files s; sp_secrets := sp_secrets s; sp_steps := sp_steps s |}.
  Definition Distinct : Prop := forall a b, r a = r b -> a = b.
End Title.
