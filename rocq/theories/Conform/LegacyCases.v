(** * LegacyCases.v: configurations used in the examples and witnesses of Props/Legacy.v. *)
From Verif Require Import Model.Go Model.Types Model.Decode Model.Legacy Spec.LegacySpec.

Definition noEnv (_ : string) : string := "".
Definition someURL (s : string) : option (string * string) :=
  if String.eqb s "https://github.com/a/b" then Some ("github.com", "/a/b") else None.
Definition plain (name : string) (env : smap string) (secrets : list (option LSecret)) (vols : list (option LVolume)) : LContainer :=
  {| lc_command := []; lc_commands := ["make"]; lc_detached := false; lc_devices := []; lc_err_ignore := false;
     lc_tmpfs := []; lc_dns := []; lc_dns_search := []; lc_entrypoint := []; lc_environment := env;
     lc_extra_hosts := []; lc_image := "golang"; lc_name := name; lc_privileged := false; lc_pull := false;
     lc_shell := ""; lc_volumes := vols; lc_secrets := secrets; lc_constraints := noLConstraints; lc_vargs := [] |}.
Definition config (clone pipeline services : list LContainer) (secrets : smap LSecretDef) : LConfig :=
  {| lg_base := ""; lg_path := ""; lg_clone := clone; lg_pipeline := pipeline; lg_services := services;
     lg_branches := noCond; lg_matrix := VNull; lg_secrets := secrets |}.
Definition tmp : option LVolume := Some (splitVolume "/tmp:/data").
Definition def : LSecretDef := {| ld_driver := ""; ld_opts := []; ld_path := "p"; ld_vault := "" |}.
Definition sample : LConfig :=
  config [plain "git" [] [] []] [plain "build" [] [] [tmp]; plain "build" [] [] [tmp]] [plain "db" [] [] []]
    [("zeta", def); ("alpha", def)].
Definition named (names : list string) : LConfig := config [] (map (fun n => plain n [] [] []) names) [] [].
Definition secretive (env : smap string) (secrets : list (string * string)) : LContainer :=
  plain "s" env (map (fun st => Some {| ls_source := fst st; ls_target := snd st |}) secrets) [].
Definition cloneVolume : LConfig := config [plain "git" [] [] [tmp]] [] [] [].
Definition mounting (v : string) : LContainer := plain "s" [] [] [Some (splitVolume v)].
Definition filtered (m : smap string) : Container :=
  setName "s" {| ct_build := None; ct_command := []; ct_commands := []; ct_detach := false; ct_depends := [];
    ct_devices := []; ct_dns := []; ct_dns_search := []; ct_entrypoint := []; ct_environment := [];
    ct_extra_hosts := []; ct_failure := ""; ct_image := "golang"; ct_network := ""; ct_name := "s";
    ct_ports := []; ct_privileged := false; ct_pull := ""; ct_push := None; ct_resources := None;
    ct_settings := []; ct_shell := ""; ct_user := ""; ct_volumes := [];
    ct_when := {| w_action := noCond; w_cron := noCond; w_ref := noCond; w_repo := noCond; w_instance := noCond;
                  w_target := noCond; w_event := noCond; w_branch := noCond; w_status := noCond;
                  w_paths := noCond; w_matrix := m |};
    ct_working_dir := "" |}.

Lemma sample_complete : CompleteConfig sample.
Proof. intros c H. cbn in H. unfold Complete. intuition (subst; cbn in *; intuition discriminate). Qed.
Lemma named_complete : forall names, CompleteConfig (named names).
Proof.
  intros names c [[]|[I|[]]]. apply in_map_iff in I. destruct I as (n & <- & _). split; intros [].
Qed.
Lemma cloneVolume_complete : CompleteConfig cloneVolume.
Proof. intros c H. cbn in H. unfold Complete. intuition (subst; cbn in *; intuition discriminate). Qed.
