(** * ConvertedSpec.v: which 0.8 configurations become files that lint accepts. *)
From Verif Require Import Model.Go Model.Types Model.Legacy Spec.LegacySpec.

(** The names of the steps before they are made distinct. *)
Definition legacyNames (getenv : string -> string) (g : LConfig) : list string :=
  match lg_clone g with
  | [] => if string_dec (getenv "DRONE_CONVERT_YAML_LEGACY_CLONE") "true" then ["clone"] else []
  | _ => map lc_name (lg_clone g)
  end ++ map lc_name (lg_pipeline g).
(** The name that is taken by the clone step of the new format. *)
Definition takenName (getenv : string -> string) (g : LConfig) : list string :=
  match lg_clone g with
  | [] => if string_dec (getenv "DRONE_CONVERT_YAML_LEGACY_CLONE") "true" then [] else ["clone"]
  | _ => []
  end.
Definition Named (c : LContainer) : Prop := lc_name c <> "" /\ lc_image c <> "".
Definition Harmless (c : LContainer) : Prop :=
  lc_privileged c = false /\ lc_dns c = [] /\ lc_dns_search c = [] /\ lc_extra_hosts c = [].
Definition GoodLegacy (getenv : string -> string) (trusted : bool) (g : LConfig) : Prop :=
  Forall Named (lg_clone g ++ lg_pipeline g ++ lg_services g) /\
  (exists final, RightNames (legacyNames getenv g) final /\
     NoDup (takenName getenv g ++ final ++ map lc_name (lg_services g))) /\
  (trusted = false ->
     Forall Harmless (lg_clone g ++ lg_pipeline g ++ lg_services g) /\
     Forall (fun c => lc_volumes c = []) (lg_pipeline g ++ lg_services g)).
(** A secret of the old format that says where it is. *)
Definition GoodLegacySecret (d : LSecretDef) : Prop :=
  (ld_driver d = "vault" -> exists k x, (k = "path" \/ k = "key") /\ In (k, x) (ld_opts d) /\ x <> "") /\
  (ld_driver d <> "vault" -> ld_path d <> "" \/ ld_vault d <> "").
