(** * Legacy.v: theorems C56 to C60 and C74. *)
From Coq Require Import Sorting.Sorted Sorting.Permutation.
From Verif Require Import Model.Go Model.Types Model.Decode Model.Signer Model.Lint Model.Matrix Model.Legacy
  Spec.LegacySpec Conform.LegacyCases Proofs.LegacyFacts Proofs.SubstFacts Proofs.LegacyMore.

(** ** C56 *)
Theorem C56_containers : forall c, Complete c ->
  exists c', toContainer c = Ok c' /\ RightContainer c c' /\ ct_name c' = lc_name c.
Proof. exact toContainer_ok. Qed.
Print Assumptions C56_containers.
Theorem C56_pipeline : forall getenv parseURL g remote, CompleteConfig g ->
  exists p, toPipeline getenv parseURL g remote = Ok p /\ RightPipeline getenv g p.
Proof. exact toPipeline_ok. Qed.
Print Assumptions C56_pipeline.
Theorem C56_null_entry_panics : forall getenv parseURL g remote, ~ CompleteConfig g ->
  toPipeline getenv parseURL g remote = Panic.
Proof. exact toPipeline_panic. Qed.
Print Assumptions C56_null_entry_panics.
Theorem C56_workspace : forall getenv parseURL g remote p, toPipeline getenv parseURL g remote = Ok p ->
  RightWorkspace parseURL (kubernetes getenv) (lg_base g) (lg_path g) remote (pi_workspace p).
Proof. exact pipeline_workspace. Qed.
Print Assumptions C56_workspace.
Theorem C56_manifest_without_matrix : forall getenv parseURL isPrintHigh marshal unmarshal ordM ordA n g remote,
  CompleteConfig g -> lg_matrix g = VNull ->
  exists p, RightPipeline getenv g p /\
    toManifest getenv parseURL isPrintHigh marshal unmarshal ordM ordA n g remote =
      Ok {| mf_resources := RPipeline p :: map RSecret (toSecrets g) |}.
Proof. exact manifest_plain. Qed.
Print Assumptions C56_manifest_without_matrix.
Theorem C56_manifest_with_matrix : forall getenv parseURL isPrintHigh marshal unmarshal ordM ordA n g remote axes m,
  CompleteConfig g -> lg_matrix g <> VNull ->
  parseMatrix ordM n = Ok axes -> Forall (fun a => NoDup (mkeys a)) axes ->
  toManifest getenv parseURL isPrintHigh marshal unmarshal ordM ordA n g remote = Ok m ->
  exists p qs, RightPipeline getenv g p /\ mf_resources m = map RPipeline qs ++ map RSecret (toSecrets g) /\
    length qs = length axes /\
    forall i a q, nth_error axes i = Some a -> nth_error qs i = Some q ->
      AxisResult isPrintHigh marshal unmarshal ordA p i a q.
Proof. exact manifest_matrix. Qed.
Print Assumptions C56_manifest_with_matrix.
Example C56_case : CompleteConfig sample /\
  exists p, toPipeline noEnv someURL sample "https://github.com/a/b" = Ok p /\
    map (option_map ct_name) (pi_steps p) = [Some "git"; Some "build"; Some "build_2"] /\
    map (option_map ct_name) (pi_services p) = [Some "db"] /\
    pi_workspace p = {| ws_base := "/drone"; ws_path := "src/github.com/a/b" |} /\ cl_disable (pi_clone p) = true.
Proof. split; [exact sample_complete|]. eexists. split; [vm_compute; reflexivity|]. repeat split. Qed.

(** ** C57 *)
Theorem C57_distinct : forall orig final, RightNames orig final ->
  (forall o x n, In o orig -> o <> (x +++ "_" +++ itoa_nat n)%string) -> NoDup final.
Proof. exact names_distinct. Qed.
Print Assumptions C57_distinct.
Theorem C57_names : forall steps, RightNames (map ct_name steps) (map ct_name (dedupe [] 0 steps)).
Proof. exact dedupe_RightNames. Qed.
Print Assumptions C57_names.
Theorem C57_distinct_refuted : exists g p, CompleteConfig g /\ toPipeline noEnv someURL g "" = Ok p /\
  map (option_map ct_name) (pi_steps p) = [Some "a_2"; Some "a"; Some "a_2"] /\
  forall trusted, Lint (RPipeline p) trusted = Err "linter: duplicate step names".
Proof.
  exists (named ["a_2"; "a"; "a"]). eexists. split; [apply named_complete|]. split; [vm_compute; reflexivity|].
  split; [reflexivity|]. intros []; reflexivity.
Qed.
Print Assumptions C57_distinct_refuted.

(** ** C58 *)
Theorem C58_environment : forall c, ~ In None (lc_secrets c) -> exists m, toEnvironment c = Ok m /\ RightEnvironment c m.
Proof. exact toEnvironment_ok. Qed.
Print Assumptions C58_environment.
Theorem C58_every_mount_has_its_volume : forall g vs c v,
  RightVolumes g vs -> In c (lg_pipeline g ++ lg_services g) -> In (Some v) (lc_volumes c) ->
  exists vol, In (Some vol) vs /\ vo_name vol = hexEncode (lv_source v) /\ vo_host vol = Some {| vh_path := lv_source v |} /\
    forall vol', In (Some vol') vs -> vo_name vol' = vo_name vol -> vol' = vol.
Proof. exact mounted_once. Qed.
Print Assumptions C58_every_mount_has_its_volume.
Theorem C58_volumes : forall g, CompleteConfig g -> exists vs, toVolumes g = Ok vs /\ RightVolumes g vs.
Proof. exact toVolumes_ok. Qed.
Print Assumptions C58_volumes.
Theorem C58_volume_names_distinct : forall g vs, RightVolumes g vs ->
  NoDup (map (fun v => match v with Some v => vo_name v | None => "" end) vs).
Proof. exact RightVolumes_nodup. Qed.
Print Assumptions C58_volume_names_distinct.
Theorem C58_secrets : forall g, NoDup (mkeys (lg_secrets g)) ->
  (forall k d, In (k, d) (lg_secrets g) -> NoDup (mkeys (ld_opts d))) ->
  Permutation (mkeys (lg_secrets g)) (map se_name (toSecrets g)) /\ Sorted Before (map se_name (toSecrets g)) /\
  Forall (RightSecret g) (toSecrets g).
Proof. exact toSecrets_ok. Qed.
Print Assumptions C58_secrets.
Theorem C58_secrets_any_order : forall g g', Permutation (lg_secrets g) (lg_secrets g') -> NoDup (mkeys (lg_secrets g)) ->
  toSecrets g = toSecrets g'.
Proof. exact toSecrets_order. Qed.
Print Assumptions C58_secrets_any_order.
Example C58_case :
  toEnvironment (secretive [("TOKEN", "x"); ("B", "y")] [("tok", "token")]) =
    Ok [("TOKEN", Some {| v_value := ""; v_secret := "tok" |}); ("B", Some {| v_value := "y"; v_secret := "" |})] /\
  map se_name (toSecrets sample) = ["alpha"; "zeta"] /\
  toVolumes sample = Ok [Some {| vo_name := hexEncode "/tmp"; vo_empty := None; vo_host := Some {| vh_path := "/tmp" |} |}].
Proof. repeat split. Qed.
(** A volume of a clone container is mounted but not declared. *)
Theorem C58_clone_volume_refuted : exists g p c m, CompleteConfig g /\ toPipeline noEnv someURL g "" = Ok p /\
  In (Some c) (pi_steps p) /\ In (Some m) (ct_volumes c) /\ pi_volumes p = [].
Proof.
  exists cloneVolume. eexists _, _, _. split; [exact cloneVolume_complete|]. split; [vm_compute; reflexivity|].
  split; [left; reflexivity|]. split; [left; reflexivity|reflexivity].
Qed.
Print Assumptions C58_clone_volume_refuted.
(** Two containers that differ in the read-only flag of a volume convert to the same step. *)
Theorem C58_read_only_refuted : exists c c', c <> c' /\ lc_volumes c = [Some (splitVolume "/a:/b:ro")] /\
  lc_volumes c' = [Some (splitVolume "/a:/b")] /\ toContainer c = toContainer c' /\ exists s, toContainer c = Ok s.
Proof.
  exists (mounting "/a:/b:ro"), (mounting "/a:/b"). split; [intro E; apply (f_equal lc_volumes) in E; vm_compute in E; discriminate|].
  split; [reflexivity|]. split; [reflexivity|]. split; [reflexivity|]. eexists. vm_compute. reflexivity.
Qed.
Print Assumptions C58_read_only_refuted.

(** ** C59 *)
Theorem C59_trigger : forall branches steps, RightTrigger branches steps (branchTrigger branches steps).
Proof. exact trigger_ok. Qed.
Print Assumptions C59_trigger.
Example C59_case :
  w_ref (branchTrigger {| c_include := ["master"]; c_exclude := [] |} []) =
    {| c_include := ["refs/pull/**"; "refs/pull-requests/**"; "refs/merge-requests/**"; "refs/heads/master"]; c_exclude := [] |} /\
  w_branch (branchTrigger {| c_include := ["master"]; c_exclude := ["dev"] |} []) =
    {| c_include := ["master"]; c_exclude := ["dev"] |}.
Proof. split; reflexivity. Qed.

(** ** C60 *)
Theorem C60_copies : forall environ c, NoDup (mkeys environ) -> CopiesOf environ c (copies environ c).
Proof. exact copies_ok. Qed.
Print Assumptions C60_copies.
Theorem C60_dropped_iff : forall environ c l, CopiesOf environ c l -> w_matrix (ct_when c) <> [] ->
  (l = [] <-> forall k v, In (k, v) (w_matrix (ct_when c)) -> mget k environ <> Some v).
Proof. exact copies_none. Qed.
Print Assumptions C60_dropped_iff.
Theorem C60_axis : forall p i environ, NoDup (mkeys environ) -> AxisPipeline p i environ (forAxis p i environ).
Proof. exact forAxis_ok. Qed.
Print Assumptions C60_axis.
Theorem C60_all_keys_refuted : exists environ c k v, NoDup (mkeys environ) /\ In (k, v) (w_matrix (ct_when c)) /\
  mget k environ <> Some v /\ copies environ c = [c].
Proof.
  exists [("A", "1"); ("B", "2")], (filtered [("A", "1"); ("B", "3")]), "B", "3".
  split; [repeat constructor; cbn; intuition discriminate|]. split; [right; left; reflexivity|].
  split; [discriminate|reflexivity].
Qed.
Print Assumptions C60_all_keys_refuted.
Theorem C60_once_refuted : exists environ c, NoDup (mkeys environ) /\ copies environ c = [c; c].
Proof.
  exists [("A", "1"); ("B", "2")], (filtered [("A", "1"); ("B", "2")]).
  split; [repeat constructor; cbn; intuition discriminate|reflexivity].
Qed.
Print Assumptions C60_once_refuted.

(** ** C74 *)
Theorem C74_substitution : forall isPrintHigh env l, NoDup (mkeys env) ->
  (forall k v, In (k, v) env -> CleanKey k /\ CleanValue (shown isPrintHigh v)) -> Plain l ->
  substitute isPrintHigh env (render l) = render (flat_map (replaceVar (shownEnv isPrintHigh env)) l).
Proof. exact substitute_ok. Qed.
Print Assumptions C74_substitution.
Theorem C74_any_order : forall isPrintHigh env env' l, Permutation env env' -> NoDup (mkeys env) ->
  (forall k v, In (k, v) env -> CleanKey k /\ CleanValue (shown isPrintHigh v)) -> Plain l ->
  substitute isPrintHigh env (render l) = substitute isPrintHigh env' (render l).
Proof. exact substitute_order. Qed.
Print Assumptions C74_any_order.
Example C74_case :
  substitute (fun _ => true) [("A", "1"); ("B", "2")] "x: ${A}-${B}-${C}" = "x: 1-2-${C}" /\
  Plain (chars "x: " ++ [Var "A"] ++ chars "-" ++ [Var "B"]) /\
  render (chars "x: " ++ [Var "A"] ++ chars "-" ++ [Var "B"]) = "x: ${A}-${B}".
Proof. repeat split; cbn; try discriminate; intuition discriminate. Qed.
(** A value that names another variable is replaced or not depending on the order. *)
Theorem C74_any_order_refuted : exists env env' text, Permutation env env' /\ NoDup (mkeys env) /\
  forall isPrintHigh, substitute isPrintHigh env text <> substitute isPrintHigh env' text.
Proof.
  exists [("A", "${B}"); ("B", "1")], [("B", "1"); ("A", "${B}")], "${A}".
  split; [apply perm_swap|]. split; [repeat constructor; cbn; intuition discriminate|].
  intro p. vm_compute. discriminate.
Qed.
Print Assumptions C74_any_order_refuted.
