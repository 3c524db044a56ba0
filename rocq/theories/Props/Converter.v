(** * Converter.v: theorems C61 to C63. *)
From Coq Require Import Sorting.Permutation.
From Verif Require Import Model.Go Model.Types Model.Decode Model.Image Model.Gitlab Model.Bitbucket Model.Convert
  Spec.ConverterSpec Proofs.ConverterFacts.

(** ** C61 *)
Theorem C61_stages : forall available ord, (forall i m, Permutation m (ord i m)) ->
  forall g images js stages, gc_services g = map Some images -> gc_jobs g = present js ->
  gc_stages g = stages -> stages <> [] ->
  exists ps, gitlabManifest available ord g = Ok {| mf_resources := map RPipeline ps |} /\ length ps = length stages /\
    forall i stage p, nth_error stages i = Some stage -> nth_error ps i = Some p ->
      StagePipeline available g images js (previous stages i) stage p.
Proof. exact gitlab_stages. Qed.
Print Assumptions C61_stages.
Theorem C61_no_stages : forall available ord, (forall i m, Permutation m (ord i m)) ->
  forall g images js, gc_services g = map Some images -> gc_jobs g = present js -> NoDup (mkeys js) -> gc_stages g = [] ->
  exists order ps, Permutation order js /\ gitlabManifest available ord g = Ok {| mf_resources := map RPipeline ps |} /\
    length ps = length order /\
    forall i kv p, nth_error order i = Some kv -> nth_error ps i = Some p ->
      JobPipeline available g images (previous (mkeys order) i) kv p.
Proof. exact gitlab_no_stages. Qed.
Print Assumptions C61_no_stages.
Theorem C61_null_job_panics : forall available ord, (forall i m, Permutation m (ord i m)) ->
  forall g, In None (map snd (gc_jobs g)) -> gitlabManifest available ord g = Panic.
Proof. exact gitlab_null_job. Qed.
Print Assumptions C61_null_job_panics.
Theorem C61_null_service_panics : forall available ord, (forall i m, Permutation m (ord i m)) ->
  forall g js, gc_jobs g = present js -> gc_stages g <> [] \/ js <> [] -> In None (gc_services g) ->
  gitlabManifest available ord g = Panic.
Proof. exact gitlab_null_service. Qed.
Print Assumptions C61_null_service_panics.
Definition job (stage cmd : string) : node := NMap [(NStr "stage", NStr stage); (NStr "script", NStr cmd)].
Definition inOrder (_ : nat) (m : smap (option GJob)) := m.
Definition reversed (_ : nat) (m : smap (option GJob)) := rev m.
Definition pipelines (m : outcome Manifest) : list (string * list string * list (option (string * list string))) :=
  match m with
  | Ok m => flat_map (fun r => match r with
      | RPipeline p => [(pi_name p, pi_depends p, map (option_map (fun c => (ct_name c, ct_commands c))) (pi_steps p))]
      | _ => [] end) (mf_resources m)
  | _ => []
  end.
Definition noHash (_ : string) : bool := false.
Example C61_case : exists g,
  decGConfig (NMap [(NStr "stages", NSeq [NStr "build"; NStr "test"]); (NStr "before_script", NStr "setup");
                    (NStr "b", job "build" "make"); (NStr "x", job "deploy" "ship"); (NStr "t", job "test" "check")]) = Some g /\
  pipelines (gitlabManifest noHash inOrder g) =
    [("build", [], [Some ("b", ["setup"; "make"])]); ("test", ["build"], [Some ("t", ["setup"; "check"])])].
Proof. eexists. split; vm_compute; reflexivity. Qed.
(** Without stages the order of the pipelines is the order of a Go map. *)
Theorem C61_any_order_refuted : exists g, gc_stages g = [] /\ NoDup (mkeys (gc_jobs g)) /\
  gitlabManifest noHash inOrder g <> gitlabManifest noHash reversed g.
Proof.
  exists {| gc_image := noImage; gc_stages := []; gc_services := []; gc_variables := []; gc_before := []; gc_after := [];
            gc_jobs := [("a", Some emptyJob); ("b", Some emptyJob)] |}.
  split; [reflexivity|]. split; [repeat constructor; cbn; intuition discriminate|].
  intro E. apply (f_equal pipelines) in E. vm_compute in E. discriminate.
Qed.
Print Assumptions C61_any_order_refuted.
(** The GitLab key allow_failure has no effect: the decoder waits for allowfailure. *)
Theorem C61_allow_failure_refuted : exists n g c, n = NMap [(NStr "j", NMap [(NStr "allow_failure", NBool "true" true)])] /\
  decGConfig n = Some g /\
  (exists p, gitlabManifest noHash inOrder g = Ok {| mf_resources := [RPipeline p] |} /\ pi_steps p = [Some c]) /\ ct_failure c = "".
Proof.
  eexists _, _, _. split; [reflexivity|]. split; [vm_compute; reflexivity|]. split.
  - eexists. split; [vm_compute; reflexivity|reflexivity].
  - reflexivity.
Qed.
Print Assumptions C61_allow_failure_refuted.
(** Other top-level keys of GitLab, like cache, become jobs. *)
Theorem C61_only_jobs_refuted : exists n g, n = NMap [(NStr "cache", NMap [(NStr "paths", NSeq [NStr "x"])])] /\
  decGConfig n = Some g /\ pipelines (gitlabManifest noHash inOrder g) = [("cache", [], [Some ("cache", [])])].
Proof. eexists _, _. split; [reflexivity|]. split; vm_compute; reflexivity. Qed.
Print Assumptions C61_only_jobs_refuted.

(** ** C62 *)
Theorem C62_selection : forall pathMatch ordT ordB c ref, (forall m, Permutation m (ordT m)) -> (forall m, Permutation m (ordB m)) ->
  Selected pathMatch c ref (pipelineFor pathMatch ordT ordB c ref).
Proof. exact selected_ok. Qed.
Print Assumptions C62_selection.
Theorem C62_any_order : forall pathMatch ordT ordB ordT' ordB' c ref tag branch,
  (forall m, Permutation m (ordT m)) -> (forall m, Permutation m (ordB m)) ->
  (forall m, Permutation m (ordT' m)) -> (forall m, Permutation m (ordB' m)) ->
  Stripped "refs/tags/" ref tag -> Stripped "refs/heads/" ref branch ->
  Unambiguous pathMatch tag (bc_tags c) -> Unambiguous pathMatch branch (bc_branches c) ->
  pipelineFor pathMatch ordT ordB c ref = pipelineFor pathMatch ordT' ordB' c ref.
Proof. exact any_order. Qed.
Print Assumptions C62_any_order.
Theorem C62_pipeline : forall pathMatch ordT ordB ordS c ref l services,
  (forall m, Permutation m (ordT m)) -> (forall m, Permutation m (ordB m)) -> (forall m, Permutation m (ordS m)) ->
  bc_services c = map (fun kv => (fst kv, Some (snd kv))) services ->
  pipelineFor pathMatch ordT ordB c ref = map Some l ->
  exists p steps svs sel, bitbucketManifest pathMatch ordT ordB ordS c ref = Ok {| mf_resources := [RPipeline p] |} /\
    Selected pathMatch c ref (map Some l) /\
    pi_name p = "default" /\ BarePipeline p /\ pi_depends p = [] /\ cl_depth (pi_clone p) = bc_depth c /\
    pi_steps p = map Some steps /\ length steps = length l /\
    (forall i s st, nth_error l i = Some s -> nth_error steps i = Some st -> RightBStep (bc_image c) i s st) /\
    pi_services p = map Some svs /\ Permutation sel services /\ Forall2 RightBService sel svs.
Proof. exact bitbucket_ok. Qed.
Print Assumptions C62_pipeline.
Theorem C62_null_step_panics : forall pathMatch ordT ordB ordS c ref, In None (pipelineFor pathMatch ordT ordB c ref) ->
  bitbucketManifest pathMatch ordT ordB ordS c ref = Panic.
Proof. exact bitbucket_panic. Qed.
Print Assumptions C62_null_step_panics.
Definition same {A} (m : A) : A := m.
Definition back (m : smap BStage) : smap BStage := rev m.
Definition equalOnly (p s : string) : option bool := Some (String.eqb p s).
Definition always (p s : string) : option bool := Some true.
Definition one (name : string) : BStage :=
  [Some {| bs_name := name; bs_image := ""; bs_script := ["make"]; bs_variables := []; bs_artifacts := [] |}].
Definition twoBranches : BConfig :=
  {| bc_image := "golang"; bc_depth := 0; bc_default := one "d"; bc_tags := []; bc_branches := [("a", one ""); ("b", one "y")];
     bc_services := []; bc_caches := [] |}.
Example C62_case : Unambiguous equalOnly "a" (bc_branches twoBranches) /\
  pipelines (bitbucketManifest equalOnly same same same twoBranches "refs/heads/a") = [("default", [], [Some ("step_0", ["make"])])] /\
  pipelines (bitbucketManifest equalOnly same same same twoBranches "refs/heads/c") = [("default", [], [Some ("d", ["make"])])].
Proof.
  split; [|split; reflexivity]. intros p q s t I J. unfold equalOnly. intros P Q.
  injection P as P. injection Q as Q. apply String.eqb_eq in P, Q. subst. cbn in I, J.
  intuition congruence.
Qed.
(** Two matching patterns: the choice is the order of a Go map. *)
Theorem C62_any_order_refuted : exists pathMatch c ref, pipelineFor pathMatch same same c ref <> pipelineFor pathMatch same back c ref.
Proof. exists always, twoBranches, "refs/heads/a". vm_compute. discriminate. Qed.
Print Assumptions C62_any_order_refuted.
(** A group of parallel steps is valid in Bitbucket, and crashes the converter. *)
Theorem C62_parallel_refuted : exists n c, decBConfig n = Some c /\
  n = NMap [(NStr "pipelines", NMap [(NStr "default", NSeq [NMap [(NStr "parallel", NSeq [])]])])] /\
  forall pathMatch ordT ordB ordS ref, (forall m, Permutation m (ordT m)) -> (forall m, Permutation m (ordB m)) ->
    bitbucketManifest pathMatch ordT ordB ordS c ref = Panic.
Proof.
  eexists _, _. split; [|split; [reflexivity|]]; [vm_compute; reflexivity|].
  intros pathMatch ordT ordB ordS ref PT PB. unfold bitbucketManifest, pipelineFor. cbn [bc_tags bc_branches bc_default].
  rewrite (Permutation_nil (PT [])), (Permutation_nil (PB [])). reflexivity.
Qed.
Print Assumptions C62_parallel_refuted.

(** ** C63 *)
Theorem C63_match_iff : forall s, legacyMatch s = true <-> HasMatch s.
Proof. exact legacyMatch_spec. Qed.
Print Assumptions C63_match_iff.
Theorem C63_match_iff_line : forall s, legacyMatch s = true <-> HasPipelineLine s.
Proof. exact legacyMatch_lines. Qed.
Print Assumptions C63_match_iff_line.
Theorem C63_unchanged : forall bitbucket gitlab legacy d m,
  me_filename m <> "bitbucket-pipelines.yml" -> me_filename m <> ".gitlab-ci.yml" -> ~ HasPipelineLine d ->
  ConvertFile bitbucket gitlab legacy d m = Ok d.
Proof. exact convert_unchanged. Qed.
Print Assumptions C63_unchanged.
Theorem C63_converters : forall bitbucket gitlab legacy d m,
  (me_filename m = "bitbucket-pipelines.yml" -> ConvertFile bitbucket gitlab legacy d m = bitbucket d (me_ref m)) /\
  (me_filename m = ".gitlab-ci.yml" -> ConvertFile bitbucket gitlab legacy d m = gitlab d) /\
  (me_filename m <> "bitbucket-pipelines.yml" -> me_filename m <> ".gitlab-ci.yml" -> HasPipelineLine d ->
     ConvertFile bitbucket gitlab legacy d m = legacy d (me_url m)).
Proof. exact convert_chosen. Qed.
Print Assumptions C63_converters.
(** convert_oss.go returns its input, and so does its model: nothing to prove. *)
Example C63_oss : forall d m, ConvertOSS d m = Ok d.
Proof. reflexivity. Qed.
Definition lf : string := String NL "".
Example C63_case : legacyMatch ("a: 1" +++ lf +++ "pipeline:  " +++ lf +++ "  b:")%string = true /\
  legacyMatch ("kind: pipeline" +++ lf) = false /\ legacyMatch " pipeline:" = false.
Proof. repeat split. Qed.
(** A comment behind the key keeps a legacy file from being converted. *)
Theorem C63_legacy_converted_refuted : exists s, s = ("pipeline: # steps" +++ lf +++ "  build:" +++ lf)%string /\ legacyMatch s = false.
Proof. eexists. split; reflexivity. Qed.
Print Assumptions C63_legacy_converted_refuted.
