(** * Filter.v: theorem C116. *)
From Coq Require Import Sorting.Permutation.
From Verif Require Import Model.Go Model.Types Model.Cond Model.Engine Model.Compiler Model.Transform
  Spec.CompileSpec Spec.TransformSpec Spec.FilterSpec Proofs.Filter Conform.Pipelines Conform.Worlds.

(** ** C116 *)
Theorem C116_any_order : forall rnd l l' spec n,
  additionsOf l = additionsOf l' -> incl (filtersOf l) (filtersOf l') -> incl (filtersOf l') (filtersOf l) ->
  Combine (map (transformed rnd) l) spec n = Combine (map (transformed rnd) l') spec n.
Proof. exact any_order. Qed.
Print Assumptions C116_any_order.
Theorem C116_exactly : forall l spec before s after, sp_steps spec = before ++ s :: after ->
  exists t, nth_error (sp_steps (fold_left (fun s f => filtered f s) l spec)) (length before) = Some t /\
    OffIff (fun _ => exists f, In f l /\ Stops f (map stepName before) (stepName s)) s t.
Proof. exact filters_exactly. Qed.
Print Assumptions C116_exactly.
Theorem C116_nothing_else : forall l spec, let spec' := fold_left (fun s f => filtered f s) l spec in
  sp_meta spec' = sp_meta spec /\ sp_platform spec' = sp_platform spec /\ sp_docker spec' = sp_docker spec /\
  sp_files spec' = sp_files spec /\ sp_secrets spec' = sp_secrets spec /\ length (sp_steps spec') = length (sp_steps spec).
Proof. exact filters_rest. Qed.
Print Assumptions C116_nothing_else.
Theorem C116_secrets : forall l spec name, Used (fold_left (fun s f => filtered f s) l spec) name -> Used spec name.
Proof. exact used_filters. Qed.
Print Assumptions C116_secrets.
Theorem C116_limits : forall memory cpu memory' cpu' spec, memory <> 0%Z \/ cpu <> 0%Z ->
  WithLimits memory cpu (WithLimits memory' cpu' spec) = WithLimits memory cpu spec.
Proof. exact limits_last. Qed.
Print Assumptions C116_limits.
(** A callback for secrets does see the filters: asked before them, it is asked for more. *)
Definition usingSecret : Spec :=
  sp_set_steps (map (set_secrets [{| sv_name := "token"; sv_env := "TOKEN" |}]) (sp_steps (specFrom sampleWorld defaultCompiler buildPipeline)))
    (specFrom sampleWorld defaultCompiler buildPipeline).
Definition asking (name : string) (log : list string) : list string * option ESecret := (log ++ [name], None).
Definition withoutClone : Spec := sp_set_steps (tl (sp_steps usingSecret)) usingSecret.
Theorem C116_secrets_any_order_refuted : exists rnd State (f : string -> State -> State * option ESecret) ord st filter spec n log log' s s' k k',
  (forall l, Permutation l (ord l)) /\
  WithSecretFunc rnd State f ord st spec n = Ok ((log, s), k) /\ WithSecretFunc rnd State f ord st (filtered filter spec) n = Ok ((log', s'), k') /\
  log <> log'.
Proof.
  exists unary, (list string), asking, (fun l => l), [], (Including ["none"]), withoutClone, 0%nat. eexists _, _, _, _, _, _.
  split; [intros; apply Permutation_refl|]. split; [vm_compute; reflexivity|]. split; [vm_compute; reflexivity|]. discriminate.
Qed.
Print Assumptions C116_secrets_any_order_refuted.
(** Other transforms cannot be exchanged: the last limits win. *)
Definition sampleSpec : Spec := specFrom sampleWorld defaultCompiler buildPipeline.
Definition sampleTransforms : list Transform :=
  [Filters (Including ["build"; "publish"]); Adds (Environ [("A", "1")]); Filters (Resuming "build"); Adds (Volumes [("/a", "/b")]);
   Filters (Excluding ["publish"]); Filters (Resuming "build")].
Definition otherTransforms : list Transform :=
  [Adds (Environ [("A", "1")]); Adds (Volumes [("/a", "/b")]); Filters (Excluding ["publish"]); Filters (Resuming "build"); Filters (Including ["build"; "publish"])].
Definition outcomes (l : list Transform) : list (string * RunPolicy) :=
  match Combine (map (transformed unary) l) sampleSpec 0%nat with Ok (s, _) => map (fun t => (stepName t, st_policy t)) (sp_steps s) | _ => [] end.
Example C116_case : additionsOf sampleTransforms = additionsOf otherTransforms /\
  incl (filtersOf sampleTransforms) (filtersOf otherTransforms) /\ incl (filtersOf otherTransforms) (filtersOf sampleTransforms) /\
  outcomes sampleTransforms = [("clone", RunOnSuccess); ("db", RunNever); ("build", RunOnSuccess); ("publish", RunNever); ("use", RunNever)] /\
  map (fun s => st_resources s) (sp_steps (WithLimits 1 0 (WithLimits 2 0 sampleSpec))) <>
  map (fun s => st_resources s) (sp_steps (WithLimits 2 0 (WithLimits 1 0 sampleSpec))).
Proof.
  split; [reflexivity|]. split; [intros x X; cbn in X |- *; tauto|]. split; [intros x X; cbn in X |- *; tauto|].
  split; [vm_compute; reflexivity|]. vm_compute. discriminate.
Qed.
