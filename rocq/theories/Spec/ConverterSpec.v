(** * ConverterSpec.v: what converting GitLab and Bitbucket files must give, and which files are
    converted at all. *)
From Coq Require Import Sorting.Permutation.
From Verif Require Import Model.Go Model.Types Model.Image Model.Gitlab Model.Bitbucket Model.Convert.

(** The parts of a step, and of a pipeline, that these converters never set. *)
Definition Bare (c : Container) : Prop :=
  ct_build c = None /\ ct_detach c = false /\ ct_depends c = [] /\ ct_devices c = [] /\ ct_dns c = [] /\
  ct_dns_search c = [] /\ ct_environment c = [] /\ ct_extra_hosts c = [] /\ ct_network c = "" /\ ct_ports c = [] /\
  ct_privileged c = false /\ ct_pull c = "" /\ ct_push c = None /\ ct_resources c = None /\ ct_settings c = [] /\
  ct_shell c = "" /\ ct_user c = "" /\ ct_volumes c = [] /\ ct_when c = noConds /\ ct_working_dir c = "".
Definition BarePipeline (p : Pipeline) : Prop :=
  pi_kind p = "pipeline" /\ pi_version p = "" /\ pi_type p = "" /\ pi_concurrency p = 0%Z /\ pi_node p = [] /\
  pi_platform p = noPlatform /\ pi_pull_secrets p = [] /\ pi_trigger p = noConds /\ pi_volumes p = [] /\
  pi_workspace p = noWorkspace /\ cl_disable (pi_clone p) = false /\ cl_skip_verify (pi_clone p) = false.

(** ** GitLab *)
Definition present (js : smap GJob) : smap (option GJob) := map (fun kv => (fst kv, Some (snd kv))) js.
Definition RightStep (g : GConfig) (name : string) (j : GJob) (c : Container) : Prop :=
  ct_name c = name /\
  (gi_name (gj_image j) <> "" -> ct_image c = gi_name (gj_image j)) /\
  (gi_name (gj_image j) = "" -> ct_image c = gi_name (gc_image g)) /\
  ct_command c = gi_command (gj_image j) /\ ct_entrypoint c = gi_entrypoint (gj_image j) /\
  ct_commands c = gc_before g ++ gj_before j ++ gj_script j ++ gj_after j ++ gc_after g /\
  (gj_allow_failure j = true -> ct_failure c = "ignore") /\ (gj_allow_failure j = false -> ct_failure c = "") /\
  Bare c.
Definition RightService (available : string -> bool) (i : GImage) (c : Container) : Prop :=
  (gi_alias i <> "" -> ct_name c = gi_alias i) /\
  (gi_alias i = "" -> ct_name c = join "__" (split_on "/" (Trim available (gi_name i)))) /\
  ct_image c = gi_name i /\ ct_command c = gi_command i /\ ct_entrypoint c = gi_entrypoint i /\
  ct_commands c = [] /\ ct_failure c = "" /\ Bare c.
Definition inStage (stage : string) (js : smap GJob) : smap GJob :=
  filter (fun kv => String.eqb (gj_stage (snd kv)) stage) js.
(** The stage before the one at an index. *)
Definition previous (stages : list string) (i : nat) : option string :=
  match i with 0 => None | S k => nth_error stages k end.
Definition RightDependsOn (prev : option string) (p : Pipeline) : Prop :=
  (forall s, prev = Some s -> s <> "" -> pi_depends p = [s]) /\
  (prev = None \/ prev = Some "" -> pi_depends p = []).
Definition StagePipeline (available : string -> bool) (g : GConfig) (images : list GImage) (js : smap GJob)
  (prev : option string) (stage : string) (p : Pipeline) : Prop :=
  pi_name p = stage /\ RightDependsOn prev p /\ BarePipeline p /\ cl_depth (pi_clone p) = 0%Z /\
  exists sel steps services,
    Permutation sel (inStage stage js) /\ pi_steps p = map Some steps /\
    Forall2 (fun kv c => RightStep g (fst kv) (snd kv) c) sel steps /\
    pi_services p = map Some services /\ Forall2 (RightService available) images services.
(** Without stages: a pipeline for each job, in some order. *)
Definition JobPipeline (available : string -> bool) (g : GConfig) (images : list GImage)
  (prev : option string) (kv : string * GJob) (p : Pipeline) : Prop :=
  pi_name p = fst kv /\ RightDependsOn prev p /\ BarePipeline p /\ cl_depth (pi_clone p) = 0%Z /\
  exists c services, pi_steps p = [Some c] /\ RightStep g (fst kv) (snd kv) c /\
    pi_services p = map Some services /\ Forall2 (RightService available) images services.

(** ** Bitbucket *)
Definition Stripped (prefix ref name : string) : Prop :=
  ref = (prefix +++ name)%string \/ ((forall r, ref <> (prefix +++ r)%string) /\ name = ref).
Definition Matches (pathMatch : string -> string -> option bool) (name : string) (m : smap BStage) (s : BStage) : Prop :=
  exists pattern, In (pattern, s) m /\ pathMatch pattern name = Some true.
Definition Selected (pathMatch : string -> string -> option bool) (c : BConfig) (ref : string) (s : BStage) : Prop :=
  exists tag branch, Stripped "refs/tags/" ref tag /\ Stripped "refs/heads/" ref branch /\
  (Matches pathMatch tag (bc_tags c) s \/
   ((forall t, ~ Matches pathMatch tag (bc_tags c) t) /\
    (Matches pathMatch branch (bc_branches c) s \/
     ((forall t, ~ Matches pathMatch branch (bc_branches c) t) /\ s = bc_default c)))).
(** At most one pattern of a map matches. *)
Definition Unambiguous (pathMatch : string -> string -> option bool) (name : string) (m : smap BStage) : Prop :=
  forall p q s t, In (p, s) m -> In (q, t) m -> pathMatch p name = Some true -> pathMatch q name = Some true -> s = t.
Definition RightBStep (image : string) (i : nat) (s : BStep) (c : Container) : Prop :=
  (bs_name s <> "" -> ct_name c = bs_name s) /\ (bs_name s = "" -> ct_name c = ("step_" +++ itoa_nat i)%string) /\
  (bs_image s <> "" -> ct_image c = bs_image s) /\ (bs_image s = "" -> ct_image c = image) /\
  ct_commands c = bs_script s /\ ct_command c = [] /\ ct_entrypoint c = [] /\ ct_failure c = "" /\ Bare c.
Definition RightBService (kv : string * BStep) (c : Container) : Prop :=
  ct_name c = fst kv /\ ct_image c = bs_image (snd kv) /\ ct_commands c = bs_script (snd kv) /\
  ct_command c = [] /\ ct_entrypoint c = [] /\ ct_failure c = "" /\ Bare c.

(** ** Legacy files: the regular expression, and the same said of lines. *)
Definition SpaceChar (c : ascii) : Prop := In (N_of_ascii c) [9; 10; 12; 13; 32]%N.
Definition AllSpace (s : string) : Prop := forall c, In c (list_ascii_of_string s) -> SpaceChar c.
Definition LineStart (pre : string) : Prop := pre = "" \/ exists p, pre = (p +++ String NL "")%string.
Definition LineEnd (post : string) : Prop := post = "" \/ exists p, post = String NL p.
Definition HasMatch (s : string) : Prop :=
  exists pre ws post, s = (pre +++ "pipeline:" +++ ws +++ post)%string /\ LineStart pre /\ AllSpace ws /\ LineEnd post.
Definition HasPipelineLine (s : string) : Prop :=
  exists ws, In ("pipeline:" +++ ws)%string (split_on NL s) /\ AllSpace ws.
