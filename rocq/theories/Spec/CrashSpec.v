(** * CrashSpec.v: what the linter does with null entries, and when the commands crash. *)
From Verif Require Import Model.Go Model.Types Spec.LintSpec.
Local Open Scope list_scope.

(** The null entries of a step which the linter looks at: its mounts, and its ports unless the
    repository is trusted. *)
Definition Seen (trusted : bool) (c : Container) : Prop :=
  ~ In None (ct_volumes c) /\ (trusted = false -> ~ In None (ct_ports c)).

(** What the linter accepts, whether or not there are null entries. *)
Definition Passes (trusted : bool) (p : Pipeline) (steps services : list Container) (vols : list Volume) : Prop :=
  WellFormed trusted p steps services vols /\ Forall (Seen trusted) (steps ++ services).

(** [l] reads [before], then a null. *)
Definition NullAfter {A} (before : list A) (l : list (option A)) : Prop := exists after, l = map Some before ++ None :: after.

(** A step or service that has a null entry, and nothing before it to complain about. *)
Inductive Stuck (trusted : bool) (c : Container) : Prop :=
| stuck_port before : trusted = false -> NullAfter before (ct_ports c) -> Forall (fun p => po_host p = 0%Z) before ->
    Stuck trusted c
| stuck_mount before : NullAfter before (ct_volumes c) -> Forall (fun m => ~ Reserved (vm_name m)) before ->
    (trusted = false -> ~ In None (ct_ports c) /\ Unprivileged c) -> ct_name c <> "" ->
    match ct_build c with None => ct_image c <> "" | Some b => b_image b <> "" end ->
    Stuck trusted c.
(** [l] reads [before], then a null or a step that is stuck and whose name is not among [names]. *)
Definition StuckAfter (trusted : bool) (names : list string) (before : list Container) (l : list (option Container)) : Prop :=
  NullAfter before l \/
  exists c after, l = map Some before ++ Some c :: after /\ Stuck trusted c /\ ~ In (ct_name c) (names ++ map ct_name before).

(** A pipeline that crashes the linter: the volumes are looked at first, then the platform, the steps and the services. *)
Inductive Crashes (trusted : bool) (p : Pipeline) : Prop :=
| crash_volume vols : NullAfter vols (pi_volumes p) -> Forall (GoodVolume trusted) vols -> Crashes trusted p
| crash_step vols steps : pi_volumes p = map Some vols -> StuckAfter trusted (cloneNames p) steps (pi_steps p) ->
    Passes trusted p steps [] vols -> Crashes trusted p
| crash_service vols steps services : pi_volumes p = map Some vols -> pi_steps p = map Some steps ->
    StuckAfter trusted (cloneNames p ++ map ct_name steps) services (pi_services p) ->
    Passes trusted p steps services vols -> Crashes trusted p.

(** What the linter accepts, for every kind of resource. *)
Definition Accepted (trusted : bool) (r : Resource) : Prop :=
  match r with
  | RPipeline p => exists steps services vols,
      pi_steps p = map Some steps /\ pi_services p = map Some services /\ pi_volumes p = map Some vols /\
      Passes trusted p steps services vols
  | RCron c => cr_branch c <> ""
  | RSecret s => se_data s <> "" \/ se_get_path s <> "" \/ se_get_name s <> ""
  | RSignature s => si_hmac s <> ""
  | RRegistry g => rg_data g <> []
  end.
(** A file that crashes the linter: it reads resources that are accepted, and then a pipeline that crashes. *)
Definition FileCrashes (trusted : bool) (rs : list Resource) : Prop :=
  exists before p after, rs = before ++ RPipeline p :: after /\ Forall (Accepted trusted) before /\ Crashes trusted p.

(** A pipeline without null entries of any kind. *)
Definition NothingNull (p : Pipeline) : Prop :=
  ~ In None (pi_steps p) /\ ~ In None (pi_services p) /\ ~ In None (pi_volumes p) /\
  forall c, In (Some c) (pi_steps p ++ pi_services p) ->
    ~ In None (ct_devices c) /\ ~ In None (map snd (ct_environment c)) /\ ~ In None (ct_ports c) /\
    ~ In None (map snd (ct_settings c)) /\ ~ In None (ct_volumes c).
