(** * FilterSpec.v: filters among other transforms. *)
From Verif Require Import Model.Go Model.Types Model.Cond Model.Engine Model.Compiler Model.Transform Spec.CompileSpec Spec.TransformSpec.

Inductive Filter : Type := Including (names : list string) | Excluding (names : list string) | Resuming (name : string).
Definition filtered (f : Filter) : Spec -> Spec :=
  match f with Including names => Include names | Excluding names => Exclude names | Resuming name => ResumeAt name end.
(** Transforms that add something. *)
Inductive Addition : Type :=
| Auths (auths : list Auth) | AuthsFunc (auths : list Auth) | Environ (envs : smap string)
| Labels (ord : nat -> smap string -> smap string) (labels : smap string) | Limits (memory cpu : Z)
| Netrc (machine username password : string) | Networks (networks : list string)
| Proxy (env : string -> string) (ord : smap string -> smap string)
| Secrets (secrets : smap string) | Volumes (volumes : smap string) | VolumeSlice (ord : smap string -> smap string) (volumes : list string).
Definition added (rnd : nat -> string) (a : Addition) (spec : Spec) : M Spec :=
  match a with
  | Auths auths => mlift (WithAuths auths spec) | AuthsFunc auths => mlift (WithAuthsFunc auths spec)
  | Environ envs => mlift (WithEnviron envs spec) | Labels ord labels => mlift (WithLables ord labels spec)
  | Limits memory cpu => mret (WithLimits memory cpu spec) | Netrc m u p => mlift (WithNetrc m u p spec)
  | Networks networks => mret (WithNetworks networks spec) | Proxy env ord => mlift (WithProxy env ord spec)
  | Secrets secrets => WithSecrets rnd secrets spec | Volumes volumes => WithVolumes rnd volumes spec
  | VolumeSlice ord volumes => WithVolumeSlice rnd ord volumes spec
  end.
Inductive Transform : Type := Filters (f : Filter) | Adds (a : Addition).
Definition transformed (rnd : nat -> string) (t : Transform) (spec : Spec) : M Spec :=
  match t with Filters f => mret (filtered f spec) | Adds a => added rnd a spec end.
Fixpoint filtersOf (l : list Transform) : list Filter :=
  match l with [] => [] | Filters f :: l' => f :: filtersOf l' | Adds _ :: l' => filtersOf l' end.
Fixpoint additionsOf (l : list Transform) : list Addition :=
  match l with [] => [] | Filters _ :: l' => additionsOf l' | Adds a :: l' => a :: additionsOf l' end.
(** What a filter says about a step, given the names of the steps before it. *)
Definition Stops (f : Filter) (before : list string) (name : string) : Prop :=
  name <> "clone" /\
  match f with
  | Including names => names <> [] /\ ~ In name names
  | Excluding names => In name names
  | Resuming first => first <> "" /\ name <> first /\ ~ In first before
  end.
