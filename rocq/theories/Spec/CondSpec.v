(** * CondSpec.v: what a condition accepts. *)
From Verif Require Import Model.Go Model.Types Model.Cond.

(** [Hits glob ps v]: some pattern of the list matches the value; a malformed pattern
    matches nothing. *)
Definition Hits (glob : string -> string -> option bool) (ps : list string) (v : string) : Prop :=
  exists p, In p ps /\ glob p v = Some true.

Definition Accepts (glob : string -> string -> option bool) (c : Condition) (v : string) : Prop :=
  ~ Hits glob (c_exclude c) v /\ (c_include c = [] \/ Hits glob (c_include c) v).

(** When a step with a given policy runs. *)
Definition runsOnSuccess (p : RunPolicy) : bool := match p with RunOnSuccess | RunAlways => true | _ => false end.
Definition runsOnFailure (p : RunPolicy) : bool := match p with RunOnFailure | RunAlways => true | _ => false end.
