(** * SubSpec.v: pipelines with some of the steps, services and volumes of another. *)
From Verif Require Import Model.Go Model.Types Spec.LintSpec.

(** [Sub l m]: [l] is [m] with some elements left out. *)
Inductive Sub {A} : list A -> list A -> Prop :=
| Sub_nil : Sub [] []
| Sub_keep x l m : Sub l m -> Sub (x :: l) (x :: m)
| Sub_drop x l m : Sub l m -> Sub l (x :: m).
Definition Part (p q : Pipeline) : Prop :=
  pi_platform q = pi_platform p /\ pi_clone q = pi_clone p /\
  Sub (pi_steps q) (pi_steps p) /\ Sub (pi_services q) (pi_services p) /\ Sub (pi_volumes q) (pi_volumes p).
(** Every dependency of a step that is left is still there. *)
Definition Closed (p : Pipeline) (steps : list Container) : Prop :=
  forall s d, In s steps -> In d (ct_depends s) -> In d (cloneNames p) \/ In d (map ct_name steps).
Definition ClosedManifest (ps : list Pipeline) : Prop :=
  forall p d, In p ps -> In d (pi_depends p) -> In d (map pi_name ps).
