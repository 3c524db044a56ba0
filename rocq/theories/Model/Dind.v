(** * Dind.v: which plugins run privileged by image name (yaml/compiler/dind.go). *)
From Verif Require Import Model.Go Model.Types Model.Image.

(** yaml/compiler/dind.go 26-51. The container is never nil where the function is called. *)
Definition DindFunc (available : string -> bool) (images : list string) (container : Container) : bool :=
  if negb (Nat.eqb (length (ct_commands container)) 0) then false
  else if negb (Nat.eqb (length (ct_command container)) 0) then false
  else if negb (Nat.eqb (length (ct_entrypoint container)) 0) then false
  else existsb (fun img => ImageMatch available img [ct_image container]) images.
