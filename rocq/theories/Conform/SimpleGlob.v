(** * SimpleGlob.v: a small glob function used in the concrete cases of theorems about
    conditions: "*" matches every value, a pattern starting with "[" is malformed, any other
    pattern matches itself only. *)
From Verif Require Import Model.Go.

Definition simpleGlob (pattern v : string) : option bool :=
  if String.eqb pattern "*" then Some true
  else if hasPrefix pattern "[" then None
  else Some (String.eqb pattern v).
