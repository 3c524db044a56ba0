(** * Cond.v: conditions (yaml/cond.go), yaml/compiler/skip.go and the run policy of
    yaml/compiler/convert.go. *)
From Verif Require Import Model.Go Model.Types.

(** drone-runtime engine: RunPolicy. *)
Inductive RunPolicy : Type := RunOnSuccess | RunOnFailure | RunAlways | RunNever.

(** yaml/compiler/skip.go 21-30. *)
Record SkipData : Type := {
  sk_branch : string; sk_cron : string; sk_event : string; sk_instance : string;
  sk_ref : string; sk_repo : string; sk_target : string; sk_action : string }.

Section Cond.
  (** doublestar.Match(pattern, value); [None] is an error, with which the boolean is false. *)
  Variable glob : string -> string -> option bool.

  (** The condition [ok] of yaml/cond.go 59 and 70. *)
  Definition globs (pattern v : string) : bool :=
    match glob pattern v with Some b => b | None => false end.

  (** yaml/cond.go 57-64. *)
  Fixpoint Includes_loop (patterns : list string) (v : string) : bool :=
    match patterns with
    | [] => false
    | p :: ps => if globs p v then true else Includes_loop ps v
    end.
  Definition Includes (c : Condition) (v : string) : bool := Includes_loop (c_include c) v.

  (** yaml/cond.go 68-75. *)
  Fixpoint Excludes_loop (patterns : list string) (v : string) : bool :=
    match patterns with
    | [] => false
    | p :: ps => if globs p v then true else Excludes_loop ps v
    end.
  Definition Excludes (c : Condition) (v : string) : bool := Excludes_loop (c_exclude c) v.

  (** yaml/cond.go 42-53. *)
  Definition Match (c : Condition) (v : string) : bool :=
    if Excludes c v then false
    else if Includes c v then true
    else if Nat.eqb (length (c_include c)) 0 then true
    else false.

  (** yaml/compiler/skip.go 34-57. *)
  Definition SkipFunc (data : SkipData) (container : Container) : bool :=
    let w := ct_when container in
    if negb (Match (w_branch w) (sk_branch data)) then true
    else if negb (Match (w_cron w) (sk_cron data)) then true
    else if negb (Match (w_event w) (sk_event data)) then true
    else if negb (Match (w_instance w) (sk_instance data)) then true
    else if negb (Match (w_ref w) (sk_ref data)) then true
    else if negb (Match (w_repo w) (sk_repo data)) then true
    else if negb (Match (w_target w) (sk_target data)) then true
    else if negb (Match (w_action w) (sk_action data)) then true
    else false.

  (** yaml/compiler/convert.go 57-70. *)
  Definition toRunPolicy (from : Container) : RunPolicy :=
    let status := w_status (ct_when from) in
    let onFailure := Match status "failure" && Nat.ltb 0 (length (c_include status)) in
    let onSuccess := Match status "success" in
    if onFailure && onSuccess then RunAlways
    else if onFailure then RunOnFailure
    else if onSuccess then RunOnSuccess
    else RunNever.
End Cond.
