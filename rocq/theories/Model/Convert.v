(** * Convert.v: choosing a converter (yaml/converter/convert.go, convert_oss.go,
    legacy/match.go). *)
From Verif Require Import Model.Go.

(** The class \s of package regexp: tab, newline, form feed, carriage return, space. *)
Definition isSpaceRE (c : ascii) : bool :=
  let n := N_of_ascii c in (N.eqb n 9 || N.eqb n 10 || N.eqb n 12 || N.eqb n 13 || N.eqb n 32)%bool.
(** legacy/match.go 11: (?m)^pipeline:(\s+)?$ on a text that starts a line; what follows the
    literal is white space up to an end of line. *)
Fixpoint spaceToEnd (s : string) : bool :=
  match s with
  | "" => true
  | String c s' => Ascii.eqb c NL || (isSpaceRE c && spaceToEnd s')
  end.
Definition matchAt (s : string) : bool :=
  hasPrefix s "pipeline:" && spaceToEnd (trimPrefix s "pipeline:").
(** legacy/match.go 15-18: tried at the start and after every newline. *)
Fixpoint matchAfterNL (s : string) : bool :=
  match s with
  | "" => false
  | String c s' => (Ascii.eqb c NL && matchAt s') || matchAfterNL s'
  end.
Definition legacyMatch (s : string) : bool := matchAt s || matchAfterNL s.

(** yaml/converter/metadata.go. *)
Record Metadata : Type := { me_filename : string; me_url : string; me_ref : string }.
Section Convert.
  Variable bitbucket : string -> string -> outcome string.
  Variable gitlab : string -> outcome string.
  Variable legacy : string -> string -> outcome string.
  (** yaml/converter/convert.go 17-37. The cases for CircleCI and Travis are empty. *)
  Definition ConvertFile (d : string) (m : Metadata) : outcome string :=
    if String.eqb (me_filename m) "bitbucket-pipelines.yml" then bitbucket d (me_ref m)
    else if String.eqb (me_filename m) ".gitlab-ci.yml" then gitlab d
    else if legacyMatch d then legacy d (me_url m)
    else Ok d.
End Convert.
(** yaml/converter/convert_oss.go. *)
Definition ConvertOSS (d : string) (m : Metadata) : outcome string := Ok d.
