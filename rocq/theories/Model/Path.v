(** * Path.v: package path as far as yaml/compiler/workspace.go uses it, and the workspace
    paths themselves. *)
From Verif Require Import Model.Go Model.Types.

(** path.Clean, on the list of components: [acc] holds the components kept so far, last first. *)
Fixpoint cleanComps (rooted : bool) (acc comps : list string) : list string :=
  match comps with
  | [] => rev acc
  | c :: comps' =>
      if isEmpty c || String.eqb c "." then cleanComps rooted acc comps'
      else if String.eqb c ".." then
        match acc with
        | [] => cleanComps rooted (if rooted then [] else [".."]) comps'
        | a :: acc' => cleanComps rooted (if String.eqb a ".." then ".." :: acc else acc') comps'
        end
      else cleanComps rooted (c :: acc) comps'
  end.
Definition clean (p : string) : string :=
  let rooted := hasPrefix p "/" in
  let body := join "/" (cleanComps rooted [] (split_on "/" p)) in
  if rooted then ("/" +++ body)%string else if isEmpty body then "." else body.
(** path.Join of two elements. *)
Definition pathJoin (a b : string) : string :=
  if negb (isEmpty a) then clean (a +++ "/" +++ b)%string
  else if negb (isEmpty b) then clean b else "".

(** yaml/compiler/workspace.go 27. *)
Definition workspacePath : string := "/drone/src".
(** yaml/compiler/workspace.go 67-69. *)
Definition toWindowsPath (s : string) : string := replaceAll s "/" "\".
(** yaml/compiler/workspace.go 61-63. *)
Definition toWindowsDrive (s : string) : string := ("c:" +++ toWindowsPath s)%string.
(** yaml/compiler/workspace.go 75-89. *)
Definition createWorkspace (from : Pipeline) : string * string * string :=
  let base := ws_base (pi_workspace from) in
  let path := ws_path (pi_workspace from) in
  let base := if isEmpty base then workspacePath else base in
  let full := pathJoin base path in
  if String.eqb (pl_os (pi_platform from)) "windows"
  then (toWindowsDrive base, toWindowsPath path, toWindowsDrive full)
  else (base, path, full).
