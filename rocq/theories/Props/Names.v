(** * Names.v: theorems C41 and C42. *)
From Verif Require Import Model.Go Model.Types Model.Rand Model.Path Spec.NameSpec Proofs.RandFacts Proofs.PathFacts
  Conform.Pipelines.

(** ** C41 *)
Theorem C41_name : forall read k blocks fuel, Blocks read k blocks ->
  (32 <= length (usableBytes blocks) -> k <= fuel ->
     randString read fuel = Some (Ok (string_of_list_ascii (map letter (firstn 32 (usableBytes blocks)))))) /\
  (length (usableBytes blocks) < 32 -> read k = None -> k < fuel -> randString read fuel = Some Panic) /\
  (length (usableBytes blocks) < 32 -> fuel <= k -> randString read fuel = None).
Proof. exact name_from_bytes. Qed.
Print Assumptions C41_name.
Theorem C41_shape : forall read fuel s, randString read fuel = Some (Ok s) ->
  String.length s = 32 /\ Forall (fun c => In c alphabet) (list_ascii_of_string s).
Proof. exact name_shape. Qed.
Print Assumptions C41_shape.
Theorem C41_one_read : forall read bytes, read 0 = Some bytes -> length bytes = blockLength ->
  (length (filter (fun b => negb (usable b)) bytes) <= 8 <-> exists s, randString read 1 = Some (Ok s)).
Proof. exact name_one_read. Qed.
Print Assumptions C41_one_read.
Theorem C41_unbiased :
  Forall (fun c => length (filter (fun b => usable b && Ascii.eqb (letter b) c) allBytes) = 7) alphabet /\
  NoDup alphabet /\ length alphabet = 36 /\ NoDup allBytes /\ forall b, In b allBytes.
Proof. exact letters_uniform. Qed.
Print Assumptions C41_unbiased.
(** Half of each block of forty is thrown away, so the second block is needed; the third read fails. *)
Definition halfUsable (i : nat) : option (list ascii) :=
  if Nat.ltb i 2 then Some (flat_map (fun k => [ascii_of_nat (37 * i + k); "255"%char]) (seq 0 20)) else None.
Example C41_case : randString halfUsable 2 = Some (Ok "abcdefghijklmnopqrstbcdefghijklm") /\ randString halfUsable 1 = None.
Proof. vm_compute. auto. Qed.
Example C41_case_fails : randString (fun i => if Nat.ltb i 1 then halfUsable i else None) 5 = Some Panic.
Proof. vm_compute. reflexivity. Qed.

Example C41_case_blocks : length (match halfUsable 0 with Some l => l | None => [] end) = blockLength.
Proof. reflexivity. Qed.

(** ** C42 *)
Theorem C42_workspace : forall p base0 lb lp,
  base0 = (if String.eqb (ws_base (pi_workspace p)) "" then "/drone/src" else ws_base (pi_workspace p)) ->
  Components base0 lb -> Components (ws_path (pi_workspace p)) lp ->
  let full0 := written (rooted base0) (walk (rooted base0) (lb ++ lp)) in
  createWorkspace p = if String.eqb (pl_os (pi_platform p)) "windows"
    then ("c:" +++ backslashes base0, backslashes (ws_path (pi_workspace p)), "c:" +++ backslashes full0)%string
    else (base0, ws_path (pi_workspace p), full0).
Proof. exact workspace_spec. Qed.
Print Assumptions C42_workspace.
(** Every path has components, and exactly one list of them. *)
Theorem C42_components : forall p, Components p (split_on "/" p) /\ forall l, Components p l -> l = split_on "/" p.
Proof. intro p. split; [apply components_split|apply components_unique]. Qed.
Print Assumptions C42_components.
(** The full path, read again, leads to where base and path lead, so it is the only clean way to write it. *)
Theorem C42_written : forall root u names, (root = true -> u = 0) -> Forall plainName names ->
  rooted (written root (u, names)) = root /\ exists l, Components (written root (u, names)) l /\ walk root l = (u, names).
Proof. exact written_walk. Qed.
Print Assumptions C42_written.
Theorem C42_walk_is_plain : forall root l, Forall (fun c => ~ In "/"%char (list_ascii_of_string c)) l -> Forall plainName (snd (walk root l)).
Proof. exact walk_plain. Qed.
Print Assumptions C42_walk_is_plain.
Theorem C42_below : forall base lb lp, rooted base = true -> Components base lb -> ~ In ".." lp ->
  Below (written true (walk true lb)) (written true (walk true (lb ++ lp))).
Proof. exact workspace_below. Qed.
Print Assumptions C42_below.
Theorem C42_windows : forall s, ~ In "/"%char (list_ascii_of_string (backslashes s)).
Proof. exact backslashes_none. Qed.
Print Assumptions C42_windows.
Definition workspaceOf (os base path : string) : string * string * string :=
  createWorkspace
    {| pi_version := ""; pi_kind := "pipeline"; pi_type := ""; pi_name := ""; pi_clone := pi_clone samplePipeline;
       pi_concurrency := pi_concurrency samplePipeline; pi_depends := []; pi_node := [];
       pi_platform := {| pl_os := os; pl_arch := ""; pl_variant := ""; pl_version := "" |}; pi_pull_secrets := [];
       pi_services := []; pi_steps := []; pi_trigger := pi_trigger samplePipeline; pi_volumes := [];
       pi_workspace := {| ws_base := base; ws_path := path |} |}.
Example C42_case :
  workspaceOf "linux" "" "" = ("/drone/src", "", "/drone/src") /\
  workspaceOf "linux" "/go/" "./src//github.com/" = ("/go/", "./src//github.com/", "/go/src/github.com") /\
  workspaceOf "linux" "/go" "a/../b" = ("/go", "a/../b", "/go/b") /\
  workspaceOf "linux" "go" "../../x" = ("go", "../../x", "../x") /\
  workspaceOf "windows" "/go" "src/app" = ("c:\go", "src\app", "c:\go\src\app").
Proof. vm_compute. repeat split. Qed.
(** A path with .. components leaves the base. *)
Theorem C42_below_refuted : exists base path full, workspaceOf "linux" base path = (base, path, full) /\ rooted base = true /\ ~ Below base full.
Proof.
  exists "/drone/src", "../../etc", "/etc". split; [reflexivity|]. split; [reflexivity|]. intros [H|(rest & H)]; [discriminate|].
  cbn in H. discriminate.
Qed.
Print Assumptions C42_below_refuted.
