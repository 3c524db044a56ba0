(** * Main.v: the command line program (main.go).

    Kingpin turns the command line into a command and values for the flags and arguments of that
    command; variables of other commands keep their zero values. A File argument is opened for
    reading before the command runs. Reading an open file gives its whole content. *)
From Verif Require Import Model.Go Model.Types Model.RawParse Model.Lint Model.Signer Model.Cond Model.Engine
  Model.Image Model.Dind Model.Compiler Model.Transform Model.Convert Model.Pretty.

(** net/url.URL as far as it is used: User (name and, if given, password), Host, String(). *)
Record URL : Type := { u_user : option (string * option string); u_host : string; u_string : string }.

(** main.go 183-207: the flags of compile, without clone, which is below with the others. Maps
    are in the order of their iteration. Fields for flags without a use are kept. *)
Record CompileFlags : Type := {
  cf_trusted : bool; cf_label : smap string; cf_volume : smap string;
  cf_network : list string; cf_env : smap string; cf_dind : list string; cf_event : string; cf_repo : string;
  cf_remote : string; cf_branch : string; cf_ref : string; cf_sha : string; cf_creds : list URL; cf_cron : string;
  cf_instance : string; cf_deploy : string; cf_secret : smap string; cf_registry : list URL; cf_username : string;
  cf_password : string; cf_machine : string; cf_memlimit : Z }.
Definition noCompileFlags : CompileFlags :=
  {| cf_trusted := false; cf_label := []; cf_volume := []; cf_network := []; cf_env := [];
     cf_dind := []; cf_event := ""; cf_repo := ""; cf_remote := ""; cf_branch := ""; cf_ref := ""; cf_sha := "";
     cf_creds := []; cf_cron := ""; cf_instance := ""; cf_deploy := ""; cf_secret := []; cf_registry := [];
     cf_username := ""; cf_password := ""; cf_machine := ""; cf_memlimit := 0 |}.

(** What was given on the command line. *)
Inductive Args : Type :=
| AFormat (privileged save : bool) (source : string)
| AConvert (save : bool) (addr source : string)
| ALint (privileged : bool) (source : string)
| ASign (save : bool) (key source : string)
| AVerify (key source : string)
| ACompile (name : string) (clone : bool) (flags : CompileFlags) (source : string).

(** main.go 40-67: the variables of the package; an open file is its name. *)
Record Flags : Type := {
  formatPriv : bool; formatSave : bool; formatFile : string;
  convertSave : bool; convertFile : string; convertAddr : string;
  lintPriv : bool; lintFile : string;
  signKey : string; signFile : string; signSave : bool;
  verifyKey : string; verifyFile : string;
  compileFile : string; compileName : string; cloneFlag : bool; compileFlags : CompileFlags }.
Definition zeroFlags : Flags :=
  {| formatPriv := false; formatSave := false; formatFile := ""; convertSave := false; convertFile := "";
     convertAddr := ""; lintPriv := false; lintFile := ""; signKey := ""; signFile := ""; signSave := false;
     verifyKey := ""; verifyFile := ""; compileFile := ""; compileName := ""; cloneFlag := false;
     compileFlags := noCompileFlags |}.
Definition source (a : Args) : string :=
  match a with
  | AFormat _ _ f | AConvert _ _ f | ALint _ f | ASign _ _ f | AVerify _ f | ACompile _ _ _ f => f
  end.
(** kingpin.Parse. *)
Definition parseArgs (a : Args) : Flags :=
  match a with
  | AFormat p s f =>
      {| formatPriv := p; formatSave := s; formatFile := f; convertSave := false; convertFile := "";
         convertAddr := ""; lintPriv := false; lintFile := ""; signKey := ""; signFile := ""; signSave := false;
         verifyKey := ""; verifyFile := ""; compileFile := ""; compileName := ""; cloneFlag := false;
         compileFlags := noCompileFlags |}
  | AConvert s u f =>
      {| formatPriv := false; formatSave := false; formatFile := ""; convertSave := s; convertFile := f;
         convertAddr := u; lintPriv := false; lintFile := ""; signKey := ""; signFile := ""; signSave := false;
         verifyKey := ""; verifyFile := ""; compileFile := ""; compileName := ""; cloneFlag := false;
         compileFlags := noCompileFlags |}
  | ALint p f =>
      {| formatPriv := false; formatSave := false; formatFile := ""; convertSave := false; convertFile := "";
         convertAddr := ""; lintPriv := p; lintFile := f; signKey := ""; signFile := ""; signSave := false;
         verifyKey := ""; verifyFile := ""; compileFile := ""; compileName := ""; cloneFlag := false;
         compileFlags := noCompileFlags |}
  | ASign s k f =>
      {| formatPriv := false; formatSave := false; formatFile := ""; convertSave := false; convertFile := "";
         convertAddr := ""; lintPriv := false; lintFile := ""; signKey := k; signFile := f; signSave := s;
         verifyKey := ""; verifyFile := ""; compileFile := ""; compileName := ""; cloneFlag := false;
         compileFlags := noCompileFlags |}
  | AVerify k f =>
      {| formatPriv := false; formatSave := false; formatFile := ""; convertSave := false; convertFile := "";
         convertAddr := ""; lintPriv := false; lintFile := ""; signKey := ""; signFile := ""; signSave := false;
         verifyKey := k; verifyFile := f; compileFile := ""; compileName := ""; cloneFlag := false;
         compileFlags := noCompileFlags |}
  | ACompile n c fl f =>
      {| formatPriv := false; formatSave := false; formatFile := ""; convertSave := false; convertFile := "";
         convertAddr := ""; lintPriv := false; lintFile := ""; signKey := ""; signFile := ""; signSave := false;
         verifyKey := ""; verifyFile := ""; compileFile := f; compileName := n; cloneFlag := c;
         compileFlags := fl |}
  end.

(** Files by name. *)
Definition Files : Type := string -> option string.
Definition writeTo (fs : Files) (name data : string) : Files :=
  fun f => if String.eqb f name then Some data else fs f.
(** What a command leaves behind when it returns without an error. *)
Record Done : Type := { d_files : Files; d_stdout : string; d_stderr : string }.
(** What is left behind when the process ends. *)
Record Exit : Type := { x_files : Files; x_stdout : string; x_stderr : string; x_status : Z }.

(** main.go 328-339. *)
Definition defaultEnvs (f : CompileFlags) : smap string :=
  let envs := [] in
  let envs := mset "DRONE_COMMIT_BRANCH" (cf_branch f) envs in
  let envs := mset "DRONE_COMMIT_SHA" (cf_sha f) envs in
  let envs := mset "DRONE_COMMIT_REF" (cf_ref f) envs in
  let envs := mset "DRONE_REMOTE_URL" (cf_remote f) envs in
  let envs := mset "DRONE_BUILD_EVENT" (cf_event f) envs in
  if hasPrefix (cf_ref f) "refs/tags/"
  then mset "DRONE_TAG" (trimPrefix (cf_ref f) "refs/tags/") envs else envs.
(** main.go 312-323. *)
Definition defaultCreds (f : CompileFlags) : string :=
  concats (map (fun u => u_string u +++ nl)%string (cf_creds f)).
(** main.go 239-253; a log.Fatalln ends the process like an error. *)
Fixpoint registryAuths (l : list URL) : outcome (list Auth) :=
  match l with
  | [] => Ok []
  | u :: l' =>
      match u_user u with
      | None => Err "Expect registry format [user]:[password]@hostname"
      | Some (_, None) => Err "Invalid or missing registry password"
      | Some (name, Some password) =>
          r <- registryAuths l' ;;
          Ok ({| au_address := u_host u; au_username := name; au_password := password |} :: r)
      end
  end.
(** main.go 215-226. *)
Fixpoint findPipeline (name : string) (l : list Resource) : option Pipeline :=
  match l with
  | [] => None
  | RPipeline v :: l' => if isEmpty name || String.eqb name (pi_name v) then Some v else findPipeline name l'
  | _ :: l' => findPipeline name l'
  end.
(** main.go 235-237: p.Clone.Disable = true. *)
Definition disableClone (p : Pipeline) : Pipeline :=
  {| pi_version := pi_version p; pi_kind := pi_kind p; pi_type := pi_type p; pi_name := pi_name p;
     pi_clone := {| cl_disable := true; cl_depth := cl_depth (pi_clone p); cl_skip_verify := cl_skip_verify (pi_clone p) |};
     pi_concurrency := pi_concurrency p; pi_depends := pi_depends p; pi_node := pi_node p;
     pi_platform := pi_platform p; pi_pull_secrets := pi_pull_secrets p; pi_services := pi_services p;
     pi_steps := pi_steps p; pi_trigger := pi_trigger p; pi_volumes := pi_volumes p; pi_workspace := pi_workspace p |}.

Section Main.
  (** The yaml decoder, the MAC, the three converters, the surroundings of the compiler and the
      formatter, the JSON encoder of the result with its indentation, os.Getenv. *)
  Variable D : Decoder.
  Variable mac : string -> string -> string.
  Variable bitbucket : string -> string -> outcome string.
  Variable gitlab : string -> outcome string.
  Variable legacy : string -> string -> outcome string.
  Variable rnd : nat -> string.
  Variable glob : string -> string -> option bool.
  Variable available : string -> bool.
  Variable isPrintHigh : N -> bool.
  Variable formatFloat sprintFloat : float64 -> string.
  Variable bytesSize : Z -> string.
  Variable toJSON : value -> string.
  Variable ord : nat -> smap string -> smap string.
  Variable specJSON : Spec -> string.
  Variable env : string -> string.
  (** The order in which the variables of main.go 328-339 and of the proxies are visited. *)
  Variable envOrd proxyOrd : smap string -> smap string.
  Variable labelOrd : nat -> smap string -> smap string.
  (** Which files can be written; a failed write changes nothing. *)
  Variable writable : string -> bool.
  (** What the process prints when it ends with an error, and when it panics. *)
  Variable fatal : string -> string.
  Variable trace : string.

  Definition writeFile (fs : Files) (name data : string) : outcome Done :=
    if writable name then Ok {| d_files := writeTo fs name data; d_stdout := ""; d_stderr := "" |}
    else Err "open: permission denied".

  (** main.go 86-101. *)
  Definition runFormat (fl : Flags) (fs : Files) (content : string) : outcome Done :=
    m <- parse D content ;;
    b <- print isPrintHigh formatFloat sprintFloat bytesSize m ;;
    if formatSave fl then writeFile fs (formatFile fl) b
    else Ok {| d_files := fs; d_stdout := ""; d_stderr := b |}.

  (** main.go 103-122. *)
  Definition runConvert (fl : Flags) (fs : Files) (content : string) : outcome Done :=
    b <- ConvertFile bitbucket gitlab legacy content
           {| me_filename := convertFile fl; me_url := convertAddr fl; me_ref := "" |} ;;
    if formatSave fl then writeFile fs (convertFile fl) b
    else Ok {| d_files := fs; d_stdout := ""; d_stderr := b |}.

  (** main.go 124-137. *)
  Definition runLint (fl : Flags) (fs : Files) (content : string) : outcome Done :=
    m <- parse D content ;;
    oiter (fun r => Lint r (lintPriv fl)) (mf_resources m) ;;;
    Ok {| d_files := fs; d_stdout := ""; d_stderr := "" |}.

  (** main.go 139-162. *)
  Definition runSign (fl : Flags) (fs : Files) (content : string) : outcome Done :=
    if signSave fl
    then out <- SignUpdate D mac content (signKey fl) ;; writeFile fs (signFile fl) out
    else hmac <- Sign D mac content (signKey fl) ;;
         Ok {| d_files := fs; d_stdout := (hmac +++ nl)%string; d_stderr := "" |}.

  (** main.go 164-181. *)
  Definition runVerify (fl : Flags) (fs : Files) (content : string) : outcome Done :=
    ok <- Verify D mac content (verifyKey fl) ;;
    if negb ok then Err "cannot verify yaml signature"
    else Ok {| d_files := fs; d_stdout := ("success: yaml signature verified" +++ nl)%string; d_stderr := "" |}.

  (** main.go 255-281. *)
  Definition commandCompiler (f : CompileFlags) (auths : list Auth) : Compiler :=
    {| co_git := Some (defaultCreds f);
       co_privileged := Some (DindFunc available (cf_dind f));
       co_skip := Some (SkipFunc glob
         {| sk_branch := cf_branch f; sk_cron := cf_cron f; sk_event := cf_event f; sk_instance := cf_instance f;
            sk_ref := cf_ref f; sk_repo := cf_repo f; sk_target := cf_deploy f; sk_action := "" |});
       co_transform := Some (Combine
         [fun s => mlift (WithAuths auths s);
          fun s => mlift (WithEnviron (cf_env f) s);
          fun s => mlift (WithEnviron (envOrd (defaultEnvs f)) s);
          fun s => mlift (WithLables labelOrd (cf_label f) s);
          fun s => mret (WithLimits (cf_memlimit f) 0 s);
          fun s => mlift (WithNetrc (cf_machine f) (cf_username f) (cf_password f) s);
          fun s => mret (WithNetworks (cf_network f) s);
          fun s => mlift (WithProxy env proxyOrd s);
          fun s => WithSecrets rnd (cf_secret f) s;
          fun s => WithVolumes rnd (cf_volume f) s]);
       co_workspace := None; co_mount := None |}.

  (** main.go 209-308. *)
  Definition runCompile (fl : Flags) (fs : Files) (content : string) : outcome Done :=
    m <- parse D content ;;
    match findPipeline (compileName fl) (mf_resources m) with
    | None => Err "cannot find pipeline resource"
    | Some p =>
        let p := if cloneFlag fl then p else disableClone p in
        auths <- registryAuths (cf_registry (compileFlags fl)) ;;
        '(compiled, _) <- Compile rnd glob available isPrintHigh formatFloat toJSON ord
                            (commandCompiler (compileFlags fl) auths) p 0 ;;
        Ok {| d_files := fs; d_stdout := specJSON compiled; d_stderr := "" |}
    end.

  (** main.go 69-84. The source is opened while the command line is parsed. *)
  Definition main (a : Args) (fs : Files) : Exit :=
    let fl := parseArgs a in
    match fs (source a) with
    | None => {| x_files := fs; x_stdout := ""; x_stderr := fatal "open: no such file or directory"; x_status := 1 |}
    | Some content =>
        match
          match a with
          | AFormat _ _ _ => runFormat fl fs content
          | AConvert _ _ _ => runConvert fl fs content
          | ALint _ _ => runLint fl fs content
          | ASign _ _ _ => runSign fl fs content
          | AVerify _ _ => runVerify fl fs content
          | ACompile _ _ _ _ => runCompile fl fs content
          end
        with
        | Ok d => {| x_files := d_files d; x_stdout := d_stdout d; x_stderr := d_stderr d; x_status := 0 |}
        | Err e => {| x_files := fs; x_stdout := ""; x_stderr := fatal e; x_status := 1 |}
        | Panic => {| x_files := fs; x_stdout := ""; x_stderr := trace; x_status := 2 |}
        end
    end.
End Main.
