(** * JsonCases.v: testdata/*.golden of the repository against Model/Json.v (yaml/manifest_test.go 26-41),
    and spellings of numbers that meet [Spelling]. *)
From Coq Require Import Floats.SpecFloat Decimal DecimalString DecimalZ Lia.
From Verif Require Import Model.Go Model.Types Model.Decode Model.Json Spec.JsonSpec.
From Verif Require Import Proofs.GoFacts.
From Verif Require Proofs.CompileMore.
From Verif Require Import Spec.DecodeSpec Spec.PrettySpec Proofs.JsonWrite.

Definition pipelineGolden : json :=
  JArr [JObj [("kind", JStr "pipeline");
    ("name", JStr "default");
    ("clone", JObj [("disable", JBool true);
      ("depth", JNum "50")]);
    ("depends_on", JArr [JStr "foo"; JStr "bar"]);
    ("platform", JObj [("os", JStr "windows");
      ("arch", JStr "arm64");
      ("variant", JStr "7");
      ("version", JStr "1803")]);
    ("services", JArr [JObj [("command", JArr [JStr "--port"; JStr "6380"]);
        ("detach", JBool true);
        ("entrypoint", JArr [JStr "/bin/redis-server"]);
        ("environment", JObj [("REDIS_PASSWORD", JObj [("value", JStr "bar")]);
          ("REDIS_USERNAME", JObj [("value", JStr "foo")])]);
        ("failure", JStr "ignore");
        ("image", JStr "redis:latest");
        ("name", JStr "redis");
        ("ports", JArr [JObj [("port", JNum "6380")]]);
        ("volumes", JArr [JObj [("name", JStr "data");
            ("path", JStr "/data")]]);
        ("working_dir", JStr "/data")]]);
    ("steps", JArr [JObj [("commands", JArr [JStr "go get"; JStr "go test"]);
        ("environment", JObj [("GOARCH", JObj [("value", JStr "arm")]);
          ("GOOS", JObj [("value", JStr "windows")])]);
        ("image", JStr "golang");
        ("name", JStr "test");
        ("privileged", JBool true);
        ("pull", JStr "always");
        ("shell", JStr "bash");
        ("when", JObj [("branch", JObj [("include", JArr [JStr "master"; JStr "develop"])])])]; JObj [("build", JObj [("cache_from", JArr [JStr "octocat/knife-spoon"]);
          ("context", JStr ".");
          ("dockerfile", JStr "Dockerfile");
          ("image", JStr "octocat/hello-world");
          ("labels", JObj [("baz", JStr "qux");
            ("foo", JStr "bar")])]);
        ("name", JStr "build")]; JObj [("name", JStr "push");
        ("push", JObj [("image", JStr "octocat/hello-world")])]]);
    ("trigger", JObj [("branch", JObj [("include", JArr [JStr "master"; JStr "develop"])])]);
    ("volumes", JArr [JObj [("name", JStr "data");
        ("temp", JObj [])]; JObj [("name", JStr "other");
        ("host", JObj [("path", JStr "/tmp/data")])]]);
    ("workspace", JObj [("base", JStr "/go");
      ("path", JStr "src/github.com/drone/go-yaml")])]].
Definition cronGolden : json :=
  JArr [JObj [("kind", JStr "cron");
    ("name", JStr "nightly");
    ("spec", JObj [("schedule", JStr "1 * * * *");
      ("branch", JStr "master");
      ("deployment", JObj [("target", JStr "production")])])]].
Definition registryGolden : json :=
  JArr [JObj [("kind", JStr "registry");
    ("type", JStr "encrypted");
    ("data", JObj [("index.docker.io", JStr "N2NmYjA3ODQwNTY1ODFlY2E5MGJmOWI1NDk0NDFhMTEK")])]].
Definition secretGolden : json :=
  JArr [JObj [("kind", JStr "secret");
    ("name", JStr "username");
    ("data", JStr "b2N0b2NhdA==")]].
Definition signatureGolden : json :=
  JArr [JObj [("kind", JStr "signature");
    ("hmac", JStr "N2NmYjA3ODQwNTY1ODFlY2E5MGJmOWI1NDk0NDFhMTEK")]].
Definition manifestGolden : json :=
  JArr [JObj [("kind", JStr "pipeline")]; JObj [("kind", JStr "registry")]; JObj [("kind", JStr "secret")]; JObj [("kind", JStr "cron")]; JObj [("kind", JStr "signature");
    ("hmac", JStr "N2NmYjA3ODQwNTY1ODFlY2E5MGJmOWI1NDk0NDFhMTEK")]].
(** testdata/pipeline.yml, the entries of its maps in the order of their keys. *)
Definition pipelineFile : node :=
  NMap [(NStr "kind", NStr "pipeline");
    (NStr "name", NStr "default");
    (NStr "platform", NMap [(NStr "os", NStr "windows");
    (NStr "arch", NStr "arm64");
    (NStr "variant", NInt "7" 7);
    (NStr "version", NInt "1803" 1803)]);
    (NStr "workspace", NMap [(NStr "base", NStr "/go");
    (NStr "path", NStr "src/github.com/drone/go-yaml")]);
    (NStr "clone", NMap [(NStr "disable", NBool "true" true);
    (NStr "depth", NInt "50" 50)]);
    (NStr "steps", NSeq [NMap [(NStr "name", NStr "test");
    (NStr "image", NStr "golang");
    (NStr "pull", NStr "always");
    (NStr "shell", NStr "bash");
    (NStr "commands", NSeq [NStr "go get"; NStr "go test"]);
    (NStr "environment", NMap [(NStr "GOARCH", NStr "arm");
    (NStr "GOOS", NStr "windows")]);
    (NStr "privileged", NBool "true" true);
    (NStr "when", NMap [(NStr "branch", NSeq [NStr "master"; NStr "develop"])])]; NMap [(NStr "name", NStr "build");
    (NStr "build", NMap [(NStr "image", NStr "octocat/hello-world");
    (NStr "context", NStr ".");
    (NStr "dockerfile", NStr "Dockerfile");
    (NStr "labels", NMap [(NStr "baz", NStr "qux");
    (NStr "foo", NStr "bar")]);
    (NStr "cache_from", NSeq [NStr "octocat/knife-spoon"])])]; NMap [(NStr "name", NStr "push");
    (NStr "push", NStr "octocat/hello-world")]]);
    (NStr "services", NSeq [NMap [(NStr "name", NStr "redis");
    (NStr "image", NStr "redis:latest");
    (NStr "detach", NBool "true" true);
    (NStr "entrypoint", NSeq [NStr "/bin/redis-server"]);
    (NStr "command", NSeq [NStr "--port"; NInt "6380" 6380]);
    (NStr "ports", NSeq [NInt "6380" 6380]);
    (NStr "working_dir", NStr "/data");
    (NStr "volumes", NSeq [NMap [(NStr "name", NStr "data");
    (NStr "path", NStr "/data")]]);
    (NStr "failure", NStr "ignore");
    (NStr "environment", NMap [(NStr "REDIS_PASSWORD", NStr "bar");
    (NStr "REDIS_USERNAME", NStr "foo")])]]);
    (NStr "volumes", NSeq [NMap [(NStr "name", NStr "data");
    (NStr "temp", NMap [])]; NMap [(NStr "name", NStr "other");
    (NStr "host", NMap [(NStr "path", NStr "/tmp/data")])]]);
    (NStr "trigger", NMap [(NStr "branch", NMap [(NStr "include", NSeq [NStr "master"; NStr "develop"])])]);
    (NStr "depends_on", NSeq [NStr "foo"; NStr "bar"])].
Definition cronFile : node :=
  NMap [(NStr "kind", NStr "cron");
    (NStr "name", NStr "nightly");
    (NStr "spec", NMap [(NStr "schedule", NStr "1 * * * *");
    (NStr "branch", NStr "master");
    (NStr "deployment", NMap [(NStr "target", NStr "production")])])].

(** Spellings that can be read back. A float that is not an integer literal has its sign, its
    mantissa and its exponent, set apart by the letter x. *)
Definition sampleFormat (f : float64) : string :=
  match f with
  | S754_zero s => join "x" [if s then "-" else "+"; "0"]
  | S754_finite s m e => join "x" [if s then "-" else "+"; itoa (Zpos m); itoa e]
  | _ => ""
  end.
Definition sampleParse (t : string) : option float64 :=
  match split_on "x" t with
  | [_] => option_map (fun i => binary_normalize 53 1024 (Z.of_int i) 0 false) (NilZero.int_of_string t)
  | [s; _] => Some (S754_zero (String.eqb s "-"))
  | [s; m; e] =>
      match NilZero.int_of_string m, NilZero.int_of_string e with
      | Some m, Some e => match Z.of_int m with
                          | Zpos p => Some (S754_finite (String.eqb s "-") p (Z.of_int e))
                          | _ => None
                          end
      | _, _ => None
      end
  | _ => None
  end.
Lemma digits_x : forall u, hasChar "x" (NilEmpty.string_of_uint u) = false.
Proof. induction u; cbn; auto. Qed.
Lemma digits_x0 : forall u, hasChar "x" (NilZero.string_of_uint u) = false.
Proof. intros []; cbn; try apply digits_x; reflexivity. Qed.
Lemma itoa_x : forall z, hasChar "x" (itoa z) = false.
Proof. intro z. unfold itoa, NilZero.string_of_int. destruct (Z.to_int z) as [u|u]; cbn; apply digits_x0. Qed.
Lemma sampleSpelling : Spelling sampleFormat sampleParse.
Proof.
  assert (J : forall l, l <> [] -> Forall (fun p => hasChar "x" p = false) l -> split_on "x" (join "x" l) = l) by (apply split_on_join).
  split.
  - intros [s|s| |s m e] F _; try (destruct F; fail); unfold sampleFormat, sampleParse; rewrite J; try discriminate.
    + destruct s; reflexivity.
    + repeat constructor; destruct s; reflexivity.
    + rewrite !CompileMore.int_back, !DecimalZ.of_to. destruct s; reflexivity.
    + constructor; [destruct s; reflexivity|]. constructor; [apply itoa_x|]. constructor; [apply itoa_x|constructor].
  - intro z. unfold sampleParse. rewrite split_on_none by apply itoa_x. rewrite CompileMore.int_back. cbn [option_map]. rewrite DecimalZ.of_to. reflexivity.
Qed.
Definition noResources : Manifest := {| mf_resources := [] |}.
Example pipeline_golden : exists p, unmarshalJSON sampleParse noResources pipelineGolden = Some {| mf_resources := [RPipeline p] |} /\
  decPipeline (fun _ => None) pipelineFile = Some p.
Proof. eexists. split; vm_compute; reflexivity. Qed.
Example cron_golden : exists c, unmarshalJSON sampleParse noResources cronGolden = Some {| mf_resources := [RCron c] |} /\ decCron cronFile = Some c.
Proof. eexists. split; vm_compute; reflexivity. Qed.
Example registry_golden : unmarshalJSON sampleParse noResources registryGolden = Some {| mf_resources :=
  [RRegistry {| rg_version := ""; rg_kind := "registry"; rg_type := "encrypted";
                rg_data := [("index.docker.io", "N2NmYjA3ODQwNTY1ODFlY2E5MGJmOWI1NDk0NDFhMTEK")] |}] |}.
Proof. vm_compute. reflexivity. Qed.
Example secret_golden : unmarshalJSON sampleParse noResources secretGolden = Some {| mf_resources :=
  [RSecret {| se_version := ""; se_kind := "secret"; se_type := ""; se_name := "username"; se_data := "b2N0b2NhdA==";
              se_get_path := ""; se_get_name := ""; se_get_key := "" |}] |}.
Proof. vm_compute. reflexivity. Qed.
Example manifest_golden : option_map (fun m => map (fun r => match r with
    RPipeline _ => "pipeline" | RRegistry _ => "registry" | RSecret _ => "secret" | RCron _ => "cron" | RSignature s => si_hmac s end) (mf_resources m))
    (unmarshalJSON sampleParse noResources manifestGolden) =
  Some ["pipeline"; "registry"; "secret"; "cron"; "N2NmYjA3ODQwNTY1ODFlY2E5MGJmOWI1NDk0NDFhMTEK"].
Proof. vm_compute. reflexivity. Qed.

(** A manifest with a step that has one setting. *)
Definition step (settings : smap (option Parameter_)) : Container :=
  {| ct_build := None; ct_command := []; ct_commands := ["make"]; ct_detach := false; ct_depends := []; ct_devices := []; ct_dns := [];
     ct_dns_search := []; ct_entrypoint := []; ct_environment := [("B", Some {| v_value := "1"; v_secret := "" |}); ("A", None)];
     ct_extra_hosts := []; ct_failure := ""; ct_image := "golang"; ct_network := ""; ct_name := "build";
     ct_ports := [Some {| po_port := 80; po_host := 0; po_protocol := "" |}]; ct_privileged := false; ct_pull := "";
     ct_push := None; ct_resources := Some {| re_limits := Some {| ro_cpu := S754_zero false; ro_memory := 1024 |}; re_requests := None |};
     ct_settings := settings; ct_shell := ""; ct_user := ""; ct_volumes := []; ct_when := noConds; ct_working_dir := "" |}.
Definition pipelineWith (settings : smap (option Parameter_)) : Pipeline :=
  {| pi_version := ""; pi_kind := "pipeline"; pi_type := ""; pi_name := "default"; pi_clone := noClone; pi_concurrency := 0;
     pi_depends := []; pi_node := []; pi_platform := noPlatform; pi_pull_secrets := []; pi_services := [];
     pi_steps := [Some (step settings); None]; pi_trigger := noConds; pi_volumes := []; pi_workspace := noWorkspace |}.
Lemma oneEach : forall A (m : smap A), NoDup (map fst m) -> (forall k, In k (map fst m) -> coerce k = k) -> OneEach m.
Proof.
  intros A m N H. split; [exact N|]. intros k k' t I I' C C'. apply cleaned_iff in C, C'. rewrite (H k I) in C. rewrite (H k' I') in C'. congruence.
Qed.
Lemma sampleGo : forall v, GoValue v -> GoPipeline (pipelineWith [("key", Some {| p_value := v; p_secret := "" |})]).
Proof.
  intros v G. assert (F : forall z, (-100 <= z <= 2000)%Z -> Fits z) by (intros z [? ?]; unfold Fits; lia).
  assert (E : forall A, OneEach (@nil (string * A))) by (intro A; apply oneEach; [constructor|intros ? []]).
  assert (C : GoContainer (step [("key", Some {| p_value := v; p_secret := "" |})])).
  { unfold GoContainer. cbn [step ct_build ct_environment ct_settings ct_ports ct_resources ct_when noConds w_matrix].
    split; [discriminate|]. split; [|split; [|split; [|split; [|split; [|apply E]]]]].
    - apply oneEach; [repeat constructor; cbn; intuition discriminate|]. cbn. intros k [<-|[<-|[]]]; reflexivity.
    - apply oneEach; [repeat constructor; cbn; tauto|]. cbn. intros k [<-|[]]; reflexivity.
    - intros k p [X|[]]. injection X as <- <-. exact G.
    - intros p [X|[]]. injection X as <-. split; apply F; cbn; lia.
    - intros r X. injection X as <-. intros o [X|X]; [injection X as <-|discriminate X]. split; [reflexivity|apply F; cbn; lia]. }
  unfold GoPipeline, pipelineWith. cbn [pi_clone pi_concurrency pi_node pi_services pi_steps pi_trigger pi_volumes].
  split; [apply F; cbn; lia|]. split; [apply F; lia|]. split; [apply E|]. split; [|split; [apply E|]].
  - intros c [[]|[X|[X|[]]]]; [|discriminate]. injection X as <-. exact C.
  - intros ? ? [].
Qed.
Definition manifestWith (v : value) : Manifest :=
  {| mf_resources := [RPipeline (pipelineWith [("key", Some {| p_value := v; p_secret := "" |})]);
                      RSignature {| si_version := ""; si_kind := "signature"; si_hmac := "abc" |}] |}.
Lemma sampleGo' : forall v, GoValue v -> forall r, In r (mf_resources (manifestWith v)) -> GoResource r /\ Kinded r.
Proof.
  intros v G r [<-|[<-|[]]]; split; cbn; try reflexivity; try exact I; [apply sampleGo, G|]. intuition discriminate.
Qed.
