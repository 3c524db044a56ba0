(** * EmitCases.v: a manifest as the yaml library writes it, for the cases beside C94 and C95. *)
From Coq Require Import Floats.SpecFloat.
From Verif Require Import Model.Go Model.Types Model.Encode Model.Decode Model.Emit
  Spec.ParseSpec Spec.DecodeSpec Spec.JsonSpec Spec.EmitSpec Proofs.EmitFacts Conform.JsonCases.

(** Whole floats are written as integers. *)
Definition sameFloat (f g : float64) : bool :=
  match f, g with
  | S754_zero s, S754_zero t => Bool.eqb s t
  | S754_infinity s, S754_infinity t => Bool.eqb s t
  | S754_nan, S754_nan => true
  | S754_finite s m e, S754_finite t n d => (Bool.eqb s t && Pos.eqb m n && Z.eqb e d)%bool
  | _, _ => false
  end.
Lemma sameFloat_eq : forall f g, sameFloat f g = true -> f = g.
Proof.
  intros [s|s| |s m e] [t|t| |t n d] H; cbn in H; try discriminate; try reflexivity; try (apply Bool.eqb_prop in H as ->; reflexivity).
  apply andb_prop in H as [H He]. apply andb_prop in H as [Hs Hm]. apply Bool.eqb_prop in Hs as ->. apply Pos.eqb_eq in Hm as ->. apply Z.eqb_eq in He as ->. reflexivity.
Qed.
Definition sampleFloatNode (f : float64) : node :=
  let z := int64_of_float f in
  if sameFloat (binary_normalize 53 1024 z 0 false) f then NInt (itoa z) z else NFloat ("." +++ sampleFormat f) f.
Lemma itoa_numeric : forall z, Numeric (itoa z).
Proof.
  intro z. unfold itoa, Numeric. destruct (Z.to_int z) as [u|u]; cbn.
  - destruct u; cbn; eexists _, _; (split; [reflexivity|]); cbn; auto 20.
  - eexists _, _. split; [reflexivity|]. cbn; auto 20.
Qed.
Lemma sampleFloats : FloatTree sampleFloatNode.
Proof.
  intros f _. unfold sampleFloatNode. destruct sameFloat eqn:E; [right|left].
  - eexists _, _. split; [apply itoa_numeric|]. split; [reflexivity|]. apply sameFloat_eq. exact E.
  - eexists. split; [|reflexivity]. eexists _, _. split; [reflexivity|]. cbn. auto 20.
Qed.
(** Strings in the order of their bytes. *)
Definition sampleLess (a b : node) : bool :=
  match a, b with NStr s, NStr t => String.ltb s t | _, _ => false end.

Definition sampleStep : Container :=
  {| ct_build := None; ct_command := []; ct_commands := ["make"; "make test"]; ct_detach := false; ct_depends := []; ct_devices := []; ct_dns := [];
     ct_dns_search := []; ct_entrypoint := [];
     ct_environment := [("GOOS", Some {| v_value := "linux"; v_secret := "" |}); ("DEBUG", Some {| v_value := ""; v_secret := "" |})];
     ct_extra_hosts := []; ct_failure := ""; ct_image := "golang"; ct_network := ""; ct_name := "build";
     ct_ports := [Some {| po_port := 80; po_host := 0; po_protocol := "" |}]; ct_privileged := false; ct_pull := "";
     ct_push := None; ct_resources := None;
     ct_settings := [("ratio", Some {| p_value := VFloat (S754_finite false 4503599627370496 (-51)); p_secret := "" |});
                     ("password", Some {| p_value := VNull; p_secret := "pw" |})];
     ct_shell := ""; ct_user := ""; ct_volumes := []; ct_when := noConds; ct_working_dir := "" |}.
Definition sampleManifest : Manifest :=
  {| mf_resources :=
    [RPipeline {| pi_version := ""; pi_kind := "pipeline"; pi_type := "docker"; pi_name := "default"; pi_clone := noClone; pi_concurrency := 0;
                  pi_depends := []; pi_node := []; pi_platform := noPlatform; pi_pull_secrets := []; pi_services := [];
                  pi_steps := [Some sampleStep; None]; pi_trigger := noConds; pi_volumes := []; pi_workspace := noWorkspace |};
     RSignature {| si_version := ""; si_kind := "signature"; si_hmac := "abc" |}] |}.
Definition q : string := String """" (String """" "").
Definition pipelineLines : list string :=
  ["version: " +++ q; "kind: pipeline"; "type: docker"; "name: default"; "clone:"; "  disable: false"; "  depth: 0"; "  skip_verify: false";
   "concurrency:"; "  limit: 0"; "depends_on: []"; "node: {}"; "platform:"; "  os: " +++ q; "  arch: " +++ q; "  variant: " +++ q; "  version: " +++ q;
   "image_pull_secrets: []"; "services: []"; "steps:"; "- build: null"; "  command: []"; "  commands:"; "  - make"; "  - make test";
   "  detach: false"; "  depends_on: []"; "  devices: []"; "  dns: []"; "  dns_search: []"; "  entrypoint: []"; "  environment:";
   "    DEBUG: null"; "    GOOS: linux"; "  extra_hosts: []"; "  failure: " +++ q; "  image: golang"; "  network_mode: " +++ q; "  name: build";
   "  ports:"; "  - port: 80"; "    host: 0"; "    protocol: " +++ q; "  privileged: false"; "  pull: " +++ q; "  push: null"; "  resources: null";
   "  settings:"; "    password:"; "      from_secret: pw"; "    ratio: 2"; "  shell: " +++ q; "  user: " +++ q; "  volumes: []"; "  when:";
   "    action: {}"; "    cron: {}"; "    ref: {}"; "    repo: {}"; "    instance: {}"; "    target: {}"; "    event: {}"; "    branch: {}";
   "    status: {}"; "    paths: {}"; "    matrix: {}"; "  working_dir: " +++ q; "- null"; "trigger:"; "  action: {}"; "  cron: {}"; "  ref: {}";
   "  repo: {}"; "  instance: {}"; "  target: {}"; "  event: {}"; "  branch: {}"; "  status: {}"; "  paths: {}"; "  matrix: {}"; "volumes: []";
   "workspace:"; "  base: " +++ q; "  path: " +++ q]%string.
Definition signatureLines : list string := ["version: " +++ q; "kind: signature"; "hmac: abc"]%string.
Definition sampleRender (n : node) : string :=
  match n with
  | NMap [_; (_, NStr "signature"); _] => text signatureLines
  | _ => text pipelineLines
  end.
Definition sampleRead (s : string) : option node :=
  match map (nResource sampleFloatNode sampleLess) (mf_resources sampleManifest) with
  | [p; g] => if String.eqb s (text pipelineLines) then Some p else if String.eqb s (text signatureLines) then Some g else None
  | _ => None
  end.
Lemma goodLine : forall l, hasChar NL l = false -> hasChar CR l = false -> N.ltb (RawParse.slen l) 65536 = true ->
  hasPrefix l "---" = false -> hasPrefix l "..." = false -> GoodLine l.
Proof.
  assert (C : forall c l, hasChar c l = false -> ~ In c (list_ascii_of_string l)).
  { intros c l. induction l as [|x l IH]; cbn; [tauto|]. intros H [->|I].
    - rewrite Ascii.eqb_refl in H. discriminate.
    - destruct (Ascii.eqb c x); [discriminate|]. exact (IH H I). }
  intros l N R S P T. split; [apply N.ltb_lt; exact S|]. split; [|split; apply C; assumption].
  apply ParseFacts.Plain_spec. split; assumption.
Qed.
Lemma sampleLegible : forall r, In r (mf_resources sampleManifest) -> Legible sampleRender sampleRead (nResource sampleFloatNode sampleLess r).
Proof.
  intros r [<-|[<-|[]]]; (split; [vm_compute; reflexivity|]).
  - exists pipelineLines. split; [discriminate|]. split; [vm_compute; reflexivity|].
    apply (Forall_impl (P := fun l => (hasChar NL l || hasChar CR l || negb (N.ltb (RawParse.slen l) 65536) || hasPrefix l "---" || hasPrefix l "...")%bool = false)).
    + intros l H. repeat (apply Bool.orb_false_elim in H; destruct H as [H ?]). apply goodLine; auto. apply Bool.negb_false_iff. assumption.
    + unfold pipelineLines. repeat (constructor; [vm_compute; reflexivity|]). constructor.
  - exists signatureLines. split; [discriminate|]. split; [vm_compute; reflexivity|].
    repeat (constructor; [apply goodLine; vm_compute; reflexivity|]). constructor.
Qed.
Lemma sampleYaml : forall r, In r (mf_resources sampleManifest) -> YamlResource r /\ Kinded r /\ getKind r <> "".
Proof.
  assert (F : forall z, (-100 <= z <= 2000)%Z -> Fits z) by (intros z [? ?]; unfold Fits; split; [apply (Z.le_trans _ (-100))|apply (Z.le_lt_trans _ 2000)]; try assumption; reflexivity || discriminate).
  intros r [<-|[<-|[]]]; (split; [|split; [cbn; intuition discriminate|discriminate]]); [|exact I].
  split; [apply F; split; discriminate|]. split; [apply F; split; discriminate|]. split.
  - intros c [[]|[E|[E|[]]]]; [injection E as <-|discriminate]. split; [|split].
    + intros k p [E|[E|[]]]; injection E as <- <-; [right|left; discriminate]. split; [constructor; discriminate|].
      intros (m & x & E & _). discriminate.
    + intros p [E|[]]. injection E as <-. split; apply F; split; discriminate.
    + discriminate.
  - intros v d [].
Qed.
