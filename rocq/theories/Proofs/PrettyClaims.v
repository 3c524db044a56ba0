(** * PrettyClaims.v: the examples and counterexamples of Props/Pretty.v. *)
From Coq Require Import Lia Floats.SpecFloat.
From Verif Require Import Model.Go Model.Types Model.Decode Model.RawParse Model.Encode Model.Quote Model.Pretty.
From Verif Require Import Spec.DecodeSpec Spec.YamlSpec Spec.ParseSpec Spec.PrettySpec Spec.LayoutSpec.
From Verif Require Import Proofs.GoFacts Proofs.PrettyTree Proofs.PrettyLayout Proofs.PrettyItems.
From Verif Require Import Proofs.YamlFacts Proofs.YamlStrings Proofs.YamlDocs Proofs.PrettyRound Proofs.PrettyMore Proofs.PrettyText Proofs.PrettySame Proofs.PrettyTrip.

(** ** Parameters without floats and sizes *)
Definition noFloat (f : float64) : string := "0.5".
Definition noBytes (z : Z) : string := "".
Definition noSize (s : string) : option Z := None.
Notation sample f := (f (fun _ : N => true) noFloat noFloat noBytes) (only parsing).
Definition sampleDecoder : Decoder := treeDecoder noSize (readYaml plainResolve).
Definition parsed (text : string) : Manifest :=
  match parse sampleDecoder text with Ok m => m | _ => {| mf_resources := [] |} end.
Definition printed (m : Manifest) : string := match sample print m with Ok s => s | _ => "" end.

Definition sampleText : string := "kind: pipeline
name: default

steps:
- name: build
  image: golang
  commands:
  - go build
  environment:
    ZONE: eu
    TOKEN:
      from_secret: token
  settings:
    list:
    - 1
    - a: b
    - true
  when:
    branch:
    - master

- name: publish
  image: plugins/docker
  ports:
  - 8080
  volumes:
  - name: cache
    path: /go

volumes:
- name: cache
  temp: {}

---
kind: secret
name: token
data: ABCDEFGHIJKLMNOPQRSTUVWXYZABCDEFGHIJKLMNOPQRSTUVWXYZABCDEFGHIJKLMNOPQRSTUVWXYZ

---
kind: cron
name: nightly
spec:
  schedule: ""0 0 * * *""
  branch: master
  deployment:
    target: production

---
kind: signature
hmac: 0123456789abcdef
".
Definition sampleManifest : Manifest := Eval vm_compute in parsed sampleText.
Definition samplePipeline : Pipeline.
Proof. let x := eval vm_compute in (mf_resources sampleManifest) in match x with RPipeline ?p :: _ => exact p end. Defined.
Definition sampleStep : Container.
Proof. let x := eval vm_compute in (pi_steps samplePipeline) in match x with Some ?c :: _ => exact c end. Defined.
Definition sampleSecret : Secret.
Proof. let x := eval vm_compute in (mf_resources sampleManifest) in match x with _ :: RSecret ?s :: _ => exact s end. Defined.

Lemma word : forall s, plainly s = true -> Readable s.
Proof. exact plainly_readable. Qed.
Ltac computed := repeat (lazymatch goal with |- _ /\ _ => split end); vm_compute; reflexivity.
Ltac ok :=
  repeat first
    [ apply word; reflexivity
    | lazymatch goal with
      | |- Forall _ [] => constructor
      | |- Forall _ (_ :: _) => constructor
      | |- Forall _ _ => progress cbn [map fst snd]
      | |- _ /\ _ => split
      | |- _ <-> _ => split; intro; (discriminate || congruence)
      | |- NoDup [] => constructor
      | |- NoDup (_ :: _) => constructor; [cbn; intuition discriminate|]
      | |- NoDup _ => progress cbn [map fst snd]
      | |- Optional _ None => intros ? ?; discriminate
      | |- Optional _ (Some _) => let E := fresh in intros ? E; injection E as <-
      | |- Present _ (Some _) => eexists; split; [reflexivity|]
      | |- ReadableKey _ => split; [apply word; reflexivity|split; [discriminate|cbn; repeat constructor]]
      | |- KeysOk _ => split
      | |- StringOk _ _ => split
      | |- TextMapOk _ => split
      | |- ConditionsOk _ => unfold ConditionsOk, ConditionOk; cbn
      | |- VariableOk _ => unfold VariableOk; cbn [v_value v_secret]
      | |- PortOk _ => unfold PortOk; cbn [po_port po_host po_protocol]
      | |- MountOk _ => unfold MountOk; cbn [vm_name vm_path]
      | |- VolumeOk _ _ _ _ => unfold VolumeOk; cbn [vo_name vo_empty vo_host]
      | |- SizeOk _ _ _ _ => left
      | |- Fits _ => unfold Fits, int64Min
      | |- (_ <= _)%Z => cbn; discriminate
      | |- (_ < _)%Z => reflexivity
      | |- _ <> _ \/ _ => left
      | |- _ = _ => reflexivity
      | |- _ <> _ => discriminate
      | |- ~ In _ _ => cbn; intuition discriminate
      end ].
Definition dataChars (s : string) : bool :=
  sforallb (fun c => Ascii.eqb c NL || (N.leb 32 (code c) && N.leb (code c) 126)) s &&
  existsb (fun c => negb (Ascii.eqb c " ") && negb (Ascii.eqb c NL)) (list_ascii_of_string s).
Lemma dataChars_ok : forall s, dataChars s = true -> DataOk s.
Proof.
  intros s H. unfold dataChars in H. apply andb_prop in H. destruct H as [H1 H2]. split.
  - apply Forall_forall. intros c I. apply (proj1 (sforallb_In _ _) H1) in I. apply orb_prop in I. destruct I as [I|I]; [left; apply Ascii.eqb_eq, I|right].
    apply andb_prop in I. destruct I as [A B]. apply N.leb_le in A, B. split; assumption.
  - apply existsb_exists in H2. destruct H2 as (c & I & E). exists c. split; [exact I|]. apply andb_prop in E. destruct E as [A B].
    split; intros ->; discriminate.
Qed.
Lemma sample_value : ValueOk plainResolve noFloat (VList [VInt 1; VMap [(VStr "a", VStr "b")]; VBool true]).
Proof.
  constructor. intros v [<-|[<-|[<-|[]]]].
  - constructor. ok.
  - change [(VStr "a", VStr "b")] with (combine (map VStr ["a"]) [VStr "b"]). constructor; [reflexivity|ok| |].
    + intros k [<-|[]]. ok. right. reflexivity.
    + intros v [<-|[]]. constructor. ok. right. reflexivity.
  - constructor.
Qed.
Lemma sample_formattable : Forall (Formattable plainResolve noSize noFloat noBytes) (mf_resources sampleManifest).
Proof.
  constructor; [|constructor; [|constructor; [|constructor; [|constructor]]]]; cbn [Formattable].
  - constructor; cbn -[In]; ok.
    + constructor; cbn -[In Z.le]; ok. right. split; [reflexivity|]. split; [apply sample_value|]. split; [discriminate|]. split; [discriminate|]. intros m v E. discriminate E.
    + constructor; cbn -[In Z.le]; ok.
  - unfold SecretOk. cbn [se_version se_kind se_type se_name se_data se_get_path se_get_name se_get_key]. ok. left. repeat split; try (apply dataChars_ok; reflexivity).
  - unfold CronOk. cbn. ok.
  - unfold SignatureOk. cbn. ok.
Qed.
Lemma sample_text : exists out m', sample print sampleManifest = Ok out /\ parse sampleDecoder out = Ok m' /\ sample print m' = Ok out.
Proof. exists (printed sampleManifest), (parsed (printed sampleManifest)). computed. Qed.
Lemma sample_no_null : GoMaps (RPipeline samplePipeline) /\ ~ HasNull (RPipeline samplePipeline).
Proof.
  split.
  - intros c [E|[E|[]]]; injection E as <-; cbn; ok.
  - intros [(c & [E|[E|[]]] & N)|N]; [| |cbn in N; intuition discriminate]; injection E as <-; unfold StepNull in N; cbn in N; intuition discriminate.
Qed.

(** ** Strings *)
Lemma null_word : forall iph resolve, Resolver resolve ->
  exists s, Legible s /\ ~ exists n, readYaml resolve (encodeString iph s) = Some n /\ IsText n s.
Proof.
  intros iph resolve HR. exists "null". assert (L : Legible "null").
  { destruct (visible_ascii "null" eq_refl) as (rs & E & F). exists rs. split; [exact E|]. eapply Forall_impl; [|exact F]. intros r Y. left. exact Y. }
  split; [exact L|]. intros (n & R & T). assert (N : n = resolve "null") by (vm_compute in R; congruence). subst n.
  rewrite (resolve_null _ HR) in T by (cbn; tauto). inversion T.
Qed.

(** ** Documents *)
Lemma registry_dropped : exists m out m', sample print m = Ok out /\ parse sampleDecoder out = Ok m' /\
  List.length (mf_resources m) = 2 /\ List.length (mf_resources m') = 1.
Proof.
  set (m := parsed "kind: signature
hmac: abc
---
kind: registry
data:
  index.docker.io: abc
"). exists m, (printed m), (parsed (printed m)). computed.
Qed.
Lemma nothing_printed : exists m out e, sample print m = Ok out /\ parse sampleDecoder out = Err e.
Proof. exists {| mf_resources := [] |}, (printed {| mf_resources := [] |}). eexists. split; vm_compute; reflexivity. Qed.
Lemma null_entry : exists text m, parse sampleDecoder text = Ok m /\ sample print m = Panic.
Proof.
  set (t := "kind: pipeline
steps:
- name: a
  environment:
    FOO: ~
"). exists t, (parsed t). split; vm_compute; reflexivity.
Qed.

(** ** Layout *)
Lemma all_balanced : forall isPrintHigh formatFloat sprintFloat bytesSize,
  let with_ {A} (f : (N -> bool) -> (float64 -> string) -> (float64 -> string) -> (Z -> string) -> A) := f isPrintHigh formatFloat sprintFloat bytesSize in
  (forall k v, Balanced (with_ writeTagValue k v)) /\
  (forall b, Balanced (with_ printBuild b)) /\ (forall l, Balanced (with_ printDeviceMounts l)) /\
  (forall m, Balanced (with_ printEnviron m)) /\ (forall l, Balanced (with_ printPorts l)) /\
  (forall r, Balanced (with_ printResources r)) /\ (forall m, Balanced (with_ printSettings m)) /\
  (forall l, Balanced (with_ printVolumeMounts l)) /\ (forall k w, Balanced (with_ printConditions k w)) /\
  (forall c, Balanced (with_ printContainer c)) /\ (forall k l, Balanced (with_ printContainers k l)) /\
  (forall l, Balanced (with_ printVolumes l)) /\ (forall v, Balanced (with_ printClone v)) /\
  (forall v, Balanced (with_ printConcurrency v)) /\ (forall v, Balanced (with_ printWorkspace v)) /\
  (forall v, Balanced (with_ printPlatform v)) /\ (forall c, Balanced (with_ printSpec c)) /\
  (forall s, Balanced (with_ printGet s)).
Proof.
  intros iph ff sf bs with_. unfold with_.
  split; [intros; eapply acts_balanced; apply acts_tags|].
  split; [intros; eapply acts_balanced; apply acts_build|].
  split; [intros; eapply acts_balanced; apply acts_devices|].
  split; [intros; eapply acts_balanced; apply acts_environ|].
  split; [intros; eapply acts_balanced; apply acts_ports|].
  split; [intros; eapply acts_balanced; apply acts_resources|].
  split; [intros; eapply acts_balanced; apply acts_settings|].
  split; [intros; eapply acts_balanced; apply acts_mounts|].
  split; [intros; eapply acts_balanced; apply acts_conditions|].
  split; [intros; eapply acts_balanced; apply acts_container|].
  split; [intros; eapply acts_balanced; apply acts_containers|].
  split; [intros; eapply acts_balanced; apply acts_volumes|].
  split; [intros; eapply acts_balanced; apply acts_clone|].
  split; [intros; eapply acts_balanced; apply acts_concurrency|].
  split; [intros; eapply acts_balanced; apply acts_workspace|].
  split; [intros; eapply acts_balanced; apply acts_platform|].
  split; [intros; eapply acts_balanced; apply acts_spec|].
  intros; eapply acts_balanced; apply acts_get.
Qed.
Lemma resource_balanced : forall isPrintHigh formatFloat sprintFloat bytesSize r out w',
  printResource isPrintHigh formatFloat sprintFloat bytesSize r {| w_out := out; w_depth := 0; w_zero := false; w_index := [] |} = Ok w' ->
  w_depth w' = 0%Z /\ w_zero w' = false /\ w_index w' = [] /\ exists t, w_out w' = (out +++ t)%string.
Proof.
  intros iph ff sf bs r out w' E. destruct (print_resource iph ff sf bs r) as (f & F & A). rewrite F in E. destruct (isRegistry r).
  - injection E as <-. repeat split. exists "". cbn. symmetry. apply sapp_nil_r.
  - assert (R0 : Ready 0 false []) by (split; [reflexivity|congruence]). specialize (A (out +++ "---")%string 0 false [] R0).
    unfold andThen in E. change (emit "---" _) with (Ok (mk (out +++ "---") 0 false [])) in E. cbn [obind] in E.
    destruct (resourceItems _ _ _ _ r) as [its|].
    + destruct A as (ix & A1 & A2). cbn in A2. subst ix. rewrite A1 in E. injection E as <-. repeat split. cbn [w_out mk]. rewrite sapp_assoc. eexists. reflexivity.
    + rewrite A in E. discriminate E.
Qed.

(** ** Secrets *)
Lemma empty_eqb : forall s, String.eqb s "" = isEmpty s.
Proof. intros [|c s]; reflexivity. Qed.
Lemma secret_lines : forall isPrintHigh formatFloat sprintFloat bytesSize s, exists data ps,
  squeezed (se_data s) data /\ (data = "" /\ ps = [""] \/ pieces data ps) /\
  let field n k v := if String.eqb v "" then "" else (nl +++ blanks n +++ k +++ ": " +++ encodeString isPrintHigh v)%string in
  print isPrintHigh formatFloat sprintFloat bytesSize {| mf_resources := [RSecret s] |} =
  Ok ("---" +++ field 0 "version" (se_version s) +++ field 0 "kind" (se_kind s) +++ field 0 "type" (se_type s) +++
      (if String.eqb (se_data s) "" then ""
       else field 0 "name" (se_name s) +++ nl +++ "data: >" +++ concats (map (fun p => nl +++ "  " +++ p) ps)) +++
      (if String.eqb (se_get_path s) "" && String.eqb (se_get_name s) "" && String.eqb (se_get_key s) "" then ""
       else field 0 "name" (se_name s) +++ nl +++ nl +++ "get:" +++
            field 2 "path" (se_get_path s) +++ field 2 "name" (se_get_name s) +++ field 2 "key" (se_get_key s)) +++
      nl +++ nl +++ "..." +++ nl)%string.
Proof.
  intros iph ff sf bs s. exists (removeSpaces (se_data s)), (chunk (removeSpaces (se_data s)) 60). split; [apply removed_spaces|]. split.
  - destruct (removeSpaces (se_data s)) as [|c d] eqn:E; [left; split; reflexivity|right]. apply chunk_pieces. discriminate.
  - intro fld. rewrite secret_text. assert (Fd : forall n k v, encodeString iph k = k -> field iph n k v = fld n k v).
    { intros n k v K. unfold field, fld. rewrite empty_eqb, K. reflexivity. }
    rewrite !Fd by reflexivity. rewrite !empty_eqb. unfold isSecretGetEmpty, foldText.
    replace (isEmpty (se_get_key s) && isEmpty (se_get_name s) && isEmpty (se_get_path s)) with (isEmpty (se_get_path s) && isEmpty (se_get_name s) && isEmpty (se_get_key s)); [reflexivity|].
    destruct (isEmpty (se_get_path s)), (isEmpty (se_get_name s)), (isEmpty (se_get_key s)); reflexivity.
Qed.

(** ** What is not read back *)
Definition stepsOf (m : Manifest) : list Container :=
  flat_map (fun r => match r with RPipeline p => flat_map (fun s => match s with Some c => [c] | None => [] end) (pi_steps p) | _ => [] end) (mf_resources m).
Definition settingsOf (m : Manifest) : list (string * value) :=
  flat_map (fun c => flat_map (fun e => match snd e with Some p => [(fst e, p_value p)] | None => [] end) (ct_settings c)) (stepsOf m).
Definition variablesOf (m : Manifest) : list string := flat_map (fun c => map fst (ct_environment c)) (stepsOf m).
Lemma number_like : exists m out m', sample print m = Ok out /\ parse sampleDecoder out = Ok m' /\
  settingsOf m = [("port", VStr "8080")] /\ settingsOf m' = [("port", VInt 8080)].
Proof.
  set (m := parsed "kind: pipeline
steps:
- name: a
  settings:
    port: ""8080""
"). exists m, (printed m), (parsed (printed m)). computed.
Qed.
Lemma empty_variable : exists m out m', sample print m = Ok out /\ parse sampleDecoder out = Ok m' /\
  variablesOf m = ["EMPTY"; "ZONE"] /\ variablesOf m' = ["ZONE"].
Proof.
  set (m := parsed "kind: pipeline
steps:
- name: a
  environment:
    EMPTY: """"
    ZONE: eu
"). exists m, (printed m), (parsed (printed m)). computed.
Qed.
Definition firstPipeline (m : Manifest) : Pipeline := match mf_resources m with RPipeline p :: _ => p | _ => samplePipeline end.
Lemma matrix_dropped : exists m out m' p p', sample print m = Ok out /\ parse sampleDecoder out = Ok m' /\
  mf_resources m = [RPipeline p] /\ mf_resources m' = [RPipeline p'] /\
  w_matrix (pi_trigger p) <> [] /\ w_matrix (pi_trigger p') = [].
Proof.
  set (m := parsed "kind: pipeline
trigger:
  matrix:
    GO: 1.10
"). exists m, (printed m), (parsed (printed m)), (firstPipeline m), (firstPipeline (parsed (printed m))).
  split; [vm_compute; reflexivity|]. split; [vm_compute; reflexivity|]. split; [vm_compute; reflexivity|]. split; [vm_compute; reflexivity|].
  split; vm_compute; [discriminate|reflexivity].
Qed.

(** ** Formatting twice *)
Lemma format_twice : forall isPrintHigh formatFloat sprintFloat bytesSize resolve ramInBytes reader, Resolver resolve -> Reads resolve reader ->
  forall m, mf_resources m <> [] -> Forall (Formattable resolve ramInBytes formatFloat bytesSize) (mf_resources m) ->
  forall out, print isPrintHigh formatFloat sprintFloat bytesSize m = Ok out ->
  (forall lines, ParseSpec.Lines out lines -> Forall ParseSpec.Short lines) ->
  exists m', parse (treeDecoder ramInBytes reader) out = Ok m' /\
    print isPrintHigh formatFloat sprintFloat bytesSize m' = Ok out.
Proof.
  intros iph ff sf bs resolve ram reader HR HRd m N F out E S. destruct (round_trip iph ff sf bs resolve ram reader HR HRd m N F) as (out' & E' & _ & B).
  assert (out' = out) by congruence. subst out'. destruct (B S) as (m' & P & R). exists m'. split; [exact P|]. rewrite <- E. eapply same_text; [exact F|exact R].
Qed.
(** A reader that skips lines of comments. *)
Definition commentReader (text : string) : option node :=
  match readYaml plainResolve text with
  | Some n => Some n
  | None => readYaml plainResolve (join nl (filter (fun l => negb (hasPrefix l "#")) (split_on NL text)))
  end.
Definition commented : string := ("# The configuration." +++ nl +++ sampleText)%string.
Lemma comment_reader : Reads plainResolve (readYaml plainResolve) /\ Reads plainResolve commentReader /\
  exists out m', readYaml plainResolve commented = None /\ parse (treeDecoder noSize commentReader) commented = Ok sampleManifest /\
    sample print sampleManifest = Ok out /\ parse (treeDecoder noSize commentReader) out = Ok m' /\ sample print m' = Ok out.
Proof.
  split; [intros t n _ E; exact E|]. split; [intros t n _ E; unfold commentReader; rewrite E; reflexivity|].
  exists (printed sampleManifest), (parsed (printed sampleManifest)). computed.
Qed.
Lemma not_always : exists m out m' out', sample print m = Ok out /\ parse sampleDecoder out = Ok m' /\
  sample print m' = Ok out' /\ out' <> out.
Proof.
  set (m := parsed "kind: pipeline
steps:
- name: a
  environment:
    EMPTY: """"
"). exists m, (printed m), (parsed (printed m)), (printed (parsed (printed m))).
  split; [vm_compute; reflexivity|]. split; [vm_compute; reflexivity|]. split; [vm_compute; reflexivity|]. vm_compute. discriminate.
Qed.
