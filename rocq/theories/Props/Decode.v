(** * Decode.v: theorems C50 to C52 and C71 to C73. *)
From Coq Require Import Floats.SpecFloat Sorting.Permutation.
From Verif Require Import Model.Go Model.Types Model.Cond Model.RawParse Model.Lint Model.Encode Model.Decode Spec.DecodeSpec
  Proofs.DecodeFacts Proofs.DecodeMore Conform.SimpleGlob.

(** ** C50 *)
Theorem C50_table : forall n, Distinct n -> forall c, decCondition n = Some c <-> IsCondition n c.
Proof. exact exact_condition. Qed.
Print Assumptions C50_table.
Theorem C50_never_fails : forall n, exists c, decCondition n = Some c.
Proof. exact condition_total. Qed.
Print Assumptions C50_never_fails.
Theorem C50_unreadable : forall m, Distinct (NMap m) ->
  (forall key l, In (key, NSeq l) m -> ~ IsText key "include" /\ ~ IsText key "exclude") ->
  decCondition (NMap m) = Some {| c_include := []; c_exclude := [] |}.
Proof. exact unreadable_condition. Qed.
Print Assumptions C50_unreadable.
(** when: {branch: {include: main}} accepts every branch. *)
Theorem C50_scalar_include_refuted : exists n c, n = NMap [(NStr "include", NStr "main")] /\
  decCondition n = Some c /\ Match simpleGlob c "other" = true.
Proof. eexists _, _. repeat split. Qed.
Print Assumptions C50_scalar_include_refuted.
Example C50_case :
  decCondition (NStr "main") = Some {| c_include := ["main"]; c_exclude := [] |} /\
  decCondition (NInt "1" 1) = Some {| c_include := ["1"]; c_exclude := [] |} /\
  decCondition (NSeq [NStr "main"; NSeq []; NBool "yes" true]) = Some {| c_include := ["main"; "yes"]; c_exclude := [] |} /\
  decCondition (NMap [(NStr "exclude", NSeq [NStr "dev"]); (NStr "include", NSeq [NStr "main"; NNull])]) =
    Some {| c_include := ["main"; ""]; c_exclude := ["dev"] |} /\
  Distinct (NMap [(NStr "exclude", NSeq [NStr "dev"]); (NStr "include", NSeq [NStr "main"; NNull])]).
Proof.
  repeat (split; [reflexivity|]). constructor.
  - repeat constructor; cbn; intuition discriminate.
  - cbn. intros k v [E|[E|[]]]; injection E as <- <-; split; constructor; cbn; intros n I; intuition (subst; constructor).
Qed.

(** ** C51 *)
Theorem C51_variable : forall n, Distinct n -> forall v, decVariable n = Some v <-> IsVariable n v.
Proof. exact exact_variable. Qed.
Print Assumptions C51_variable.
Theorem C51_parameter : forall n, Distinct n -> forall p, decParameter n = Some p <-> IsParameter n p.
Proof. exact exact_parameter. Qed.
Print Assumptions C51_parameter.
Theorem C51_variable_roundtrip : forall v, v_value v = "" \/ v_secret v = "" ->
  decPtr decVariable (marshalVariable v) =
    Some (if isEmpty (v_value v) && isEmpty (v_secret v) then None else Some v).
Proof. exact variable_roundtrip. Qed.
Print Assumptions C51_variable_roundtrip.
Theorem C51_variable_roundtrip_refuted : exists v n, n = NMap [(NStr "value", NStr "x"); (NStr "from_secret", NStr "s")] /\
  decVariable n = Some v /\ decPtr decVariable (marshalVariable v) <> Some (Some v).
Proof. eexists _, _. split; [reflexivity|]. split; [reflexivity|]. discriminate. Qed.
Print Assumptions C51_variable_roundtrip_refuted.
Theorem C51_secret_setting_roundtrip : forall s n, s <> "" ->
  IsValue n (marshalParameter {| p_value := VNull; p_secret := s |}) ->
  decPtr decParameter n = Some (Some {| p_value := VNull; p_secret := s |}).
Proof. exact secret_parameter_roundtrip. Qed.
Print Assumptions C51_secret_setting_roundtrip.
Theorem C51_setting_roundtrip : forall v n, Distinct n -> (forall s, ~ RefersTo n s) ->
  IsValue n (marshalParameter {| p_value := v; p_secret := "" |}) ->
  decPtr decParameter n =
    Some (match v with VNull | VStr "" => None | _ => Some {| p_value := v; p_secret := "" |} end).
Proof. exact value_parameter_roundtrip. Qed.
Print Assumptions C51_setting_roundtrip.
Example C51_case :
  decVariable (NInt "0x1F" 31) = Some {| v_value := "0x1F"; v_secret := "" |} /\
  decVariable (NMap [(NStr "from_secret", NStr "token")]) = Some {| v_value := ""; v_secret := "token" |} /\
  decVariable (NSeq []) = None /\
  decParameter (NInt "0x1F" 31) = Some {| p_value := VInt 31; p_secret := "" |} /\
  decParameter (NMap [(NStr "from_secret", NStr "token"); (NStr "x", NNull)]) = Some {| p_value := VNull; p_secret := "token" |} /\
  decParameter (NMap [(NStr "from_secret", NStr "")]) =
    Some {| p_value := VMap [(VStr "from_secret", VStr "")]; p_secret := "" |} /\
  decParameter (NMap [(NSeq [], NNull)]) = None /\
  (forall s, ~ RefersTo (NSeq [NStr "a"]) s) /\
  IsValue (NSeq [NStr "a"]) (marshalParameter {| p_value := VList [VStr "a"]; p_secret := "" |}).
Proof.
  repeat (split; [reflexivity|]). split.
  - intros s (_ & f & [[E _]|(l & E & _)] & _); discriminate.
  - repeat constructor.
Qed.

(** ** C52 *)
Theorem C52_port : forall n, Distinct n -> forall p, decPort n = Some p <-> IsPort n p.
Proof. exact exact_port. Qed.
Print Assumptions C52_port.
Theorem C52_build : forall n, Distinct n -> forall b, decBuild n = Some b <-> IsBuild n b.
Proof. exact exact_build. Qed.
Print Assumptions C52_build.
Theorem C52_push : forall n, Distinct n -> forall p, decPush n = Some p <-> IsPush n p.
Proof. exact exact_push. Qed.
Print Assumptions C52_push.
Theorem C52_port_roundtrip : forall p, Fits (po_port p) -> Fits (po_host p) -> decPort (portNode p) = Some p.
Proof. exact port_roundtrip. Qed.
Print Assumptions C52_port_roundtrip.
Theorem C52_build_roundtrip : forall b, decBuild (buildNode b) = Some b.
Proof. exact build_roundtrip. Qed.
Print Assumptions C52_build_roundtrip.
Theorem C52_push_roundtrip : forall p, decPush (pushNode p) = Some p.
Proof. exact push_roundtrip. Qed.
Print Assumptions C52_push_roundtrip.
Example C52_case :
  decPort (NInt "8080" 8080) = Some {| po_port := 8080; po_host := 0; po_protocol := "" |} /\
  decPort (NFloat "80.5" (S754_finite false 161 (-1))) = Some {| po_port := 80; po_host := 0; po_protocol := "" |} /\
  decPort (NStr "8080") = None /\
  decPort (NMap [(NStr "host", NInt "80" 80)]) = Some {| po_port := 0; po_host := 80; po_protocol := "" |} /\
  decBuild (NStr "octocat/hello-world") = Some (imageBuild "octocat/hello-world") /\
  decBuild (NSeq []) = None /\ decPush (NStr "a") = Some {| pu_image := "a" |} /\
  Fits 8080 /\ IntegerPart (S754_finite false 161 (-1)) 80.
Proof. repeat (split; [reflexivity|]). split; vm_compute; intuition discriminate. Qed.

(** ** C71 *)
Theorem C71_document : forall ramInBytes read raw n r, read (rr_data raw) = Some n -> Distinct n ->
  parseRaw (treeDecoder ramInBytes read) raw = Ok r <-> IsResource ramInBytes (rr_kind raw) n r.
Proof. exact resource_iff. Qed.
Print Assumptions C71_document.
Theorem C71_header : forall n h, Distinct n -> decHeader n = Some h <->
  exists f, Fields n f /\ HasText f "version" (h_version h) /\ HasText f "kind" (h_kind h) /\ HasText f "type" (h_type h).
Proof. exact header_iff. Qed.
Print Assumptions C71_header.
(** A pipeline with a step, as a tree. *)
Definition stepTree : node :=
  NMap [(NStr "image", NStr "golang:1.12"); (NStr "name", NStr "build");
        (NStr "commands", NSeq [NStr "go build"; NInt "42" 42]);
        (NStr "environment", NMap [(NStr "GOOS", NStr "linux"); (NStr "EMPTY", NNull)]);
        (NStr "settings", NMap [(NStr "tags", NSeq [NStr "a"; NInt "1" 1])]);
        (NStr "ports", NSeq [NInt "80" 80]);
        (NStr "resources", NMap [(NStr "limits", NMap [(NStr "memory", NStr "1GiB"); (NStr "cpu", NInt "2" 2)])]);
        (NStr "when", NMap [(NStr "branch", NStr "main")])].
Definition pipelineTree : node :=
  NMap [(NStr "kind", NStr "pipeline"); (NStr "name", NStr "default"); (NStr "steps", NSeq [stepTree; NNull])].
Definition someSizes (s : string) : option Z := if String.eqb s "1GiB" then Some 1073741824%Z else None.
Definition readTree (s : string) : option node := if String.eqb s "doc" then Some pipelineTree else None.
Ltac distinct :=
  repeat first [ apply distinct_null | apply distinct_str | apply distinct_bool | apply distinct_int | apply distinct_float
    | apply distinct_seq; let n := fresh in let I := fresh in intros n I; cbn [In] in I;
      repeat (destruct I as [I|I]; [rewrite <- I; clear I; try clear n|]); [..|destruct I]
    | apply distinct_map; [repeat constructor; cbn; intuition discriminate|
      let k := fresh in let v := fresh in let I := fresh in intros k v I; cbn [In] in I;
      repeat (destruct I as [I|I]; [injection I as <- <-; split|]); [..|destruct I]] ].
Lemma pipelineTree_distinct : Distinct pipelineTree.
Proof. unfold pipelineTree, stepTree. distinct. Qed.
Definition sampleRaw : RawResource := {| rr_version := ""; rr_kind := "pipeline"; rr_type := ""; rr_data := "doc" |}.
Example C71_case : exists p c,
  readTree (rr_data sampleRaw) = Some pipelineTree /\ Distinct pipelineTree /\
  parseRaw (treeDecoder someSizes readTree) sampleRaw = Ok (RPipeline p) /\
  pi_steps p = [Some c; None] /\ ct_commands c = ["go build"; "42"] /\
  ct_environment c = [("GOOS", Some {| v_value := "linux"; v_secret := "" |}); ("EMPTY", None)] /\
  ct_settings c = [("tags", Some {| p_value := VList [VStr "a"; VInt 1]; p_secret := "" |})] /\
  option_map ro_memory (match ct_resources c with Some r => re_limits r | None => None end) = Some 1073741824%Z /\
  c_include (w_branch (ct_when c)) = ["main"].
Proof.
  eexists _, _. split; [reflexivity|]. split; [exact pipelineTree_distinct|]. split; [vm_compute; reflexivity|].
  repeat (split; [vm_compute; reflexivity|]). vm_compute. reflexivity.
Qed.

(** ** C72 *)
Theorem C72_pipeline_key_order : forall ram m m', Distinct (NMap m) -> Permutation m m' ->
  decPipeline ram (NMap m) = decPipeline ram (NMap m').
Proof. exact pipeline_order. Qed.
Print Assumptions C72_pipeline_key_order.
Theorem C72_step_key_order : forall ram m m', Distinct (NMap m) -> Permutation m m' ->
  decContainer ram (NMap m) = decContainer ram (NMap m').
Proof. exact container_order. Qed.
Print Assumptions C72_step_key_order.
Theorem C72_unknown_pipeline_key : forall ram m k v, ~ In k pipelineKeys ->
  decPipeline ram (NMap ((NStr k, v) :: m)) = decPipeline ram (NMap m).
Proof. exact pipeline_unknown. Qed.
Print Assumptions C72_unknown_pipeline_key.
Theorem C72_unknown_step_key : forall ram m k v, ~ In k stepKeys ->
  decContainer ram (NMap ((NStr k, v) :: m)) = decContainer ram (NMap m).
Proof. exact container_unknown. Qed.
Print Assumptions C72_unknown_step_key.
Example C72_case :
  Permutation [(NStr "name", NStr "a"); (NStr "image", NStr "b")] [(NStr "image", NStr "b"); (NStr "name", NStr "a")] /\
  ~ In "privileged: " stepKeys /\ ~ In "command_line" stepKeys /\
  option_map ct_privileged (decContainer someSizes (NMap [(NStr "privilged", NBool "true" true); (NStr "name", NStr "a")])) = Some false /\
  option_map ct_name (decContainer someSizes (NMap [(NStr "privilged", NBool "true" true); (NStr "name", NStr "a")])) = Some "a".
Proof. split; [apply perm_swap|]. repeat split; try reflexivity; vm_compute; intuition discriminate. Qed.

(** ** C73 *)
Theorem C73_null_steps : forall ram n p f l, Distinct n -> decPipeline ram n = Some p -> Fields n f ->
  In ("steps", NSeq l) f -> In NNull l <-> In None (pi_steps p).
Proof. exact null_steps_decoded. Qed.
Print Assumptions C73_null_steps.
Theorem C73_parse_then_lint_refuted : exists ram read raw p,
  parseRaw (treeDecoder ram read) raw = Ok (RPipeline p) /\ Lint (RPipeline p) true = Panic.
Proof.
  exists someSizes, readTree, sampleRaw. eexists. split; vm_compute; reflexivity.
Qed.
Print Assumptions C73_parse_then_lint_refuted.
Example C73_case : exists p, decPipeline someSizes pipelineTree = Some p /\ In None (pi_steps p).
Proof. eexists. split; [vm_compute; reflexivity|]. cbn. auto. Qed.
