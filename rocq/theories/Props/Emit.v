(** * Emit.v: theorems C94 and C95. *)
From Coq Require Import Floats.SpecFloat.
From Verif Require Import Model.Go Model.Types Model.RawParse Model.Decode Model.Emit Spec.ParseSpec Spec.DecodeSpec Spec.JsonSpec Spec.EmitSpec
  Proofs.EmitFacts Conform.EmitCases.

(** ** C94 *)
Theorem C94_documents : forall floatNode less render read m,
  (forall r, In r (mf_resources m) -> Legible render read (nResource floatNode less r)) ->
  exists t, encodeManifest floatNode less render m = Ok t /\
    forall D raws, parseRawString D t = Ok raws <->
      Forall2 (fun r raw => rr_data raw = render (nResource floatNode less r) /\
        dec_header D (rr_data raw) = Some {| h_version := rr_version raw; h_kind := rr_kind raw; h_type := rr_type raw |}) (mf_resources m) raws.
Proof. exact encode_documents. Qed.
Print Assumptions C94_documents.
Theorem C94_keys : forall floatNode less r, HasKeys (nResource floatNode less r) (resourceKeys r).
Proof. exact resource_keys. Qed.
Print Assumptions C94_keys.
Theorem C94_step_keys : forall floatNode less p, exists ss ts,
  Under (nResource floatNode less (RPipeline p)) "services" (NSeq ss) /\ Under (nResource floatNode less (RPipeline p)) "steps" (NSeq ts) /\
  Forall2 StepTree (pi_services p) ss /\ Forall2 StepTree (pi_steps p) ts.
Proof. exact pipeline_steps_tree. Qed.
Print Assumptions C94_step_keys.
Theorem C94_order : forall floatNode less, (forall a b, less a b = true -> less b a = false) ->
  (forall a b c, less a b = false -> less b c = false -> less a c = false) ->
  forall g, exists es, Under (nResource floatNode less (RRegistry g)) "data" (NMap es) /\ InOrder less es.
Proof. exact registry_order. Qed.
Print Assumptions C94_order.
(** For example, shorter keys first. *)
Definition shorter (a b : node) : bool :=
  match a, b with NStr s, NStr t => Nat.ltb (String.length s) (String.length t) | NStr _, _ => false | _, NStr _ => true | _, _ => false end.
Example C94_order_case : (forall a b, shorter a b = true -> shorter b a = false) /\
  (forall a b c, shorter a b = false -> shorter b c = false -> shorter a c = false) /\
  nResource sampleFloatNode shorter (RRegistry {| rg_version := ""; rg_kind := "registry"; rg_type := ""; rg_data := [("docker.io", "x"); ("a.b", "y")] |}) =
    NMap [(NStr "version", NStr ""); (NStr "kind", NStr "registry"); (NStr "type", NStr "");
          (NStr "data", NMap [(NStr "a.b", NStr "y"); (NStr "docker.io", NStr "x")])].
Proof.
  assert (L : forall a b, Nat.ltb a b = false <-> b <= a) by (intros; apply Nat.ltb_ge).
  split; [|split; [|reflexivity]].
  - intros [] [] H; cbn in *; try discriminate; try reflexivity. apply L. apply Nat.ltb_lt in H. apply Nat.lt_le_incl. exact H.
  - intros [] [] [] H1 H2; cbn in *; try discriminate; try reflexivity. apply L in H1. apply L in H2. apply L. exact (Nat.le_trans _ _ _ H2 H1).
Qed.
Example C94_case : (forall r, In r (mf_resources sampleManifest) -> Legible sampleRender sampleRead (nResource sampleFloatNode sampleLess r)) /\
  encodeManifest sampleFloatNode sampleLess sampleRender sampleManifest = Ok (text (pipelineLines ++ "---" :: signatureLines)).
Proof. split; [exact sampleLegible|]. vm_compute. reflexivity. Qed.

(** ** C95 *)
Theorem C95_round_trip : forall floatNode, FloatTree floatNode -> forall ram less render read m,
  (forall r, In r (mf_resources m) -> YamlResource r /\ Kinded r /\ getKind r <> "" /\ Legible render read (nResource floatNode less r)) ->
  exists t m', encodeManifest floatNode less render m = Ok t /\ parse (treeDecoder ram read) t = Ok m' /\
    Forall2 ResourceAgain (mf_resources m) (mf_resources m').
Proof. exact emit_round_trip. Qed.
Print Assumptions C95_round_trip.
Example C95_case : FloatTree sampleFloatNode /\
  forall r, In r (mf_resources sampleManifest) -> YamlResource r /\ Kinded r /\ getKind r <> "" /\
    Legible sampleRender sampleRead (nResource sampleFloatNode sampleLess r).
Proof.
  split; [exact sampleFloats|]. intros r I. destruct (sampleYaml r I) as (Y & K & N). auto using sampleLegible.
Qed.
(** An empty variable is read back as null, and a float that is whole as an integer. *)
Theorem C95_same_values_refuted : exists t m' p p' c c',
  encodeManifest sampleFloatNode sampleLess sampleRender sampleManifest = Ok t /\
  parse (treeDecoder (fun _ => None) sampleRead) t = Ok m' /\
  nth_error (mf_resources sampleManifest) 0 = Some (RPipeline p) /\ nth_error (mf_resources m') 0 = Some (RPipeline p') /\
  nth_error (pi_steps p) 0 = Some (Some c) /\ nth_error (pi_steps p') 0 = Some (Some c') /\
  mget "DEBUG" (ct_environment c) = Some (Some {| v_value := ""; v_secret := "" |}) /\ mget "DEBUG" (ct_environment c') = Some None /\
  mget "ratio" (ct_settings c) = Some (Some {| p_value := VFloat (S754_finite false 4503599627370496 (-51)); p_secret := "" |}) /\
  mget "ratio" (ct_settings c') = Some (Some {| p_value := VInt 2; p_secret := "" |}).
Proof.
  do 6 eexists. split; [vm_compute; reflexivity|]. split; [vm_compute; reflexivity|].
  split; [reflexivity|]. split; [reflexivity|]. split; [reflexivity|]. split; [reflexivity|]. repeat split.
Qed.
Print Assumptions C95_same_values_refuted.
