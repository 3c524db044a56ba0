(** * Json.v: theorems C91 to C93. *)
From Coq Require Import Floats.SpecFloat.
From Verif Require Import Model.Go Model.Types Model.Decode Model.Json Spec.DecodeSpec Spec.PrettySpec Spec.JsonSpec
  Proofs.JsonFacts Proofs.JsonWrite Proofs.JsonPanic Proofs.JsonRound Conform.JsonCases.

(** ** C91 *)
Theorem C91_resource : forall parseFloat j, Clear j -> forall r, unmarshalResource parseFloat j = Some r <-> JResource parseFloat j r.
Proof. exact jexact_resource. Qed.
Print Assumptions C91_resource.
Theorem C91_manifest : forall parseFloat j m m', Clear j -> unmarshalJSON parseFloat m j = Some m' <->
  exists rs, JResourceList parseFloat j rs /\ mf_resources m' = mf_resources m ++ rs.
Proof. exact unmarshal_iff. Qed.
Print Assumptions C91_manifest.
(** A document with keys in any case, null entries, and a kind nothing is known about. *)
Definition oddDocument : json :=
  JArr [JObj [("KIND", JStr "cron"); ("Name", JStr "nightly"); ("spec", JObj [("Schedule", JStr "@daily"); ("branch", JNull)])];
        JObj [("kind", JStr "other"); ("steps", JArr [JNull; JObj [("image", JStr "golang"); ("unknown", JNum "1e400")]])]].
Example C91_case : Clear oddDocument /\ exists c p, unmarshalJSON sampleParse noResources oddDocument = Some {| mf_resources := [RCron c; RPipeline p] |} /\
  cr_name c = "nightly" /\ cr_schedule c = "@daily" /\ cr_branch c = "" /\ pi_kind p = "other" /\
  option_map (option_map ct_image) (nth_error (pi_steps p) 1) = Some (Some "golang") /\ nth_error (pi_steps p) 0 = Some None.
Proof.
  split.
  - unfold oddDocument. repeat (match goal with
      | |- Clear _ => constructor
      | |- NoDup _ => cbn; repeat (constructor; [cbn; intuition discriminate|]); constructor
      | |- forall j, In j _ -> _ => intros ? I; cbn in I; repeat destruct I as [<-|I]; try destruct I
      | |- forall k j, In (k, j) _ -> _ => intros ? ? I; cbn in I; repeat (destruct I as [I|I]; [injection I as <- <-|]); try destruct I
      end).
  - eexists _, _. split; [vm_compute; reflexivity|]. repeat split.
Qed.

(** ** C92 *)
Theorem C92_written : forall formatFloat m, (forall r, In r (mf_resources m) -> GoResource r) ->
  forall j, marshalJSON formatFloat m = Ok j <-> WManifest formatFloat (mf_resources m) j.
Proof. exact marshal_iff. Qed.
Print Assumptions C92_written.
Theorem C92_writable : forall formatFloat m, (forall r, In r (mf_resources m) -> GoResource r) ->
  (exists j, marshalJSON formatFloat m = Ok j) <-> forall r, In r (mf_resources m) -> WritableResource r.
Proof. exact manifest_ok. Qed.
Print Assumptions C92_writable.
(** What cannot be written is refused; nothing panics. *)
Theorem C92_never_panics : forall formatFloat m,
  (exists j, marshalJSON formatFloat m = Ok j) \/ (exists e, marshalJSON formatFloat m = Err e).
Proof. exact marshal_safe. Qed.
Print Assumptions C92_never_panics.
(** Every text has exactly one form as JSON. *)
Theorem C92_text : forall s, exists t, forall t', Cleaned s t' <-> t' = t.
Proof. exact (fun s => ex_intro _ (coerce s) (cleaned_iff s)). Qed.
Print Assumptions C92_text.

Example C92_case : (forall r, In r (mf_resources (manifestWith (VList [VInt 1; VStr "a"]))) -> GoResource r) /\
  marshalJSON sampleFormat (manifestWith (VList [VInt 1; VStr "a"])) = Ok (JArr
   [JObj [("kind", JStr "pipeline"); ("name", JStr "default"); ("clone", JObj []); ("concurrency", JObj []); ("platform", JObj []);
      ("steps", JArr [JObj [("commands", JArr [JStr "make"]); ("environment", JObj [("A", JNull); ("B", JObj [("value", JStr "1")])]);
         ("image", JStr "golang"); ("name", JStr "build"); ("ports", JArr [JObj [("port", JNum "80")]]);
         ("resources", JObj [("limits", JObj [("cpu", JNum "+x0"); ("memory", JNum "1024")])]);
         ("settings", JObj [("key", JObj [("value", JArr [JNum "1"; JStr "a"])])]); ("when", jConditions noConds)]; JNull]);
      ("trigger", jConditions noConds); ("workspace", JObj [])];
    JObj [("kind", JStr "signature"); ("hmac", JStr "abc")]]).
Proof.
  split; [|vm_compute; reflexivity]. intros r I. apply (sampleGo' (VList [VInt 1; VStr "a"])); [|exact I].
  constructor. intros v [<-|[<-|[]]]; constructor.
Qed.
Example C92_unicode : coerce (String "a" (String "200" "b")) = ("a" +++ replacement +++ "b")%string.
Proof. reflexivity. Qed.
(** A setting that is a mapping, as the yaml decoder reads it, makes the whole manifest impossible to write. *)
Theorem C92_every_manifest_refuted : exists n p,
  decPipeline (fun _ => None) n = Some p /\ GoPipeline p /\ forall formatFloat j, marshalJSON formatFloat {| mf_resources := [RPipeline p] |} <> Ok j.
Proof.
  exists (NMap [(NStr "kind", NStr "pipeline"); (NStr "name", NStr "default");
                (NStr "steps", NSeq [NMap [(NStr "name", NStr "build"); (NStr "image", NStr "golang"); (NStr "commands", NSeq [NStr "make"]);
                   (NStr "environment", NMap [(NStr "B", NInt "1" 1); (NStr "A", NNull)]); (NStr "ports", NSeq [NInt "80" 80]);
                   (NStr "resources", NMap [(NStr "limits", NMap [(NStr "memory", NInt "1024" 1024)])]);
                   (NStr "settings", NMap [(NStr "key", NMap [(NStr "a", NStr "b")])])]; NNull])]).
  exists (pipelineWith [("key", Some {| p_value := VMap [(VStr "a", VStr "b")]; p_secret := "" |})]).
  split; [vm_compute; reflexivity|]. split; [apply sampleGo; constructor|]. intros formatFloat j. discriminate.
Qed.
Print Assumptions C92_every_manifest_refuted.

(** ** C93 *)
Theorem C93_round_trip : forall clean, (forall s, Cleaned s (clean s)) ->
  forall formatFloat parseFloat, Spelling formatFloat parseFloat ->
  forall m j old, (forall r, In r (mf_resources m) -> GoResource r /\ Kinded r) -> marshalJSON formatFloat m = Ok j ->
  unmarshalJSON parseFloat old j = Some {| mf_resources := mf_resources old ++ map (backResource clean) (mf_resources m) |}.
Proof. exact round_trip. Qed.
Print Assumptions C93_round_trip.
Example C93_case : (forall s, Cleaned s (coerce s)) /\ Spelling sampleFormat sampleParse /\
  let m := manifestWith (VList [VBool true; VStr "a"]) in
  (forall r, In r (mf_resources m) -> GoResource r /\ Kinded r) /\
  exists j, marshalJSON sampleFormat m = Ok j /\
    option_map mf_resources (unmarshalJSON sampleParse noResources j) = Some (map (backResource coerce) (mf_resources m)).
Proof.
  split; [exact coerce_cleaned|]. split; [exact sampleSpelling|]. cbv zeta. split.
  - apply sampleGo'. constructor. intros v [<-|[<-|[]]]; constructor.
  - eexists. split; [vm_compute; reflexivity|]. vm_compute. reflexivity.
Qed.
(** Two different numbers in settings are the same when read back. *)
Theorem C93_same_values_refuted : exists m1 m2 j1 j2,
  (forall r, In r (mf_resources m1 ++ mf_resources m2) -> GoResource r /\ Kinded r) /\ m1 <> m2 /\
  marshalJSON sampleFormat m1 = Ok j1 /\ marshalJSON sampleFormat m2 = Ok j2 /\ j1 <> j2 /\
  exists m, unmarshalJSON sampleParse noResources j1 = Some m /\ unmarshalJSON sampleParse noResources j2 = Some m.
Proof.
  exists (manifestWith (VInt 9007199254740992)), (manifestWith (VInt 9007199254740993)). eexists _, _.
  split; [intros r I; apply in_app_or in I; destruct I as [I|I]; [apply (sampleGo' (VInt 9007199254740992))|apply (sampleGo' (VInt 9007199254740993))]; try exact I; constructor|].
  split; [intro E; discriminate E|]. split; [vm_compute; reflexivity|]. split; [vm_compute; reflexivity|]. split; [discriminate|].
  eexists. split; vm_compute; reflexivity.
Qed.
Print Assumptions C93_same_values_refuted.
(** A resource whose kind is not set comes back as a pipeline. *)
Theorem C93_same_type_refuted : exists c j p, (forall formatFloat, marshalJSON formatFloat {| mf_resources := [RCron c] |} = Ok j) /\
  forall parseFloat, unmarshalJSON parseFloat noResources j = Some {| mf_resources := [RPipeline p] |}.
Proof.
  exists {| cr_version := ""; cr_kind := ""; cr_type := ""; cr_name := "nightly"; cr_schedule := "@daily"; cr_branch := ""; cr_target := "" |}.
  eexists _, _. split; [intro; vm_compute; reflexivity|]. intro. vm_compute. reflexivity.
Qed.
Print Assumptions C93_same_type_refuted.
