(** * JsonRound.v: what Manifest.MarshalJSON writes, Manifest.UnmarshalJSON reads back. *)
From Coq Require Import Floats.SpecFloat Decimal DecimalString DecimalZ Lia.
From Verif Require Import Model.Go Model.Types Model.Decode Model.Json.
From Verif Require Import Spec.DecodeSpec Spec.PrettySpec Spec.ScriptSpec Spec.JsonSpec.
From Verif Require Import Proofs.GoFacts Proofs.JsonFacts Proofs.JsonWrite.
From Verif Require Proofs.CompileMore.

Definition Reads {A} (dec : json -> option A) (zero : A) (E : Entry) (x : A) : Prop :=
  forall o, E o -> match o with None => Some zero | Some j => dec j end = Some x.
Definition Back {A B} (dec : json -> option B) (R : A -> json -> Prop) (a : A) (x : B) : Prop := forall j, R a j -> dec j = Some x.
Fixpoint lowKeys (l : list string) : bool :=
  match l with [] => true | k :: l' => String.eqb (toLower k) k && negb (smem k l') && lowKeys l' end.
Lemma jget_flatten_none : forall k ks os, ~ In k ks -> lowKeys ks = true -> jget k (flatten (combine ks os)) = None.
Proof.
  intros k ks. induction ks as [|k' ks IH]; intros os N L; [reflexivity|]. destruct os as [|o os]; [reflexivity|].
  cbn [lowKeys] in L. apply andb_true_iff in L. destruct L as [L1 L]. apply andb_true_iff in L1. destruct L1 as [L1 _]. apply String.eqb_eq in L1.
  assert (X := IH os (fun I => N (or_intror I)) L). cbn [combine]. unfold flatten in *. cbn [flat_map fst snd].
  destruct o as [j|]; cbn [app jget]; [|exact X]. rewrite L1. destruct (String.eqb_spec k' k) as [->|D]; [|exact X].
  exfalso. apply N. left. reflexivity.
Qed.
Lemma object_reads : forall l j, Object l j -> lowKeys (map fst l) = true ->
  exists f, j = JObj f /\ forall k E, In (k, E) l -> forall A (dec : json -> option A) zero x, Reads dec zero E x -> ufield dec zero k f = Some x.
Proof.
  intros l j (os & F & ->) L. eexists. split; [reflexivity|]. intros k E I A dec zero x R. unfold ufield.
  enough (X : exists o, E o /\ jget k (flatten (combine (map fst l) os)) = o) by (destruct X as (o & Eo & ->); specialize (R o Eo); destruct o; exact R).
  clear R. revert I L. induction F as [|[k' E'] o l os Ho F IH]; intros I L; [destruct I|].
  cbn [map fst lowKeys] in L. apply andb_true_iff in L. destruct L as [L1 L]. apply andb_true_iff in L1. destruct L1 as [L1 L2].
  apply String.eqb_eq in L1. apply negb_true_iff in L2. cbn [map fst snd combine]. unfold flatten. cbn [flat_map fst snd]. fold (flatten (combine (map fst l) os)).
  assert (N2 : ~ In k' (map fst l)) by (intro X; apply smem_In in X; congruence).
  destruct I as [X|I].
  - injection X as -> ->. exists o. split; [exact Ho|]. destruct o as [j|]; cbn [app jget].
    + rewrite L1, String.eqb_refl. reflexivity.
    + apply jget_flatten_none; assumption.
  - destruct (IH I L) as (o' & Eo & X). exists o'. split; [exact Eo|]. destruct o as [j|]; cbn [app jget]; [|exact X].
    rewrite L1. destruct (String.eqb_spec k' k) as [->|D]; [|exact X]. exfalso. apply N2. apply in_map_iff. exists (k, E). auto.
Qed.

Section Round.
  Variable clean : string -> string.
  Hypothesis cleaned : forall s, Cleaned s (clean s).
  Lemma clean_eq : forall s t, Cleaned s t -> t = clean s.
  Proof. intros s t H. apply cleaned_iff in H. pose proof (cleaned s) as H'. apply cleaned_iff in H'. congruence. Qed.
  Lemma back_text : forall s, Back uString WText s (clean s).
  Proof. intros s j (t & C & ->). rewrite (clean_eq s t C). reflexivity. Qed.
  Lemma back_int : forall z, Fits z -> Back uInt WInt z z.
  Proof.
    intros z F j ->. cbn [uInt]. apply parseInt_iff. exists (Z.to_int z). pose proof (CompileMore.int_back z) as I. unfold itoa in I.
    split; [exact I|]. rewrite DecimalZ.of_to. auto.
  Qed.
  Lemma clean_nil : clean "" = "".
  Proof. symmetry. apply clean_eq. constructor. Qed.
  Lemma reads_text : forall s, Reads uString "" (OText s) (clean s).
  Proof.
    intros s o [[-> ->]|[_ (j & -> & H)]]; [rewrite clean_nil; reflexivity|]. exact (back_text s j H).
  Qed.
  Lemma reads_flag : forall b, Reads uBool false (OFlag b) b.
  Proof. intros b o [[-> ->]|[N (j & -> & ->)]]; [reflexivity|]. destruct b; [reflexivity|contradiction]. Qed.
  Lemma reads_int : forall z, Fits z -> Reads uInt 0%Z (OInt z) z.
  Proof. intros z F o [[-> ->]|[N (j & -> & H)]]; [reflexivity|]. exact (back_int z F j H). Qed.
  Lemma reads_always : forall A B (dec : json -> option B) (R : A -> json -> Prop) zero a x, Back dec R a x -> Reads dec zero (Always (R a)) x.
  Proof. intros A B dec R zero a x H o (j & -> & Rj). exact (H j Rj). Qed.
  Lemma reads_always' : forall B (dec : json -> option B) (P : json -> Prop) zero x, (forall j, P j -> dec j = Some x) -> Reads dec zero (Always P) x.
  Proof. intros B dec P zero x H o (j & -> & Rj). exact (H j Rj). Qed.
  Lemma traverse_back : forall A B (dec : json -> option B) (R : A -> json -> Prop) g l, (forall a, In a l -> Back dec R a (g a)) ->
    forall js, Forall2 R l js -> optTraverse dec js = Some (map g l).
  Proof.
    intros A B dec R g l H js F. induction F as [|a j l js Ra F IH]; [reflexivity|]. cbn [optTraverse map].
    rewrite (H a (or_introl eq_refl) j Ra). cbn [optBind]. rewrite (IH (fun a I => H a (or_intror I))). reflexivity.
  Qed.
  Lemma reads_list : forall A B (dec : json -> option B) (R : A -> json -> Prop) g l, (forall a, In a l -> Back dec R a (g a)) ->
    Reads (uList dec) [] (OList R l) (map g l).
  Proof.
    intros A B dec R g l H o [[-> ->]|[_ (j & -> & js & -> & F)]]; [reflexivity|]. exact (traverse_back A B dec R g l H js F).
  Qed.
  Lemma reads_texts : forall l, Reads (uList uString) [] (OTexts l) (map clean l).
  Proof. intro l. apply (reads_list _ _ uString WText clean). intros a _. apply back_text. Qed.
  Definition Whole {A} (R : A -> json -> Prop) (a : A) : Prop := forall j, R a j -> j <> JNull.
  Lemma whole_object : forall l j, Object l j -> j <> JNull.
  Proof. intros l j (os & _ & ->). discriminate. Qed.
  Lemma ptr_some : forall B (dec : json -> option B) j x, j <> JNull -> dec j = Some x -> uPtr dec j = Some (Some x).
  Proof. intros B dec j x N E. destruct j; try contradiction; cbn [uPtr]; rewrite E; reflexivity. Qed.
  Lemma reads_given : forall A B (dec : json -> option B) (R : A -> json -> Prop) g o,
    (forall a, o = Some a -> Whole R a) -> (forall a, o = Some a -> Back dec R a (g a)) ->
    Reads (uPtr dec) None (Given R o) (option_map g o).
  Proof.
    intros A B dec R g o W H o' [[-> ->]|(x & j & -> & -> & Rj)]; [reflexivity|]. cbn [option_map]. apply ptr_some; [exact (W x eq_refl j Rj)|exact (H x eq_refl j Rj)].
  Qed.
  Lemma back_null : forall A B (dec : json -> option B) (R : A -> json -> Prop) g o,
    (forall a, o = Some a -> Whole R a) -> (forall a, o = Some a -> Back dec R a (g a)) ->
    Back (uPtr dec) (OrNull R) o (option_map g o).
  Proof.
    intros A B dec R g o W H j [[-> ->]|(x & -> & Rj)]; [reflexivity|]. cbn [option_map]. apply ptr_some; [exact (W x eq_refl j Rj)|exact (H x eq_refl j Rj)].
  Qed.
  Lemma reads_map : forall A (dec : json -> option A) (R : A -> json -> Prop) g m,
    (forall k a, In (k, a) m -> Back dec R a (g a)) -> Reads (uMap dec) [] (OMap R m) (cleanMap clean g m).
  Proof.
    intros A dec R g m H o [[-> ->]|[_ (j & -> & es & -> & F)]]; [reflexivity|]. cbn [uMap]. unfold cleanMap.
    assert (H' : forall e, In e (byKey m) -> Back dec R (snd e) (g (snd e))).
    { intros [k a] I. apply (H k). exact (proj1 (PrettyRound.byKey_In m (k, a)) I). }
    clear H. induction F as [|e x l es [C Rx] F IH]; [reflexivity|]. cbn [optTraverse map].
    rewrite (H' e (or_introl eq_refl) _ Rx). cbn [option_map optBind]. rewrite (IH (fun e I => H' e (or_intror I))), (clean_eq _ _ C). reflexivity.
  Qed.
  Lemma reads_textMap : forall m, Reads (uMap uString) [] (OMap WText m) (cleanMap clean clean m).
  Proof. intro m. apply reads_map. intros k a _. apply back_text. Qed.

  Create HintDb rd.
  Hint Resolve reads_text reads_flag reads_int reads_texts reads_textMap : rd.
  Ltac inHere := cbn [In]; repeat first [left; reflexivity | right].
  Ltac readProof := solve [eauto with rd | apply reads_always'; solve [auto]].
  Ltac backProof :=
    let H := fresh "H" in let f := fresh "f" in let G := fresh "G" in
    intro j; intro H; apply object_reads in H; [|reflexivity]; destruct H as (f & -> & G);
    unfold ufString, ufStrings, ufStringMap, ufBool, ufInt; cbn [uStruct]; cbv beta zeta;
    unfold ufString, ufStrings, ufStringMap, ufBool, ufInt;
    repeat (erewrite G; [cbn [optBind]|inHere|readProof]); try reflexivity.
  Lemma back_condition : forall c, Back uCondition WCondition c (backCondition clean c).
  Proof. intro c. unfold uCondition. backProof. Qed.
  Hint Resolve back_condition reads_always : rd.
  Lemma back_conditions : forall w, Back uConditions WConditions w (backConditions clean w).
  Proof. intro w. unfold uConditions. backProof. Qed.
  Lemma back_variable : forall v, Back uVariable WVariable v (backVariable clean v).
  Proof. intro v. unfold uVariable. backProof. Qed.
  Lemma back_port : forall v, GoPort v -> Back uPort WPort v (backPort clean v).
  Proof. intros v [F1 F2]. unfold uPort. backProof. Qed.
  Lemma back_build : forall v, Back uBuild WBuild v (backBuild clean v).
  Proof. intro v. unfold uBuild. backProof. Qed.
  Lemma back_push : forall v, Back uPush WPush v (backPush clean v).
  Proof. intro v. unfold uPush. backProof. Qed.
  Lemma back_device : forall v, Back uDevice WDevice v (backDevice clean v).
  Proof. intro v. unfold uDevice. backProof. Qed.
  Lemma back_mount : forall v, Back uMount WMount v (backMount clean v).
  Proof. intro v. unfold uMount. backProof. Qed.
  Lemma back_emptyDir : forall v, Fits (ve_size v) -> Back uEmptyDir WEmptyDir v (backEmptyDir clean v).
  Proof. intros v F. unfold uEmptyDir. backProof. Qed.
  Lemma back_hostPath : forall v, Back uHostPath WHostPath v (backHostPath clean v).
  Proof. intro v. unfold uHostPath. backProof. Qed.
  Hint Resolve back_conditions back_variable back_port back_build back_push back_device back_mount back_emptyDir back_hostPath : rd.
  Lemma back_volume : forall v, (forall d, vo_empty v = Some d -> Fits (ve_size d)) -> Back uVolume WVolume v (backVolume clean v).
  Proof.
    intros v F. unfold uVolume.
    assert (E : Reads (uPtr uEmptyDir) None (Given WEmptyDir (vo_empty v)) (option_map (backEmptyDir clean) (vo_empty v))).
    { apply reads_given; [intros a _ j; apply whole_object|]. intros a X. apply back_emptyDir, F, X. }
    assert (P : Reads (uPtr uHostPath) None (Given WHostPath (vo_host v)) (option_map (backHostPath clean) (vo_host v))).
    { apply reads_given; [intros a _ j; apply whole_object|]. intros a X. apply back_hostPath. }
    backProof.
  Qed.
  Lemma back_clone : forall v, Fits (cl_depth v) -> Back uClone WClone v v.
  Proof. intros v F. unfold uClone. backProof. destruct v; reflexivity. Qed.
  Lemma back_concurrency : forall v, Fits v -> Back uConcurrency WConcurrency v v.
  Proof. intros v F. unfold uConcurrency. backProof. Qed.
  Lemma back_platform : forall v, Back uPlatform WPlatform v {| pl_os := clean (pl_os v); pl_arch := clean (pl_arch v);
                         pl_variant := clean (pl_variant v); pl_version := clean (pl_version v) |}.
  Proof. intro v. unfold uPlatform. backProof. Qed.
  Lemma back_workspace : forall v, Back uWorkspace WWorkspace v {| ws_base := clean (ws_base v); ws_path := clean (ws_path v) |}.
  Proof. intro v. unfold uWorkspace. backProof. Qed.
  Hint Resolve back_volume back_clone back_concurrency back_platform back_workspace : rd.

  Variable formatFloat : float64 -> string.
  Variable parseFloat : string -> option float64.
  Hypothesis spelling : Spelling formatFloat parseFloat.
  Lemma back_float : forall f, Double f -> Back (uFloat parseFloat) (WFloat formatFloat) f f.
  Proof. intros f D j [F ->]. cbn [uFloat]. apply (proj1 spelling); assumption. Qed.
  Lemma back_value : forall v, GoValue v -> Back (uValue parseFloat) (WValue formatFloat) v (backValue clean v).
  Proof.
    intro v. induction v as [|b|z|f|s|l IH|m] using value_ind'; intros G j W; inversion W as [|? |? ? I|? ? I|? ? I|? js F]; subst; cbn [backValue].
    - reflexivity.
    - reflexivity.
    - unfold WInt in I. subst j. cbn [uValue]. change (NilZero.string_of_int (Z.to_int z)) with (itoa z). rewrite (proj2 spelling). reflexivity.
    - inversion G; subst. destruct I as [Fi ->]. cbn [uValue]. rewrite (proj1 spelling) by assumption. reflexivity.
    - destruct I as (t & C & ->). rewrite (clean_eq s t C). reflexivity.
    - inversion G as [| | | | |? Gl|]; subst. cbn [uValue].
      rewrite (traverse_back _ _ (uValue parseFloat) (WValue formatFloat) (backValue clean) l) with (js := js); [reflexivity| |exact F].
      intros a I. apply (IH a I), Gl, I.
  Qed.
  Lemma back_parameter : forall p, GoValue (p_value p) -> Back (uParameter parseFloat) (WParameter formatFloat) p (backParameter clean p).
  Proof.
    intros p G. unfold uParameter.
    assert (V : Reads (uValue parseFloat) VNull (Unless (p_value p = VNull) (WValue formatFloat (p_value p))) (backValue clean (p_value p))).
    { intros o [[-> ->]|[_ (j & -> & W)]]; [reflexivity|]. exact (back_value _ G j W). }
    backProof.
  Qed.
  Lemma back_resourceObject : forall r, Double (ro_cpu r) -> Fits (ro_memory r) -> Back (uResourceObject parseFloat) (WResourceObject formatFloat) r r.
  Proof.
    intros r D F. unfold uResourceObject. pose proof (back_float _ D) as B1. pose proof (back_int _ F) as B2. backProof. destruct r; reflexivity.
  Qed.
  Lemma back_resources : forall r, GoResources r -> Back (uResources parseFloat) (WResources formatFloat) r r.
  Proof.
    intros r G. unfold uResources.
    assert (X : forall o, re_limits r = o \/ re_requests r = o -> Reads (uPtr (uResourceObject parseFloat)) None (Given (WResourceObject formatFloat) o) o).
    { intros o H. replace o with (option_map (fun x : ResourceObject => x) o) at 2 by (destruct o; reflexivity).
      apply reads_given; [intros a _ j; apply whole_object|]. intros a ->. destruct (G a H). apply back_resourceObject; assumption. }
    assert (X1 := X _ (or_introl eq_refl)). assert (X2 := X _ (or_intror eq_refl)). backProof. destruct r; reflexivity.
  Qed.
  Lemma back_container : forall c, GoContainer c -> Back (uContainer parseFloat) (WContainer formatFloat) c (backContainer clean c).
  Proof.
    intros c (_ & _ & _ & GV & GP & GR & _). unfold uContainer.
    assert (X1 : Reads (uPtr uBuild) None (Given WBuild (ct_build c)) (option_map (backBuild clean) (ct_build c))).
    { apply reads_given; [intros a _ j; apply whole_object|]. intros a _. apply back_build. }
    assert (X2 : Reads (uList (uPtr uDevice)) [] (OList (OrNull WDevice) (ct_devices c)) (map (option_map (backDevice clean)) (ct_devices c))).
    { apply reads_list. intros a _. apply back_null; [intros b _ j; apply whole_object|]. intros b _. apply back_device. }
    assert (X3 : Reads (uMap (uPtr uVariable)) [] (OMap (OrNull WVariable) (ct_environment c)) (cleanMap clean (option_map (backVariable clean)) (ct_environment c))).
    { apply reads_map. intros k a _. apply back_null; [intros b _ j; apply whole_object|]. intros b _. apply back_variable. }
    assert (X4 : Reads (uList (uPtr uPort)) [] (OList (OrNull WPort) (ct_ports c)) (map (option_map (backPort clean)) (ct_ports c))).
    { apply reads_list. intros a I. apply back_null; [intros b _ j; apply whole_object|]. intros b ->. apply back_port, GP, I. }
    assert (X5 : Reads (uPtr uPush) None (Given WPush (ct_push c)) (option_map (backPush clean) (ct_push c))).
    { apply reads_given; [intros a _ j; apply whole_object|]. intros a _. apply back_push. }
    assert (X6 : Reads (uPtr (uResources parseFloat)) None (Given (WResources formatFloat) (ct_resources c)) (ct_resources c)).
    { replace (ct_resources c) with (option_map (fun x : Resources => x) (ct_resources c)) at 2 by (destruct (ct_resources c); reflexivity).
      apply reads_given; [intros a _ j; apply whole_object|]. intros a E. apply back_resources, GR, E. }
    assert (X7 : Reads (uMap (uPtr (uParameter parseFloat))) [] (OMap (OrNull (WParameter formatFloat)) (ct_settings c)) (cleanMap clean (option_map (backParameter clean)) (ct_settings c))).
    { apply reads_map. intros k a I. apply back_null; [intros b _ j; apply whole_object|]. intros b ->. apply back_parameter, (GV k), I. }
    assert (X8 : Reads (uList (uPtr uMount)) [] (OList (OrNull WMount) (ct_volumes c)) (map (option_map (backMount clean)) (ct_volumes c))).
    { apply reads_list. intros a _. apply back_null; [intros b _ j; apply whole_object|]. intros b _. apply back_mount. }
    backProof.
  Qed.
  Lemma reads_containers : forall l, (forall c, In (Some c) l -> GoContainer c) ->
    Reads (uList (uPtr (uContainer parseFloat))) [] (OList (OrNull (WContainer formatFloat)) l) (map (option_map (backContainer clean)) l).
  Proof. intros l G. apply reads_list. intros a I. apply back_null; [intros b _ j; apply whole_object|]. intros b ->. apply back_container, G, I. Qed.
  Lemma back_pipeline : forall p, GoPipeline p -> Back (uPipeline parseFloat) (WPipeline formatFloat) p (backPipeline clean p).
  Proof.
    intros p (F1 & F2 & _ & GC & _ & GV). unfold uPipeline.
    assert (X1 := reads_containers (pi_services p) (fun c I => GC c (or_introl I))).
    assert (X2 := reads_containers (pi_steps p) (fun c I => GC c (or_intror I))).
    assert (X3 : Reads (uList (uPtr uVolume)) [] (OList (OrNull WVolume) (pi_volumes p)) (map (option_map (backVolume clean)) (pi_volumes p))).
    { apply reads_list. intros a I. apply back_null; [intros b _ j; apply whole_object|]. intros b ->. apply back_volume. intro d. apply GV, I. }
    backProof.
  Qed.
  Definition theKind (r : Resource) : string :=
    match r with RCron c => cr_kind c | RPipeline p => pi_kind p | RSecret s => se_kind s | RSignature s => si_kind s | RRegistry g => rg_kind g end.
  Lemma reads_kept : forall s, Reads uString "" (Always (WText s)) (clean s).
  Proof. intro s. apply reads_always, back_text. Qed.
  Hint Resolve reads_kept : rd.
  Lemma header_back : forall r, Back uHeader (WResource formatFloat) r (clean (theKind r)).
  Proof.
    assert (M : forall l j, Object l j -> lowKeys (map fst l) = true -> forall f, j = JObj f -> ~ In "type" (map fst l) -> jget "type" f = None).
    { intros l j (os & _ & ->) L f E H. injection E as <-. apply jget_flatten_none; assumption. }
    intros r. unfold uHeader. destruct r as [c|p|s|s|g]; cbn [WResource theKind].
    1, 2, 3, 5: backProof.
    intros j H. assert (H2 := H). apply object_reads in H; [|reflexivity]. destruct H as (f & -> & G). cbn [uStruct]. unfold ufString.
    erewrite G; [cbn [optBind]|inHere|readProof]. erewrite G; [cbn [optBind]|inHere|readProof].
    unfold ufield. rewrite (M _ _ H2 eq_refl f eq_refl); [reflexivity|]. cbn. intros [X|[X|[X|[]]]]; discriminate.
  Qed.
  Lemma back_cron : forall c j, WCron c j -> option_map RCron (uCron j) = Some (backResource clean (RCron c)).
  Proof.
    intro c. cbn [backResource]. enough (B : Back uCron WCron c {| cr_version := clean (cr_version c); cr_kind := clean (cr_kind c); cr_type := clean (cr_type c);
                 cr_name := clean (cr_name c); cr_schedule := clean (cr_schedule c); cr_branch := clean (cr_branch c);
                 cr_target := clean (cr_target c) |}) by (intros j W; rewrite (B j W); reflexivity).
    unfold uCron.
    assert (D : forall j, Object [("target", OText (cr_target c))] j -> uStruct "" (ufString "target") j = Some (clean (cr_target c))) by backProof.
    match goal with |- context [ufield (uStruct ("", "", "") ?b) ("", "", "") "spec" _] =>
      assert (S : forall j, Object [("schedule", OText (cr_schedule c)); ("branch", OText (cr_branch c));
                                   ("deployment", Always (Object [("target", OText (cr_target c))]))] j ->
        uStruct ("", "", "") b j = Some (clean (cr_schedule c), clean (cr_branch c), clean (cr_target c))) by backProof end.
    backProof.
  Qed.
  Lemma back_secret : forall s j, WSecret s j -> option_map RSecret (uSecret j) = Some (backResource clean (RSecret s)).
  Proof.
    intro s. cbn [backResource]. enough (B : Back uSecret WSecret s {| se_version := clean (se_version s); se_kind := clean (se_kind s); se_type := clean (se_type s);
                   se_name := clean (se_name s); se_data := clean (se_data s); se_get_path := clean (se_get_path s);
                   se_get_name := clean (se_get_name s); se_get_key := clean (se_get_key s) |}) by (intros j W; rewrite (B j W); reflexivity).
    unfold uSecret.
    match goal with |- context [ufield (uStruct ("", "", "") ?b) ("", "", "") "get" _] =>
      assert (S : forall j, Object [("path", OText (se_get_path s)); ("name", OText (se_get_name s)); ("key", OText (se_get_key s))] j ->
        uStruct ("", "", "") b j = Some (clean (se_get_path s), clean (se_get_name s), clean (se_get_key s))) by backProof end.
    backProof.
  Qed.
  Lemma back_signature : forall s j, WSignature s j -> option_map RSignature (uSignature j) = Some (backResource clean (RSignature s)).
  Proof.
    intro s. cbn [backResource]. enough (B : Back uSignature WSignature s {| si_version := clean (si_version s); si_kind := clean (si_kind s); si_hmac := clean (si_hmac s) |})
      by (intros j W; rewrite (B j W); reflexivity).
    unfold uSignature. backProof.
  Qed.
  Lemma back_registry : forall s j, WRegistry s j -> option_map RRegistry (uRegistry j) = Some (backResource clean (RRegistry s)).
  Proof.
    intro s. cbn [backResource]. enough (B : Back uRegistry WRegistry s {| rg_version := clean (rg_version s); rg_kind := clean (rg_kind s); rg_type := clean (rg_type s);
                     rg_data := cleanMap clean clean (rg_data s) |})
      by (intros j W; rewrite (B j W); reflexivity).
    unfold uRegistry. backProof.
  Qed.
  (** A word of plain letters is the cleaned text of itself only. *)
  Lemma cleaned_plain : forall s t, Cleaned s t -> sforallb (fun c => N.ltb (code c) 128) t = true -> s = t.
  Proof.
    intros s t H. induction H as [|r s t C _ IH|c s t N _ IH]; intro A; [reflexivity| |].
    - rewrite sforallb_app in A. apply andb_true_iff in A. f_equal. apply IH, A.
    - exfalso. cbn in A. discriminate.
  Qed.
  Lemma clean_kind : forall s k, sforallb (fun c => N.ltb (code c) 128) k = true -> clean s = k <-> s = k.
  Proof.
    assert (X : forall k, sforallb (fun c => N.ltb (code c) 128) k = true -> coerce k = k).
    { induction k as [|c k IH]; intro A; [reflexivity|]. cbn [sforallb] in A. apply andb_true_iff in A. destruct A as [A1 A2].
      unfold coerce. cbn [coerceFrom]. rewrite A1. f_equal. apply IH, A2. }
    intros s k A. pose proof (cleaned s) as C. split.
    - intros <-. exact (cleaned_plain s (clean s) C A).
    - intros ->. symmetry. apply clean_eq. apply cleaned_iff. symmetry. apply X, A.
  Qed.
  Lemma back_resource : forall r, GoResource r -> Kinded r -> Back (unmarshalResource parseFloat) (WResource formatFloat) r (backResource clean r).
  Proof.
    intros r G K j W. unfold unmarshalResource. rewrite (header_back r j W). cbn [optBind].
    assert (E : forall s k, sforallb (fun c => N.ltb (code c) 128) k = true -> String.eqb (clean s) k = String.eqb s k).
    { intros s k A. destruct (String.eqb_spec (clean s) k) as [Q|Q], (String.eqb_spec s k) as [Q'|Q']; try reflexivity; exfalso; pose proof (clean_kind s k A); tauto. }
    rewrite !E by reflexivity. destruct r as [c|p|s|s|g]; cbn [theKind Kinded WResource GoResource] in *.
    - rewrite K. exact (back_cron c j W).
    - assert (N : forall k, In k ["cron"; "secret"; "signature"; "registry"] -> String.eqb (pi_kind p) k = false).
      { intros k I. apply String.eqb_neq. intro X. apply K. rewrite X. exact I. }
      rewrite !N by (cbn; tauto). rewrite (back_pipeline p G j W). reflexivity.
    - rewrite K. exact (back_secret s j W).
    - rewrite K. exact (back_signature s j W).
    - rewrite K. exact (back_registry g j W).
  Qed.
  Lemma round_trip : forall m j old, (forall r, In r (mf_resources m) -> GoResource r /\ Kinded r) -> marshalJSON formatFloat m = Ok j ->
    unmarshalJSON parseFloat old j = Some {| mf_resources := mf_resources old ++ map (backResource clean) (mf_resources m) |}.
  Proof.
    intros m j old G E. apply marshal_iff in E; [|intros r I; apply G, I]. unfold unmarshalJSON. destruct E as [[E ->]|[_ (js & -> & F)]].
    - rewrite E. reflexivity.
    - cbn [optBind]. rewrite (traverse_back _ _ (unmarshalResource parseFloat) (WResource formatFloat) (backResource clean) (mf_resources m)) with (js := js); [reflexivity| |exact F].
      intros r I. apply back_resource; apply G, I.
  Qed.
End Round.
