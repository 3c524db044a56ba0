(** * EmitFacts.v: writing a manifest as yaml and reading it back. *)
From Coq Require Import Floats.SpecFloat Lia.
From Coq Require Import Sorting.Permutation.
From Verif Require Import Model.Go Model.Types Model.Encode Model.RawParse Model.Decode Model.Emit
  Spec.ParseSpec Spec.DecodeSpec Spec.JsonSpec Spec.EmitSpec Proofs.GoFacts Proofs.ParseFacts Proofs.DecodeFacts Proofs.DecodeMore.
From Verif Require Proofs.MapFacts.

Lemma optTraverse_map : forall A B C (f : B -> option C) (g : A -> B) l, optTraverse f (map g l) = optTraverse (fun a => f (g a)) l.
Proof. induction l as [|a l IH]; [reflexivity|]. cbn. rewrite IH. reflexivity. Qed.
Lemma optTraverse_some : forall A B (f : A -> option B) (g : A -> B) l, (forall a, In a l -> f a = Some (g a)) -> optTraverse f l = Some (map g l).
Proof.
  induction l as [|a l IH]; intro H; [reflexivity|]. rewrite optTraverse_cons, (H a) by (left; reflexivity).
  rewrite IH by (intros; apply H; right; assumption). reflexivity.
Qed.
Lemma optTraverse_ex : forall A B (f : A -> option B) (R : A -> B -> Prop) l, (forall a, In a l -> exists b, f a = Some b /\ R a b) ->
  exists bs, optTraverse f l = Some bs /\ Forall2 R l bs.
Proof.
  induction l as [|a l IH]; intro H; [exists []; split; [reflexivity|constructor]|].
  destruct (H a (or_introl eq_refl)) as (b & E & Rb). destruct IH as (bs & Es & Rs); [intros; apply H; right; assumption|].
  exists (b :: bs). split; [rewrite optTraverse_cons, E, Es; reflexivity|constructor; assumption].
Qed.

(** ** Order of keys *)
Section Order.
  Variable less : node -> node -> bool.
  Lemma place_perm : forall e l, Permutation (e :: l) (place less e l).
  Proof.
    induction l as [|x l IH]; [reflexivity|]. cbn. destruct less; [reflexivity|].
    rewrite perm_swap. constructor. exact IH.
  Qed.
  Lemma arrange_perm : forall l, Permutation l (arrange less l).
  Proof. induction l as [|e l IH]; [reflexivity|]. cbn. rewrite <- place_perm. constructor. exact IH. Qed.
  Lemma arrange_map : forall A (f : A -> node * node) m, exists m1, arrange less (map f m) = map f m1 /\ Permutation m m1.
  Proof. intros. apply Permutation_map_inv. symmetry. apply arrange_perm. Qed.
  Lemma place_order : (forall a b, less a b = true -> less b a = false) ->
    (forall a b c, less a b = false -> less b c = false -> less a c = false) ->
    forall e l, InOrder less l -> InOrder less (place less e l).
  Proof.
    intros As Tr e. induction l as [|x l IH]; intro H; cbn.
    - split; [intros ? []|exact I].
    - destruct H as [H1 H2]. destruct (less (fst e) (fst x)) eqn:E; cbn.
      + split; [|split; assumption]. intros y [<-|Iy]; [apply As; exact E|].
        apply (Tr _ (fst x)); [apply H1; exact Iy|apply As; exact E].
      + split; [|apply IH; exact H2]. intros y Iy. apply (Permutation_in _ (Permutation_sym (place_perm e l))) in Iy.
        destruct Iy as [<-|Iy]; [exact E|apply H1; exact Iy].
  Qed.
  Lemma arrange_order : (forall a b, less a b = true -> less b a = false) ->
    (forall a b c, less a b = false -> less b c = false -> less a c = false) -> forall l, InOrder less (arrange less l).
  Proof. intros As Tr. induction l as [|e l IH]; [exact I|]. cbn. apply place_order; assumption. Qed.
End Order.

Lemma keyed_struct : forall l, keyed (map (fun e : string * node => (NStr (fst e), snd e)) l) = Some l.
Proof.
  intro l. unfold keyed. rewrite optTraverse_map. cbn. rewrite (optTraverse_some _ _ _ (fun e => e)).
  - rewrite map_id. reflexivity.
  - intros [k n] _. reflexivity.
Qed.
Lemma decStruct_struct : forall A (zero : A) body l, decStruct zero body (nStruct l) = body l.
Proof. intros. cbn. rewrite keyed_struct. reflexivity. Qed.

Lemma decStrings_texts : forall l, decSlice decString (nTexts l) = Some l.
Proof. exact textList_roundtrip. Qed.
Lemma decSlice_ptrs : forall A (dec : node -> option A) enc l,
  (forall a, In (Some a) l -> enc a <> NNull /\ dec (enc a) = Some a) -> decSlice (decPtr dec) (nPtrs enc l) = Some l.
Proof.
  intros A dec enc l H. cbn. rewrite optTraverse_map. rewrite (optTraverse_some _ _ _ (fun o => o)); [rewrite map_id; reflexivity|].
  intros [a|] Ia; [|reflexivity]. cbn. destruct (H a Ia) as [Nn E]. unfold decPtr. rewrite E. destruct (enc a); try reflexivity. contradiction.
Qed.
Lemma decPtr_some : forall A (dec : node -> option A) n a, n <> NNull -> dec n = Some a -> decPtr dec n = Some (Some a).
Proof. intros A dec n a Nn E. unfold decPtr. rewrite E. destruct n; try reflexivity. contradiction. Qed.
Lemma decPtr_ptr : forall A (dec : node -> option A) enc o, (forall a, o = Some a -> enc a <> NNull /\ dec (enc a) = Some a) ->
  decPtr dec (nPtr enc o) = Some o.
Proof. intros A dec enc [a|] H; [|reflexivity]. destruct (H a eq_refl). apply decPtr_some; assumption. Qed.
Lemma decPtr_both : forall A (dec : node -> option A) enc (R : A -> A -> Prop) o,
  (forall a, o = Some a -> enc a <> NNull /\ exists b, dec (enc a) = Some b /\ R a b) ->
  exists o', decPtr dec (nPtr enc o) = Some o' /\ Both R o o'.
Proof.
  intros A dec enc R [a|] H.
  - destruct (H a eq_refl) as (Nn & b & E & Rb). exists (Some b). split; [apply decPtr_some; assumption|]. right. exists a, b. auto.
  - exists None. split; [reflexivity|]. left. auto.
Qed.
Lemma decSlice_both : forall A (dec : node -> option A) enc (R : A -> A -> Prop) l,
  (forall a, In (Some a) l -> enc a <> NNull /\ exists b, dec (enc a) = Some b /\ R a b) ->
  exists l', decSlice (decPtr dec) (nPtrs enc l) = Some l' /\ Forall2 (Both R) l l'.
Proof.
  intros A dec enc R l H. cbn. rewrite optTraverse_map. apply optTraverse_ex. intros o Io. apply decPtr_both. intros a ->. apply H. exact Io.
Qed.
Lemma decInt_int : forall z, Fits z -> decInt (nInt z) = Some z.
Proof. intros. apply decInt_fits. assumption. Qed.
Lemma decSize_int : forall ram z, Fits z -> decSize ram (nInt z) = Some z.
Proof. intros. unfold decSize. rewrite decInt_int by assumption. reflexivity. Qed.
Lemma decBool_bool : forall b, decBool (nBool b) = Some b.
Proof. reflexivity. Qed.
Lemma decCondition_cond : forall c, decCondition (nCondition c) = Some c.
Proof.
  assert (L : forall l, lenientList (map NStr l) = l) by (induction l as [|x l IH]; [reflexivity|cbn; rewrite IH; reflexivity]).
  intros [[|i is] [|e es]]; cbn; rewrite ?L, ?app_nil_r; reflexivity.
Qed.

Section Maps.
  Variable less : node -> node -> bool.
  Lemma decMap_text : forall m, exists m', decMap decString (nTextMap less m) = Some m' /\ Permutation m m'.
  Proof.
    intro m. unfold nTextMap, nMap. destruct (arrange_map less _ (fun e : string * string => (NStr (fst e), NStr (snd e))) m) as (m1 & E & P).
    rewrite E. exists m1. split; [exact (textMap_roundtrip m1)|exact P].
  Qed.
  Lemma decMap_again : forall A (dec : node -> option A) enc (R : A -> A -> Prop) m,
    (forall k a, In (k, a) m -> exists b, dec (enc a) = Some b /\ R a b) ->
    exists m', decMap dec (nMap less enc m) = Some m' /\ MapAgain R m m'.
  Proof.
    intros A dec enc R m H. unfold nMap. destruct (arrange_map less _ (fun e : string * A => (NStr (fst e), enc (snd e))) m) as (m1 & E & P).
    rewrite E.
    destruct (optTraverse_ex _ _ (fun kv => option_map (pair (fst kv)) (dec (enc (snd kv)))) (fun (e e' : string * A) => fst e = fst e' /\ R (snd e) (snd e')) m1) as (m' & E' & F).
    - intros [k a] Ia. apply (Permutation_in _ (Permutation_sym P)) in Ia. destruct (H k a Ia) as (b & Eb & Rb).
      exists (k, b). cbn. rewrite Eb. auto.
    - exists m'. split; [|exists m1; split; assumption]. cbn.
      replace (keyed (map (fun e : string * A => (NStr (fst e), enc (snd e))) m1)) with (Some (map (fun e : string * A => (fst e, enc (snd e))) m1)).
      + cbn. rewrite optTraverse_map. exact E'.
      + unfold keyed. rewrite optTraverse_map. symmetry. apply optTraverse_some. intros; reflexivity.
  Qed.

  Variable floatNode : float64 -> node.
  Hypothesis Floats : FloatTree floatNode.

  Lemma itoa_nonempty : forall z, itoa z <> "".
  Proof.
    intros z E. unfold itoa in E. destruct (Z.to_int z) as [u|u]; cbn in E; [destruct u; discriminate|destruct u; discriminate].
  Qed.
  Lemma itoa_not_secret : forall z, itoa z <> "from_secret".
  Proof.
    intros z E. unfold itoa in E. destruct (Z.to_int z) as [u|u]; cbn in E; [destruct u; discriminate|destruct u; discriminate].
  Qed.
  Lemma numeric_not : forall s, Numeric s -> s <> "" /\ s <> "from_secret".
  Proof.
    intros s (c & r & -> & I). split; [discriminate|]. intro E. injection E as -> _. cbn in I. intuition discriminate.
  Qed.

  Lemma value_again : forall v, YamlValue v -> exists v', decValue (nValue floatNode less v) = Some v' /\ ValueAgain v v'.
  Proof.
    assert (G : forall v, YamlValue v -> (exists v', decValue (nValue floatNode less v) = Some v' /\ ValueAgain v v')).
    { refine (fix go v (Y : YamlValue v) {struct Y} := _). destruct Y as [|b|z|f Rf|s|l H|m H].
      - exists VNull. split; [reflexivity|constructor].
      - exists (VBool b). split; [reflexivity|constructor].
      - exists (VInt z). split; [reflexivity|constructor].
      - cbn. destruct (Floats f Rf) as [(s & _ & ->)|(s & z & _ & -> & E)]; [exists (VFloat f)|exists (VInt z)].
        + split; [reflexivity|constructor].
        + split; [reflexivity|constructor; symmetry; exact E].
      - exists (VStr s). split; [reflexivity|constructor].
      - cbn. rewrite optTraverse_map.
        destruct (optTraverse_ex _ _ (fun a => decValue (nValue floatNode less a)) ValueAgain l) as (l' & E & F).
        { intros a Ia. apply go. apply H. exact Ia. }
        rewrite E. exists (VList l'). split; [reflexivity|constructor; exact F].
      - cbn. destruct (arrange_map less _ (fun kv : value * value => let (k, x) := kv in (nValue floatNode less k, nValue floatNode less x)) m) as (m1 & E & P).
        rewrite E, optTraverse_map.
        match goal with |- context [optTraverse ?f m1] =>
          destruct (optTraverse_ex _ _ f (fun e e' => ValueAgain (fst e) (fst e') /\ ValueAgain (snd e) (snd e')) m1) as (m' & E' & F) end.
        { intros [k x] Ikx. apply (Permutation_in _ (Permutation_sym P)) in Ikx. destruct (H k x Ikx) as (Sk & Yk & Yx).
          destruct (go k Yk) as (k' & Ek & Rk). destruct (go x Yx) as (x' & Ex & Rx). exists (k', x').
          rewrite Ek, Ex. split; [|split; assumption].
          destruct k; try contradiction; cbn in *; try reflexivity.
          destruct (floatNode f) eqn:Ef; try reflexivity; inversion Yk; subst; destruct (Floats f ltac:(assumption)) as [(s & _ & E0)|(s & z & _ & E0 & _)]; rewrite Ef in E0; discriminate. }
        rewrite E'. exists (VMap m'). split; [reflexivity|]. exact (again_map m m1 m' P F). }
    exact G.
  Qed.

  Lemma scalar_text : forall v, ScalarValue v -> YamlValue v -> exists s, decString (nValue floatNode less v) = Some s /\
    (s = "from_secret" -> v = VStr "from_secret") /\ (s = "" -> v = VNull \/ v = VStr "").
  Proof.
    intros v Sv Yv. destruct v; try contradiction; cbn.
    - exists "". split; [reflexivity|]. split; [discriminate|auto].
    - exists (formatBool b). split; [reflexivity|]. destruct b; split; discriminate.
    - exists (itoa z). split; [reflexivity|]. split; intro E; [destruct (itoa_not_secret z E)|destruct (itoa_nonempty z E)].
    - inversion Yv; subst. destruct (Floats f ltac:(assumption)) as [(s & Ns & ->)|(s & z & Ns & -> & _)]; exists s; (split; [reflexivity|]);
        destruct (numeric_not s Ns); split; intro; contradiction.
    - exists s. split; [reflexivity|]. split; [intros ->; reflexivity|auto]. intros ->; auto.
  Qed.
  Lemma no_text : forall v, ~ ScalarValue v -> decString (nValue floatNode less v) = None.
  Proof. intros v N. destruct v; try (exfalso; apply N; exact I); reflexivity. Qed.

  (** A literal is not taken for the reference to a secret. *)
  Lemma literal_parameter : forall v v', YamlValue v -> ~ Reference v -> decValue (nValue floatNode less v) = Some v' ->
    decParameter (nValue floatNode less v) = Some {| p_value := v'; p_secret := "" |}.
  Proof.
    intros v v' Yv Nr E. unfold decParameter. rewrite E. cbn [option_map].
    enough (T : forall s, decStruct "" (fString "from_secret") (nValue floatNode less v) = Some s -> s = "").
    { destruct decStruct as [s|]; [|reflexivity]. rewrite (T s eq_refl). reflexivity. }
    intros s D. inversion Yv; subst; cbn in D; try (injection D as <-; reflexivity); try discriminate.
    - destruct (Floats f ltac:(assumption)) as [(t & _ & Et)|(t & z & _ & Et & _)]; rewrite Et in D; discriminate.
    - destruct (arrange_map less _ (fun kv : value * value => let (k, x) := kv in (nValue floatNode less k, nValue floatNode less x)) m) as (m1 & Em & P).
      rewrite Em in D. destruct (keyed _) as [f|] eqn:K; [|discriminate]. cbn in D. unfold fString, field in D.
      destruct (mget "from_secret" f) as [n|] eqn:G; [|injection D as <-; reflexivity].
      assert (In ("from_secret", n) f) as If by (apply MapFacts.mget_In; exact G).
      assert (exists k x, In (k, x) m1 /\ decString (nValue floatNode less k) = Some "from_secret" /\ n = nValue floatNode less x) as (k & x & I1 & Ek & ->).
      { clear - K If. unfold keyed in K. rewrite optTraverse_map in K. revert f K If. induction m1 as [|[k x] m1 IH]; intros f K If.
        - injection K as <-. destruct If.
        - rewrite optTraverse_cons in K. cbn in K. destruct (decString (nValue floatNode less k)) as [t|] eqn:Et; [|discriminate]. cbn in K.
          destruct (optTraverse _ m1) as [f1|] eqn:E1; [|discriminate]. injection K as <-. destruct If as [If|If].
          + injection If as E2 E3. exists k, x. rewrite Et, E2, <- E3. cbn. auto.
          + destruct (IH f1 eq_refl If) as (k' & x' & I' & R'). exists k', x'. split; [right; exact I'|exact R']. }
      apply (Permutation_in _ (Permutation_sym P)) in I1. destruct (H k x I1) as (Sk & Yk & Yx).
      destruct (scalar_text k Sk Yk) as (t & Et & T1 & _). rewrite Ek in Et. injection Et as <-. rewrite (T1 eq_refl) in I1.
      assert (ScalarValue x \/ ~ ScalarValue x) as [Sx|Nx] by (destruct x; cbn; auto).
      + destruct (scalar_text x Sx Yx) as (t & Et & _ & T2). rewrite D in Et. injection Et as <-.
        destruct (string_dec s "") as [|Ns]; [assumption|]. exfalso. apply Nr. exists m, x. repeat split; try assumption.
        * intros ->. apply Ns. cbn in D. congruence.
        * intros ->. apply Ns. cbn in D. congruence.
      + rewrite (no_text x Nx) in D. discriminate.
  Qed.

  Lemma variable_again : forall o, exists o', decPtr decVariable (nPtr marshalVariable o) = Some o' /\ VariableAgain o o'.
  Proof.
    intros [[v s]|]; [|exists None; split; [reflexivity|constructor]]. cbn. unfold marshalVariable. cbn.
    destruct (string_dec s "") as [->|Ns]; [destruct (string_dec v "") as [->|Nv]|].
    - exists None. split; [reflexivity|constructor].
    - exists (Some {| v_value := v; v_secret := "" |}). cbn. destruct v; [contradiction|]. split; [reflexivity|constructor; exact Nv].
    - exists (Some {| v_value := ""; v_secret := s |}). destruct s; [contradiction|]. split; [reflexivity|constructor; exact Ns].
  Qed.
  Lemma parameter_again : forall o, (forall p, o = Some p -> YamlParameter p) ->
    exists o', decPtr decParameter (nPtr (nParameter floatNode less) o) = Some o' /\ ParameterAgain o o'.
  Proof.
    intros [[v s]|] H; [|exists None; split; [reflexivity|constructor]]. specialize (H _ eq_refl). cbn.
    unfold nParameter. unfold YamlParameter in H. cbn [p_secret p_value] in H.
    destruct (string_dec s "") as [->|Ns].
    - destruct H as [N|[Yv Nr]]; [contradiction|].
      assert (v = VNull \/ v = VStr "" \/ (v <> VNull /\ v <> VStr "")) as [->|[->|[N1 N2]]].
      { destruct v as [| | | |[|a s']| |]; auto; right; right; split; discriminate. }
      + exists None. split; [reflexivity|constructor; auto].
      + exists None. split; [reflexivity|constructor; auto].
      + replace (marshalParameter {| p_value := v; p_secret := "" |}) with v
          by (destruct v as [| | | |[|a s']| |]; try reflexivity; contradiction).
        destruct (value_again v Yv) as (v' & E & A). exists (Some {| p_value := v'; p_secret := "" |}). split.
        * apply decPtr_some; [|apply literal_parameter; [exact Yv|exact Nr|exact E]].
          intro N. rewrite N in E. cbn in E. injection E as <-. inversion A; subst. contradiction.
        * constructor; assumption.
    - exists (Some {| p_value := VNull; p_secret := s |}). split; [|constructor; exact Ns].
      destruct s; [contradiction|]. reflexivity.
  Qed.
End Maps.

Ltac emitStruct := rewrite decStruct_struct; cbn -[decString decInt decBool decFloat decSize nInt nBool nTexts nPtrs nTextMap nMap
  decCondition nCondition decConditions nConditions decSlice decPtr decMap nPtr].
Section Structs.
  Variable ram : string -> option Z.
  Variable less : node -> node -> bool.
  Variable floatNode : float64 -> node.
  Hypothesis Floats : FloatTree floatNode.

  Lemma conditions_again : forall w, exists w', decConditions (nConditions less w) = Some w' /\ ConditionsAgain w w'.
  Proof.
    intro w. destruct (decMap_text less (w_matrix w)) as (m' & E & P). unfold decConditions, nConditions. rewrite decStruct_struct.
    unfold fStringMap, field. cbn -[decCondition nCondition decMap nTextMap]. rewrite !decCondition_cond, E. cbn.
    eexists. split; [reflexivity|]. unfold ConditionsAgain. cbn. repeat (split; [reflexivity|]). exact P.
  Qed.
  Lemma build_again : forall b, exists b', decBuild (nBuild less b) = Some b' /\ BuildAgain b b'.
  Proof.
    intro b. destruct (decMap_text less (b_args b)) as (m' & E & P). destruct (decMap_text less (b_labels b)) as (m2 & E2 & P2).
    unfold decBuild. change (decString (nBuild less b)) with (@None string). cbv iota. unfold nBuild. rewrite decStruct_struct.
    unfold fStringMap, fString, fStrings, field. cbn -[decSlice decMap nTextMap nTexts]. rewrite E, E2, decStrings_texts. cbn.
    eexists. split; [reflexivity|]. unfold BuildAgain. cbn. split; [exact P|]. repeat (split; [reflexivity|]). exact P2.
  Qed.
  Lemma port_same : forall p, Fits (po_port p) -> Fits (po_host p) -> decPort (nPort p) = Some p.
  Proof. exact port_roundtrip. Qed.
  Lemma resourceObject_same : forall o, Regular (ro_cpu o) -> Fits (ro_memory o) -> decResourceObject ram (nResourceObject floatNode o) = Some o.
  Proof.
    intros [c m] Rc Fm. cbn in Rc, Fm. unfold decResourceObject, nResourceObject. rewrite decStruct_struct. unfold fSize, field. cbn -[decFloat decSize nInt].
    rewrite decSize_int by exact Fm. destruct (Floats c Rc) as [(s & _ & ->)|(s & z & _ & -> & E)]; cbn; [reflexivity|rewrite E; reflexivity].
  Qed.
  Lemma resources_same : forall r, (forall o, re_limits r = Some o \/ re_requests r = Some o -> Regular (ro_cpu o) /\ Fits (ro_memory o)) ->
    decResources ram (nResources floatNode r) = Some r.
  Proof.
    intros [l q] H. cbn in H. unfold decResources, nResources. rewrite decStruct_struct. unfold field. cbn -[decPtr nPtr].
    rewrite !decPtr_ptr; [reflexivity| |]; intros o E; (split; [discriminate|]); apply resourceObject_same; apply H; auto.
  Qed.
  Lemma device_same : forall d, decDevice (nDevice d) = Some d.
  Proof. intros [n p]. reflexivity. Qed.
  Lemma mount_same : forall d, decMount (nMount d) = Some d.
  Proof. intros [n p]. reflexivity. Qed.
  Lemma hostPath_same : forall d, decHostPath (nHostPath d) = Some d.
  Proof. intros [p]. reflexivity. Qed.
  Lemma emptyDir_same : forall d, Fits (ve_size d) -> decEmptyDir ram (nEmptyDir d) = Some d.
  Proof.
    intros [m z] F. cbn in F. unfold decEmptyDir, nEmptyDir. rewrite decStruct_struct. unfold fString, fSize, field. cbn -[decSize nInt].
    rewrite decSize_int by exact F. reflexivity.
  Qed.
  Lemma volume_same : forall v, (forall d, vo_empty v = Some d -> Fits (ve_size d)) -> decVolume ram (nVolume v) = Some v.
  Proof.
    intros [n e h] H. cbn in H. unfold decVolume, nVolume. rewrite decStruct_struct. unfold fString, field. cbn -[decPtr nPtr].
    rewrite !decPtr_ptr; [reflexivity| |].
    - intros d E. split; [discriminate|apply hostPath_same].
    - intros d E. split; [discriminate|apply emptyDir_same, H, E].
  Qed.
  Lemma push_same : forall p, decPush (nPush p) = Some p.
  Proof. exact push_roundtrip. Qed.

  Lemma container_again : forall c, YamlContainer c -> exists c', decContainer ram (nContainer floatNode less c) = Some c' /\ ContainerAgain c c'.
  Proof.
    intros c (Hs & Hp & Hr).
    destruct (decPtr_both _ decBuild (nBuild less) BuildAgain (ct_build c)) as (b' & Eb & Ab); [intros b _; split; [discriminate|apply build_again]|].
    destruct (decMap_again less _ (decPtr decVariable) (nPtr marshalVariable) VariableAgain (ct_environment c)) as (e' & Ee & Ae);
      [intros k a _; apply variable_again|].
    destruct (decMap_again less _ (decPtr decParameter) (nPtr (nParameter floatNode less)) ParameterAgain (ct_settings c)) as (s' & Es & As);
      [intros k a Ia; apply parameter_again; [exact Floats|]; intros p ->; apply (Hs k p Ia)|].
    destruct (conditions_again (ct_when c)) as (w' & Ew & Aw).
    unfold decContainer, nContainer. rewrite decStruct_struct. unfold fString, fStrings, fBool, field.
    cbn -[decPtr nPtr decSlice nTexts nPtrs decMap nMap nBool decBool decConditions nConditions].
    rewrite Eb, Ee, Es, Ew, !decStrings_texts, !decBool_bool.
    rewrite (decSlice_ptrs _ decDevice nDevice) by (intros; split; [discriminate|apply device_same]).
    rewrite (decSlice_ptrs _ decMount nMount) by (intros; split; [discriminate|apply mount_same]).
    rewrite (decSlice_ptrs _ decPort nPort) by (intros p Ip; split; [discriminate|apply port_same; apply (Hp p Ip)]).
    rewrite (decPtr_ptr _ decPush nPush) by (intros; split; [discriminate|apply push_same]).
    rewrite (decPtr_ptr _ (decResources ram) (nResources floatNode)) by (intros r Er; split; [discriminate|apply resources_same; intros o; apply (Hr r o Er)]).
    cbn -[ContainerAgain]. eexists. split; [reflexivity|]. unfold ContainerAgain. cbn.
    split; [exact Ab|]. repeat (split; [reflexivity|]). split; [exact Ae|]. repeat (split; [reflexivity|]). split; [exact As|].
    repeat (split; [reflexivity|]). split; [exact Aw|reflexivity].
  Qed.

  Lemma pipeline_again : forall p, YamlPipeline p -> exists p', decPipeline ram (nPipeline floatNode less p) = Some p' /\ PipelineAgain p p'.
  Proof.
    intros p (Fd & Fc & Hc & Hv).
    destruct (decSlice_both _ (decContainer ram) (nContainer floatNode less) ContainerAgain (pi_services p)) as (s' & Es & As);
      [intros c Ic; split; [discriminate|apply container_again, Hc; left; exact Ic]|].
    destruct (decSlice_both _ (decContainer ram) (nContainer floatNode less) ContainerAgain (pi_steps p)) as (t' & Et & At);
      [intros c Ic; split; [discriminate|apply container_again, Hc; right; exact Ic]|].
    destruct (conditions_again (pi_trigger p)) as (w' & Ew & Aw). destruct (decMap_text less (pi_node p)) as (n' & En & An).
    assert (decClone (nClone (pi_clone p)) = Some (pi_clone p)) as Ec.
    { destruct (pi_clone p) as [d n k]. cbn in Fd. unfold decClone, nClone. rewrite decStruct_struct. unfold fBool, fInt, field. cbn -[decInt nInt].
      rewrite decInt_int by exact Fd. reflexivity. }
    assert (decConcurrency (nStruct [("limit", nInt (pi_concurrency p))]) = Some (pi_concurrency p)) as El.
    { unfold decConcurrency. rewrite decStruct_struct. exact (decInt_int _ Fc). }
    assert (decPlatform (nPlatform (pi_platform p)) = Some (pi_platform p)) as Ep by (destruct (pi_platform p); reflexivity).
    assert (decWorkspace (nWorkspace (pi_workspace p)) = Some (pi_workspace p)) as Ewk by (destruct (pi_workspace p); reflexivity).
    unfold decPipeline, nPipeline. rewrite decStruct_struct. unfold fString, fStrings, fStringMap, field.
    cbn -[decSlice nTexts nPtrs decMap nTextMap decConditions nConditions decClone nClone decConcurrency nStruct decPlatform nPlatform decWorkspace nWorkspace].
    rewrite Es, Et, Ew, En, Ec, El, Ep, Ewk, !decStrings_texts.
    rewrite (decSlice_ptrs _ (decVolume ram) nVolume) by (intros v Iv; split; [discriminate|apply volume_same; intros d; apply (Hv v d Iv)]).
    cbn -[PipelineAgain]. eexists. split; [reflexivity|]. unfold PipelineAgain. cbn.
    repeat (split; [reflexivity|]). split; [exact An|]. repeat (split; [reflexivity|]). split; [exact As|]. split; [exact At|]. split; [exact Aw|].
    split; reflexivity.
  Qed.
  Lemma registry_again : forall g, exists g', decRegistry (nRegistry less g) = Some g' /\ ResourceAgain (RRegistry g) (RRegistry g').
  Proof.
    intro g. destruct (decMap_text less (rg_data g)) as (m' & E & P). unfold decRegistry, nRegistry. rewrite decStruct_struct.
    unfold fString, fStringMap, field. cbn -[decMap nTextMap]. rewrite E. cbn. eexists. split; [reflexivity|]. constructor; cbn; auto.
  Qed.
  Lemma header_resource : forall r, decHeader (nResource floatNode less r) = Some {| h_version := match r with
      | RCron c => cr_version c | RPipeline p => pi_version p | RSecret s => se_version s | RSignature s => si_version s | RRegistry g => rg_version g end;
    h_kind := getKind r; h_type := match r with
      | RCron c => cr_type c | RPipeline p => pi_type p | RSecret s => se_type s | RSignature s => "" | RRegistry g => rg_type g end |}.
  Proof. intros [c|p|s|s|g]; reflexivity. Qed.

  Variable render : node -> string.
  Variable read : string -> option node.
  Lemma resource_again : forall r, YamlResource r -> Kinded r -> read (render (nResource floatNode less r)) = Some (nResource floatNode less r) ->
    forall raw, rr_kind raw = getKind r -> rr_data raw = render (nResource floatNode less r) ->
    exists r', parseRaw (treeDecoder ram read) raw = Ok r' /\ ResourceAgain r r' /\ getKind r' = getKind r.
  Proof.
    intros r Y K E raw Ek Ed.
    destruct r as [c|p|s|s|g]; cbn in K.
    - exists (RCron c). split; [|split; [constructor|reflexivity]]. apply parseRaw_ok. constructor; [cbn in Ek; congruence|].
      cbn. rewrite Ed, E. destruct c; reflexivity.
    - destruct (pipeline_again p Y) as (p' & Ep & A). exists (RPipeline p'). split; [|split; [constructor; exact A|apply A]].
      apply parseRaw_ok. constructor; [cbn in Ek; rewrite Ek; exact K|]. cbn -[decPipeline]. rewrite Ed, E. exact Ep.
    - exists (RSecret s). split; [|split; [constructor|reflexivity]]. apply parseRaw_ok. constructor; [cbn in Ek; congruence|].
      cbn. rewrite Ed, E. destruct s; reflexivity.
    - exists (RSignature s). split; [|split; [constructor|reflexivity]]. apply parseRaw_ok. constructor; [cbn in Ek; congruence|].
      cbn. rewrite Ed, E. destruct s; reflexivity.
    - destruct (registry_again g) as (g' & Eg & A). exists (RRegistry g'). split; [|split; [exact A|inversion A; cbn; assumption]].
      apply parseRaw_ok. constructor; [cbn in Ek; congruence|]. cbn -[decRegistry]. rewrite Ed, E. exact Eg.
  Qed.
End Structs.

(** ** The file *)
Lemma text_app : forall a b, text (a ++ b) = (text a +++ text b)%string.
Proof. intros a b. induction a as [|l a IH]; [reflexivity|]. unfold text in *. cbn. rewrite IH, !sapp_assoc. reflexivity. Qed.
Lemma text_Lines : forall ls, Forall (fun l => ~ In NL (list_ascii_of_string l)) ls -> Lines (text ls) ls.
Proof.
  induction ls as [|l ls IH]; intro F; [constructor|]. inversion F; subst.
  change (text (l :: ls)) with ((l +++ nl) +++ text ls)%string. rewrite sapp_assoc. constructor; auto.
Qed.
Definition GoodLine (l : string) : Prop := Short l /\ Plain l /\ ~ In NL (list_ascii_of_string l) /\ ~ In CR (list_ascii_of_string l).
Lemma good_chomp : forall ls, Forall (fun l => ~ In CR (list_ascii_of_string l)) ls -> Forall2 Chomp ls ls.
Proof.
  induction 1 as [|l ls N F IH]; constructor; [|exact IH]. apply Chomp_no. intros l' ->. apply N. unfold cr. apply snoc_char_In.
Qed.
Definition fileLines (bodies : list (list string)) : list string :=
  match bodies with [] => [] | b :: bs => b ++ flat_map (fun b => "---" :: b) bs end.
Lemma blocks_of : forall bs, Forall (Forall GoodLine) bs -> Blocks (flat_map (fun b => "---" :: b) bs) bs.
Proof.
  induction 1 as [|b bs F _ IH]; [constructor|]. cbn. constructor; [exists ""; reflexivity| |exact IH].
  eapply Forall_impl; [|exact F]. intros l H. apply H.
Qed.
Lemma file_of : forall bs, Forall (Forall GoodLine) bs -> Forall (fun b => b <> []) bs -> File (fileLines bs) bs.
Proof.
  intros [|b bs] F N; [constructor|]. inversion F; subst. inversion N; subst. destruct b as [|l b]; [contradiction|].
  cbn [fileLines]. apply File_first; [|apply blocks_of; assumption]. eapply Forall_impl; [|exact H1]. intros x Hx. apply Hx.
Qed.
Lemma fileLines_all : forall (P : string -> Prop) bs, P "---" -> Forall (Forall P) bs -> Forall P (fileLines bs).
Proof.
  intros P [|b bs] Ps F; [constructor|]. inversion F; subst. cbn. apply Forall_app. split; [assumption|]. clear - Ps H2.
  induction H2 as [|b bs Fb _ IH]; [constructor|]. cbn. constructor; [exact Ps|]. apply Forall_app. split; assumption.
Qed.
Lemma documentsText_lines : forall render ns bodies, Forall2 (fun n b => render n = text b) ns bodies ->
  documentsText render ns = text (fileLines bodies).
Proof.
  intros render ns bodies F. destruct F as [|n b ns bs E F]; [reflexivity|]. cbn [documentsText fileLines]. rewrite text_app, E. f_equal.
  induction F as [|n' b' ns bs E' F IH]; [reflexivity|]. cbn [map flat_map concats]. rewrite IH, text_app.
  change (text ("---" :: b')) with ("---" +++ nl +++ text b')%string. rewrite E'. reflexivity.
Qed.

Lemma documents_raw : forall render read ns, Forall (Legible render read) ns ->
  raw_docs (documentsText render ns) = map render ns.
Proof.
  intros render read ns F.
  assert (exists bodies, Forall2 (fun n b => render n = text b) ns bodies /\ Forall (fun b => b <> []) bodies /\ Forall (Forall GoodLine) bodies)
    as (bodies & E & N & G).
  { induction F as [|n ns (R & b & Nb & E & G) _ IH]; [exists []; repeat split; constructor|].
    destruct IH as (bs & Es & Ns & Gs). exists (b :: bs). repeat split; constructor; assumption. }
  rewrite (documentsText_lines _ _ _ E).
  assert (Forall (Forall (fun l => Short l /\ ~ In NL (list_ascii_of_string l) /\ ~ In CR (list_ascii_of_string l))) bodies) as G1.
  { eapply Forall_impl; [|exact G]. intros b Fb. eapply Forall_impl; [|exact Fb]. intros l (A & B & C & D). auto. }
  apply fileLines_all in G1; [|split; [reflexivity|split; cbn; intuition discriminate]].
  rewrite (raw_docs_File _ (fileLines bodies) (fileLines bodies) bodies).
  - clear - E. induction E as [|n b ns bs H _ IH]; [reflexivity|]. cbn. rewrite IH, H. reflexivity.
  - apply text_Lines. eapply Forall_impl; [|exact G1]. intros l H. apply H.
  - eapply Forall_impl; [|exact G1]. intros l H. apply H.
  - apply good_chomp. eapply Forall_impl; [|exact G1]. intros l H. apply H.
  - apply file_of; assumption.
Qed.

Lemma encode_documents : forall floatNode less render read m,
  (forall r, In r (mf_resources m) -> Legible render read (nResource floatNode less r)) ->
  exists t, encodeManifest floatNode less render m = Ok t /\
    forall D raws, parseRawString D t = Ok raws <->
      Forall2 (fun r raw => rr_data raw = render (nResource floatNode less r) /\
        dec_header D (rr_data raw) = Some {| h_version := rr_version raw; h_kind := rr_kind raw; h_type := rr_type raw |}) (mf_resources m) raws.
Proof.
  intros floatNode less render read m H. eexists. split; [reflexivity|]. intros D raws. unfold parseRawString.
  rewrite (documents_raw render read).
  - rewrite otraverse_ok, !Forall2_map_l. split; apply Forall2_impl2; intros r raw.
    + rewrite decode_raw_ok. intros [-> E]. auto.
    + intros [E1 E2]. apply decode_raw_ok. rewrite <- E1. auto.
  - apply Forall_forall. intros n I. apply in_map_iff in I as (r & <- & I). apply H. exact I.
Qed.

Lemma emit_round_trip : forall floatNode, FloatTree floatNode -> forall ram less render read m,
  (forall r, In r (mf_resources m) -> YamlResource r /\ Kinded r /\ getKind r <> "" /\ Legible render read (nResource floatNode less r)) ->
  exists t m', encodeManifest floatNode less render m = Ok t /\ parse (treeDecoder ram read) t = Ok m' /\
    Forall2 ResourceAgain (mf_resources m) (mf_resources m').
Proof.
  intros floatNode Floats ram less render read [rs] H. cbn [mf_resources] in *.
  destruct (encode_documents floatNode less render read {| mf_resources := rs |}) as (t & E & D); [intros r I; apply H; exact I|].
  cbn [mf_resources] in D. exists t.
  assert (exists raws rs', Forall2 (fun r raw => rr_data raw = render (nResource floatNode less r) /\
        dec_header (treeDecoder ram read) (rr_data raw) = Some {| h_version := rr_version raw; h_kind := rr_kind raw; h_type := rr_type raw |}) rs raws /\
      Forall2 (fun raw res => Typed (treeDecoder ram read) raw res /\ getKind res <> "") raws rs' /\ Forall2 ResourceAgain rs rs')
    as (raws & rs' & F1 & F2 & F3).
  { clear D E. induction rs as [|r rs IH]; [exists [], []; repeat split; constructor|].
    destruct IH as (raws & rs' & F1 & F2 & F3); [intros; apply H; right; assumption|].
    destruct (H r (or_introl eq_refl)) as (Y & K & Nk & R & _).
    pose (raw := {| rr_version := match r with
      | RCron c => cr_version c | RPipeline p => pi_version p | RSecret s => se_version s | RSignature s => si_version s | RRegistry g => rg_version g end;
      rr_kind := getKind r; rr_type := match r with
      | RCron c => cr_type c | RPipeline p => pi_type p | RSecret s => se_type s | RSignature s => "" | RRegistry g => rg_type g end;
      rr_data := render (nResource floatNode less r) |}).
    destruct (resource_again ram less floatNode Floats render read r Y K R raw eq_refl eq_refl) as (r' & P & A & Ek).
    exists (raw :: raws), (r' :: rs'). split; [|split].
    - constructor; [|exact F1]. split; [reflexivity|]. cbn -[decHeader]. rewrite R. cbn -[decHeader]. apply header_resource.
    - constructor; [|exact F2]. split; [apply parseRaw_ok; exact P|]. rewrite Ek. exact Nk.
    - constructor; assumption. }
  exists {| mf_resources := rs' |}. split; [exact E|]. split; [|exact F3]. apply parse_ok. exists raws. split; [apply D; exact F1|exact F2].
Qed.

(** ** Keys *)
Lemma struct_keys : forall l, HasKeys (nStruct l) (map fst l).
Proof.
  intro l. exists (map snd l). split; [rewrite !map_length; reflexivity|]. unfold nStruct. f_equal.
  induction l as [|e l IH]; [reflexivity|]. cbn. rewrite IH. reflexivity.
Qed.
Lemma resource_keys : forall floatNode less r, HasKeys (nResource floatNode less r) (resourceKeys r).
Proof. intros floatNode less [c|p|s|s|g]; apply struct_keys. Qed.
Lemma struct_under : forall l k x, In (k, x) l -> Under (nStruct l) k x.
Proof. intros l k x I. eexists. split; [reflexivity|]. apply in_map_iff. exists (k, x). auto. Qed.
Lemma steps_tree : forall floatNode less l, exists ns, nPtrs (nContainer floatNode less) l = NSeq ns /\ Forall2 StepTree l ns.
Proof.
  intros. eexists. split; [reflexivity|]. induction l as [|[c|] l IH]; constructor; try exact IH; cbn; [apply struct_keys|reflexivity].
Qed.
Lemma pipeline_steps_tree : forall floatNode less p, exists ss ts,
  Under (nResource floatNode less (RPipeline p)) "services" (NSeq ss) /\ Under (nResource floatNode less (RPipeline p)) "steps" (NSeq ts) /\
  Forall2 StepTree (pi_services p) ss /\ Forall2 StepTree (pi_steps p) ts.
Proof.
  intros. destruct (steps_tree floatNode less (pi_services p)) as (ss & Es & Fs). destruct (steps_tree floatNode less (pi_steps p)) as (ts & Et & Ft).
  exists ss, ts. rewrite <- Es, <- Et. split; [|split; [|split; assumption]]; apply struct_under; cbn; auto 20.
Qed.
Lemma registry_order : forall floatNode less, (forall a b, less a b = true -> less b a = false) ->
  (forall a b c, less a b = false -> less b c = false -> less a c = false) ->
  forall g, exists es, Under (nResource floatNode less (RRegistry g)) "data" (NMap es) /\ InOrder less es.
Proof.
  intros floatNode less As Tr g. eexists. split; [apply struct_under; right; right; right; left; reflexivity|]. apply arrange_order; assumption.
Qed.
