(** * JsonFacts.v: Model/Json.v meets Spec/JsonSpec.v. *)
From Coq Require Import Floats.SpecFloat Decimal DecimalString DecimalZ Lia.
From Verif Require Import Model.Go Model.Types Model.Decode Model.Json.
From Verif Require Import Spec.DecodeSpec Spec.PrettySpec Spec.ScriptSpec Spec.JsonSpec.
From Verif Require Proofs.DecodeFacts.
Import DecodeFacts (optBind_iff, optTraverse_iff, optTraverse_cons).

(** ** Reading *)
Definition JExact {A} (dec : json -> option A) (R : json -> A -> Prop) : Prop :=
  forall j, Clear j -> forall x, dec j = Some x <-> R j x.

Lemma jexact_string : JExact uString JText.
Proof.
  intros j _ s. split.
  - destruct j; cbn; intro E; try discriminate; injection E as <-; constructor.
  - intro T. inversion T; reflexivity.
Qed.
Lemma jexact_bool : JExact uBool JFlag.
Proof.
  intros j _ s. split.
  - destruct j; cbn; intro E; try discriminate; injection E as <-; constructor.
  - intro T. inversion T; reflexivity.
Qed.
Lemma parseInt_iff : forall t z, parseInt t = Some z <-> exists i, NilZero.int_of_string t = Some i /\ z = Z.of_int i /\ Fits z.
Proof.
  intros t z. unfold parseInt. destruct (NilZero.int_of_string t) as [i|].
  - unfold Fits. destruct (Z.leb_spec (- 2 ^ 63) (Z.of_int i)); destruct (Z.ltb_spec (Z.of_int i) (2 ^ 63)); cbn [andb]; split;
      try discriminate; try (intros (i' & E & -> & F); injection E as <-; solve [reflexivity | lia]).
    intro E. injection E as <-. exists i. auto.
  - split; [discriminate|]. intros (i & E & _). discriminate.
Qed.
Lemma jexact_int : JExact uInt JInteger.
Proof.
  intros j _ z. split.
  - destruct j; cbn [uInt]; intro E; try discriminate.
    + injection E as <-. constructor.
    + apply parseInt_iff in E. destruct E as (i & E & -> & F). constructor; assumption.
  - intro T. inversion T; subst; cbn [uInt]; [reflexivity|]. apply parseInt_iff. eauto.
Qed.
Lemma jexact_list : forall A (dec : json -> option A) R, JExact dec R -> JExact (uList dec) (JList R).
Proof.
  intros A dec R H j D xs. unfold JList. destruct j as [| | | |l|m]; cbn [uList].
  1: { split.
       - intro E. injection E as <-. auto.
       - intros [[_ ->]|(l & E & _)]; [reflexivity|discriminate]. }
  1-3, 5: (split; [discriminate|]; intros [[E _]|(l' & E & _)]; discriminate).
  inversion D as [| | | |? Dl|]; subst.
  rewrite (optTraverse_iff _ _ dec R l) by (intros a I b; apply H, Dl, I). split.
  - intro F. right. exists l. auto.
  - intros [[E _]|(l' & E & F)]; [discriminate|]. injection E as <-. exact F.
Qed.
Lemma jexact_ptr : forall A (dec : json -> option A) R, JExact dec R -> JExact (uPtr dec) (JPtr R).
Proof.
  intros A dec R H n D o. unfold JPtr.
  assert (G : n <> JNull -> option_map Some (dec n) = Some o <->
              n = JNull /\ o = None \/ n <> JNull /\ exists x, o = Some x /\ R n x).
  { intro N. split.
    - destruct (dec n) as [x|] eqn:E; [|discriminate]. cbn. intro F. injection F as <-.
      right. split; [exact N|]. exists x. split; [reflexivity|]. apply (H n D). exact E.
    - intros [[E _]|[_ (x & -> & Rx)]]; [contradiction|]. apply (H n D) in Rx. rewrite Rx. reflexivity. }
  destruct n; cbn [uPtr]; try (apply G; discriminate).
  split.
  - intro E. injection E as <-. auto.
  - intros [[_ ->]|[N _]]; [reflexivity|contradiction].
Qed.
Lemma jexact_map : forall A (dec : json -> option A) R, JExact dec R -> JExact (uMap dec) (JMap R).
Proof.
  intros A dec R H j D xs. unfold JMap. destruct j as [| | | |l|m]; cbn [uMap].
  1: { split.
       - intro E. injection E as <-. auto.
       - intros [[_ ->]|(l & E & _)]; [reflexivity|discriminate]. }
  1-4: (split; [discriminate|]; intros [[E _]|(l' & E & _)]; discriminate).
  inversion D as [| | | | |? _ Dm]; subst.
  rewrite (optTraverse_iff _ _ _ (fun (e : string * json) (x : string * A) => fst x = fst e /\ R (snd e) (snd x)) m).
  - split.
    + intro F. right. exists m. auto.
    + intros [[E _]|(l' & E & F)]; [discriminate|]. injection E as <-. exact F.
  - intros [k j] I [k' x]. cbn [fst snd]. specialize (H j (Dm k j I) x). split.
    + destruct (dec j) as [y|]; [|discriminate]. cbn. intro E. injection E as <- <-. split; [reflexivity|]. apply H. reflexivity.
    + intros [-> Rx]. apply H in Rx. rewrite Rx. reflexivity.
Qed.

Definition JGood (f : entries) : Prop := NoDup (map (fun e => toLower (fst e)) f) /\ forall k j, In (k, j) f -> Clear j.
Lemma jget_In : forall k f j, jget k f = Some j -> exists k', In (k', j) f /\ toLower k' = k.
Proof.
  intros k f j. induction f as [|[k' j'] f IH]; cbn [jget]; [discriminate|].
  destruct (String.eqb_spec (toLower k') k) as [E|N]; intro H.
  - injection H as <-. exists k'. split; [left; reflexivity|exact E].
  - destruct (IH H) as (k2 & I & E). exists k2. split; [right; exact I|exact E].
Qed.
Lemma jget_None : forall k f, jget k f = None <-> forall k' j, In (k', j) f -> toLower k' <> k.
Proof.
  intros k f. induction f as [|[k' j'] f IH]; cbn [jget].
  - split; [intros _ ? ? []|reflexivity].
  - destruct (String.eqb_spec (toLower k') k) as [E|N]; split.
    + discriminate.
    + intro H. exfalso. apply (H k' j'); [left; reflexivity|exact E].
    + intros H k2 j2 [I|I]; [injection I as <- <-; exact N|]. apply (proj1 IH H k2 j2 I).
    + intro H. apply IH. intros k2 j2 I. apply (H k2 j2). right. exact I.
Qed.
Lemma lower_unique : forall f k1 k2 j1 j2, NoDup (map (fun e : string * json => toLower (fst e)) f) ->
  In (k1, j1) f -> In (k2, j2) f -> toLower k1 = toLower k2 -> j1 = j2.
Proof.
  intros f k1 k2 j1 j2. induction f as [|[k j] f IH]; cbn; [tauto|].
  intros N I1 I2 E. inversion N as [|? ? N1 N2]; subst. destruct I1 as [I1|I1], I2 as [I2|I2].
  - congruence.
  - injection I1 as -> ->. exfalso. apply N1. apply in_map_iff. exists (k2, j2). auto.
  - injection I2 as -> ->. exfalso. apply N1. apply in_map_iff. exists (k1, j1). auto.
  - auto.
Qed.
Lemma jexact_field : forall A (dec : json -> option A) R zero, JExact dec R ->
  forall f, JGood f -> forall k x, ufield dec zero k f = Some x <-> JHas f k R zero x.
Proof.
  intros A dec R zero H f [N Df] k x. unfold ufield, JHas. destruct (jget k f) as [j|] eqn:E.
  - destruct (jget_In _ _ _ E) as (k0 & I & L). rewrite (H j (Df k0 j I) x). split.
    + intro Rx. left. exists k0, j. auto.
    + intros [(k' & j' & I' & L' & Rx)|[A' _]].
      * assert (j' = j) by (eapply lower_unique; [exact N|exact I'|exact I|congruence]). congruence.
      * exfalso. exact (A' _ _ I L).
  - rewrite jget_None in E. split.
    + intro F. injection F as <-. right. auto.
    + intros [(k' & j' & I' & L' & _)|[_ ->]]; [|reflexivity]. exfalso. exact (E _ _ I' L').
Qed.
Lemma jexact_fieldStruct : forall A (dec : json -> option A) R zero, JExact dec R -> dec JNull = Some zero ->
  forall f, JGood f -> forall k x, ufield dec zero k f = Some x <-> JHasStruct f k R x.
Proof.
  intros A dec R zero H Z f G k x. rewrite (jexact_field A dec R zero H f G k x). unfold JHas, JHasStruct.
  rewrite <- (H JNull clear_null x), Z. split; intros [L|[L1 L2]]; auto; right; (split; [exact L1|congruence]).
Qed.
Lemma members_JGood : forall j f, Clear j -> Members j f -> JGood f.
Proof.
  intros j f D [[-> ->]| ->].
  - split; [constructor|]. intros ? ? [].
  - inversion D; subst. split; assumption.
Qed.
Lemma jexact_struct : forall A (zero : A) body (S : entries -> A -> Prop),
  (forall f, JGood f -> forall x, body f = Some x <-> S f x) -> body [] = Some zero ->
  JExact (uStruct zero body) (fun j x => exists f, Members j f /\ S f x).
Proof.
  intros A zero body S H Z j D x. unfold Members. destruct j as [| | | |l|m]; cbn [uStruct].
  1: { split.
       - intro E. injection E as <-. exists []. split; [auto|]. apply H; [|exact Z]. split; [constructor|intros ? ? []].
       - intros (f & [[_ ->]|E] & Sx); [|discriminate].
         apply H in Sx; [congruence|]. split; [constructor|intros ? ? []]. }
  1-4: (split; [discriminate|]; intros (f' & [[E _]|E] & _); discriminate).
  assert (G : JGood m) by (apply (members_JGood (JObj m)); [exact D|right; reflexivity]).
  rewrite (H m G). split.
  - intro Sx. exists m. auto.
  - intros (f & [[E _]|E] & Sx); [discriminate|]. injection E as <-. exact Sx.
Qed.

Create HintDb jexact.
#[export] Hint Resolve jexact_string jexact_bool jexact_int jexact_list jexact_ptr jexact_map : jexact.
Ltac junfold :=
  unfold ufString, ufStrings, ufStringMap, ufBool, ufInt, JHasText, JHasTexts, JHasTextMap, JHasFlag, JHasInt in *.
Ltac junbind :=
  repeat match goal with
  | H : optBind _ _ = Some _ |- _ => apply optBind_iff in H; destruct H as (? & ? & H)
  end.
Ltac jtoSpec := match goal with
  | |- JHas _ _ _ _ _ => eapply jexact_field; [solve [eauto with jexact] | eassumption | eassumption]
  | |- JHasStruct _ _ _ _ => eapply jexact_fieldStruct; [solve [eauto with jexact] | reflexivity | eassumption | eassumption]
  end.
Ltac jtoEq := repeat match goal with
  | G : JGood ?f, H : JHas ?f _ _ _ _ |- _ =>
      eapply jexact_field in H; [ | solve [eauto with jexact] | exact G]
  | G : JGood ?f, H : JHasStruct ?f _ _ _ |- _ =>
      eapply jexact_fieldStruct in H; [ | solve [eauto with jexact] | reflexivity | exact G]
  end.
Ltac jstructProof :=
  apply jexact_struct; [ | reflexivity ];
  let f := fresh "f" in let G := fresh "G" in let x := fresh "x" in
  intros f G x; split;
  [ intro; junfold; junbind;
    match goal with H : Some _ = Some x |- _ => injection H as <- end;
    repeat match goal with |- _ /\ _ => split end; cbn; jtoSpec
  | let H := fresh "H" in intro H; destruct x; cbn in H; junfold;
    repeat match goal with H : _ /\ _ |- _ => destruct H end; jtoEq;
    repeat match goal with H : ufield _ _ _ _ = Some _ |- _ => rewrite H; clear H; cbn [optBind] end; reflexivity ].

Lemma jexact_condition : JExact uCondition JCondition. Proof. jstructProof. Qed.
#[export] Hint Resolve jexact_condition : jexact.
Lemma jexact_conditions : JExact uConditions JConditions. Proof. jstructProof. Qed.
Lemma jexact_variable : JExact uVariable JVariable. Proof. jstructProof. Qed.
Lemma jexact_port : JExact uPort JPort. Proof. jstructProof. Qed.
Lemma jexact_build : JExact uBuild JBuild. Proof. jstructProof. Qed.
Lemma jexact_push : JExact uPush JPush.
Proof. jstructProof. Qed.
Lemma jexact_device : JExact uDevice JDevice. Proof. jstructProof. Qed.
Lemma jexact_mount : JExact uMount JMount. Proof. jstructProof. Qed.
Lemma jexact_emptyDir : JExact uEmptyDir JEmptyDir. Proof. jstructProof. Qed.
Lemma jexact_hostPath : JExact uHostPath JHostPath. Proof. jstructProof. Qed.
#[export] Hint Resolve jexact_emptyDir jexact_hostPath : jexact.
Lemma jexact_volume : JExact uVolume JVolume. Proof. jstructProof. Qed.
Lemma jexact_clone : JExact uClone JClone. Proof. jstructProof. Qed.
Lemma jexact_concurrency : JExact uConcurrency JConcurrency.
Proof. apply jexact_struct; [|reflexivity]. intros f G x. apply (jexact_field _ _ _ _ jexact_int f G). Qed.
Lemma jexact_platform : JExact uPlatform JPlatform. Proof. jstructProof. Qed.
Lemma jexact_workspace : JExact uWorkspace JWorkspace. Proof. jstructProof. Qed.
Lemma jexact_signature : JExact uSignature JSignature. Proof. jstructProof. Qed.
Lemma jexact_registry : JExact uRegistry JRegistry. Proof. jstructProof. Qed.
#[export] Hint Resolve jexact_conditions jexact_variable jexact_port jexact_build jexact_push jexact_device jexact_mount
  jexact_volume jexact_clone jexact_concurrency jexact_platform jexact_workspace : jexact.
Lemma jhasStruct_eq : forall A f k (R : json -> A -> Prop) x,
  JHasStruct f k R x <-> exists n, JHasStruct f k eq n /\ R n x.
Proof.
  intros A f k R x. unfold JHasStruct. split.
  - intros [(k' & n & I & L & Rx)|[N Rx]].
    + exists n. split; [left; exists k', n; auto | exact Rx].
    + exists JNull. auto.
  - intros (n & [(k' & n' & I & L & ->)|[N <-]] & Rx).
    + left. exists k', n. auto.
    + auto.
Qed.
Lemma jexact_cron : JExact uCron JCron.
Proof.
  assert (Xd : JExact (uStruct "" (ufString "target")) (fun n x => exists h, Members n h /\ JHasText h "target" x)).
  { apply jexact_struct; [|reflexivity]. intros f G x. apply (jexact_field _ _ _ _ jexact_string f G). }
  assert (Xs : JExact (uStruct ("", "", "") (fun g =>
      s <? ufString "schedule" g ;; b <? ufString "branch" g ;;
      d <? ufield (uStruct "" (ufString "target")) "" "deployment" g ;; Some (s, b, d)))
    (fun n x => exists g, Members n g /\ (JHasText g "schedule" (fst (fst x)) /\ JHasText g "branch" (snd (fst x)) /\
      JHasStruct g "deployment" (fun n x => exists h, Members n h /\ JHasText h "target" x) (snd x)))).
  { apply jexact_struct; [|reflexivity]. intros f G x. split.
    - intro E. junfold. junbind. injection E as <-. cbn.
      repeat match goal with |- _ /\ _ => split end; jtoSpec.
    - destruct x as [[s b] d]. cbn [fst snd]. intros (H1 & H2 & H3). junfold.
      eapply jexact_fieldStruct in H3; [|exact Xd | reflexivity | exact G]. jtoEq.
      rewrite H1. cbn [optBind]. rewrite H2. cbn [optBind]. rewrite H3. reflexivity. }
  intros n D x.
  assert (X : JExact uCron (fun n c => exists f, Members n f /\
    (JHasText f "version" (cr_version c) /\ JHasText f "kind" (cr_kind c) /\ JHasText f "type" (cr_type c) /\
     JHasText f "name" (cr_name c) /\
     JHasStruct f "spec" (fun n x => exists g, Members n g /\ (JHasText g "schedule" (fst (fst x)) /\ JHasText g "branch" (snd (fst x)) /\
      JHasStruct g "deployment" (fun n x => exists h, Members n h /\ JHasText h "target" x) (snd x)))
      (cr_schedule c, cr_branch c, cr_target c)))).
  { apply jexact_struct; [|reflexivity]. intros f G c. split.
    - intro E. apply optBind_iff in E; destruct E as (v & E1 & E). apply optBind_iff in E; destruct E as (k & E2 & E).
      apply optBind_iff in E; destruct E as (t & E3 & E). apply optBind_iff in E; destruct E as (nm & E4 & E).
      apply optBind_iff in E; destruct E as ([[s b] d] & E5 & E). injection E as <-. junfold. cbn.
      repeat match goal with |- _ /\ _ => split end; jtoSpec.
    - destruct c as [v k t nm s b d]. cbn. intros (H1 & H2 & H3 & H4 & H5). junfold.
      eapply jexact_fieldStruct in H5; [|exact Xs | reflexivity | exact G]. jtoEq.
      rewrite H1. cbn [optBind]. rewrite H2. cbn [optBind]. rewrite H3. cbn [optBind]. rewrite H4. cbn [optBind].
      unfold ufString in H5. unfold ufString. rewrite H5. reflexivity. }
  rewrite (X n D x). unfold JCron. split.
  - intros (f & F & H1 & H2 & H3 & H4 & H5). exists f. repeat (split; [assumption|]).
    apply jhasStruct_eq in H5. destruct H5 as (spec & Hs & g & Fg & Hsch & Hbr & Hd). cbn in *.
    apply jhasStruct_eq in Hd. destruct Hd as (dep & Hd & h & Fh & Ht). exists spec, g, dep, h. auto 10.
  - intros (f & F & H1 & H2 & H3 & H4 & spec & g & dep & h & Hs & Fg & Hd & Fh & Hsch & Hbr & Ht).
    exists f. repeat (split; [assumption|]). apply jhasStruct_eq. exists spec. split; [exact Hs|].
    exists g. split; [exact Fg|]. cbn. repeat (split; [assumption|]). apply jhasStruct_eq. exists dep. split; [exact Hd|].
    exists h. auto.
Qed.
Lemma jexact_secret : JExact uSecret JSecret.
Proof.
  assert (Xs : JExact (uStruct ("", "", "") (fun g =>
      p <? ufString "path" g ;; n <? ufString "name" g ;; k <? ufString "key" g ;; Some (p, n, k)))
    (fun n x => exists g, Members n g /\ (JHasText g "path" (fst (fst x)) /\ JHasText g "name" (snd (fst x)) /\
      JHasText g "key" (snd x)))).
  { apply jexact_struct; [|reflexivity]. intros f G x. split.
    - intro E. junfold. junbind. injection E as <-. cbn.
      repeat match goal with |- _ /\ _ => split end; jtoSpec.
    - destruct x as [[s b] d]. cbn [fst snd]. intros (H1 & H2 & H3). junfold. jtoEq.
      rewrite H1. cbn [optBind]. rewrite H2. cbn [optBind]. rewrite H3. reflexivity. }
  intros n D x.
  assert (X : JExact uSecret (fun n c => exists f, Members n f /\
    (JHasText f "version" (se_version c) /\ JHasText f "kind" (se_kind c) /\ JHasText f "type" (se_type c) /\
     JHasText f "name" (se_name c) /\ JHasText f "data" (se_data c) /\
     JHasStruct f "get" (fun n x => exists g, Members n g /\ (JHasText g "path" (fst (fst x)) /\ JHasText g "name" (snd (fst x)) /\
      JHasText g "key" (snd x)))
      (se_get_path c, se_get_name c, se_get_key c)))).
  { apply jexact_struct; [|reflexivity]. intros f G c. split.
    - intro E. apply optBind_iff in E; destruct E as (v & E1 & E). apply optBind_iff in E; destruct E as (k & E2 & E).
      apply optBind_iff in E; destruct E as (t & E3 & E). apply optBind_iff in E; destruct E as (nm & E4 & E).
      apply optBind_iff in E; destruct E as (dt & E6 & E).
      apply optBind_iff in E; destruct E as ([[s b] d] & E5 & E). injection E as <-. junfold. cbn.
      repeat match goal with |- _ /\ _ => split end; jtoSpec.
    - destruct c as [v k t nm dt s b d]. cbn. intros (H1 & H2 & H3 & H4 & H6 & H5). junfold.
      eapply jexact_fieldStruct in H5; [|exact Xs | reflexivity | exact G]. jtoEq.
      rewrite H1. cbn [optBind]. rewrite H2. cbn [optBind]. rewrite H3. cbn [optBind]. rewrite H4. cbn [optBind].
      rewrite H6. cbn [optBind]. unfold ufString in H5. unfold ufString. rewrite H5. reflexivity. }
  rewrite (X n D x). unfold JSecret. split.
  - intros (f & F & H1 & H2 & H3 & H4 & H6 & H5). exists f. repeat (split; [assumption|]).
    apply jhasStruct_eq in H5. destruct H5 as (get & Hs & g & Fg & Hp & Hn & Hk). cbn in *.
    exists get, g. auto 10.
  - intros (f & F & H1 & H2 & H3 & H4 & H6 & get & g & Hs & Fg & Hp & Hn & Hk).
    exists f. repeat (split; [assumption|]). apply jhasStruct_eq. exists get. split; [exact Hs|].
    exists g. split; [exact Fg|]. cbn. auto.
Qed.

(** ** Any value *)
Lemma json_induction : forall P : json -> Prop,
  P JNull -> (forall b, P (JBool b)) -> (forall t, P (JNum t)) -> (forall s, P (JStr s)) ->
  (forall l, (forall j, In j l -> P j) -> P (JArr l)) -> (forall m, (forall k j, In (k, j) m -> P j) -> P (JObj m)) ->
  forall j, P j.
Proof.
  intros P H1 H2 H3 H4 H5 H6. fix IH 1. intros [|b|t|s|l|m].
  - exact H1.
  - apply H2.
  - apply H3.
  - apply H4.
  - apply H5. induction l as [|a l IHl]; cbn [In]; intros n I; [destruct I|].
    destruct I as [<-|I]; [apply IH | apply IHl, I].
  - apply H6. induction m as [|[a b] m IHm]; cbn [In]; intros k v I; [destruct I|].
    destruct I as [E|I]; [|apply (IHm _ _ I)]. injection E as <- <-. apply IH.
Qed.
Section Floats.
  Variable parseFloat : string -> option float64.
  Lemma uValue_iff : forall j v, uValue parseFloat j = Some v <-> JValue parseFloat j v.
  Proof.
    intro j. induction j as [|b|t|s|l IH|m IH] using json_induction; intro v; cbn [uValue].
    1, 2, 4: (split; [intro E; injection E as <-; constructor | intro H; inversion H; reflexivity]).
    - split.
      + destruct (parseFloat t) as [f|] eqn:E; [|discriminate]. cbn. intro F. injection F as <-. constructor. exact E.
      + intro H. inversion H as [| |? f E| | |]; subst. rewrite E. reflexivity.
    - assert (X := optTraverse_iff _ _ (uValue parseFloat) (JValue parseFloat) l (fun a I => IH a I)). split.
      + destruct (optTraverse (uValue parseFloat) l) as [vs|] eqn:E; [|discriminate]. cbn. intro F. injection F as <-.
        constructor. apply X. reflexivity.
      + intro H. inversion H as [| | | |? vs F|]; subst. apply X in F. rewrite F. reflexivity.
    - match goal with |- option_map VMap (optTraverse ?g m) = _ <-> _ =>
        assert (X : forall es, optTraverse g m = Some es <->
          Forall2 (fun (e : string * json) (x : value * value) => fst x = VStr (fst e) /\ JValue parseFloat (snd e) (snd x)) m es);
        [apply optTraverse_iff | set (g' := g) in *; clearbody g'] end.
      + intros [k j] I [vk vv]. cbn [fst snd]. rewrite <- (IH k j I vv). destruct (uValue parseFloat j) as [w|]; cbn.
        * split; [intro E; injection E as <- <-; auto|]. intros [-> E]. congruence.
        * split; [discriminate|]. intros [_ E]. discriminate.
      + split.
        * destruct (optTraverse g' m) as [es|] eqn:E; [|discriminate]. cbn. intro F. injection F as <-.
          constructor. apply X. reflexivity.
        * intro H. inversion H as [| | | | |? es F]; subst. apply X in F. rewrite F. reflexivity.
  Qed.
  Lemma jexact_value : JExact (uValue parseFloat) (JValue parseFloat).
  Proof. intros j _ v. apply uValue_iff. Qed.
  Lemma jexact_float : JExact (uFloat parseFloat) (JFloat parseFloat).
  Proof.
    intros j _ f. split.
    - destruct j; cbn [uFloat]; intro E; try discriminate; [injection E as <-|]; constructor. exact E.
    - intro T. inversion T; subst; [reflexivity|assumption].
  Qed.
  Hint Resolve jexact_value jexact_float : jexact.
  Lemma jexact_parameter : JExact (uParameter parseFloat) (JParameter parseFloat). Proof. jstructProof. Qed.
  Lemma jexact_resourceObject : JExact (uResourceObject parseFloat) (JResourceObject parseFloat). Proof. jstructProof. Qed.
  Hint Resolve jexact_resourceObject jexact_parameter : jexact.
  Lemma jexact_resources : JExact (uResources parseFloat) (JResources parseFloat). Proof. jstructProof. Qed.
  Hint Resolve jexact_resources : jexact.
  Lemma jexact_container : JExact (uContainer parseFloat) (JContainer parseFloat). Proof. jstructProof. Qed.
  Hint Resolve jexact_container : jexact.
  Lemma jexact_pipeline : JExact (uPipeline parseFloat) (JPipeline parseFloat). Proof. jstructProof. Qed.

  Lemma uHeader_iff : forall j, Clear j -> forall kind, uHeader j = Some kind <->
    exists f version type, Members j f /\ JHasText f "kind" kind /\ JHasText f "version" version /\ JHasText f "type" type.
  Proof.
    intros j D kind.
    assert (X : JExact uHeader (fun j kind => exists f, Members j f /\
      (JHasText f "kind" kind /\ (exists version, JHasText f "version" version) /\ exists type, JHasText f "type" type))).
    { apply jexact_struct; [|reflexivity]. intros f G x. split.
      - intro E. junfold. junbind. injection E as <-. split; [jtoSpec|]. split; eexists; jtoSpec.
      - intros (K & (v & V) & t & T). junfold. jtoEq. rewrite V. cbn [optBind]. rewrite K. cbn [optBind]. rewrite T. reflexivity. }
    rewrite (X j D kind). split.
    - intros (f & M & K & (v & V) & t & T). exists f, v, t. auto.
    - intros (f & v & t & M & K & V & T). exists f. eauto 6.
  Qed.
  Lemma jexact_resource : JExact (unmarshalResource parseFloat) (JResource parseFloat).
  Proof.
    intros j D r. unfold unmarshalResource. rewrite optBind_iff.
    assert (O : forall A (f : A -> Resource) (o : option A), option_map f o = Some r <-> exists a, o = Some a /\ r = f a).
    { intros A f [a|]; cbn; split.
      - intro H. injection H as <-. exists a. auto.
      - intros (a' & Ea & ->). congruence.
      - discriminate.
      - intros (a & Ea & _). discriminate. }
    assert (P : forall kind, (if String.eqb kind "cron" then option_map RCron (uCron j)
      else if String.eqb kind "secret" then option_map RSecret (uSecret j)
      else if String.eqb kind "signature" then option_map RSignature (uSignature j)
      else if String.eqb kind "registry" then option_map RRegistry (uRegistry j)
      else option_map RPipeline (uPipeline parseFloat j)) = Some r <->
      match r with
      | RCron c => kind = "cron" /\ JCron j c
      | RSecret s => kind = "secret" /\ JSecret j s
      | RSignature s => kind = "signature" /\ JSignature j s
      | RRegistry g => kind = "registry" /\ JRegistry j g
      | RPipeline p => ~ In kind ["cron"; "secret"; "signature"; "registry"] /\ JPipeline parseFloat j p
      end).
    { intro kind. destruct (String.eqb_spec kind "cron") as [->|K1].
      { rewrite O. split.
        - intros (a & Ea & ->). split; [reflexivity|]. apply jexact_cron; assumption.
        - destruct r; intros [Ek H]; try discriminate; [|exfalso; apply Ek; cbn; tauto].
          exists c. split; [apply jexact_cron; assumption|reflexivity]. }
      destruct (String.eqb_spec kind "secret") as [->|K2].
      { rewrite O. split.
        - intros (a & Ea & ->). split; [reflexivity|]. apply jexact_secret; assumption.
        - destruct r; intros [Ek H]; try discriminate; [exfalso; apply Ek; cbn; tauto|].
          exists s. split; [apply jexact_secret; assumption|reflexivity]. }
      destruct (String.eqb_spec kind "signature") as [->|K3].
      { rewrite O. split.
        - intros (a & Ea & ->). split; [reflexivity|]. apply jexact_signature; assumption.
        - destruct r; intros [Ek H]; try discriminate; [exfalso; apply Ek; cbn; tauto|].
          exists s. split; [apply jexact_signature; assumption|reflexivity]. }
      destruct (String.eqb_spec kind "registry") as [->|K4].
      { rewrite O. split.
        - intros (a & Ea & ->). split; [reflexivity|]. apply jexact_registry; assumption.
        - destruct r; intros [Ek H]; try discriminate; [exfalso; apply Ek; cbn; tauto|].
          exists r. split; [apply jexact_registry; assumption|reflexivity]. }
      rewrite O. split.
      - intros (a & Ea & ->). split; [|apply jexact_pipeline; assumption].
        cbn. intros [X|[X|[X|[X|[]]]]]; congruence.
      - destruct r; intros [Ek H]; try contradiction.
        exists p. split; [apply jexact_pipeline; assumption|reflexivity]. }
    unfold JResource. split.
    - intros (kind & K & E). apply P in E. apply (uHeader_iff j D) in K. destruct K as (f & v & t & M & K & V & T).
      exists kind, f, v, t. auto.
    - intros (kind & f & v & t & M & K & V & T & E). exists kind. split; [|apply P; exact E].
      apply (uHeader_iff j D). exists f, v, t. auto.
  Qed.
  Lemma unmarshal_iff : forall j m m', Clear j -> unmarshalJSON parseFloat m j = Some m' <->
    exists rs, JResourceList parseFloat j rs /\ mf_resources m' = mf_resources m ++ rs.
  Proof.
    intros j m m' D. unfold unmarshalJSON. rewrite optBind_iff.
    assert (L := jexact_list _ _ _ jexact_resource j D). split.
    - intros (l & E & H). apply optBind_iff in H. destruct H as (rs & T & H). injection H as <-. exists rs. split; [|reflexivity].
      unfold JResourceList. rewrite <- L. destruct j; try discriminate E; injection E as <-; cbn [uList]; exact T.
    - intros (rs & R & E). unfold JResourceList in R. rewrite <- L in R.
      assert (M : m' = {| mf_resources := mf_resources m ++ rs |}) by (destruct m'; cbn in E; congruence).
      destruct j; try discriminate R; cbn [uList] in R.
      + injection R as <-. exists []. split; [reflexivity|]. cbn. congruence.
      + exists l. split; [reflexivity|]. rewrite R. cbn. congruence.
  Qed.
End Floats.
