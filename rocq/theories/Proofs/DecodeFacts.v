(** * DecodeFacts.v: the decoders of Model/Decode.v meet Spec/DecodeSpec.v. *)
From Coq Require Import Floats.SpecFloat Lia.
From Verif Require Import Model.Go Model.Types Model.Encode Model.Decode Spec.DecodeSpec.
From Verif Require Proofs.MapFacts.

(** ** Generalities *)
Definition Exact {A} (dec : node -> option A) (R : node -> A -> Prop) : Prop :=
  forall n, Distinct n -> forall x, dec n = Some x <-> R n x.

Lemma optBind_iff : forall A B (m : option A) (k : A -> option B) r,
  optBind m k = Some r <-> exists a, m = Some a /\ k a = Some r.
Proof.
  intros A B [a|] k r; cbn; split.
  - intro H. exists a. auto.
  - intros (a' & E & H). congruence.
  - discriminate.
  - intros (a' & E & _). discriminate.
Qed.

Lemma optTraverse_cons : forall A B (f : A -> option B) a l, optTraverse f (a :: l) =
  match f a with
  | Some b => match optTraverse f l with Some bs => Some (b :: bs) | None => None end
  | None => None
  end.
Proof. reflexivity. Qed.
Lemma optTraverse_iff : forall A B (f : A -> option B) (R : A -> B -> Prop) l,
  (forall a, In a l -> forall b, f a = Some b <-> R a b) ->
  forall bs, optTraverse f l = Some bs <-> Forall2 R l bs.
Proof.
  intros A B f R l. induction l as [|a l IH]; intros H bs.
  - cbn. split; intro E.
    + injection E as <-. constructor.
    + inversion E. reflexivity.
  - rewrite optTraverse_cons. assert (Ha := H a (or_introl eq_refl)).
    assert (Hl : forall bs, optTraverse f l = Some bs <-> Forall2 R l bs)
      by (apply IH; intros a' I; apply H; right; exact I).
    split.
    + destruct (f a) as [b|] eqn:E; [|discriminate].
      destruct (optTraverse f l) as [bs'|] eqn:E'; [|discriminate].
      intro F. injection F as <-. constructor; [apply Ha; reflexivity | apply Hl; reflexivity].
    + intro F. inversion F as [|a' b l' bs' Rab Rl E1 E2]; subst.
      apply Ha in Rab. rewrite Rab. apply Hl in Rl. rewrite Rl. reflexivity.
Qed.

Lemma Forall2_iff : forall A B (R S : A -> B -> Prop) l l',
  (forall a b, In a l -> (R a b <-> S a b)) -> Forall2 R l l' <-> Forall2 S l l'.
Proof.
  intros A B R S l. induction l as [|a l IH]; intros l' H; split; intro F; inversion F; subst; constructor;
    solve [ apply H; [left; reflexivity | assumption]
          | apply (proj1 (IH _ (fun a' b' I => H a' b' (or_intror I)))); assumption
          | apply (proj2 (IH _ (fun a' b' I => H a' b' (or_intror I)))); assumption ].
Qed.

Lemma exact_det : forall A (dec : node -> option A) R, Exact dec R ->
  forall n x y, Distinct n -> R n x -> R n y -> x = y.
Proof. intros A dec R H n x y D X Y. apply (H n D) in X. apply (H n D) in Y. congruence. Qed.

(** ** Scalars *)
Lemma decString_iff : forall n s, decString n = Some s <-> IsText n s.
Proof.
  intros n s. split.
  - destruct n; cbn; intro E; try discriminate; injection E as <-; constructor.
  - intro T. inversion T; reflexivity.
Qed.
Lemma exact_string : Exact decString IsText.
Proof. intros n _ s. apply decString_iff. Qed.
Lemma exact_bool : Exact decBool IsBool.
Proof.
  intros n _ x. split.
  - destruct n; cbn; intro E; try discriminate; injection E as <-; constructor.
  - intro T. inversion T; reflexivity.
Qed.
Lemma exact_float : Exact decFloat IsFloat.
Proof.
  intros n _ x. split.
  - destruct n; cbn; intro E; try discriminate; injection E as <-; constructor.
  - intro T. inversion T; reflexivity.
Qed.

Lemma pow2_pos : forall e, (0 <= e -> 0 < 2 ^ e)%Z.
Proof. intros. apply Z.pow_pos_nonneg; lia. Qed.

Lemma magnitude_iff : forall m e a, (0 <= a)%Z ->
  magnitude m e = a <-> (a * 2 ^ Z.max 0 (- e) <= Zpos m * 2 ^ Z.max 0 e < (a + 1) * 2 ^ Z.max 0 (- e))%Z.
Proof.
  intros m e a A. destruct e as [|p|p]; cbn [magnitude Z.opp].
  - rewrite Z.max_id, Z.pow_0_r. lia.
  - rewrite Z.max_l by lia. rewrite Z.max_r by lia. rewrite Z.pow_0_r. lia.
  - rewrite Z.max_r by lia. rewrite (Z.max_l 0 (Zneg p)) by lia. rewrite Z.pow_0_r.
    assert (P : (0 < 2 ^ Zpos p)%Z) by (apply pow2_pos; lia). rewrite Z.mul_1_r.
    split.
    + intros <-. pose proof (Z.mul_div_le (Zpos m) _ P). pose proof (Z.mul_succ_div_gt (Zpos m) _ P).
      rewrite Z.mul_comm at 1. split; [assumption|]. rewrite Z.mul_comm. unfold Z.succ in *. assumption.
    + intros [H1 H2]. symmetry. apply Z.div_unique with (r := (Zpos m - a * 2 ^ Zpos p)%Z).
      * left. lia.
      * lia.
Qed.
Lemma magnitude_nonneg : forall m e, (0 <= magnitude m e)%Z.
Proof.
  intros m [|p|p]; cbn [magnitude].
  - lia.
  - assert (0 < 2 ^ Zpos p)%Z by (apply pow2_pos; lia). nia.
  - apply Z.div_pos; [lia|]. apply pow2_pos. lia.
Qed.
Lemma integerPart_iff : forall s m e z,
  IntegerPart (S754_finite s m e) z <-> z = (if s then - magnitude m e else magnitude m e)%Z.
Proof.
  intros s m e z. unfold IntegerPart. pose proof (magnitude_nonneg m e) as N.
  rewrite <- (magnitude_iff m e (Z.abs z)) by lia. destruct s; lia.
Qed.
Lemma fits_toInt64 : forall z, Fits z -> toInt64 z = z.
Proof.
  intros z F. unfold toInt64, Fits, int64Min in *. destruct (Z.leb_spec (- 2 ^ 63) z); [|lia].
  destruct (Z.ltb_spec z (2 ^ 63)); [reflexivity|lia].
Qed.
Lemma unfit_toInt64 : forall z, ~ Fits z -> toInt64 z = (- 2 ^ 63)%Z.
Proof.
  intros z F. unfold toInt64, Fits, int64Min in *. destruct (Z.leb_spec (- 2 ^ 63) z); [|reflexivity].
  destruct (Z.ltb_spec z (2 ^ 63)); [lia|reflexivity].
Qed.
Lemma fits_dec : forall z, Fits z \/ ~ Fits z.
Proof. intro z. unfold Fits. lia. Qed.
Lemma exact_int : Exact decInt IsInt.
Proof.
  intros n _ x. split.
  - destruct n; cbn [decInt]; intro E; try discriminate.
    + injection E as <-. constructor.
    + revert E. unfold int64Min. destruct (Z.leb_spec (- 2 ^ 63) z); [|discriminate].
      destruct (Z.ltb_spec z (2 ^ 63)); [|discriminate]. intro E. injection E as <-. constructor. unfold Fits. lia.
    + destruct (atMost63 f) eqn:L; [|discriminate]. injection E as <-. destruct f as [s|s| |s m e].
      * apply int_float; [reflexivity|]. unfold Fits. cbn [int64_of_float]. lia.
      * destruct s; [|discriminate]. cbn [int64_of_float]. apply int_float_wrapped. left. reflexivity.
      * discriminate.
      * cbn [int64_of_float]. cbv zeta. set (z := (if s then - magnitude m e else magnitude m e)%Z).
        assert (I : IntegerPart (S754_finite s m e) z) by (apply integerPart_iff; reflexivity).
        destruct (fits_dec z) as [F|F].
        -- rewrite fits_toInt64 by exact F. apply int_float; assumption.
        -- rewrite unfit_toInt64 by exact F. apply int_float_wrapped. right. exists z. split; [exact I|].
           pose proof (magnitude_nonneg m e). unfold Fits in F. subst z. destruct s.
           ++ lia.
           ++ cbn [atMost63] in L. apply Z.leb_le in L. lia.
  - intro T. inversion T as [E1 E2 | t z F E1 E2 | t f z I F E1 E2 | t f C E1 E2]; subst; cbn [decInt].
    + reflexivity.
    + unfold Fits, int64Min in *. destruct (Z.leb_spec (- 2 ^ 63) x); [|lia].
      destruct (Z.ltb_spec x (2 ^ 63)); [reflexivity|lia].
    + destruct f as [s|s| |s m e]; try contradiction.
      * cbn in I. subst x. reflexivity.
      * apply integerPart_iff in I. cbn [int64_of_float]. cbv zeta. rewrite <- I, fits_toInt64 by exact F.
        destruct s; [reflexivity|]. cbn [atMost63]. rewrite (proj2 (Z.leb_le _ _)); [reflexivity|].
        unfold Fits in F. lia.
    + destruct C as [-> | (z & I & C)]; [reflexivity|]. destruct f as [s|s| |s m e]; try contradiction.
      * cbn in I. lia.
      * apply integerPart_iff in I. cbn [int64_of_float]. cbv zeta. rewrite <- I, unfit_toInt64 by (unfold Fits; lia).
        destruct s; [reflexivity|]. cbn [atMost63]. rewrite (proj2 (Z.leb_le _ _)); [reflexivity|].
        pose proof (magnitude_nonneg m e). lia.
Qed.

(** ** Composite values *)
Lemma exact_slice : forall A (dec : node -> option A) R, Exact dec R -> Exact (decSlice dec) (IsList R).
Proof.
  intros A dec R H n D xs. unfold IsList. destruct n; cbn [decSlice].
  1: { split.
       - intro E. injection E as <-. auto.
       - intros [[_ ->]|(l & E & _)]; [reflexivity|discriminate]. }
  1-4: (split; [discriminate|]; intros [[E _]|(l & E & _)]; discriminate).
  - inversion D as [| | | | |? Dl|]; subst.
    rewrite (optTraverse_iff _ _ dec R l) by (intros a I b; apply H, Dl, I).
    split.
    + intro F. right. exists l. auto.
    + intros [[E _]|(l' & E & F)]; [discriminate|]. injection E as <-. exact F.
  - split; [discriminate|]. intros [[E _]|(l & E & _)]; discriminate.
Qed.
Lemma exact_ptr : forall A (dec : node -> option A) R, Exact dec R -> Exact (decPtr dec) (IsPtr R).
Proof.
  intros A dec R H n D o. unfold IsPtr.
  assert (G : n <> NNull -> option_map Some (dec n) = Some o <->
              n = NNull /\ o = None \/ n <> NNull /\ exists x, o = Some x /\ R n x).
  { intro N. split.
    - destruct (dec n) as [x|] eqn:E; [|discriminate]. cbn. intro F. injection F as <-.
      right. split; [exact N|]. exists x. split; [reflexivity|]. apply (H n D). exact E.
    - intros [[E _]|[_ (x & -> & Rx)]]; [contradiction|]. apply (H n D) in Rx. rewrite Rx. reflexivity. }
  destruct n; cbn [decPtr]; try (apply G; discriminate).
  split.
  - intro E. injection E as <-. auto.
  - intros [[_ ->]|[N _]]; [reflexivity|contradiction].
Qed.
Lemma keyed_iff : forall m f, keyed m = Some f <->
  Forall2 (fun (kv : node * node) (e : string * node) => IsText (fst kv) (fst e) /\ snd e = snd kv) m f.
Proof.
  intros m f. unfold keyed. apply optTraverse_iff. intros [k v] _ [s w]. cbn. split.
  - destruct (decString k) as [t|] eqn:E; [|discriminate]. cbn. intro F. injection F as <- <-.
    split; [apply decString_iff; exact E | reflexivity].
  - intros [T ->]. apply decString_iff in T. rewrite T. reflexivity.
Qed.
Lemma keyed_total : forall m, (forall k v, In (k, v) m -> IsScalar k) -> exists f, keyed m = Some f.
Proof.
  intros m. induction m as [|[k v] m IH]; intro H.
  - exists []. reflexivity.
  - destruct (H k v (or_introl eq_refl)) as [s T]. destruct IH as [f F].
    { intros k' v' I. apply (H k' v'). right. exact I. }
    exists ((s, v) :: f). apply keyed_iff. constructor; [cbn; auto|]. apply keyed_iff. exact F.
Qed.
Lemma keyed_In : forall m f k v, keyed m = Some f -> In (k, v) f -> exists key, In (key, v) m /\ IsText key k.
Proof.
  intros m f k v H. apply keyed_iff in H. induction H as [|[k' v'] [s w] m f [T E] _ IH]; cbn.
  - tauto.
  - cbn in T, E. intros [X|X].
    + injection X as <- <-. subst w. exists k'. auto.
    + destruct (IH X) as (key & I & T'). exists key. auto.
Qed.
Lemma texts_iff : forall n s, IsText n s -> texts n = [s].
Proof. intros n s T. inversion T; reflexivity. Qed.
Lemma keyed_keys : forall m f, keyed m = Some f -> map fst f = flat_map (fun kv => texts (fst kv)) m.
Proof.
  intros m f H. apply keyed_iff in H. induction H as [|[k' v'] [s w] m f [T E] _ IH]; cbn.
  - reflexivity.
  - cbn in T. rewrite (texts_iff _ _ T). cbn. f_equal. exact IH.
Qed.

Lemma mget_In : forall V (f : smap V) k v, mget k f = Some v -> In (k, v) f.
Proof.
  intros V f k v. induction f as [|[k' v'] f IH]; cbn; [discriminate|].
  destruct (String.eqb_spec k k') as [->|N]; intro E.
  - injection E as <-. auto.
  - auto.
Qed.
Lemma mget_NoDup : forall V (f : smap V) k v, NoDup (map fst f) -> In (k, v) f -> mget k f = Some v.
Proof.
  intros V f k v. induction f as [|[k' v'] f IH]; cbn; [tauto|].
  intros N [E|I].
  - injection E as <- <-. rewrite String.eqb_refl. reflexivity.
  - inversion N as [|? ? N1 N2]; subst. destruct (String.eqb_spec k k') as [->|_]; [|auto].
    exfalso. apply N1. apply in_map_iff. exists (k', v). auto.
Qed.
Lemma mget_None : forall V (f : smap V) k, mget k f = None <-> ~ In k (map fst f).
Proof.
  intros V f k. induction f as [|[k' v'] f IH]; cbn.
  - tauto.
  - destruct (String.eqb_spec k k') as [->|N].
    + split; [discriminate|]. intro H. exfalso. apply H. auto.
    + rewrite IH. split.
      * intros H [E|I]; [congruence|tauto].
      * tauto.
Qed.

Lemma exact_map : forall A (dec : node -> option A) R, Exact dec R -> Exact (decMap dec) (IsMap R).
Proof.
  intros A dec R H n D m. unfold IsMap. destruct n as [| | | | | |l]; cbn [decMap].
  1: { split.
       - intro E. injection E as <-. auto.
       - intros [[_ ->]|(l & E & _)]; [reflexivity|discriminate]. }
  1-5: (split; [discriminate|]; intros [[E _]|(l' & E & _)]; discriminate).
  inversion D as [| | | | | |? _ Dm]; subst. rewrite optBind_iff.
  assert (G : (exists f, keyed l = Some f /\
      optTraverse (fun kv => option_map (pair (fst kv)) (dec (snd kv))) f = Some m) <->
      Forall2 (fun (kv : node * node) (e : string * A) => IsText (fst kv) (fst e) /\ R (snd kv) (snd e)) l m).
  { clear D. revert m. induction l as [|[k v] l IH]; intro m.
    - cbn. split.
      + intros (f & E & F). injection E as <-. cbn in F. injection F as <-. constructor.
      + intro F. inversion F. exists []. auto.
    - assert (IH' := fun m => IH (fun k' v' I => Dm k' v' (or_intror I)) m). clear IH.
      destruct (Dm k v (or_introl eq_refl)) as [_ Dv]. split.
      + intros (f & E & F). apply keyed_iff in E. inversion E as [|? [s w] ? f' [T W] Fk]; subst. cbn in T, W. subst w.
        rewrite optTraverse_cons in F. cbn [fst snd] in F.
        destruct (dec v) as [x|] eqn:Ex; [|discriminate]. cbn [option_map] in F.
        match type of F with context [optTraverse ?g f'] => destruct (optTraverse g f') as [m'|] eqn:Em end; [|discriminate].
        injection F as <-. constructor.
        * cbn. split; [exact T|]. apply (H v Dv). exact Ex.
        * apply IH'. exists f'. split; [apply keyed_iff; exact Fk | exact Em].
      + intro F. inversion F as [|? [s x] ? m' [T Rx] Fm]; subst. cbn in T, Rx.
        apply IH' in Fm. destruct Fm as (f & E & Fm). exists ((s, v) :: f). split.
        * apply keyed_iff. constructor; [cbn; auto|]. apply keyed_iff. exact E.
        * rewrite optTraverse_cons. cbn [fst snd]. apply (H v Dv) in Rx. rewrite Rx, Fm. reflexivity. }
  rewrite G. split.
  - intro F. right. exists l. auto.
  - intros [[E _]|(l' & E & F)]; [discriminate|]. injection E as <-. exact F.
Qed.

(** What is known of the entries of a mapping. *)
Definition Good (f : smap node) : Prop := NoDup (map fst f) /\ forall k v, In (k, v) f -> Distinct v.

Lemma exact_field : forall A (dec : node -> option A) R zero, Exact dec R ->
  forall f, Good f -> forall k x, field dec zero k f = Some x <-> Has f k R zero x.
Proof.
  intros A dec R zero H f [N Df] k x. unfold field, Has. destruct (mget k f) as [n|] eqn:E.
  - assert (I := mget_In _ _ _ _ E). rewrite (H n (Df k n I) x). split.
    + intro Rx. left. exists n. auto.
    + intros [(n' & I' & Rx)|[A' _]].
      * apply (mget_NoDup _ _ _ _ N) in I'. congruence.
      * exfalso. apply A'. apply in_map_iff. exists (k, n). auto.
  - assert (A' := proj1 (mget_None _ _ _) E). split.
    + intro F. injection F as <-. right. auto.
    + intros [(n' & I' & _)|[_ ->]]; [|reflexivity].
      exfalso. apply A'. apply in_map_iff. exists (k, n'). auto.
Qed.
Lemma exact_fieldStruct : forall A (dec : node -> option A) R zero, Exact dec R -> dec NNull = Some zero ->
  forall f, Good f -> forall k x, field dec zero k f = Some x <-> HasStruct f k R x.
Proof.
  intros A dec R zero H Z f G k x. rewrite (exact_field A dec R zero H f G k x). unfold Has, HasStruct.
  rewrite <- (H NNull distinct_null x), Z. split; intros [L|[L1 L2]]; auto.
  - right. split; [exact L1|]. congruence.
  - right. split; [exact L1|]. congruence.
Qed.
Lemma fields_Good : forall n f, Distinct n -> Fields n f -> Good f.
Proof.
  intros n f D [[-> ->]|(l & -> & F)].
  - split; [constructor|]. cbn. tauto.
  - inversion D as [| | | | | |? N Dm]; subst. apply keyed_iff in F. split.
    + rewrite (keyed_keys _ _ F). exact N.
    + intros k v I. destruct (keyed_In _ _ _ _ F I) as (key & I' & _). apply (Dm _ _ I').
Qed.
(** A struct: the entries are decoded one by one; null gives the zero value, which is what
    no entry at all gives. *)
Lemma exact_struct : forall A (zero : A) body (S : smap node -> A -> Prop),
  (forall f, Good f -> forall x, body f = Some x <-> S f x) -> body [] = Some zero ->
  Exact (decStruct zero body) (fun n x => exists f, Fields n f /\ S f x).
Proof.
  intros A zero body S H Z n D x. unfold Fields, IsMap.
  destruct n as [| | | | | |l]; cbn [decStruct].
  1: { split.
       - intro E. injection E as <-. exists []. split; [auto|]. apply H; [|exact Z]. split; [constructor|cbn; tauto].
       - intros (f & [[_ ->]|(l & E & _)] & Sx); [|discriminate].
         apply H in Sx; [congruence|]. split; [constructor|cbn; tauto]. }
  1-5: (split; [discriminate|]; intros (f' & [[E _]|(l' & E & _)] & _); discriminate).
  rewrite optBind_iff. split.
  - intros (f & E & B). exists f. assert (F : Fields (NMap l) f).
    { right. exists l. split; [reflexivity|]. apply keyed_iff. exact E. }
    split; [exact F|]. apply H; [|exact B]. exact (fields_Good _ _ D F).
  - intros (f & F & Sx). assert (G := fields_Good _ _ D F). destruct F as [[E _]|(l' & E & F)]; [discriminate|].
    injection E as <-. exists f. split; [apply keyed_iff; exact F|]. apply (H f G). exact Sx.
Qed.


(** The proof for every struct: the binds on one side, the conjunction on the other. *)
Create HintDb exact.
#[export] Hint Resolve exact_string exact_bool exact_float exact_int exact_slice exact_ptr exact_map : exact.
Ltac unfoldFields :=
  unfold fString, fStrings, fStringMap, fBool, fInt, HasText, HasTexts, HasTextMap, HasBool, HasInt in *.
Ltac unbind :=
  repeat match goal with
  | H : optBind _ _ = Some _ |- _ => apply optBind_iff in H; destruct H as (? & ? & H)
  end.
Ltac toSpec := match goal with
  | |- Has _ _ _ _ _ => eapply exact_field; [solve [eauto with exact] | eassumption | eassumption]
  | |- HasStruct _ _ _ _ => eapply exact_fieldStruct; [solve [eauto with exact] | reflexivity | eassumption | eassumption]
  end.
Ltac toEq := repeat match goal with
  | G : Good ?f, H : Has ?f _ _ _ _ |- _ =>
      eapply exact_field in H; [ | solve [eauto with exact] | exact G]
  | G : Good ?f, H : HasStruct ?f _ _ _ |- _ =>
      eapply exact_fieldStruct in H; [ | solve [eauto with exact] | reflexivity | exact G]
  end.
Ltac structProof :=
  apply exact_struct; [ | reflexivity ];
  let f := fresh "f" in let G := fresh "G" in let x := fresh "x" in
  intros f G x; split;
  [ intro; unfoldFields; unbind;
    match goal with H : Some _ = Some x |- _ => injection H as <- end;
    repeat match goal with |- _ /\ _ => split end; cbn; toSpec
  | let H := fresh "H" in intro H; destruct x; cbn in H; unfoldFields;
    repeat match goal with H : _ /\ _ |- _ => destruct H end; toEq;
    repeat match goal with H : field _ _ _ _ = Some _ |- _ => rewrite H; clear H; cbn [optBind] end; reflexivity ].

Lemma exact_clone : Exact decClone IsClone.
Proof. structProof. Qed.
Lemma exact_workspace : Exact decWorkspace IsWorkspace.
Proof. structProof. Qed.
Lemma exact_platform : Exact decPlatform IsPlatform.
Proof. structProof. Qed.
Lemma exact_concurrency : Exact decConcurrency IsConcurrency.
Proof. unfold decConcurrency, IsConcurrency. apply exact_struct; [|reflexivity]. intros f G x. apply (exact_field _ _ _ _ exact_int f G). Qed.
Lemma exact_device : Exact decDevice IsDevice.
Proof. structProof. Qed.
Lemma exact_mount : Exact decMount IsMount.
Proof. structProof. Qed.
Lemma exact_hostPath : Exact decHostPath IsHostPath.
Proof. structProof. Qed.
Lemma exact_signature : Exact decSignature IsSignature.
Proof. structProof. Qed.
Lemma exact_registry : Exact decRegistry IsRegistry.
Proof. structProof. Qed.
#[export] Hint Resolve exact_clone exact_workspace exact_platform exact_concurrency exact_device exact_mount exact_hostPath : exact.

(** ** Short forms *)
Lemma lenientList_iff : forall l ss, lenientList l = ss <-> Strings l ss.
Proof.
  induction l as [|n l IH]; intro ss; cbn [lenientList].
  - split; [intros <-; constructor | intro H; inversion H; reflexivity].
  - destruct (decString n) as [s|] eqn:E.
    + assert (T := proj1 (decString_iff _ _) E). split.
      * intros <-. constructor; [exact T|]. apply IH. reflexivity.
      * intro H. inversion H as [|? s' ? ss' T' Hl|? ? ? N Hl]; subst.
        -- apply decString_iff in T'. f_equal; [congruence|]. apply IH. exact Hl.
        -- exfalso. apply N. exists s. exact T.
    + split.
      * intro H. apply strings_skip; [|apply IH; exact H]. intros [s T]. apply decString_iff in T. congruence.
      * intro H. inversion H as [|? s' ? ss' T' Hl|? ? ? N Hl]; subst.
        -- apply decString_iff in T'. congruence.
        -- apply IH. exact Hl.
Qed.
Lemma entry_In : forall k m v, entry k m = Some v -> exists key, In (key, v) m /\ IsText key k.
Proof.
  intros k m v. induction m as [|[k' v'] m IH]; cbn [entry]; [discriminate|].
  destruct (decString k') as [s|] eqn:E.
  - destruct (String.eqb_spec k s) as [->|N]; intro F.
    + injection F as <-. exists k'. split; [left; reflexivity|]. apply decString_iff. exact E.
    + destruct (IH F) as (key & I & T). exists key. split; [right; exact I | exact T].
  - intro F. destruct (IH F) as (key & I & T). exists key. split; [right; exact I | exact T].
Qed.
Lemma entry_None : forall k m, entry k m = None -> forall key v, In (key, v) m -> ~ IsText key k.
Proof.
  intros k m. induction m as [|[k' v'] m IH]; cbn [entry In]; [tauto|].
  intros E key v I T. destruct I as [I|I].
  - injection I as -> ->. apply decString_iff in T. rewrite T, String.eqb_refl in E. discriminate.
  - destruct (decString k') as [s|]; [destruct (String.eqb k s); [discriminate|]|]; exact (IH E key v I T).
Qed.
Lemma NoDup_flat : forall (m : list (node * node)) k v k' v' s,
  NoDup (flat_map (fun kv => texts (fst kv)) m) -> In (k, v) m -> In (k', v') m ->
  IsText k s -> IsText k' s -> v = v'.
Proof.
  induction m as [|[a b] m IH]; cbn [flat_map In]; intros k v k' v' s N I I' T T'; [tauto|].
  assert (C : forall x y, In (x, y) m -> IsText x s -> In s (flat_map (fun kv => texts (fst kv)) m)).
  { intros x y J Tx. apply in_flat_map. exists (x, y). split; [exact J|]. cbn. rewrite (texts_iff _ _ Tx). left. reflexivity. }
  destruct I as [I|I], I' as [I'|I'].
  - congruence.
  - injection I as -> ->. cbn [fst] in N. rewrite (texts_iff _ _ T) in N. inversion N as [|? ? N1 _]; subst.
    exfalso. apply N1. exact (C _ _ I' T').
  - injection I' as -> ->. cbn [fst] in N. rewrite (texts_iff _ _ T') in N. inversion N as [|? ? N1 _]; subst.
    exfalso. apply N1. exact (C _ _ I T).
  - apply (IH k v k' v' s); auto. clear - N. induction (texts (fst (a, b))) as [|t ts IHt]; [exact N|].
    inversion N; subst. auto.
Qed.
Lemma lenientField_iff : forall m k ss, NoDup (flat_map (fun kv => texts (fst kv)) m) ->
  lenientField k (NMap m) = ss <-> StringsAt m k ss.
Proof.
  intros m k ss N. unfold lenientField, StringsAt. destruct (entry k m) as [v|] eqn:E.
  - destruct (entry_In _ _ _ E) as (key & I & T).
    assert (U : forall key' v', In (key', v') m -> IsText key' k -> v' = v)
      by (intros key' v' I' T'; exact (NoDup_flat _ _ _ _ _ _ N I' I T' T)).
    split.
    + intro H. destruct v as [| | | | |l|]; cbn [lenientStrings] in H.
      6: { left. exists key, l. split; [exact I|]. split; [exact T|]. apply lenientList_iff. exact H. }
      all: right; split; [|congruence]; intros key' l' I' T'; specialize (U _ _ I' T'); discriminate.
    + intros [(key' & l & I' & T' & H)|[A ->]].
      * assert (X := U _ _ I' T'). subst v. cbn [lenientStrings]. apply lenientList_iff. exact H.
      * destruct v as [| | | | |l|]; try reflexivity. exfalso. exact (A _ _ I T).
  - assert (A := entry_None _ _ E). split.
    + intros <-. right. split; [|reflexivity]. intros key l I. exact (A _ _ I).
    + intros [(key & l & I & T & _)|[_ ->]]; [|reflexivity]. exfalso. exact (A _ _ I T).
Qed.
Lemma exact_condition : Exact decCondition IsCondition.
Proof.
  intros n D c. destruct n as [|s|s b|s z|s f|l|m]; cbn [decCondition decString].
  1-5: (split; [intro E; injection E as <-; first [apply cond_null | apply cond_text; [discriminate|constructor]]
       | intro H; inversion H; subst; try contradiction; try reflexivity;
         match goal with T : IsText _ _ |- _ => inversion T; subst; reflexivity end]).
  - cbn [lenientField app lenientStrings]. split.
    + intro E. injection E as <-. apply cond_list. apply lenientList_iff. reflexivity.
    + intro H. inversion H as [|? s ? T|? ss S|]; subst.
      * inversion T.
      * apply lenientList_iff in S. rewrite S. reflexivity.
  - cbn [lenientStrings]. rewrite app_nil_r. inversion D as [| | | | | |? N _]; subst. split.
    + intro E. injection E as <-. apply cond_map; apply (lenientField_iff m _ _ N); reflexivity.
    + intro H. inversion H as [|? s ? T| |? inc exc S1 S2]; subst.
      * inversion T.
      * apply (lenientField_iff m _ _ N) in S1. apply (lenientField_iff m _ _ N) in S2. rewrite S1, S2. reflexivity.
Qed.
Lemma condition_total : forall n, exists c, decCondition n = Some c.
Proof. intros []; cbn; eexists; reflexivity. Qed.

Lemma text_not_map : forall m s, ~ IsText (NMap m) s.
Proof. intros m s T. inversion T. Qed.
Lemma decString_None : forall n, decString n = None -> (exists l, n = NSeq l) \/ (exists m, n = NMap m).
Proof. intros []; cbn; intro E; try discriminate; eauto. Qed.
Lemma exact_variable : Exact decVariable IsVariable.
Proof.
  intros n D x. unfold decVariable. destruct (decString n) as [s|] eqn:E.
  - assert (T := proj1 (decString_iff _ _) E). split.
    + intro F. injection F as <-. apply var_text. exact T.
    + intro H. inversion H as [? s' T'|m f v s' F Hv Hs]; subst.
      * apply decString_iff in T'. congruence.
      * exfalso. exact (text_not_map _ _ T).
  - match goal with |- decStruct ?z ?bd n = _ <-> _ => assert (X : Exact (decStruct z bd) (fun n x => exists f, Fields n f /\
      (HasText f "value" (v_value x) /\ HasText f "from_secret" (v_secret x)))) by structProof end.
    rewrite (X n D x). split.
    + intros (f & F & Hv & Hs). destruct x as [v s]. destruct (decString_None _ E) as [(l & ->)|(m & ->)].
      * destruct F as [[? _]|(? & ? & _)]; discriminate.
      * exact (var_map m f v s F Hv Hs).
    + intro H. inversion H as [? s' T'|m f v s' F Hv Hs]; subst.
      * apply decString_iff in T'. congruence.
      * exists f. auto.
Qed.
Lemma exact_push : Exact decPush IsPush.
Proof.
  intros n D x. unfold decPush. destruct (decString n) as [s|] eqn:E.
  - assert (T := proj1 (decString_iff _ _) E). split.
    + intro F. injection F as <-. apply push_text. exact T.
    + intro H. inversion H as [? s' T'|m f v F Hv]; subst.
      * apply decString_iff in T'. congruence.
      * exfalso. exact (text_not_map _ _ T).
  - match goal with |- decStruct ?z ?bd n = _ <-> _ => assert (X : Exact (decStruct z bd) (fun n x => exists f, Fields n f /\
      HasText f "image" (pu_image x))) by structProof end.
    rewrite (X n D x). split.
    + intros (f & F & Hv). destruct x as [v]. destruct (decString_None _ E) as [(l & ->)|(m & ->)].
      * destruct F as [[? _]|(? & ? & _)]; discriminate.
      * exact (push_map m f v F Hv).
    + intro H. inversion H as [? s' T'|m f v F Hv]; subst.
      * apply decString_iff in T'. congruence.
      * exists f. auto.
Qed.
Lemma exact_build : Exact decBuild IsBuild.
Proof.
  intros n D x. unfold decBuild. destruct (decString n) as [s|] eqn:E.
  - assert (T := proj1 (decString_iff _ _) E). split.
    + intro F. injection F as <-. apply build_text. exact T.
    + intro H. inversion H as [? s' T'|m f b F]; subst.
      * apply decString_iff in T'. rewrite E in T'. injection T' as ->. reflexivity.
      * exfalso. exact (text_not_map _ _ T).
  - match goal with |- decStruct ?z ?bd n = _ <-> _ => assert (X : Exact (decStruct z bd) (fun n b => exists f, Fields n f /\
      (HasTextMap f "args" (b_args b) /\ HasTexts f "cache_from" (b_cache_from b) /\ HasText f "context" (b_context b) /\
    HasText f "dockerfile" (b_dockerfile b) /\ HasText f "image" (b_image b) /\ HasTextMap f "labels" (b_labels b)))) by structProof end.
    rewrite (X n D x). split.
    + intros (f & F & H1 & H2 & H3 & H4 & H5 & H6). destruct (decString_None _ E) as [(l & ->)|(m & ->)].
      * destruct F as [[? _]|(? & ? & _)]; discriminate.
      * apply (build_map m f x); assumption.
    + intro H. inversion H as [? s' T'|m f b F]; subst.
      * apply decString_iff in T'. congruence.
      * exists f. repeat split; assumption.
Qed.
Lemma decInt_map : forall m, decInt (NMap m) = None.
Proof. reflexivity. Qed.
Lemma exact_port : Exact decPort IsPort.
Proof.
  intros n D x. unfold decPort. destruct (decInt n) as [z|] eqn:E.
  - assert (T := proj1 (exact_int n D z) E). split.
    + intro F. injection F as <-. apply port_int. exact T.
    + intro H. inversion H as [? z' T'|m f p h pr F]; subst.
      * apply (exact_int n D) in T'. congruence.
      * discriminate.
  - match goal with |- decStruct ?z ?bd n = _ <-> _ => assert (X : Exact (decStruct z bd) (fun n x => exists f, Fields n f /\
      (HasInt f "port" (po_port x) /\ HasInt f "host" (po_host x) /\ HasText f "protocol" (po_protocol x)))) by structProof end.
    rewrite (X n D x). split.
    + intros (f & F & H1 & H2 & H3). destruct x as [p h pr]. destruct F as [[-> _]|(m & -> & F)]; [discriminate|].
      apply (port_map m f); try assumption. right. exists m. auto.
    + intro H. inversion H as [? z' T'|m f p h pr F]; subst.
      * apply (exact_int n D) in T'. congruence.
      * exists f. auto.
Qed.

(** ** Any value *)
Lemma node_induction : forall P : node -> Prop,
  P NNull -> (forall s, P (NStr s)) -> (forall s b, P (NBool s b)) -> (forall s z, P (NInt s z)) ->
  (forall s f, P (NFloat s f)) -> (forall l, (forall n, In n l -> P n) -> P (NSeq l)) ->
  (forall m, (forall k v, In (k, v) m -> P k /\ P v) -> P (NMap m)) -> forall n, P n.
Proof.
  intros P H1 H2 H3 H4 H5 H6 H7. fix IH 1. intros [|s|s b|s z|s f|l|m].
  - exact H1.
  - apply H2.
  - apply H3.
  - apply H4.
  - apply H5.
  - apply H6. induction l as [|a l IHl]; cbn [In]; intros n I; [destruct I|].
    destruct I as [<-|I]; [apply IH | apply IHl, I].
  - apply H7. induction m as [|[a b] m IHm]; cbn [In]; intros k v I; [destruct I|].
    destruct I as [E|I]; [|apply IHm, I]. injection E as <- <-. split; apply IH.
Qed.
Lemma decValue_iff : forall n v, decValue n = Some v <-> IsValue n v.
Proof.
  intro n. induction n as [|s|s b|s z|s f|l IH|m IH] using node_induction; intro v; cbn [decValue].
  1-5: (split; [intro E; injection E as <-; constructor | intro H; inversion H; reflexivity]).
  - assert (X := optTraverse_iff _ _ decValue IsValue l (fun a I => IH a I)). split.
    + destruct (optTraverse decValue l) as [vs|] eqn:E; [|discriminate]. cbn. intro F. injection F as <-.
      constructor. apply X. reflexivity.
    + intro H. inversion H as [| | | | |? vs F|]; subst. apply X in F. rewrite F. reflexivity.
  - match goal with |- option_map VMap (optTraverse ?g m) = _ <-> _ =>
      assert (X : forall es, optTraverse g m = Some es <->
        Forall2 (fun kv e => IsScalar (fst kv) /\ IsValue (fst kv) (fst e) /\ IsValue (snd kv) (snd e)) m es);
      [apply optTraverse_iff | set (g' := g) in *; clearbody g'] end.
    + intros [k v'] I [vk vv]. cbn [fst snd]. destruct (IH k v' I) as [IHk IHv].
      destruct k as [|s|s b|s z|s f|l|m'].
      6-7: (split; [discriminate|]; intros ((s & T) & _); inversion T).
      all: rewrite <- (IHv vv); cbn [decValue]; split;
        [ destruct (decValue v') as [w|]; [|discriminate]; intro E; injection E as <- <-;
          split; [eexists; constructor|]; split; [constructor|reflexivity]
        | intros (_ & Hk & Hv); rewrite Hv; inversion Hk; reflexivity ].
    + split.
      * destruct (optTraverse g' m) as [es|] eqn:E; [|discriminate]. cbn. intro F. injection F as <-.
        constructor. apply X. reflexivity.
      * intro H. inversion H as [| | | | | |? es F]; subst. apply X in F. rewrite F. reflexivity.
Qed.
Lemma exact_parameter : Exact decParameter IsParameter.
Proof.
  intros n D x. unfold decParameter.
  assert (X : forall s, decStruct "" (fString "from_secret") n = Some s <-> exists f, Fields n f /\ HasText f "from_secret" s).
  { apply (exact_struct _ "" (fString "from_secret") (fun f s => HasText f "from_secret" s)); [|reflexivity|exact D].
    intros f G s. apply (exact_field _ _ _ _ exact_string f G). }
  assert (Y : forall s, RefersTo n s <-> s <> "" /\ decStruct "" (fString "from_secret") n = Some s)
    by (intro s; unfold RefersTo; rewrite X; tauto).
  assert (L : (forall s, ~ RefersTo n s) ->
    option_map (fun v => {| p_value := v; p_secret := "" |}) (decValue n) = Some x <-> IsParameter n x).
  { intro N. split.
    - destruct (decValue n) as [v|] eqn:E; [|discriminate]. cbn. intro F. injection F as <-.
      apply param_value; [exact N|]. apply decValue_iff. exact E.
    - intro H. inversion H as [? s R|? v _ V]; subst; [exfalso; exact (N _ R)|].
      apply decValue_iff in V. rewrite V. reflexivity. }
  destruct (decStruct "" (fString "from_secret") n) as [s|] eqn:E.
  - destruct s as [|c s]; cbn [isEmpty].
    + apply L. intros s R. apply Y in R. destruct R as [N F]. injection F as <-. contradiction.
    + split.
      * intro F. injection F as <-. apply param_secret. apply Y. split; [discriminate|reflexivity].
      * intro H. inversion H as [? s' R|? v N _]; subst.
        -- apply Y in R. destruct R as [_ F]. injection F as <-. reflexivity.
        -- exfalso. apply (N (String c s)). apply Y. split; [discriminate|reflexivity].
  - apply L. intros s R. apply Y in R. destruct R as [_ F]. discriminate.
Qed.
#[export] Hint Resolve exact_condition exact_variable exact_push exact_build exact_port exact_parameter : exact.

(** ** Structs again *)
Lemma exact_conditions : Exact decConditions IsConditions.
Proof.
  unfold decConditions, IsConditions, HasCond, noCond. cbv zeta. structProof.
Qed.
#[export] Hint Resolve exact_conditions : exact.
Section Sizes.
  Variable ramInBytes : string -> option Z.
  Lemma exact_size : Exact (decSize ramInBytes) (IsSize ramInBytes).
  Proof.
    intros n D z. unfold decSize, IsSize. destruct (decInt n) as [z'|] eqn:E.
    - assert (T := proj1 (exact_int n D z') E). split.
      + intro F. injection F as <-. left. exact T.
      + intros [H|[N _]]; [apply (exact_int n D) in H; congruence|]. exfalso. apply N. exists z'. exact T.
    - rewrite optBind_iff. split.
      + intros (s & T & R). right. split.
        * intros (z' & H). apply (exact_int n D) in H. congruence.
        * exists s. split; [apply decString_iff; exact T|exact R].
      + intros [H|[_ (s & T & R)]]; [apply (exact_int n D) in H; congruence|].
        exists s. split; [apply decString_iff; exact T|exact R].
  Qed.
  Hint Resolve exact_size : exact.
  Lemma exact_resourceObject : Exact (decResourceObject ramInBytes) (IsResourceObject ramInBytes).
  Proof. unfold decResourceObject, IsResourceObject, fSize, HasSize. structProof. Qed.
  Hint Resolve exact_resourceObject : exact.
  Lemma exact_resources : Exact (decResources ramInBytes) (IsResources ramInBytes).
  Proof. structProof. Qed.
  Lemma exact_emptyDir : Exact (decEmptyDir ramInBytes) (IsEmptyDir ramInBytes).
  Proof. unfold decEmptyDir, IsEmptyDir, fSize, HasSize. structProof. Qed.
  Hint Resolve exact_resources exact_emptyDir : exact.
  Lemma exact_volume : Exact (decVolume ramInBytes) (IsVolume ramInBytes).
  Proof. structProof. Qed.
  Hint Resolve exact_volume : exact.
  Lemma exact_container : Exact (decContainer ramInBytes) (IsContainer ramInBytes).
  Proof. structProof. Qed.
  Hint Resolve exact_container : exact.
  Lemma exact_pipeline : Exact (decPipeline ramInBytes) (IsPipeline ramInBytes).
  Proof. structProof. Qed.
End Sizes.

Lemma hasStruct_eq : forall A f k (R : node -> A -> Prop) x,
  HasStruct f k R x <-> exists n, HasStruct f k eq n /\ R n x.
Proof.
  intros A f k R x. unfold HasStruct. split.
  - intros [(n & I & Rx)|[N Rx]].
    + exists n. split; [left; exists n; auto | exact Rx].
    + exists NNull. auto.
  - intros (n & [(n' & I & ->)|[N <-]] & Rx).
    + left. exists n. auto.
    + auto.
Qed.

Lemma exact_cron : Exact decCron IsCron.
Proof.
  assert (Xd : Exact (decStruct "" (fString "target")) (fun n x => exists h, Fields n h /\ HasText h "target" x)).
  { apply exact_struct; [|reflexivity]. intros f G x. apply (exact_field _ _ _ _ exact_string f G). }
  assert (Xs : Exact (decStruct ("", "", "") (fun g =>
      s <? fString "schedule" g ;; b <? fString "branch" g ;;
      d <? field (decStruct "" (fString "target")) "" "deployment" g ;; Some (s, b, d)))
    (fun n x => exists g, Fields n g /\ (HasText g "schedule" (fst (fst x)) /\ HasText g "branch" (snd (fst x)) /\
      HasStruct g "deployment" (fun n x => exists h, Fields n h /\ HasText h "target" x) (snd x)))).
  { apply exact_struct; [|reflexivity]. intros f G x. split.
    - intro E. unfoldFields. unbind. injection E as <-. cbn.
      repeat match goal with |- _ /\ _ => split end; toSpec.
    - destruct x as [[s b] d]. cbn [fst snd]. intros (H1 & H2 & H3). unfoldFields.
      eapply exact_fieldStruct in H3; [|exact Xd | reflexivity | exact G]. toEq.
      rewrite H1. cbn [optBind]. rewrite H2. cbn [optBind]. rewrite H3. reflexivity. }
  intros n D x.
  assert (X : Exact decCron (fun n c => exists f, Fields n f /\
    (HasText f "version" (cr_version c) /\ HasText f "kind" (cr_kind c) /\ HasText f "type" (cr_type c) /\
     HasText f "name" (cr_name c) /\
     HasStruct f "spec" (fun n x => exists g, Fields n g /\ (HasText g "schedule" (fst (fst x)) /\ HasText g "branch" (snd (fst x)) /\
      HasStruct g "deployment" (fun n x => exists h, Fields n h /\ HasText h "target" x) (snd x)))
      (cr_schedule c, cr_branch c, cr_target c)))).
  { apply exact_struct; [|reflexivity]. intros f G c. split.
    - intro E. apply optBind_iff in E; destruct E as (v & E1 & E). apply optBind_iff in E; destruct E as (k & E2 & E).
      apply optBind_iff in E; destruct E as (t & E3 & E). apply optBind_iff in E; destruct E as (nm & E4 & E).
      apply optBind_iff in E; destruct E as ([[s b] d] & E5 & E). injection E as <-. unfoldFields. cbn.
      repeat match goal with |- _ /\ _ => split end; toSpec.
    - destruct c as [v k t nm s b d]. cbn. intros (H1 & H2 & H3 & H4 & H5). unfoldFields.
      eapply exact_fieldStruct in H5; [|exact Xs | reflexivity | exact G]. toEq.
      rewrite H1. cbn [optBind]. rewrite H2. cbn [optBind]. rewrite H3. cbn [optBind]. rewrite H4. cbn [optBind].
      unfold fString in H5. unfold fString. rewrite H5. reflexivity. }
  rewrite (X n D x). unfold IsCron. split.
  - intros (f & F & H1 & H2 & H3 & H4 & H5). exists f. repeat (split; [assumption|]).
    apply hasStruct_eq in H5. destruct H5 as (spec & Hs & g & Fg & Hsch & Hbr & Hd). cbn in *.
    apply hasStruct_eq in Hd. destruct Hd as (dep & Hd & h & Fh & Ht). exists spec, g, dep, h. auto 10.
  - intros (f & F & H1 & H2 & H3 & H4 & spec & g & dep & h & Hs & Fg & Hd & Fh & Hsch & Hbr & Ht).
    exists f. repeat (split; [assumption|]). apply hasStruct_eq. exists spec. split; [exact Hs|].
    exists g. split; [exact Fg|]. cbn. repeat (split; [assumption|]). apply hasStruct_eq. exists dep. split; [exact Hd|].
    exists h. auto.
Qed.
Lemma exact_secret : Exact decSecret IsSecret.
Proof.
  assert (Xs : Exact (decStruct ("", "", "") (fun g =>
      p <? fString "path" g ;; n <? fString "name" g ;; k <? fString "key" g ;; Some (p, n, k)))
    (fun n x => exists g, Fields n g /\ (HasText g "path" (fst (fst x)) /\ HasText g "name" (snd (fst x)) /\
      HasText g "key" (snd x)))).
  { apply exact_struct; [|reflexivity]. intros f G x. split.
    - intro E. unfoldFields. unbind. injection E as <-. cbn.
      repeat match goal with |- _ /\ _ => split end; toSpec.
    - destruct x as [[s b] d]. cbn [fst snd]. intros (H1 & H2 & H3). unfoldFields. toEq.
      rewrite H1. cbn [optBind]. rewrite H2. cbn [optBind]. rewrite H3. reflexivity. }
  intros n D x.
  assert (X : Exact decSecret (fun n c => exists f, Fields n f /\
    (HasText f "version" (se_version c) /\ HasText f "kind" (se_kind c) /\ HasText f "type" (se_type c) /\
     HasText f "name" (se_name c) /\ HasText f "data" (se_data c) /\
     HasStruct f "get" (fun n x => exists g, Fields n g /\ (HasText g "path" (fst (fst x)) /\ HasText g "name" (snd (fst x)) /\
      HasText g "key" (snd x)))
      (se_get_path c, se_get_name c, se_get_key c)))).
  { apply exact_struct; [|reflexivity]. intros f G c. split.
    - intro E. apply optBind_iff in E; destruct E as (v & E1 & E). apply optBind_iff in E; destruct E as (k & E2 & E).
      apply optBind_iff in E; destruct E as (t & E3 & E). apply optBind_iff in E; destruct E as (nm & E4 & E).
      apply optBind_iff in E; destruct E as (dt & E6 & E).
      apply optBind_iff in E; destruct E as ([[s b] d] & E5 & E). injection E as <-. unfoldFields. cbn.
      repeat match goal with |- _ /\ _ => split end; toSpec.
    - destruct c as [v k t nm dt s b d]. cbn. intros (H1 & H2 & H3 & H4 & H6 & H5). unfoldFields.
      eapply exact_fieldStruct in H5; [|exact Xs | reflexivity | exact G]. toEq.
      rewrite H1. cbn [optBind]. rewrite H2. cbn [optBind]. rewrite H3. cbn [optBind]. rewrite H4. cbn [optBind].
      rewrite H6. cbn [optBind]. unfold fString in H5. unfold fString. rewrite H5. reflexivity. }
  rewrite (X n D x). unfold IsSecret. split.
  - intros (f & F & H1 & H2 & H3 & H4 & H6 & H5). exists f. repeat (split; [assumption|]).
    apply hasStruct_eq in H5. destruct H5 as (get & Hs & g & Fg & Hp & Hn & Hk). cbn in *.
    exists get, g. auto 10.
  - intros (f & F & H1 & H2 & H3 & H4 & H6 & get & g & Hs & Fg & Hp & Hn & Hk).
    exists f. repeat (split; [assumption|]). apply hasStruct_eq. exists get. split; [exact Hs|].
    exists g. split; [exact Fg|]. cbn. auto.
Qed.

(** ** Documents *)
Section Documents.
  Variable ramInBytes : string -> option Z.
  Variable read : string -> option node.
  Notation D := (treeDecoder ramInBytes read).

  Lemma header_iff : forall n h, Distinct n -> decHeader n = Some h <->
    exists f, Fields n f /\ HasText f "version" (RawParse.h_version h) /\ HasText f "kind" (RawParse.h_kind h) /\
      HasText f "type" (RawParse.h_type h).
  Proof. intros n h Dn. apply (fun X : Exact decHeader (fun n h => exists f, Fields n f /\
      (HasText f "version" (RawParse.h_version h) /\ HasText f "kind" (RawParse.h_kind h) /\
      HasText f "type" (RawParse.h_type h))) => X n Dn h). structProof. Qed.

  Lemma resource_iff : forall raw n r, read (RawParse.rr_data raw) = Some n -> Distinct n ->
    RawParse.parseRaw D raw = Ok r <-> IsResource ramInBytes (RawParse.rr_kind raw) n r.
  Proof.
    intros raw n r E Dn. unfold RawParse.parseRaw. cbn [treeDecoder RawParse.dec_cron RawParse.dec_secret
      RawParse.dec_signature RawParse.dec_registry RawParse.dec_pipeline]. rewrite E. cbn [optBind].
    assert (O : forall A (f : A -> Resource) (o : option A),
      omap f (RawParse.decoded o) = Ok r <-> exists a, o = Some a /\ r = f a).
    { intros A f [a|]; cbn; split.
      - intro H. injection H as <-. exists a. auto.
      - intros (a' & Ea & ->). congruence.
      - discriminate.
      - intros (a & Ea & _). discriminate. }
    destruct (String.eqb_spec (RawParse.rr_kind raw) "cron") as [K|K1].
    { rewrite O, K. split.
      - intros (a & Ea & ->). split; [reflexivity|]. apply exact_cron; assumption.
      - destruct r; cbn; intros [Ek H]; try discriminate; [|exfalso; apply Ek; cbn; tauto].
        exists c. split; [apply exact_cron; assumption|reflexivity]. }
    destruct (String.eqb_spec (RawParse.rr_kind raw) "secret") as [K|K2].
    { rewrite O, K. split.
      - intros (a & Ea & ->). split; [reflexivity|]. apply exact_secret; assumption.
      - destruct r; cbn; intros [Ek H]; try discriminate; [exfalso; apply Ek; cbn; tauto|].
        exists s. split; [apply exact_secret; assumption|reflexivity]. }
    destruct (String.eqb_spec (RawParse.rr_kind raw) "signature") as [K|K3].
    { rewrite O, K. split.
      - intros (a & Ea & ->). split; [reflexivity|]. apply exact_signature; assumption.
      - destruct r; cbn; intros [Ek H]; try discriminate; [exfalso; apply Ek; cbn; tauto|].
        exists s. split; [apply exact_signature; assumption|reflexivity]. }
    destruct (String.eqb_spec (RawParse.rr_kind raw) "registry") as [K|K4].
    { rewrite O, K. split.
      - intros (a & Ea & ->). split; [reflexivity|]. apply exact_registry; assumption.
      - destruct r; cbn; intros [Ek H]; try discriminate; [exfalso; apply Ek; cbn; tauto|].
        exists r. split; [apply exact_registry; assumption|reflexivity]. }
    rewrite O. split.
    - intros (a & Ea & ->). split; [|apply exact_pipeline; assumption].
      cbn. intros [X|[X|[X|[X|[]]]]]; congruence.
    - destruct r; cbn; intros [Ek H]; try contradiction.
      exists p. split; [apply exact_pipeline; assumption|reflexivity].
  Qed.
End Documents.
