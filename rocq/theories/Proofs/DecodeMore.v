(** * DecodeMore.v: consequences: key order, unknown keys, marshalling, short forms. *)
From Coq Require Import Floats.SpecFloat Lia Sorting.Permutation.
From Verif Require Import Model.Go Model.Types Model.Cond Model.Encode Model.Decode Spec.DecodeSpec Proofs.DecodeFacts.

(** ** Key order and unknown keys *)
Lemma keyed_permutation : forall m m' f, Permutation m m' -> keyed m = Some f ->
  exists f', keyed m' = Some f' /\ Permutation f f'.
Proof.
  intros m m' f P. revert f. induction P as [|[k v] m m' P IH|[k v] [k' v'] m|m1 m2 m3 P1 IH1 P2 IH2]; intros f E.
  - exists f. auto.
  - apply keyed_iff in E. inversion E as [|? e ? f' Hx F]; subst. apply keyed_iff in F.
    destruct (IH _ F) as (g & G & Q). exists (e :: g). split; [|constructor; exact Q].
    apply keyed_iff. constructor; [exact Hx|]. apply keyed_iff. exact G.
  - apply keyed_iff in E. inversion E as [|? e ? f' Hx F]; subst. inversion F as [|? e' ? f'' Hy F']; subst.
    exists (e' :: e :: f''). split; [|apply perm_swap]. apply keyed_iff. constructor; [exact Hy|]. constructor; [exact Hx|exact F'].
  - destruct (IH1 _ E) as (f2 & E2 & Q2). destruct (IH2 _ E2) as (f3 & E3 & Q3).
    exists f3. split; [exact E3|]. exact (Permutation_trans Q2 Q3).
Qed.
Lemma mget_permutation : forall V (f f' : smap V) k, NoDup (map fst f) -> Permutation f f' -> mget k f = mget k f'.
Proof.
  intros V f f' k N P. assert (N' : NoDup (map fst f')) by (eapply Permutation_NoDup; [apply Permutation_map; exact P|exact N]).
  destruct (mget k f) as [v|] eqn:E.
  - symmetry. apply (mget_NoDup _ _ _ _ N'). eapply Permutation_in; [exact P|]. apply mget_In. exact E.
  - symmetry. apply mget_None. apply mget_None in E. intro I. apply E.
    eapply Permutation_in; [apply Permutation_map, Permutation_sym; exact P | exact I].
Qed.
Lemma struct_permutation : forall A (zero : A) body m m',
  (forall f f', (forall k, mget k f = mget k f') -> body f = body f') ->
  Distinct (NMap m) -> Permutation m m' -> decStruct zero body (NMap m) = decStruct zero body (NMap m').
Proof.
  intros A zero body m m' B D P. inversion D as [| | | | | |? N _]; subst. cbn [decStruct].
  destruct (keyed m) as [f|] eqn:E.
  - destruct (keyed_permutation _ _ _ P E) as (f' & E' & Q). rewrite E'. cbn [optBind]. apply B.
    intro k. apply mget_permutation; [|exact Q]. rewrite (keyed_keys _ _ E). exact N.
  - destruct (keyed m') as [f'|] eqn:E'; [|reflexivity].
    destruct (keyed_permutation _ _ _ (Permutation_sym P) E') as (f & X & _). congruence.
Qed.
Lemma struct_unknown : forall A (zero : A) body keys m k v,
  (forall f, body ((k, v) :: f) = body f) -> ~ In k keys ->
  decStruct zero body (NMap ((NStr k, v) :: m)) = decStruct zero body (NMap m).
Proof.
  intros A zero body keys m k v B N. cbn [decStruct].
  unfold keyed. rewrite optTraverse_cons. cbn [fst snd decString option_map].
  destruct (optTraverse _ m) as [f|]; [|reflexivity]. cbn [optBind]. apply B.
Qed.
Ltac sameFields H := unfold fString, fStrings, fStringMap, fBool, fInt, field; rewrite !H; reflexivity.
Lemma pipeline_order : forall ram m m', Distinct (NMap m) -> Permutation m m' ->
  decPipeline ram (NMap m) = decPipeline ram (NMap m').
Proof. intros ram m m' D P. apply struct_permutation; [|exact D|exact P]. intros f f' H. sameFields H. Qed.
Lemma container_order : forall ram m m', Distinct (NMap m) -> Permutation m m' ->
  decContainer ram (NMap m) = decContainer ram (NMap m').
Proof. intros ram m m' D P. apply struct_permutation; [|exact D|exact P]. intros f f' H. sameFields H. Qed.
Lemma neq_eqb : forall k (keys : list string), ~ In k keys -> forall k', In k' keys -> String.eqb k' k = false.
Proof. intros k keys N k' I. apply String.eqb_neq. congruence. Qed.
Ltac skipFields N := intro f; unfold fString, fStrings, fStringMap, fBool, fInt, field; cbn [mget];
  rewrite ?(neq_eqb _ _ N) by (cbn; tauto); reflexivity.
Lemma pipeline_unknown : forall ram m k v, ~ In k pipelineKeys ->
  decPipeline ram (NMap ((NStr k, v) :: m)) = decPipeline ram (NMap m).
Proof.
  intros ram m k v N. apply (struct_unknown _ _ _ pipelineKeys); [|exact N].
  skipFields N.
Qed.
Lemma container_unknown : forall ram m k v, ~ In k stepKeys ->
  decContainer ram (NMap ((NStr k, v) :: m)) = decContainer ram (NMap m).
Proof.
  intros ram m k v N. apply (struct_unknown _ _ _ stepKeys); [|exact N].
  skipFields N.
Qed.

(** ** Null list entries *)
Lemma list_nulls : forall A (R : node -> A -> Prop) l xs, IsList (IsPtr R) (NSeq l) xs -> In NNull l <-> In None xs.
Proof.
  intros A R l xs [[E _]|(l' & E & F)]; [discriminate|]. injection E as <-.
  induction F as [|n o l xs H _ IH]; cbn [In]; [tauto|]. rewrite IH.
  destruct H as [[-> ->]|(N & x & -> & _)].
  - split; auto.
  - split; intros [X|X]; auto; [contradiction|discriminate].
Qed.
Lemma null_steps : forall ram n p f l, Distinct n -> IsPipeline ram n p -> Fields n f -> In ("steps", NSeq l) f ->
  In NNull l <-> In None (pi_steps p).
Proof.
  intros ram n p f l D (f' & F' & H) F I.
  assert (U : f' = f).
  { clear -F F'. destruct F as [[-> ->]|(m & -> & F)], F' as [[E' E]|(m' & E & F')]; try congruence. injection E as <-.
    apply keyed_iff in F. apply keyed_iff in F'. congruence. }
  subst f'. assert (S : Has f "steps" (IsList (IsPtr (IsContainer ram))) [] (pi_steps p)) by tauto.
  destruct S as [(n' & I' & S)|[N _]].
  - assert (G := fields_Good _ _ D F). destruct G as [N _].
    assert (n' = NSeq l) by (apply (mget_NoDup _ _ _ _ N) in I; apply (mget_NoDup _ _ _ _ N) in I'; congruence).
    subst n'. exact (list_nulls _ _ _ _ S).
  - exfalso. apply N. apply in_map_iff. exists ("steps", NSeq l). auto.
Qed.

(** ** Conditions *)
Lemma unreadable_condition : forall m, Distinct (NMap m) ->
  (forall key l, In (key, NSeq l) m -> ~ IsText key "include" /\ ~ IsText key "exclude") ->
  decCondition (NMap m) = Some {| c_include := []; c_exclude := [] |}.
Proof.
  intros m D H. apply (exact_condition (NMap m) D). apply cond_map; right; (split; [|reflexivity]); intros key l I; apply (H key l I).
Qed.

(** ** Marshalling *)
Lemma variable_roundtrip : forall v, v_value v = "" \/ v_secret v = "" ->
  decPtr decVariable (marshalVariable v) =
    Some (if isEmpty (v_value v) && isEmpty (v_secret v) then None else Some v).
Proof.
  intros [v s] H. cbn in H. unfold marshalVariable. cbn [v_value v_secret].
  destruct s as [|c s]; destruct v as [|d v]; try reflexivity.
  destruct H; discriminate.
Qed.
Lemma isValue_str_key : forall n e, IsValue n (VMap [(VStr "from_secret", VStr e)]) -> n = NMap [(NStr "from_secret", NStr e)].
Proof.
  intros n e H. inversion H as [| | | | | |m es F E1 E2]; subst. inversion F as [|[k v] ? m' ? Hx Fl]; subst.
  inversion Fl; subst. cbn in Hx. destruct Hx as (_ & Hk & Hv). inversion Hk; subst. inversion Hv; subst. reflexivity.
Qed.
Lemma secret_parameter_roundtrip : forall s n, s <> "" ->
  IsValue n (marshalParameter {| p_value := VNull; p_secret := s |}) ->
  decPtr decParameter n = Some (Some {| p_value := VNull; p_secret := s |}).
Proof.
  intros s n N H. unfold marshalParameter in H. cbn [p_secret p_value] in H.
  destruct s as [|c s]; [contradiction|]. cbn [isEmpty negb] in H. apply isValue_str_key in H. subst n. reflexivity.
Qed.
Lemma value_parameter_roundtrip : forall v n, Distinct n -> (forall s, ~ RefersTo n s) ->
  IsValue n (marshalParameter {| p_value := v; p_secret := "" |}) ->
  decPtr decParameter n =
    Some (match v with VNull | VStr "" => None | _ => Some {| p_value := v; p_secret := "" |} end).
Proof.
  intros v n D R H. unfold marshalParameter in H. cbn [p_secret p_value isEmpty negb] in H.
  assert (G : n <> NNull -> IsValue n v -> decPtr decParameter n = Some (Some {| p_value := v; p_secret := "" |})).
  { intros N V. apply (exact_ptr _ _ _ exact_parameter n D). right. split; [exact N|]. eexists. split; [reflexivity|].
    apply param_value; assumption. }
  destruct v as [| | | |[|c s]| |]; try (apply G; [intros ->; inversion H|exact H]);
    inversion H; reflexivity.
Qed.
Lemma decInt_fits : forall t z, Fits z -> decInt (NInt t z) = Some z.
Proof. intros t z F. apply (exact_int (NInt t z)); constructor. exact F. Qed.
Lemma port_roundtrip : forall p, Fits (po_port p) -> Fits (po_host p) -> decPort (portNode p) = Some p.
Proof.
  intros [p h pr] Fp Fh. unfold portNode. cbn [po_port po_host po_protocol] in *. unfold decPort. cbn [decInt decStruct].
  unfold keyed. cbn [optTraverse decString fst snd option_map optBind]. unfold fInt, fString, field. cbn [mget String.eqb Ascii.eqb Bool.eqb].
  rewrite !decInt_fits by assumption. reflexivity.
Qed.
Lemma textMap_roundtrip : forall m, decMap decString (textMap m) = Some m.
Proof.
  intro m. unfold textMap. cbn [decMap].
  assert (K : keyed (map (fun kv => (NStr (fst kv), NStr (snd kv))) m) = Some (map (fun kv => (fst kv, NStr (snd kv))) m)).
  { induction m as [|[k v] m IH]; [reflexivity|]. unfold keyed in *. cbn [map]. rewrite optTraverse_cons, IH. reflexivity. }
  rewrite K. cbn [optBind]. clear K. induction m as [|[k v] m IH]; [reflexivity|]. cbn [map]. rewrite optTraverse_cons, IH. reflexivity.
Qed.
Lemma textList_roundtrip : forall l, decSlice decString (textList l) = Some l.
Proof.
  intro l. unfold textList. cbn [decSlice]. induction l as [|s l IH]; [reflexivity|]. cbn [map]. rewrite optTraverse_cons, IH. reflexivity.
Qed.
Lemma build_roundtrip : forall b, decBuild (buildNode b) = Some b.
Proof.
  intros [a cf c d i l]. unfold buildNode. cbn [b_args b_cache_from b_context b_dockerfile b_image b_labels].
  unfold decBuild. cbn [decString decStruct].
  unfold keyed. cbn [optTraverse decString fst snd option_map optBind]. unfold fStringMap, fStrings, fString, field.
  cbn [mget String.eqb Ascii.eqb Bool.eqb]. rewrite !textMap_roundtrip, textList_roundtrip. reflexivity.
Qed.
Lemma push_roundtrip : forall p, decPush (pushNode p) = Some p.
Proof. intros [i]. reflexivity. Qed.
Lemma null_steps_decoded : forall ram n p f l, Distinct n -> decPipeline ram n = Some p -> Fields n f ->
  In ("steps", NSeq l) f -> In NNull l <-> In None (pi_steps p).
Proof. intros ram n p f l D E. apply (exact_pipeline ram n D) in E. exact (null_steps ram n p f l D E). Qed.
