(** * MarginLines.v: the lines of a formatted file. *)
From Coq Require Import Lia Floats.SpecFloat DecimalString.
From Verif Require Import Model.Go Model.Types Model.Encode Model.Quote Model.Script Model.Pretty Model.Convert
  Spec.ScriptSpec Spec.TreeSpec Spec.PrettySpec Spec.ConverterSpec Spec.FormatSpec Spec.AgainSpec
  Proofs.GoFacts Proofs.PrettyTree Proofs.PrettyLayout Proofs.PrettyItems Proofs.ScriptFacts Proofs.QuoteNeed Proofs.YamlFacts Proofs.PrettyRound
  Proofs.ConverterFacts.
From Verif Require Model.Legacy.
Transparent render text.

Definition flat (s : string) : Prop := hasChar NL s = false.
Lemma flat_app a b : flat a -> flat b -> flat (a +++ b).
Proof. unfold flat. intros A B. rewrite hasChar_app, A, B. reflexivity. Qed.
Lemma flat_dollars s : hasChar NL (escapeDollars s) = hasChar NL s.
Proof.
  unfold escapeDollars. induction s as [|c s IH]; [reflexivity|]. cbn [list_ascii_of_string map concats]. rewrite hasChar_app, IH.
  destruct (Ascii.eqb c "$") eqn:E; [apply Ascii.eqb_eq in E; subst; reflexivity|]. unfold hasChar at 1. cbn [sexistsb]. 
  change (hasChar NL (String c s)) with (Ascii.eqb NL c || hasChar NL s). rewrite orb_false_r. reflexivity.
Qed.
Lemma flat_quote iph s : flat (quote iph s).
Proof.
  destruct (escaped_trace iph s) as (lit & _ & E & N). unfold flat. rewrite <- flat_dollars. unfold escaped in *.
  rewrite replace_dollar in *. rewrite E in *. exact N.
Qed.
Lemma flat_enc iph s : flat (encodeString iph s).
Proof.
  unfold encodeString. destruct (isEmpty s); [reflexivity|]. destruct (isQuoted s) eqn:Q; [apply flat_quote|].
  unfold flat. apply not_true_iff_false. intro H. apply hasChar_In in H. apply not_true_iff_false in Q. apply Q. apply quoted_need.
  apply (quote_control s 10%N); [lia|]. apply in_split in H. destruct H as (a & b & H).
  exists (string_of_list_ascii a), (string_of_list_ascii b). apply laos_inj. rewrite laos_app, list_ascii_of_string_of_list_ascii.
  change (list_ascii_of_string (utf8 10 +++ string_of_list_ascii b)) with (NL :: list_ascii_of_string (string_of_list_ascii b)).
  rewrite list_ascii_of_string_of_list_ascii. exact H.
Qed.
Lemma flat_itoa z : flat (itoa z).
Proof.
  assert (D : forall u, flat (NilEmpty.string_of_uint u)).
  { induction u as [|u IH|u IH|u IH|u IH|u IH|u IH|u IH|u IH|u IH|u IH]; [reflexivity|..]; exact IH. }
  assert (Z : forall u, flat (NilZero.string_of_uint u)) by (intro u; unfold NilZero.string_of_uint; destruct u; [reflexivity|..]; apply D).
  unfold itoa, NilZero.string_of_int. destruct (Z.to_int z); [apply Z|]. exact (Z d).
Qed.

(** ** Trees without newlines *)
Fixpoint flatT (t : tree) : Prop :=
  match t with
  | TScalar s | TBelow _ s => flat s
  | TFold l => Forall flat l
  | TSeq l => fold_right (fun o p => match o with Some t => flatT t /\ p | None => p end) True l
  | TMap l => fold_right (fun o p => match o with Some (k, t) => (flat k /\ flatT t) /\ p | None => p end) True l
  end.
Definition FlatS (o : option tree) : Prop := match o with Some t => flatT t | None => True end.
Definition FlatI (o : option (string * tree)) : Prop := match o with Some (k, t) => flat k /\ flatT t | None => True end.
Lemma flat_seq l : flatT (TSeq l) <-> Forall FlatS l.
Proof.
  cbn [flatT]. induction l as [|[t|] l IH]; cbn [fold_right]; [split; [constructor|trivial]|rewrite Forall_cons_iff, IH; reflexivity|].
  rewrite Forall_cons_iff, IH. cbn [FlatS]. tauto.
Qed.
Lemma flat_map_ l : flatT (TMap l) <-> Forall FlatI l.
Proof.
  cbn [flatT]. induction l as [|[[k t]|] l IH]; cbn [fold_right]; [split; [constructor|trivial]|rewrite Forall_cons_iff, IH; reflexivity|].
  rewrite Forall_cons_iff, IH. cbn [FlatI]. tauto.
Qed.
Lemma flat_entries_s l : Forall FlatS l <-> Forall flatT (entriesOf l).
Proof. rewrite <- flat_seq. induction l as [|[t|] l IH]; cbn [entriesOf flat_map app]; [split; [constructor|constructor]|rewrite Forall_cons_iff, <- IH; reflexivity|exact IH]. Qed.
Lemma flat_entries_i l : Forall FlatI l <-> Forall (fun kt => flat (fst kt) /\ flatT (snd kt)) (entriesOf l).
Proof. rewrite <- flat_map_. induction l as [|[[k t]|] l IH]; cbn [entriesOf flat_map app]; [split; [constructor|constructor]|rewrite Forall_cons_iff, <- IH; reflexivity|exact IH]. Qed.
Definition lineFlat (o : option (nat * string)) : Prop := match o with Some (_, s) => flat s | None => True end.
Lemma hang_flat n ls : Forall lineFlat ls -> Forall lineFlat (hang n ls).
Proof. intro F. induction F as [|[[m s]|] ls H F IH]; cbn [hang]; constructor; assumption. Qed.
Lemma render_flat : forall t, flatT t -> forall n, Forall lineFlat (render n t).
Proof.
  apply (tree_induction (fun t => flatT t -> forall n, Forall lineFlat (render n t))).
  - intros s H n. constructor; [exact H|constructor].
  - intros b s H n. constructor; [exact H|constructor].
  - intros l H n. cbn [render]. apply Forall_map. exact H.
  - intros l IH H n. apply flat_seq, flat_entries_s in H. cbn [render]. apply flat_map_Forall. apply entries_forall; [constructor; [exact I|constructor]|].
    rewrite Forall_forall in IH, H |- *. intros t Ht. apply hang_flat. apply IH; [exact Ht|apply H, Ht].
  - intros l IH H n. apply flat_map_, flat_entries_i in H. induction l as [|[[k t]|] l L]; [constructor| |].
    + cbn [entriesOf flat_map app] in IH, H. apply Forall_cons_iff in IH, H. destruct IH as [I1 I2], H as [[H0 H1] H2]. cbn [fst snd] in *.
      rewrite render_map_cons. apply Forall_app. split; [|exact (L I2 H2)]. specialize (I1 H1). rewrite entryLines_eq.
      assert (C : flat (k +++ ":")) by (apply flat_app; [exact H0|reflexivity]).
      destruct t.
      * constructor; [|constructor]. apply flat_app; [exact H0|]. apply (flat_app ": " s); [reflexivity|exact H1].
      * constructor; [exact C|]. constructor; [exact H1|constructor].
      * constructor; [|apply I1]. apply flat_app; [exact H0|reflexivity].
      * constructor; [exact C|apply I1].
      * constructor; [exact C|apply I1].
    + rewrite render_map_split, render_blank. constructor; [exact I|]. apply L; assumption.
Qed.

(** ** Indentation *)
Definition lineDeep (n : nat) (o : option (nat * string)) : Prop := match o with Some (m, _) => n <= m | None => True end.
Lemma deep_less n m ls : n <= m -> Forall (lineDeep m) ls -> Forall (lineDeep n) ls.
Proof. intros L F. eapply Forall_impl; [|exact F]. intros [[a s]|] H; cbn in *; lia. Qed.
Lemma hang_deep n ls : Forall (lineDeep n) ls -> Forall (lineDeep n) (hang n ls).
Proof. intro F. induction F as [|[[m s]|] ls H F IH]; cbn [hang]; constructor; try assumption. cbn. lia. Qed.
Lemma render_deep : forall t n, Forall (lineDeep n) (render n t).
Proof.
  apply (tree_induction (fun t => forall n, Forall (lineDeep n) (render n t))).
  - intros s n. constructor; [cbn; lia|constructor].
  - intros b s n. constructor; [cbn; lia|constructor].
  - intros l n. cbn [render]. apply Forall_map. rewrite Forall_forall. intros. cbn. lia.
  - intros l IH n. cbn [render]. apply flat_map_Forall. apply entries_forall; [constructor; [exact I|constructor]|].
    rewrite Forall_forall in IH |- *. intros t Ht. apply hang_deep. apply (deep_less n (2 + n)); [lia|]. apply IH, Ht.
  - intros l IH n. induction l as [|[[k t]|] l L]; [constructor| |].
    + cbn [entriesOf flat_map app] in IH. apply Forall_cons_iff in IH. destruct IH as [I1 I2]. cbn [snd] in I1.
      rewrite render_map_cons. apply Forall_app. split; [|exact (L I2)]. rewrite entryLines_eq.
      assert (C : forall s, lineDeep n (Some (n, s))) by (intro s; cbn; lia).
      assert (D : Forall (lineDeep n) (render (2 + n) t)) by (apply (deep_less n (2 + n)); [lia|apply I1]).
      destruct t; constructor; try apply C; try constructor; try apply I1; try assumption; [cbn; lia|constructor].
    + rewrite render_map_split, render_blank. constructor; [exact I|]. apply L; assumption.
Qed.

(** ** Documents *)
Definition lineMargin (o : option (nat * string)) : Prop :=
  match o with Some (n, s) => flat s /\ MarginLine (pad n +++ s) | None => True end.
Lemma margin_indented n s : 1 <= n -> MarginLine (pad n +++ s).
Proof. destruct n; [lia|]. intros _. apply margin_deeper. Qed.
Lemma both_margin ls : Forall lineFlat ls -> Forall (lineDeep 2) ls -> Forall lineMargin ls.
Proof.
  rewrite !Forall_forall. intros F D [[n s]|] I; [|exact Logic.I]. split; [exact (F _ I)|]. apply margin_indented. apply D in I. cbn in I. lia.
Qed.
Lemma hang_margin ls : Forall lineFlat ls -> Forall (lineDeep 2) ls -> Forall lineMargin (hang 0 ls).
Proof.
  intros F D. induction F as [|[[m s]|] ls H F IH]; cbn [hang]; [constructor|..]; apply Forall_cons_iff in D; destruct D as [D0 D].
  - constructor; [|apply both_margin; assumption]. split; [apply (flat_app "- " s); [reflexivity|exact H]|]. exact (margin_item s).
  - constructor; [exact I|apply IH, D].
Qed.
Definition TopI (o : option (string * tree)) : Prop :=
  match o with Some (k, t) => In k marginKeys /\ match t with TBelow _ _ => False | _ => True end | None => True end.
Lemma render_margin its : Forall FlatI its -> Forall TopI its -> Forall lineMargin (render 0 (TMap its)).
Proof.
  intros F T. induction its as [|[[k t]|] l L]; [constructor| |]; apply Forall_cons_iff in F, T; destruct F as [F0 F], T as [T0 T].
  - rewrite render_map_cons. apply Forall_app. split; [|exact (L F T)]. rewrite entryLines_eq. destruct F0 as [K Ft], T0 as [Ik Nt].
    assert (C : lineMargin (Some (0, k +++ ":"))%string).
    { split; [apply flat_app; [exact K|reflexivity]|]. exact (margin_key k "" Ik). }
    destruct t.
    + constructor; [|constructor]. split; [apply flat_app; [exact K|apply (flat_app ": " s); [reflexivity|exact Ft]]|]. exact (margin_key k (" " +++ s) Ik).
    + destruct Nt.
    + constructor; [split; [apply flat_app; [exact K|reflexivity]|exact (margin_key k " >" Ik)]|].
      apply both_margin; [apply render_flat, Ft|apply (render_deep (TFold l0) 2)].
    + constructor; [exact C|]. cbn [render]. apply flat_map_Forall. apply flat_seq, flat_entries_s in Ft. apply entries_forall; [constructor; [exact I|constructor]|].
      eapply Forall_impl; [|exact Ft]. intros t Ht. apply hang_margin; [apply render_flat, Ht|apply render_deep].
    + constructor; [exact C|]. apply both_margin; [apply render_flat, Ft|apply (render_deep (TMap l0) 2)].
  - rewrite render_map_split, render_blank. constructor; [exact I|]. apply L; assumption.
Qed.
Lemma pad_flat n : flat (pad n).
Proof. induction n as [|n IH]; [reflexivity|exact IH]. Qed.
Lemma lines_text ls : Forall lineMargin ls -> forall a, flat a -> MarginLine a -> Forall MarginLine (split_on NL (a +++ text ls)).
Proof.
  intro F. induction F as [|o ls H F IH]; intros a A M.
  - change (text []) with "". rewrite sapp_nil_r, split_on_none by exact A. constructor; [exact M|constructor].
  - rewrite text_cons. destruct o as [[n s]|]; cbn [rtext].
    + change ((nl +++ pad n +++ s) +++ text ls)%string with (String NL ((pad n +++ s) +++ text ls))%string. rewrite split_on_app by exact A. constructor; [exact M|].
      apply IH; [apply flat_app; [apply pad_flat|apply H]|apply H].
    + change (nl +++ text ls)%string with (String NL ("" +++ text ls))%string. rewrite split_on_app by exact A. constructor; [exact M|].
      apply IH; [reflexivity|constructor].
Qed.
Lemma doc_lines its rest : Forall FlatI its -> Forall TopI its -> (exists its', its = its' ++ [None]) -> Forall MarginLine (split_on NL rest) ->
  Forall MarginLine (split_on NL (docText its +++ rest)).
Proof.
  intros F T (its' & ->) R. apply Forall_app in F, T. destruct F as [F _], T as [T _]. unfold docText. rewrite render_map_app, text_app, !sapp_assoc.
  change (text (render 0 (TMap [None])) +++ rest)%string with (String NL rest). rewrite <- sapp_assoc, split_on_mid. apply Forall_app. split; [|exact R].
  apply lines_text; [apply render_margin; assumption|reflexivity|constructor].
Qed.

(** ** What is written *)
Definition Each {A} (P : A -> Prop) (o : option (list A)) : Prop := match o with Some l => Forall P l | None => True end.
Lemma each_app {A} (P : A -> Prop) a b : Each P a -> Each P b -> Each P (a +? b).
Proof. destruct a as [a|], b as [b|]; cbn; auto. intros. apply Forall_app. auto. Qed.
Lemma each_only {A} (P : A -> Prop) b o : Each P o -> Each P (only b o).
Proof. destruct b; [auto|]. intros _. constructor. Qed.
Lemma each_isSet {A B} (P : B -> Prop) (p : option A) f : (forall a, Each P (f a)) -> Each P (PrettyItems.isSet p f).
Proof. intro H. destruct p as [a|]; [exact (H a)|constructor]. Qed.
Lemma each_needs {A B} (P : B -> Prop) (p : option A) f : (forall a, Each P (f a)) -> Each P (needs p f).
Proof. intro H. destruct p as [a|]; [exact (H a)|exact I]. Qed.
Lemma each_concat {A B} (P : B -> Prop) (f : A -> option (list B)) l : (forall a, Each P (f a)) -> Each P (optConcat (map f l)).
Proof. intro H. induction l as [|a l IH]; [constructor|]. cbn [map optConcat]. apply each_app; auto. Qed.
Lemma each_blank (P : option (string * tree) -> Prop) : P None -> Each P blank.
Proof. intro H. repeat constructor. exact H. Qed.

Section Items.
  Variable iph : N -> bool.
  Variable formatFloat sprintFloat : float64 -> string.
  Variable bytesSize : Z -> string.
  Hypothesis HF : OneLine formatFloat.
  Notation enc := (encodeString iph).
  Notation "'act' f" := (f iph formatFloat sprintFloat bytesSize) (at level 10, f at level 8, only parsing).

  Lemma flat_value : forall v, flatT (valueTree iph formatFloat sprintFloat v).
  Proof using HF.
    apply value_induction.
    - intros [|b|z|f|s|[|x l]|[|x m]] H; try destruct H; cbn; try reflexivity; [destruct b; reflexivity| |apply HF|apply flat_enc].
      destruct (isInt z); [apply flat_itoa|reflexivity].
    - intros [|x l] N F; [congruence|]. cbn [valueTree]. apply flat_seq. apply Forall_map. exact F.
    - intros [|x m] N F; [congruence|]. cbn [valueTree]. cbv zeta. apply flat_map_. apply Forall_map. apply Forall_forall. intros k _.
      split; [apply flat_enc|]. destruct (lookup k _) as [[v t]|] eqn:E; [|reflexivity]. apply lookup_In in E. apply in_map_iff in E.
      destruct E as ([k' v'] & E & I). injection E as _ <- <-. rewrite Forall_forall in F. specialize (F _ I). cbn [snd fst] in *.
      destruct v'; cbn [underKey]; try exact F. destruct (isInt z); [exact F|reflexivity].
  Qed.
  Lemma flat_any : forall v, flatT (anyTree iph formatFloat sprintFloat bytesSize v).
  Proof using HF.
    intros [v|[|s l]|[|x m]|z]; cbn [anyTree]; try reflexivity.
    - destruct v as [|b|z|f|s|[|x l]|[|x m]]; try apply flat_value; try reflexivity.
      cbn [below]. destruct (isInt z); [apply flat_itoa|reflexivity].
    - apply flat_seq. apply Forall_map, Forall_forall. intros x _. apply flat_enc.
    - apply flat_map_. apply Forall_map, Forall_forall. intros k _. split; apply flat_enc.
    - apply flat_enc.
  Qed.
  Lemma each_tag k v : Each FlatI (act tagItems k v).
  Proof using HF. unfold tagItems. destruct (isZero v); [constructor|]. constructor; [|constructor]. split; [apply flat_enc|apply flat_any]. Qed.
  Lemma each_under k t : match t with Some t => flatT t | None => True end -> Each FlatI (under iph k t).
  Proof. intro H. destruct t; [|exact I]. constructor; [|constructor]. split; [apply flat_enc|exact H]. Qed.
  Lemma each_inMap k o : Each FlatI o -> Each FlatI (inMap iph k o).
  Proof. intro H. apply each_under. destruct o; [|exact I]. apply flat_map_. exact H. Qed.
  Lemma each_inSeq k o : Each FlatS o -> Each FlatI (inSeq iph k o).
  Proof. intro H. apply each_under. destruct o; [|exact I]. apply flat_seq. exact H. Qed.
  Lemma each_asItem o : Each FlatI o -> Each FlatS (asItem o).
  Proof. intro H. destruct o; [|exact I]. constructor; [|constructor]. apply flat_map_. exact H. Qed.
  Ltac go := repeat lazymatch goal with
    | |- Each _ (tagItems _ _ _ _ _ _) => apply each_tag
    | |- Each _ blank => apply each_blank; exact I
    | |- Each _ (_ +? _) => apply each_app
    | |- Each _ (inMap _ _ _) => apply each_inMap
    | |- Each _ (inSeq _ _ _) => apply each_inSeq
    | |- Each _ (asItem _) => apply each_asItem
    | |- Each _ (only _ _) => apply each_only
    | |- Each _ (PrettyItems.isSet _ _) => apply each_isSet; intro
    | |- Each _ (needs _ _) => apply each_needs; intro
    | |- Each _ (optConcat _) => apply each_concat; intro
    | |- Each _ (if ?b then _ else _) => destruct b
    | |- Each _ (under _ _ _) => apply each_under
    end.
  Lemma flat_condition c : match act conditionTree c with Some t => flatT t | None => True end.
  Proof using HF.
    unfold conditionTree. destruct (_ && _); [apply flat_any|].
    assert (E : Each FlatI (act tagItems "include" (AStrings (c_include c)) +? act tagItems "exclude" (AStrings (c_exclude c)))) by go.
    destruct (_ +? _); [|exact I]. apply flat_map_. exact E.
  Qed.
  Lemma flat_conditions k w : Each FlatI (act conditionsItems k w).
  Proof using HF. unfold conditionsItems. cbv zeta. go; apply flat_condition. Qed.
  Lemma flat_container c : Each FlatI (act containerItems c).
  Proof using HF.
    unfold containerItems, buildItems, deviceItems, environItems, variableItems, portItems, portElems, resourcesItems, resourceObjectItems,
      settingItems, parameterItems, mountItems. go; try apply flat_conditions.
    - apply flat_any.
    - constructor; [|constructor]. apply flat_itoa.
  Qed.
  Lemma flat_chunks d : Forall flat (chunk (removeSpaces d) 60).
  Proof.
    pose proof (removed_spaces d) as S. destruct (removeSpaces d) as [|c u] eqn:E; [cbn; repeat constructor|].
    assert (N : String c u <> "") by discriminate. pose proof (chunk_pieces _ N) as [C _]. rewrite <- E in *. apply Forall_forall. intros p I.
    apply not_true_iff_false. intro H. apply hasChar_In in H. assert (J : In NL (list_ascii_of_string (removeSpaces d))).
    { rewrite C. clear -I H. induction (chunk (removeSpaces d) 60) as [|q l IH]; [destruct I|]. cbn [concats]. rewrite laos_app. apply in_or_app.
      destruct I as [->|I]; [left; exact H|right; apply IH, I]. }
    unfold squeezed in S. rewrite S in J. apply filter_In in J. destruct J as [_ J]. discriminate.
  Qed.
  Lemma flat_resource r : Each FlatI (act resourceItems r).
  Proof using HF.
    destruct r as [c|p|s|g|r]; cbn [resourceItems].
    - unfold cronItems, specItems. go.
    - unfold pipelineItems, cloneItems, concurrencyItems, platformItems, defaultItems, workspaceItems, containersItems, volumeItems, emptyDirItems, hostPathItems.
      go; try apply flat_conditions; try apply flat_container. reflexivity.
    - unfold secretItems, dataItems, getItems. go. apply flat_chunks.
    - unfold signatureItems. go.
    - constructor.
  Qed.

  (** ** Keys at the margin *)
  Lemma margin_encoded k : In k marginKeys -> enc k = k.
  Proof. intro H. cbn in H. repeat (destruct H as [<-|H]; [reflexivity|]). destruct H. Qed.
  Lemma top_tag k v : In k marginKeys -> match v with AValue (VStr _) | AStrings _ | AMap _ => True | _ => False end -> Each TopI (act tagItems k v).
  Proof.
    intros H V. unfold tagItems. destruct (isZero v) eqn:Z; [constructor|]. constructor; [|constructor]. rewrite margin_encoded by exact H.
    split; [exact H|]. destruct v as [[]|[|]|[|]|]; try destruct V; try discriminate; exact I.
  Qed.
  Lemma top_inMap k o : In k marginKeys -> Each TopI (inMap iph k o).
  Proof. intro H. destruct o; [|exact I]. constructor; [|constructor]. rewrite margin_encoded by exact H. split; [exact H|exact I]. Qed.
  Lemma top_inSeq k o : In k marginKeys -> Each TopI (inSeq iph k o).
  Proof. intro H. destruct o; [|exact I]. constructor; [|constructor]. rewrite margin_encoded by exact H. split; [exact H|exact I]. Qed.
  Ltac key := cbn; tauto.
  Ltac top := repeat lazymatch goal with
    | |- Each _ (tagItems _ _ _ _ _ _) => apply top_tag; [key|exact I]
    | |- Each _ blank => apply each_blank; exact I
    | |- Each _ (_ +? _) => apply each_app
    | |- Each _ (inMap _ _ _) => apply top_inMap; key
    | |- Each _ (inSeq _ _ _) => apply top_inSeq; key
    | |- Each _ (only _ _) => apply each_only
    | |- Each _ (if ?b then _ else _) => destruct b
    end.
  Lemma top_resource r : Each TopI (act resourceItems r).
  Proof.
    destruct r as [c|p|s|g|r]; cbn [resourceItems].
    - unfold cronItems, specItems. top.
    - unfold pipelineItems, cloneItems, concurrencyItems, platformItems, defaultItems, workspaceItems, containersItems, volumeItems, conditionsItems. cbv zeta. top.
    - unfold secretItems, dataItems, getItems. top. constructor; [|constructor]. rewrite margin_encoded by key. split; [key|exact I].
    - unfold signatureItems. top.
    - constructor.
  Qed.

  (** ** Documents end with an empty line *)
  Definition Spaced {A} (o : option (list (option A))) : Prop := match o with Some l => exists l', l = l' ++ [None] | None => True end.
  Lemma spaced_app {A} (a b : option (list (option A))) : Spaced b -> Spaced (a +? b).
  Proof. destruct a as [a|], b as [b|]; cbn; auto. intros (l & ->). exists (a ++ l). apply app_assoc. Qed.
  Lemma spaced_resource r : isRegistry r = false -> Spaced (act resourceItems r).
  Proof.
    intro N. destruct r as [c|p|s|g|r]; cbn [resourceItems]; [unfold cronItems|unfold pipelineItems|unfold secretItems|unfold signatureItems|discriminate];
      repeat lazymatch goal with |- Spaced (_ +? _) => apply spaced_app end; exists []; reflexivity.
  Qed.

  Theorem format_lines m out : act Pretty.print m = Ok out -> Forall MarginLine (split_on NL out).
  Proof using HF.
    rewrite print_text. destruct (docs _ _ _ _ _) as [ds|] eqn:E; [|discriminate]. intro H. injection H as <-.
    assert (D : Forall (fun its => Forall FlatI its /\ Forall TopI its /\ exists its', its = its' ++ [None]) ds).
    { revert ds E. unfold docs. induction (mf_resources m) as [|r rs IH]; intros ds E; [injection E as <-; constructor|]. cbn [map optConcat] in E.
      destruct (isRegistry r) eqn:Er.
      - destruct (optConcat _) as [ds'|]; [|discriminate]. injection E as <-. apply IH. reflexivity.
      - pose proof (flat_resource r) as F. pose proof (top_resource r) as T. pose proof (spaced_resource r Er) as S.
        destruct (act resourceItems r) as [its|]; [|discriminate]. cbn [option_map] in E. destruct (optConcat _) as [ds'|]; [|discriminate].
        injection E as <-. constructor; [|apply IH; reflexivity]. auto. }
    clear E. induction D as [|its ds (F & T & S) D IH].
    - change (Forall MarginLine ["..."; ""]). repeat constructor.
    - cbn [map concats]. rewrite sapp_assoc. apply doc_lines; assumption.
  Qed.
  Theorem format_not_legacy m out : act Pretty.print m = Ok out -> ~ HasPipelineLine out.
  Proof using HF.
    intros H (ws & I & _). apply format_lines in H. rewrite Forall_forall in H. apply H in I.
    inversion I as [E|E|E|s E|s E|k s K E]. cbn in K. repeat (destruct K as [<-|K]; [discriminate|]). destruct K.
  Qed.
End Items.
