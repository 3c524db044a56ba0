(** * YamlDocs.v: the documents of a formatted configuration. *)
From Coq Require Import Lia.
From Verif Require Import Model.Go Model.Types Model.Decode Model.RawParse.
From Verif Require Import Spec.DecodeSpec Spec.YamlSpec Spec.ParseSpec.
From Verif Require Import Proofs.GoFacts Proofs.ParseFacts Proofs.PrettyTree Proofs.PrettyLayout Proofs.PrettyItems Proofs.YamlFacts.

Definition lineText (o : option (nat * string)) : string := match o with None => "" | Some (n, s) => (pad n +++ s)%string end.
Definition linesText (its : list (option (string * tree))) : list string := map lineText (render 0 (TMap its)).
Definition dataText (its : list (option (string * tree))) : string := ParseSpec.text (linesText its).

Lemma pad_oneLine : forall n, oneLine (pad n) = true.
Proof. unfold oneLine. induction n as [|n IH]; [reflexivity|]. exact IH. Qed.
Lemma lineText_oneLine : forall n o, Inside n o -> oneLine (lineText o) = true.
Proof. intros n [[m s]|] H; [|reflexivity]. cbn [lineText]. rewrite oneLine_app, pad_oneLine. apply H. Qed.
Lemma leading_pad : forall n m s, startsBlank s = false -> leading m (pad n +++ s) = (m + n, s).
Proof.
  induction n as [|n IH]; intros m s B.
  - cbn [pad String.append]. rewrite Nat.add_0_r. destruct s as [|c s]; [reflexivity|]. cbn in *. rewrite B. reflexivity.
  - cbn [pad String.append leading]. change (isBlank " ") with true. cbn iota. rewrite IH by exact B. f_equal. lia.
Qed.
Lemma leading_line : forall n o, Inside n o -> leading 0 (lineText o) = lineOf o.
Proof. intros n [[m s]|] H; [|reflexivity]. cbn [lineText]. rewrite leading_pad by apply H. reflexivity. Qed.
Lemma oneLine_NL : forall s, oneLine s = true -> hasChar NL s = false.
Proof. intros s H. unfold oneLine in H. apply andb_prop in H. destruct H as [H _]. apply negb_true_iff, H. Qed.
Lemma oneLine_CR : forall s, oneLine s = true -> hasChar CR s = false.
Proof. intros s H. unfold oneLine in H. apply andb_prop in H. destruct H as [_ H]. apply negb_true_iff, H. Qed.
Lemma split_text : forall ls, Forall (fun l => oneLine l = true) ls -> split_on NL (ParseSpec.text ls) = ls ++ [""].
Proof.
  intros ls F. unfold ParseSpec.text. induction F as [|l ls H F IH]; [reflexivity|]. cbn [map concats]. rewrite sapp_assoc.
  change (nl +++ concats (map (fun l => l +++ nl) ls))%string with (String NL (concats (map (fun l => l +++ nl) ls)%string)).
  rewrite split_on_app by (apply oneLine_NL, H). rewrite IH. reflexivity.
Qed.
Lemma text_lines : forall ls, (TreeSpec.text ls +++ nl = nl +++ ParseSpec.text (map lineText ls))%string.
Proof.
  intro ls. unfold TreeSpec.text, ParseSpec.text. induction ls as [|o ls IH]; [reflexivity|]. cbn [map concats].
  rewrite sapp_assoc, IH. destruct o as [[n s]|]; cbn [rtext lineText]; rewrite ?sapp_assoc; reflexivity.
Qed.
Lemma docText_data : forall its, docText (its ++ [None]) = ("---" +++ nl +++ dataText its)%string.
Proof.
  intro its. unfold docText, dataText, linesText. rewrite render_map_app, text_app. change (TreeSpec.text (render 0 (TMap [None]))) with nl.
  rewrite text_lines. reflexivity.
Qed.

(** ** Reading a document *)
Lemma text_length : forall a b, String.length (TreeSpec.text (a ++ b)) = String.length (TreeSpec.text a) + String.length (TreeSpec.text b).
Proof. intros. rewrite text_app, slength_app. reflexivity. Qed.
Section Docs.
  Variable resolve : string -> node.
  Notation WF := (YamlFacts.WF resolve).
  Notation nodeOf := (YamlFacts.nodeOf resolve).

  Lemma pad_length : forall k, String.length (pad k) = k.
  Proof. induction k as [|k IH]; [reflexivity|cbn; rewrite IH; reflexivity]. Qed.
  Lemma hang_grow : forall n k s r, String.length (TreeSpec.text (hang n (repeat None k ++ Some (2 + n, s) :: r)))
    = String.length (TreeSpec.text (repeat None k ++ Some (2 + n, s) :: r)).
  Proof.
    intros. rewrite hang_blanks. cbn [hang]. rewrite !text_length. f_equal. rewrite !text_cons, !slength_app. cbn [rtext].
    rewrite !slength_app, !pad_length. cbn. lia.
  Qed.
  Lemma vanishes_height : forall t, vanishes t = true -> height t = 1.
  Proof.
    intros [s|b s|l|l|l] V; try discriminate; cbn [vanishes height] in *; apply f_equal.
    - induction l as [|[t|] l IH]; [reflexivity| |exact (IH V)]. cbn [forallb] in V. apply andb_prop in V. destruct V as [V1 V2].
      cbn [fold_right]. rewrite V1. exact (IH V2).
    - induction l as [|[[k t]|] l IH]; [reflexivity|discriminate|exact (IH V)].
  Qed.
  (** The text of a layout is longer than its tree is high. *)
  Lemma height_text : forall t, WF t -> forall n, vanishes t = false -> height t + n <= String.length (TreeSpec.text (render n t)).
  Proof.
    apply (tree_induction (fun t => WF t -> forall n, vanishes t = false -> height t + n <= String.length (TreeSpec.text (render n t)))).
    - intros s _ n _. cbn [render height]. rewrite text_cons, slength_app. cbn [rtext]. rewrite !slength_app, pad_length. cbn. lia.
    - intros b s _ n _. cbn [render height]. rewrite text_cons, slength_app. cbn [rtext]. rewrite !slength_app, pad_length. cbn. lia.
    - intros [|s l] [N _] n _; [congruence|]. cbn [render map height]. rewrite text_cons, slength_app. cbn [rtext]. rewrite !slength_app, pad_length. cbn. lia.
    - intros l IH W n. apply WF_seq in W. cbn [vanishes]. induction l as [|[t|] l L]; [discriminate| |].
      + cbn [entriesOf flat_map app] in IH, W. apply Forall_cons_iff in IH, W. destruct IH as [I1 I2], W as [[W1 F1] W2].
        rewrite render_seq_cons, text_length. cbn [forallb height fold_right]. cbn [height] in L. destruct (vanishes t) eqn:V; cbn [andb].
        * intro V'. specialize (L I2 W2 V'). lia.
        * intros _. replace (render n (TSeq [Some t])) with (hang n (render (2 + n) t)) by (cbn [render flat_map]; rewrite app_nil_r; reflexivity).
          destruct (render_shape resolve t W1 F1 (2 + n)) as [_ SH]. destruct (SH V) as (k & s & r & E).
          specialize (I1 W1 (2 + n) eq_refl). rewrite E in *. rewrite hang_grow.
          set (m := fold_right _ 0 l) in *. destruct (forallb (fun o => match o with Some t => vanishes t | None => true end) l) eqn:V'.
          -- assert (M : m = 0). { pose proof (vanishes_height (TSeq l) V') as X. cbn [height] in X. injection X as X. exact X. } rewrite M. lia.
          -- specialize (L I2 W2 eq_refl). lia.
      + cbn [entriesOf flat_map app] in IH, W. specialize (L IH W). rewrite render_seq_cons, text_length. cbn [forallb height fold_right andb]. cbn [height] in L.
        intro V'. specialize (L V'). lia.
    - intros l IH W n. apply WF_map in W. cbn [vanishes]. induction l as [|[[k t]|] l L]; [discriminate| |].
      + cbn [entriesOf flat_map app] in IH, W. apply Forall_cons_iff in IH, W. destruct IH as [I1 I2], W as [[W0 W1] W2]. cbn [fst snd] in *.
        rewrite render_map_cons, text_length, entryLines_split by (eapply wf_scalar_nonempty; exact W1). cbn [forallb height fold_right]. intros _. cbn [height] in L.
        rewrite text_cons, slength_app. cbn [rtext]. rewrite !slength_app, pad_length. cbn [String.length].
        assert (K : 1 <= String.length k). { destruct W0 as [[W0 _] _]. destruct k; [congruence|cbn; lia]. }
        assert (T : height t <= 1 + String.length (TreeSpec.text (entryRest n t))).
        { destruct (vanishes t) eqn:V; [rewrite vanishes_height by exact V; lia|]. destruct t; cbn [entryRest]; try (cbn [height]; lia).
          - specialize (I1 W1 n eq_refl). lia.
          - specialize (I1 W1 (2 + n) eq_refl). lia. }
        set (m := fold_right _ 0 l) in *. destruct (forallb (fun o => match o with Some _ => false | None => true end) l) eqn:V'.
        * assert (M : m = 0). { pose proof (vanishes_height (TMap l) V') as X. cbn [height] in X. injection X as X. exact X. } rewrite M. lia.
        * specialize (L I2 W2 eq_refl). lia.
      + cbn [entriesOf flat_map app] in IH, W. specialize (L IH W). rewrite render_map_split, render_blank. cbn [app]. rewrite text_cons, slength_app.
        cbn [forallb height fold_right andb]. cbn [height] in L. intro V'. specialize (L V'). lia.
  Qed.
  Lemma dataText_length : forall its, String.length (dataText its) = String.length (TreeSpec.text (render 0 (TMap its))).
  Proof.
    intro its. pose proof (f_equal String.length (text_lines (render 0 (TMap its)))) as E. rewrite !slength_app in E. cbn [String.length nl] in E.
    unfold dataText, linesText. lia.
  Qed.
  Lemma lines_inside : forall its, WF (TMap its) -> Forall (fun l => oneLine l = true) (linesText its).
  Proof.
    intros its W. apply Forall_map. eapply Forall_impl; [|exact (proj1 (render_inside resolve _ W 0))]. intros o. apply lineText_oneLine.
  Qed.
  Theorem read_data : forall its, WF (TMap its) -> readYaml resolve (dataText its) = Some (nodeOf (TMap its)).
  Proof.
    intros its W. unfold readYaml, linesOf. unfold dataText at 2. rewrite split_text by (apply lines_inside, W). rewrite map_app.
    replace (map (leading 0) (linesText its)) with (rl 0 (TMap its)).
    - apply read_tree; [exact W|exact I| |reflexivity]. rewrite dataText_length. destruct (vanishes (TMap its)) eqn:V.
      + rewrite vanishes_height by exact V. lia.
      + pose proof (height_text _ W 0 V). lia.
    - unfold linesText, rl. rewrite map_map. pose proof (proj1 (render_inside resolve _ W 0)) as F. induction F as [|o l H F IH]; [reflexivity|].
      cbn [map]. rewrite IH. f_equal. symmetry. eapply leading_line, H.
  Qed.

  (** ** Splitting the text *)
  Definition topKey (k : string) : bool := match k with String c _ => negb (hasChar c "-.") | "" => true end.
  Definition Top (its : list (option (string * tree))) : Prop := Forall (fun kt => topKey (fst kt) = true) (entriesOf its).
  Lemma plain_line : forall c s, Ascii.eqb c "-" = false \/ (match s with String d _ => Ascii.eqb d "-" | "" => false end) = false -> Ascii.eqb c "." = false -> Plain (String c s).
  Proof.
    intros c s A B. split; intros [r E]; cbn [String.append] in E; injection E as -> ->.
    - destruct A as [A|A]; discriminate A.
    - discriminate B.
  Qed.
  Lemma indented_plain : forall n s, Plain (pad (S n) +++ s).
  Proof. intros. cbn [pad String.append]. apply plain_line; [left|]; reflexivity. Qed.
  Lemma empty_plain : Plain "".
  Proof. split; intros [r E]; discriminate E. Qed.
  Lemma deeper_plain : forall o, Deeper 0 o -> Plain (lineText o).
  Proof.
    intros [[m s]|] D; [|exact empty_plain]. cbn [lineText]. destruct D as [D|[-> D]].
    - destruct m as [|m]; [lia|]. apply indented_plain.
    - cbn [pad String.append]. destruct s as [|c s]; [discriminate|]. unfold isDash in D.
      destruct (Ascii.eqb_spec c "-") as [->|N].
      + destruct s as [|d s]; [apply plain_line; [right|]; reflexivity|]. unfold isBlank in D. apply Ascii.eqb_eq in D. subst d. apply plain_line; [right|]; reflexivity.
      + exfalso. apply N. destruct c as [[][][][][][][][]]; try discriminate D. reflexivity.
  Qed.
  Lemma top_plain : forall its, WF (TMap its) -> Top its -> Forall Plain (linesText its).
  Proof.
    intros its W T. apply WF_map in W. unfold Top in T. unfold linesText. induction its as [|[[k t]|] its IH].
    - constructor.
    - cbn [entriesOf flat_map app] in W, T. apply Forall_cons_iff in W, T. destruct W as [[W0 W1] W2], T as [T1 T2]. cbn [fst snd] in *.
      rewrite render_map_cons, map_app. apply Forall_app. split; [|exact (IH W2 T2)].
      rewrite entryLines_split by (eapply wf_scalar_nonempty; exact W1). cbn [map lineText pad String.append]. constructor.
      + destruct k as [|c k]; [exfalso; apply W0; reflexivity|]. cbn in T1. rewrite !(Ascii.eqb_sym c), orb_false_r in T1. apply negb_true_iff, orb_false_iff in T1. destruct T1.
        cbn [String.append]. apply plain_line; [left|]; assumption.
      + apply Forall_map. eapply Forall_impl; [|exact (proj2 (proj2 (render_inside resolve _ W1 0)))]. exact deeper_plain.
    - rewrite render_map_split, render_blank. cbn [app map]. constructor; [exact empty_plain|]. exact (IH W T).
  Qed.

  Definition outText (ds : list (list (option (string * tree)))) : string :=
    (concats (map (fun its => docText (its ++ [None])%list) ds) +++ "..." +++ nl)%string.
  Definition outLines (ds : list (list (option (string * tree)))) : list string :=
    concat (map (fun its => "---" :: linesText its) ds) ++ ["..."].
  Lemma out_lines : forall ds, outText ds = ParseSpec.text (outLines ds).
  Proof.
    intro ds. unfold outText, outLines. unfold ParseSpec.text. rewrite map_app, concats_app. f_equal.
    induction ds as [|its ds IH]; [reflexivity|]. cbn [map concats concat]. rewrite map_app, concats_app, IH. f_equal.
    rewrite docText_data. cbn [app map concats]. rewrite sapp_assoc. reflexivity.
  Qed.
  Lemma lines_text : forall ls, Forall (fun l => oneLine l = true) ls -> Lines (ParseSpec.text ls) ls.
  Proof.
    intros ls F. unfold ParseSpec.text. induction F as [|l ls H F IH]; [constructor|]. cbn [map concats]. rewrite sapp_assoc. constructor; [|exact IH].
    apply hasChar_false, oneLine_NL, H.
  Qed.
  Lemma chomp_text : forall ls, Forall (fun l => oneLine l = true) ls -> Forall2 Chomp ls ls.
  Proof.
    intros ls F. induction F as [|l ls H F IH]; constructor; [|exact IH]. apply Chomp_no. intros l' ->. apply oneLine_CR in H. rewrite hasChar_app in H.
    apply orb_false_iff in H. destruct H as [_ H]. discriminate H.
  Qed.
  Lemma out_oneLine : forall ds, Forall (fun its => WF (TMap its)) ds -> Forall (fun l => oneLine l = true) (outLines ds).
  Proof.
    intros ds F. unfold outLines. apply Forall_app. split; [|constructor; [reflexivity|constructor]].
    induction F as [|its ds W F IH]; [constructor|]. cbn [map concat app]. constructor; [reflexivity|]. apply Forall_app. split; [apply lines_inside, W|exact IH].
  Qed.
  Theorem split_out : forall ds, ds <> [] -> Forall (fun its => WF (TMap its) /\ Top its) ds ->
    (forall rls, Lines (outText ds) rls -> Forall Short rls) -> raw_docs (outText ds) = map dataText ds.
  Proof.
    intros ds N F S. assert (O : Forall (fun l => oneLine l = true) (outLines ds)).
    { apply out_oneLine. eapply Forall_impl; [|exact F]. cbn. tauto. }
    assert (L : Lines (outText ds) (outLines ds)) by (rewrite out_lines; apply lines_text, O).
    rewrite (raw_docs_File _ _ _ (map linesText ds) L (S _ L) (chomp_text _ O)).
    - rewrite map_map. reflexivity.
    - assert (B : Blocks (outLines ds) (map linesText ds)).
      { clear - F. unfold outLines. induction F as [|its ds [W T] F IH].
        - cbn. apply Blocks_term. exists "". reflexivity.
        - cbn [map concat app]. rewrite <- app_assoc. apply Blocks_doc; [exists ""; reflexivity|apply top_plain; assumption|exact IH]. }
      destruct ds as [|its ds]; [congruence|]. apply File_sep. exact B.
  Qed.
End Docs.
