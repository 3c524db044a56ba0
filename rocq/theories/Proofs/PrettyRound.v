(** * PrettyRound.v: what is formatted is read back. *)
From Coq Require Import Lia Floats.SpecFloat Sorting.Permutation DecimalString.
From Verif Require Import Model.Go Model.Types Model.Decode Model.Encode Model.Quote Model.Pretty.
From Verif Require Import Spec.DecodeSpec Spec.YamlSpec Spec.PrettySpec.
From Verif Require Import Proofs.GoFacts Proofs.MapFacts Proofs.PrettyTree Proofs.PrettyLayout Proofs.PrettyItems.
From Verif Require Import Proofs.YamlFacts Proofs.YamlStrings Proofs.YamlDocs.
From Verif Require Import Proofs.ScriptFacts.
From Verif Require Model.Legacy.
Transparent render text.

(** ** Maps by key *)
Section ByKey.
  Context {V : Type}.
  Implicit Types m : smap V.
  Lemma insertKey_perm : forall e m, Permutation (e :: m) (insertKey e m).
  Proof.
    intros e m. induction m as [|f m IH]; [apply Permutation_refl|]. cbn [insertKey]. destruct (String.compare (fst e) (fst f)); try apply Permutation_refl.
    eapply perm_trans; [apply perm_swap|]. apply perm_skip, IH.
  Qed.
  Lemma byKey_perm : forall m, Permutation m (byKey m).
  Proof. induction m as [|e m IH]; [constructor|]. cbn. eapply perm_trans; [apply perm_skip, IH|apply insertKey_perm]. Qed.
  Lemma insertKey_keys : forall e m, map fst (insertKey e m) = Legacy.insertSorted (fst e) (map fst m).
  Proof.
    intros e m. induction m as [|f m IH]; [reflexivity|]. cbn [insertKey map Legacy.insertSorted]. unfold Legacy.sleb.
    destruct (String.compare (fst e) (fst f)); cbn [map]; rewrite ?IH; reflexivity.
  Qed.
  Lemma byKey_keys : forall m, map fst (byKey m) = Legacy.sortStrings (mkeys m).
  Proof. induction m as [|e m IH]; [reflexivity|]. cbn [byKey fold_right mkeys map Legacy.sortStrings]. rewrite insertKey_keys. f_equal. exact IH. Qed.
  Lemma byKey_In : forall m e, In e (byKey m) <-> In e m.
  Proof. intros m e. split; apply Permutation_in; [apply Permutation_sym|]; apply byKey_perm. Qed.
  Lemma byKey_NoDup : forall m, NoDup (map fst m) -> NoDup (map fst (byKey m)).
  Proof. intros m D. eapply Permutation_NoDup; [|exact D]. apply Permutation_map, byKey_perm. Qed.
  Lemma sorted_get : forall {B} (f : string -> option V -> B) m, NoDup (map fst m) ->
    map (fun k => f k (mget k m)) (Legacy.sortStrings (mkeys m)) = map (fun e => f (fst e) (Some (snd e))) (byKey m).
  Proof.
    intros B f m D. rewrite <- byKey_keys, map_map. apply map_ext_in. intros [k v] H. cbn [fst snd]. f_equal.
    apply mget_unique; [exact D|]. apply byKey_In, H.
  Qed.
End ByKey.
Lemma byKey_map : forall {A B} (g : A -> B) m, byKey (map (fun e => (fst e, g (snd e))) m) = map (fun e => (fst e, g (snd e))) (byKey m).
Proof.
  assert (I : forall A B (g : A -> B) e m, insertKey (fst e, g (snd e)) (map (fun e => (fst e, g (snd e))) m) = map (fun e => (fst e, g (snd e))) (insertKey e m)).
  { intros A B g e m. induction m as [|f m IH]; [reflexivity|]. cbn [insertKey map fst]. destruct (String.compare (fst e) (fst f)); cbn [map]; rewrite ?IH; reflexivity. }
  intros A B g m. induction m as [|e m IH]; [reflexivity|]. cbn [map]. change (byKey (e :: m)) with (insertKey e (byKey m)). rewrite <- I, <- IH. reflexivity.
Qed.

(** ** Trees of printable text *)
Fixpoint Shows (t : tree) : Prop :=
  match t with
  | TScalar s | TBelow _ s => Visible s
  | TFold l => Forall Visible l
  | TSeq l => fold_right (fun o p => match o with Some t => Shows t /\ p | None => p end) True l
  | TMap l => fold_right (fun o p => match o with Some (k, t) => (Visible k /\ Shows t) /\ p | None => p end) True l
  end.
Lemma shows_seq : forall l, Shows (TSeq l) <-> Forall Shows (entriesOf l).
Proof.
  intro l. cbn [Shows]. induction l as [|[t|] l IH]; cbn [fold_right entriesOf flat_map app].
  - split; [constructor|trivial].
  - rewrite IH. split; [intros [A B]; constructor; assumption|intro F; inversion F; auto].
  - exact IH.
Qed.
Lemma shows_map : forall l, Shows (TMap l) <-> Forall (fun kt => Visible (fst kt) /\ Shows (snd kt)) (entriesOf l).
Proof.
  intro l. cbn [Shows]. induction l as [|[[k t]|] l IH]; cbn [fold_right entriesOf flat_map app].
  - split; [constructor|trivial].
  - rewrite IH. split; [intros [A B]; constructor; assumption|intro F; inversion F; auto].
  - exact IH.
Qed.
Definition lineShows (o : option (nat * string)) : Prop := match o with Some (_, s) => Visible s | None => True end.
Lemma hang_shows : forall n ls, Forall lineShows ls -> Forall lineShows (hang n ls).
Proof.
  intros n ls F. induction F as [|[[m s]|] ls H F IH]; cbn [hang]; constructor; try assumption.
  cbn. change (Visible (("- ") +++ s)). apply visible_app; [apply visible_ascii; reflexivity|exact H].
Qed.
Lemma render_shows : forall t, Shows t -> forall n, Forall lineShows (render n t).
Proof.
  apply (tree_induction (fun t => Shows t -> forall n, Forall lineShows (render n t))).
  - intros s H n. constructor; [exact H|constructor].
  - intros b s H n. constructor; [exact H|constructor].
  - intros l H n. cbn [render]. apply Forall_map. exact H.
  - intros l IH H n. apply shows_seq in H. cbn [render]. apply flat_map_Forall. apply entries_forall; [constructor; [exact I|constructor]|].
    rewrite Forall_forall in IH, H |- *. intros t Ht. apply hang_shows. apply IH; [exact Ht|apply H, Ht].
  - intros l IH H n. apply shows_map in H. induction l as [|[[k t]|] l L]; [constructor| |].
    + cbn [entriesOf flat_map app] in IH, H. apply Forall_cons_iff in IH, H. destruct IH as [I1 I2], H as [[H0 H1] H2]. cbn [fst snd] in *.
      rewrite render_map_cons. apply Forall_app. split; [|exact (L I2 H2)]. specialize (I1 H1). rewrite entryLines_eq.
      assert (C : Visible (k +++ ":")) by (apply visible_app; [exact H0|apply visible_ascii; reflexivity]).
      destruct t.
      * constructor; [|constructor]. cbn. apply visible_app; [exact H0|]. change (Visible (": " +++ s)). apply visible_app; [apply visible_ascii; reflexivity|exact H1].
      * constructor; [exact C|]. constructor; [exact H1|constructor].
      * constructor; [|apply I1]. cbn. apply visible_app; [exact H0|apply visible_ascii; reflexivity].
      * constructor; [exact C|apply I1].
      * constructor; [exact C|apply I1].
    + rewrite render_map_split, render_blank. constructor; [exact I|]. apply L; assumption.
Qed.
Lemma pad_visible : forall n, Visible (pad n).
Proof. induction n as [|n IH]; [exists []; split; [reflexivity|constructor]|]. change (pad (S n)) with (" " +++ pad n)%string. apply visible_app; [apply visible_ascii; reflexivity|exact IH]. Qed.
Lemma visible_yaml : forall s, Visible s -> YamlText s.
Proof. intros s (rs & -> & F). exists rs. split; [reflexivity|]. eapply Forall_impl; [|exact F]. intros r H. left. exact H. Qed.
Lemma yaml_app : forall a b, YamlText a -> YamlText b -> YamlText (a +++ b).
Proof.
  intros a b (rs & -> & F) (rs' & -> & F'). exists (rs ++ rs'). split; [rewrite map_app, concats_app; reflexivity|apply Forall_app; split; assumption].
Qed.
Lemma yaml_nl : YamlText nl.
Proof. exists [10%N]. split; [reflexivity|]. constructor; [right; reflexivity|constructor]. Qed.
Lemma text_yaml : forall ls, Forall lineShows ls -> YamlText (TreeSpec.text ls).
Proof.
  intros ls F. induction F as [|o ls H F IH]; [exists []; split; [reflexivity|constructor]|]. rewrite text_cons. apply yaml_app; [|exact IH].
  destruct o as [[n s]|]; cbn [rtext]; [|exact yaml_nl]. apply yaml_app; [exact yaml_nl|]. apply yaml_app; apply visible_yaml; [apply pad_visible|exact H].
Qed.
Lemma out_yaml : forall ds, Forall (fun its => Shows (TMap its)) ds -> YamlText (outText ds).
Proof.
  intros ds F. unfold outText. apply yaml_app; [|apply yaml_app; [apply visible_yaml, visible_ascii; reflexivity|exact yaml_nl]].
  induction F as [|its ds H F IH]; [exists []; split; [reflexivity|constructor]|]. cbn [map concats]. apply yaml_app; [|exact IH].
  unfold docText. apply yaml_app; [apply visible_yaml, visible_ascii; reflexivity|]. apply text_yaml, render_shows, shows_map.
  rewrite entriesOf_app. cbn [entriesOf flat_map]. rewrite app_nil_r. apply shows_map, H.
Qed.

(** ** Literal keys *)
Definition keyWord (k : string) : bool :=
  sforallb printable k && negb (smem k ["~"; "null"; "Null"; "NULL"; "-"; "?"; "<<"]) && Nat.leb (String.length k) 340 &&
  match k with String c _ => negb (hasChar c "&!") | "" => true end.
Lemma keyWord_readable : forall k, keyWord k = true -> ReadableKey k.
Proof.
  intros k H. unfold keyWord in H. apply andb_prop in H. destruct H as [H H4]. apply andb_prop in H. destruct H as [H H3].
  apply andb_prop in H. destruct H as [H1 H2]. apply Nat.leb_le in H3. apply negb_true_iff in H2.
  assert (N : forall w, In w ["~"; "null"; "Null"; "NULL"; "-"; "?"; "<<"] -> k <> w).
  { intros w I ->. apply smem_In in I. congruence. }
  cbn in N. split; [|split; [apply N; tauto|exact H3]]. split.
  { apply visible_ascii in H1. destruct H1 as (rs & -> & F). exists rs. split; [reflexivity|]. eapply Forall_impl; [|exact F]. cbn. tauto. }
  split. { intros E I. cbn in I. destruct I as [I|I]; [congruence|]. repeat (destruct I as [<-|I]; [eapply N; [|reflexivity]; tauto|]). exact I. }
  split; [apply N; tauto|]. split; [apply N; tauto|]. destruct k as [|c k]; [exact I|]. apply negb_true_iff, hasChar_false in H4. cbn in H4. split; intros ->; tauto.
Qed.

(** ** Numbers *)
Definition safeChar (c : ascii) : bool := negb (hasChar c " :#").
Lemma safe_body : forall s, s <> "" -> sforallb safeChar s = true -> plainBody s = true.
Proof.
  intros s N H. assert (X : contains s ": " = false /\ contains s " #" = false /\ forall d, lastChar s = Some d -> safeChar d = true).
  { clear N. induction s as [|c s IH]; [split; [reflexivity|split; [reflexivity|discriminate]]|]. cbn [sforallb] in H. apply andb_prop in H. destruct H as [H1 H2].
    destruct (IH H2) as (A & B & C). split; [|split].
    - cbn [contains]. rewrite A, orb_false_r. cbn [String.prefix]. destruct (ascii_dec ":" c) as [<-|]; [discriminate H1|reflexivity].
    - cbn [contains]. rewrite B, orb_false_r. cbn [String.prefix]. destruct (ascii_dec " " c) as [<-|]; [discriminate H1|reflexivity].
    - intros d E. destruct s as [|e s]; [injection E as <-; exact H1|exact (C d E)]. }
  destruct X as (A & B & C). unfold plainBody. rewrite A, B. cbn [negb andb]. destruct s as [|c s]; [congruence|].
  destruct (lastChar_some c s) as [d E]. rewrite E. specialize (C d E). unfold safeChar in C. apply negb_true_iff, hasChar_false in C. cbn in C.
  apply negb_true_iff, orb_false_iff. unfold isBlank. split; apply Ascii.eqb_neq; intros ->; tauto.
Qed.
Lemma printed_safe : forall s, plainStart s = true -> sforallb safeChar s = true -> sforallb printable s = true -> Printed s.
Proof.
  intros s P S V. split; [|apply visible_ascii, V]. unfold isPlain. rewrite P, safe_body; [reflexivity| |exact S]. intros ->. discriminate P.
Qed.
Lemma uint_digits : forall u, sforallb safeChar (NilEmpty.string_of_uint u) = true /\ sforallb printable (NilEmpty.string_of_uint u) = true /\
  match NilEmpty.string_of_uint u with String c _ => hasChar c "0123456789" = true | "" => True end.
Proof.
  assert (D : forall u, sforallb safeChar (NilEmpty.string_of_uint u) = true /\ sforallb printable (NilEmpty.string_of_uint u) = true).
  { induction u as [|u IH|u IH|u IH|u IH|u IH|u IH|u IH|u IH|u IH|u IH]; [split; reflexivity|..]; exact IH. }
  intro u. split; [apply D|split; [apply D|]]. destruct u; try exact I; reflexivity.
Qed.
Lemma digit_start : forall c s, hasChar c "0123456789" = true -> plainStart (String c s) = true /\ isBlank c = false.
Proof.
  intros c s H. apply hasChar_In in H. cbn in H. repeat (destruct H as [<-|H]; [split; reflexivity|]). destruct H.
Qed.
Lemma printed_itoa : forall z, Printed (itoa z).
Proof.
  assert (Z : forall u, let s := NilZero.string_of_uint u in s <> "" /\ sforallb safeChar s = true /\ sforallb printable s = true /\
    match s with String c _ => hasChar c "0123456789" = true | "" => True end).
  { intro u. cbv zeta. unfold NilZero.string_of_uint. destruct u; try (split; [discriminate|]; apply uint_digits). split; [discriminate|]. repeat split. }
  intro z. unfold itoa, NilZero.string_of_int. destruct (Z.to_int z) as [u|u]; destruct (Z u) as (N & A & B & C); destruct (NilZero.string_of_uint u) as [|c s]; try congruence;
    apply printed_safe; try assumption; [apply digit_start, C|].
  cbn [plainStart]. change (hasChar "-" "-?:") with true. cbn iota. rewrite (proj2 (digit_start c s C)). reflexivity.
Qed.

(** ** The data of a secret *)
Definition keptChar (c : ascii) : bool := negb (Ascii.eqb c " " || Ascii.eqb c NL).
Lemma remove_char : forall c s, list_ascii_of_string (replaceAll s (String c "") "") = filter (fun x => negb (Ascii.eqb x c)) (list_ascii_of_string s).
Proof.
  unfold replaceAll. intros c s. induction s as [|x s IH]; [reflexivity|]. cbn [replace_skip list_ascii_of_string filter String.length Nat.sub].
  cbn [String.prefix]. destruct (ascii_dec c x) as [->|N].
  - rewrite Ascii.eqb_refl. cbn [negb String.append]. destruct s; exact IH.
  - replace (Ascii.eqb x c) with false by (symmetry; apply Ascii.eqb_neq; congruence). cbn [negb list_ascii_of_string]. f_equal. exact IH.
Qed.
Lemma filter_filter : forall {A} (f g : A -> bool) l, filter f (filter g l) = filter (fun x => g x && f x) l.
Proof. intros A f g l. induction l as [|a l IH]; [reflexivity|]. cbn. destruct (g a); cbn; [destruct (f a); rewrite IH; reflexivity|exact IH]. Qed.
Lemma removed_spaces : forall s, squeezed s (removeSpaces s).
Proof.
  intro s. unfold squeezed, removeSpaces. change nl with (String NL ""). rewrite (remove_char NL), (remove_char " "), filter_filter. apply filter_ext. intro c.
  destruct (Ascii.eqb c " "), (Ascii.eqb c NL); reflexivity.
Qed.
Lemma chunk_from : forall fuel s, String.length s <= fuel -> s <> "" -> pieces s (chunkFrom fuel 60 s).
Proof.
  induction fuel as [|f IH]; intros s L N; [destruct s; [congruence|cbn in L; lia]|]. cbn [chunkFrom]. destruct (isEmpty s) eqn:E; [destruct s; [congruence|discriminate]|].
  destruct (String.eqb_spec (sdrop 60 s) "") as [Z|Z].
  - rewrite Z. replace (chunkFrom f 60 "") with (@nil string) by (destruct f; reflexivity).
    assert (Es : stake 60 s = s) by (pose proof (stake_sdrop 60 s) as P; rewrite Z, sapp_nil_r in P; exact P).
    pose proof (slength_sdrop 60 s) as LS. rewrite Z in LS. cbn [String.length] in LS. rewrite Es. split; [cbn; rewrite sapp_nil_r; reflexivity|].
    exists [], s. split; [reflexivity|]. split; [constructor|]. split; [|lia]. destruct s; [congruence|cbn; lia].
  - pose proof (slength_sdrop 60 s) as LS. assert (L60 : 60 < String.length s) by (destruct (sdrop 60 s); [congruence|cbn in LS; lia]).
    destruct (IH (sdrop 60 s)) as (C & whole & last & Ep & Fw & Ll); [lia|exact Z|]. split; [cbn [concats]; rewrite <- C; symmetry; apply stake_sdrop|].
    exists (stake 60 s :: whole), last. split; [rewrite Ep; reflexivity|]. split; [|exact Ll]. constructor; [|exact Fw]. rewrite slength_stake. lia.
Qed.
Lemma chunk_pieces : forall s, s <> "" -> pieces s (chunk s 60).
Proof. intros s N. unfold chunk. destruct (isEmpty s) eqn:E; [destruct s; [congruence|discriminate]|]. apply chunk_from; [lia|exact N]. Qed.
Lemma pieces_in : forall s ps p c, pieces s ps -> In p ps -> In c (list_ascii_of_string p) -> In c (list_ascii_of_string s).
Proof.
  intros s ps p c [-> _] Ip Ic. induction ps as [|q ps IH]; [destruct Ip|]. cbn [concats]. rewrite laos_app. apply in_or_app. destruct Ip as [->|Ip]; [left; exact Ic|right; exact (IH Ip)].
Qed.
Lemma pieces_nonempty : forall s ps p, pieces s ps -> In p ps -> p <> "".
Proof.
  intros s ps p (_ & whole & last & -> & F & L) I Z. subst p. apply in_app_or in I. destruct I as [I|[I|[]]]; [|subst last; cbn in L; lia]. rewrite Forall_forall in F. specialize (F _ I). discriminate.
Qed.

Section Round.
  Variable iph : N -> bool.
  Variable formatFloat sprintFloat : float64 -> string.
  Variable bytesSize : Z -> string.
  Variable resolve : string -> node.
  Variable ramInBytes : string -> option Z.
  Hypothesis HR : Resolver resolve.
  Notation enc := (encodeString iph).
  Notation items := (option (list (option (string * tree)))) (only parsing).
  Notation nodeOf := (YamlFacts.nodeOf resolve).
  Notation WF := (YamlFacts.WF resolve).
  Notation scalarNode := (YamlFacts.scalarNode resolve).
  Notation anyTree := (PrettyTree.anyTree iph formatFloat sprintFloat bytesSize).
  Notation tag := (tagItems iph formatFloat sprintFloat bytesSize).
  Notation valueTree := (PrettyTree.valueTree iph formatFloat sprintFloat).
  Notation SizeOk := (PrettySpec.SizeOk resolve ramInBytes bytesSize).
  Notation ValueOk := (PrettySpec.ValueOk resolve formatFloat).

  Definition Good (t : tree) : Prop := WF t /\ Shows t /\ Distinct (nodeOf t).
  Definition GoodOpt (ot : option tree) : Prop := match ot with Some t => Good t | None => True end.

  (** ** Segments: the entries of a struct by the names of its keys *)
  Notation segs := (list (string * option tree)) (only parsing).
  Definition present (ss : segs) : list (string * tree) := flat_map (fun s => match snd s with Some t => [(fst s, t)] | None => [] end) ss.
  Definition Lays (o : items) (ss : segs) : Prop :=
    exists its, o = Some its /\ entriesOf its = map (fun kt => (enc (fst kt), snd kt)) (present ss).
  Definition GoodSegs (ss : segs) : Prop := NoDup (map fst ss) /\ Forall (fun s => ReadableKey (fst s) /\ GoodOpt (snd s)) ss.
  Definition fieldsOf (ss : segs) : smap node := map (fun kt => (fst kt, nodeOf (snd kt))) (present ss).

  Lemma lays_app : forall a b sa sb, Lays a sa -> Lays b sb -> Lays (a +? b) (sa ++ sb).
  Proof.
    intros a b sa sb (ia & -> & Ea) (ib & -> & Eb). exists (ia ++ ib). split; [reflexivity|].
    rewrite entriesOf_app, Ea, Eb. unfold present. rewrite flat_map_app, map_app. reflexivity.
  Qed.
  Lemma lays_blank : Lays blank [].
  Proof. exists [None]. split; reflexivity. Qed.
  Lemma lays_then_blank : forall o ss, Lays o ss -> Lays (o +? blank) ss.
  Proof. intros o ss H. rewrite <- (app_nil_r ss). apply lays_app; [exact H|exact lays_blank]. Qed.
  Lemma lays_blank_then : forall o ss, Lays o ss -> Lays (blank +? o) ss.
  Proof. intros o ss H. apply (lays_app blank o [] ss lays_blank H). Qed.
  Lemma lays_nil : Lays (Some []) [].
  Proof. exists []. split; reflexivity. Qed.
  Lemma lays_absent : forall k, Lays (Some []) [(k, None)].
  Proof. intro k. exists []. split; reflexivity. Qed.
  Lemma lays_under : forall k t, Lays (under iph k (Some t)) [(k, Some t)].
  Proof. intros k t. exists [Some (enc k, t)]. split; reflexivity. Qed.

  Lemma present_In : forall ss k t, In (k, t) (present ss) <-> In (k, Some t) ss.
  Proof.
    intros ss k t. unfold present. rewrite in_flat_map. split.
    - intros ([k' [t'|]] & I & H); cbn in H; [|destruct H]. destruct H as [H|[]]. injection H as -> ->. exact I.
    - intro I. exists (k, Some t). split; [exact I|left; reflexivity].
  Qed.
  Lemma present_keys : forall ss k, In k (map fst (present ss)) -> In k (map fst ss).
  Proof. intros ss k H. apply in_map_iff in H. destruct H as ([k' t] & <- & H). apply present_In in H. apply (in_map fst) in H. exact H. Qed.
  Lemma present_NoDup : forall ss, NoDup (map fst ss) -> NoDup (map fst (present ss)).
  Proof.
    induction ss as [|[k [t|]] ss IH]; intro D; [constructor| |]; cbn in D |- *; apply NoDup_cons_iff in D; destruct D as [N D].
    - constructor; [intro I; apply N, present_keys, I|exact (IH D)].
    - exact (IH D).
  Qed.
  Lemma key_text : forall k, ReadableKey k -> texts (scalarNode (enc k)) = [k] /\ Distinct (scalarNode (enc k)) /\ IsText (scalarNode (enc k)) k.
  Proof.
    intros k R. destruct (enc_text iph resolve HR k (proj1 R)) as [T N]. destruct T; try congruence; (split; [reflexivity|split; constructor]).
  Qed.
  Lemma node_entries : forall its kts, entriesOf its = map (fun kt => (enc (fst kt), snd kt)) kts ->
    nodeOf (TMap its) = match kts with [] => NNull | _ => NMap (map (fun kt => (scalarNode (enc (fst kt)), nodeOf (snd kt))) kts) end.
  Proof. intros its kts E. rewrite nodeOf_map, E. destruct kts as [|p kts]; [reflexivity|]. cbn [map fst snd]. rewrite map_map. reflexivity. Qed.
  Lemma good_map : forall its kts, entriesOf its = map (fun kt => (enc (fst kt), snd kt)) kts -> NoDup (map fst kts) ->
    Forall (fun kt => ReadableKey (fst kt) /\ Good (snd kt)) kts -> Good (TMap its).
  Proof.
    intros its kts E D F. split; [|split].
    - apply WF_map. rewrite E. apply Forall_map. eapply Forall_impl; [|exact F]. intros [k t] [R G]. split; [apply enc_key, R|apply G].
    - apply shows_map. rewrite E. apply Forall_map. eapply Forall_impl; [|exact F]. intros [k t] [R G]. split; [apply enc_visible, R|apply G].
    - rewrite (node_entries its kts E). assert (X : Distinct (NMap (map (fun kt => (scalarNode (enc (fst kt)), nodeOf (snd kt))) kts))).
      2:{ destruct kts; [constructor|exact X]. }
      constructor.
      + rewrite flat_map_concat_map, map_map. cbn [fst]. replace (concat _) with (map fst kts); [exact D|].
        clear - F HR. induction F as [|[k t] kts [R G] F IH]; [reflexivity|]. cbn [map concat fst]. rewrite (proj1 (key_text k R)), <- IH. reflexivity.
      + intros k v I. apply in_map_iff in I. destruct I as ([k' t] & I & H). cbn in I. injection I as <- <-. rewrite Forall_forall in F. destruct (F _ H) as [R G].
        split; [apply key_text, R|apply G].
  Qed.
  Lemma struct_good : forall o ss, Lays o ss -> GoodSegs ss -> exists its, o = Some its /\ Good (TMap its) /\
    Fields (nodeOf (TMap its)) (fieldsOf ss) /\
    (present ss <> [] -> vanishes (TMap its) = false /\ exists m, nodeOf (TMap its) = NMap m).
  Proof.
    intros o ss (its & -> & E) [D F]. exists its. split; [reflexivity|].
    assert (F' : Forall (fun kt => ReadableKey (fst kt) /\ Good (snd kt)) (present ss)).
    { apply Forall_forall. intros [k t] I. apply present_In in I. rewrite Forall_forall in F. exact (F _ I). }
    split; [eapply good_map; [exact E|apply present_NoDup, D|exact F']|]. split.
    - rewrite (node_entries _ _ E). unfold fieldsOf. destruct (present ss) as [|p ps]; [left; split; reflexivity|]. right. eexists. split; [reflexivity|].
      clear - F' HR. induction F' as [|[k t] kts [R G] F IH]; [constructor|]. cbn [map fst snd]. constructor; [|exact IH]. cbn. split; [apply key_text, R|reflexivity].
    - intro N. rewrite (node_entries _ _ E). destruct (present ss) as [|p ps] eqn:P; [congruence|]. split; [|eexists; reflexivity].
      cbn [vanishes]. clear - E. induction its as [|[[k t]|] its IH]; [discriminate|reflexivity|]. cbn [forallb andb]. exact (IH E).
  Qed.

  (** ** What a segment means *)
  Definition Means {A} (R : node -> A -> Prop) (zero : A) (ot : option tree) (x : A) : Prop :=
    match ot with Some t => Good t /\ R (nodeOf t) x | None => x = zero end.
  Definition Entry {A} (k : string) (o : items) (R : node -> A -> Prop) (zero x : A) : Prop :=
    exists ot, Lays o [(k, ot)] /\ Means R zero ot x.
  Lemma means_good : forall {A} (R : node -> A -> Prop) zero ot x, Means R zero ot x -> GoodOpt ot.
  Proof. intros A R zero [t|] x H; [apply H|exact I]. Qed.
  Lemma has_seg : forall {A} ss k ot (R : node -> A -> Prop) zero x, NoDup (map fst ss) -> In (k, ot) ss -> Means R zero ot x -> Has (fieldsOf ss) k R zero x.
  Proof.
    intros A ss k [t|] R zero x D I M.
    - left. exists (nodeOf t). split; [|apply M]. unfold fieldsOf. apply in_map_iff. exists (k, t). split; [reflexivity|]. apply present_In, I.
    - right. split; [|exact M]. unfold fieldsOf. rewrite map_map. cbn [fst]. intro H. apply in_map_iff in H. destruct H as ([k' t] & <- & H). apply present_In in H. cbn in I.
      clear - D I H. induction ss as [|[k o] ss IH]; [destruct I|]. cbn in D. apply NoDup_cons_iff in D. destruct D as [N D].
      destruct I as [I|I], H as [H|H]; try congruence; [| |exact (IH D I H)].
      + injection I as -> ->. apply N. apply (in_map fst) in H. exact H.
      + injection H as -> ->. apply N. apply (in_map fst) in I. exact I.
  Qed.
  Lemma struct_seg : forall {A} ss k ot (R : node -> A -> Prop) x, NoDup (map fst ss) -> In (k, ot) ss ->
    match ot with Some t => R (nodeOf t) x | None => R NNull x end -> HasStruct (fieldsOf ss) k R x.
  Proof.
    intros A ss k [t|] R x D I M.
    - left. exists (nodeOf t). split; [|apply M]. unfold fieldsOf. apply in_map_iff. exists (k, t). split; [reflexivity|]. apply present_In, I.
    - destruct (has_seg ss k None (fun (_ : node) (_ : unit) => True) tt tt D I eq_refl) as [(n & H & _)|[H _]]; [|right; split; [exact H|exact M]].
      exfalso. unfold fieldsOf in H. apply in_map_iff in H. destruct H as ([k' t] & E & H). cbn in E. injection E as -> _. apply present_In in H.
      clear - D I H. induction ss as [|[k0 o] ss IH]; [destruct I|]. cbn in D. apply NoDup_cons_iff in D. destruct D as [N D].
      destruct I as [I|I], H as [H|H]; try congruence; [| |exact (IH D I H)].
      + injection I as -> ->. apply N. apply (in_map fst) in H. exact H.
      + injection H as -> ->. apply N. apply (in_map fst) in I. exact I.
  Qed.
  Lemma has_none : forall {A} ss k (R : node -> A -> Prop) zero, smem k (map fst ss) = false -> Has (fieldsOf ss) k R zero zero.
  Proof.
    intros A ss k R zero N. right. split; [|reflexivity]. unfold fieldsOf. rewrite map_map. cbn [fst]. intro H. apply smem_false in N. apply N, present_keys, H.
  Qed.

  (** ** Scalars *)
  Lemma good_enc : forall s, Readable s -> Good (TScalar (enc s)) /\ IsText (nodeOf (TScalar (enc s))) s /\ nodeOf (TScalar (enc s)) <> NNull.
  Proof.
    intros s R. destruct (enc_text iph resolve HR s R) as [T N]. split; [|split; assumption]. split; [apply (enc_scalar iph resolve s R)|]. split; [apply enc_visible, R|].
    cbn [YamlFacts.nodeOf]. destruct T; constructor.
  Qed.
  Lemma good_printed : forall s, Printed s -> Distinct (resolve s) -> Good (TScalar s) /\ nodeOf (TScalar s) = resolve s.
  Proof.
    intros s [P V] D. destruct (plain_good resolve s P (visible_oneLine s V)) as [G E]. split; [|exact E]. split; [exact G|]. split; [exact V|].
    cbn [YamlFacts.nodeOf]. rewrite E. exact D.
  Qed.
  Lemma good_below : forall b s, 1 <= b -> Good (TScalar s) -> Good (TBelow b s).
  Proof. intros b s B (G & V & D). split; [split; [exact B|exact G]|]. split; assumption. Qed.

  Lemma good_itoa : forall z, Good (TScalar (itoa z)) /\ nodeOf (TScalar (itoa z)) = NInt (itoa z) z.
  Proof. intro z. rewrite <- (resolve_int _ HR z). apply good_printed; [apply printed_itoa|]. rewrite (resolve_int _ HR z). constructor. Qed.
  Lemma good_bool : forall b, Good (TScalar (formatBool b)) /\ nodeOf (TScalar (formatBool b)) = NBool (formatBool b) b.
  Proof.
    intros []; cbn [formatBool].
    - rewrite <- (resolve_true _ HR). apply good_printed; [apply printed_safe; reflexivity|]. rewrite (resolve_true _ HR). constructor.
    - rewrite <- (resolve_false _ HR). apply good_printed; [apply printed_safe; reflexivity|]. rewrite (resolve_false _ HR). constructor.
  Qed.
  Lemma resolve_tilde : resolve "~" = NNull.
  Proof. apply (resolve_null _ HR). right. left. reflexivity. Qed.
  Lemma good_tilde : Good (TScalar "~") /\ nodeOf (TScalar "~") = NNull.
  Proof. rewrite <- resolve_tilde. apply good_printed; [apply printed_safe; reflexivity|]. rewrite resolve_tilde. constructor. Qed.
  Lemma good_flow : Good (TScalar "[]") /\ Good (TScalar "{}").
  Proof.
    assert (A : forall s, GoodScalar resolve s -> Visible s -> Distinct (scalarNode s) -> Good (TScalar s)) by (intros s G V D; split; [exact G|split; [exact V|exact D]]).
    assert (C : forall s, s <> "" /\ startsBlank s = false /\ oneLine s = true -> s <> ">" -> isDash s = false -> readKey resolve s = None -> readScalar resolve s <> None -> GoodScalar resolve s).
    { intros. repeat split; try assumption; tauto. }
    split; apply A.
    - apply C; try discriminate; try reflexivity. repeat split; discriminate.
    - apply visible_ascii. reflexivity.
    - cbn. constructor. intros n [].
    - apply C; try discriminate; try reflexivity. repeat split; discriminate.
    - apply visible_ascii. reflexivity.
    - cbn. constructor; [constructor|]. intros k v [].
  Qed.
  Lemma good_seq : forall l, Forall (fun t => Good t /\ match t with TFold _ => False | _ => True end /\ vanishes t = false) l ->
    Good (TSeq (map Some l)) /\ nodeOf (TSeq (map Some l)) = match l with [] => NNull | _ => NSeq (map nodeOf l) end.
  Proof.
    intros l F. assert (E : entriesOf (map Some l) = l) by (clear; induction l as [|t l IH]; [reflexivity|cbn; f_equal; exact IH]).
    assert (Lv : live (map Some l) = l).
    { unfold live. rewrite E. clear E. induction F as [|t l (_ & _ & V) F IH]; [reflexivity|]. cbn [filter]. rewrite V. cbn [negb]. f_equal. exact IH. }
    assert (NO : nodeOf (TSeq (map Some l)) = match l with [] => NNull | _ => NSeq (map nodeOf l) end).
    { rewrite nodeOf_seq, Lv. destruct l; reflexivity. }
    split; [|exact NO]. split; [|split].
    - apply WF_seq. rewrite E. eapply Forall_impl; [|exact F]. cbn. intros t (G & T & _). split; [apply G|exact T].
    - apply shows_seq. rewrite E. eapply Forall_impl; [|exact F]. cbn. intros t (G & T & _). apply G.
    - rewrite NO. destruct l as [|t l]; [constructor|]. constructor. intros n I. apply in_map_iff in I. destruct I as (t' & <- & I). rewrite Forall_forall in F. apply (F t' I).
  Qed.

  (** ** Tags *)
  Lemma entry_tag : forall {A} k v (R : node -> A -> Prop) zero x,
    (isZero v = true -> x = zero) -> (isZero v = false -> Good (anyTree v) /\ R (nodeOf (anyTree v)) x) -> Entry k (tag k v) R zero x.
  Proof.
    intros A k v R zero x Z N. unfold tagItems. destruct (isZero v) eqn:E.
    - exists None. split; [apply lays_absent|exact (Z eq_refl)].
    - exists (Some (anyTree v)). split; [|exact (N eq_refl)]. eexists. split; reflexivity.
  Qed.
  Lemma entry_text : forall k s, Readable s -> Entry k (tag k (AString s)) IsText "" s.
  Proof.
    intros k s H. apply entry_tag; cbn [isZero AString].
    - destruct s; [reflexivity|discriminate].
    - intros _. destruct (good_enc s H) as (G & T & _). split; assumption.
  Qed.
  Lemma entry_bool : forall k b, Entry k (tag k (ABool b)) IsBool false b.
  Proof.
    intros k b. apply entry_tag; cbn [isZero ABool].
    - destruct b; [discriminate|reflexivity].
    - intros _. change (anyTree (ABool b)) with (TScalar (formatBool b)). destruct (good_bool b) as [G E]. split; [exact G|]. rewrite E. constructor.
  Qed.
  Lemma isInt_fits : forall z, Fits z -> isInt z = true.
  Proof. intros z [A B]. unfold isInt. apply andb_true_iff. split; [apply Z.leb_le; exact A|apply Z.ltb_lt; exact B]. Qed.
  Lemma entry_int : forall k z, Fits z -> Entry k (tag k (AInt z)) IsInt 0%Z z.
  Proof.
    intros k z F. pose proof (isInt_fits z F) as I. apply entry_tag; cbn [isZero AInt]; rewrite I; cbn [andb].
    - apply Z.eqb_eq.
    - intros _. replace (anyTree (AInt z)) with (TScalar (itoa z)) by (cbn; rewrite I; reflexivity). destruct (good_itoa z) as [G E]. split; [exact G|]. rewrite E. constructor. exact F.
  Qed.
  Lemma good_strings : forall l, Forall Readable l -> l <> [] ->
    let t := stringsTree iph l in Good t /\ exists ns, nodeOf t = NSeq ns /\ Forall2 IsText ns l.
  Proof.
    intros l F N. cbv zeta. unfold stringsTree. rewrite <- (map_map (stringTree iph) Some).
    assert (F' : Forall (fun t => Good t /\ match t with TFold _ => False | _ => True end /\ vanishes t = false) (map (stringTree iph) l)).
    { apply Forall_map. eapply Forall_impl; [|exact F]. intros s H. split; [apply (good_enc s H)|split; [exact I|reflexivity]]. }
    destruct (good_seq _ F') as [G E]. split; [exact G|]. exists (map nodeOf (map (stringTree iph) l)). split; [rewrite E; destruct l; [congruence|reflexivity]|].
    rewrite map_map. clear - F HR. induction F as [|s l H F IH]; cbn [map]; constructor; [apply (good_enc s H)|exact IH].
  Qed.
  Lemma entry_texts : forall k l, Forall Readable l -> Entry k (tag k (AStrings l)) (IsList IsText) [] l.
  Proof.
    intros k l F. apply entry_tag; cbn [isZero].
    - destruct l; [reflexivity|discriminate].
    - intro N. destruct (good_strings l F) as (G & ns & E & T); [intros ->; discriminate N|].
      replace (anyTree (AStrings l)) with (stringsTree iph l) by (destruct l; [discriminate N|reflexivity]). split; [exact G|]. right. exists ns. split; assumption.
  Qed.
  (** A mapping with the sorted entries of a map. *)
  Lemma ismap_match : forall {A B} (R : node -> A -> Prop) (f : B -> node * node) l es,
    Forall2 (fun kv e => IsText (fst kv) (fst e) /\ R (snd kv) (snd e)) (map f l) es ->
    IsMap R (match l with [] => NNull | _ => NMap (map f l) end) es.
  Proof. intros A B R f [|b l] es F; [left; inversion F; split; reflexivity|right]. eexists. split; [reflexivity|exact F]. Qed.
  Lemma good_sorted : forall {V A} (its : list (option (string * tree))) (m : smap V) (ft : string -> V -> tree) (R : node -> A -> Prop) (g : V -> A),
    entriesOf its = map (fun e => (enc (fst e), ft (fst e) (snd e))) (byKey m) -> KeysOk m ->
    (forall k v, In (k, v) m -> Good (ft k v) /\ R (nodeOf (ft k v)) (g v)) ->
    Good (TMap its) /\ IsMap R (nodeOf (TMap its)) (map (fun e => (fst e, g (snd e))) (byKey m)) /\
    (m <> [] -> exists l, nodeOf (TMap its) = NMap l).
  Proof.
    intros V A its m ft R g E [D K] H. set (kts := map (fun e => (fst e, ft (fst e) (snd e))) (byKey m)).
    assert (E' : entriesOf its = map (fun kt => (enc (fst kt), snd kt)) kts) by (rewrite E; unfold kts; rewrite map_map; reflexivity).
    assert (F : Forall (fun e => ReadableKey (fst e) /\ Good (ft (fst e) (snd e)) /\ R (nodeOf (ft (fst e) (snd e))) (g (snd e))) (byKey m)).
    { apply Forall_forall. intros [k v] I. apply (byKey_In m) in I. rewrite Forall_forall in K. split; [apply K, (in_map fst m (k, v)), I|apply H, I]. }
    split; [|split].
    - eapply good_map; [exact E'| |].
      + unfold kts. rewrite map_map. cbn [fst]. apply byKey_NoDup, D.
      + unfold kts. apply Forall_map. eapply Forall_impl; [|exact F]. cbn. tauto.
    - rewrite (node_entries _ _ E'). apply ismap_match. unfold kts. rewrite map_map. cbn [fst snd]. clear - F HR.
      induction F as [|e l (K & G & T) F IH]; cbn [map]; constructor; [|exact IH]. cbn. split; [apply key_text, K|exact T].
    - intro N. rewrite (node_entries _ _ E'). destruct kts as [|kt kts'] eqn:B; [|eexists; reflexivity]. exfalso. unfold kts in B.
      apply map_eq_nil in B. apply N. pose proof (byKey_perm m) as P. rewrite B in P. apply Permutation_sym, Permutation_nil in P. exact P.
  Qed.

  Lemma entries_some : forall {A B} (f : A -> B) l, entriesOf (map (fun a => Some (f a)) l) = map f l.
  Proof. intros A B f l. induction l as [|a l IH]; [reflexivity|]. cbn. f_equal. exact IH. Qed.
  Lemma map_same : forall {A} (m : smap A), map (fun e => (fst e, snd e)) m = m.
  Proof. intros A m. rewrite <- (map_id m) at 2. apply map_ext. intros [k v]. reflexivity. Qed.
  Lemma entry_textmap : forall k m, TextMapOk m -> Entry k (tag k (AMap m)) (IsMap IsText) [] (byKey m).
  Proof.
    intros k m [K V]. apply entry_tag; cbn [isZero].
    - destruct m; [reflexivity|discriminate].
    - intro N. replace (anyTree (AMap m)) with (stringMapTree iph m) by (destruct m; [discriminate N|reflexivity]). unfold stringMapTree.
      rewrite (sorted_get (fun k ov => Some (enc k, stringTree iph (match ov with Some v => v | None => "" end)))) by apply K.
      set (its := map _ (byKey m)). destruct (good_sorted its m (fun _ v => stringTree iph v) IsText (fun v => v)) as (G & M & _).
      + unfold its. apply entries_some.
      + exact K.
      + intros k' v I. rewrite Forall_forall in V. destruct (good_enc v (V v (in_map snd m (k', v) I))) as (G & T & _). split; assumption.
      + split; [exact G|]. rewrite map_same in M. exact M.
  Qed.
  Lemma entry_size : forall k z, SizeOk z -> Entry k (tag k (ASize z)) (IsSize ramInBytes) 0%Z z.
  Proof.
    intros k z S. apply entry_tag; cbn [isZero].
    - apply Z.eqb_eq.
    - intro N. destruct S as [->|(R & T & B)]; [discriminate N|]. cbn [PrettyTree.anyTree]. unfold stringTree.
      destruct (good_enc _ R) as (G & _). split; [exact G|]. cbn [YamlFacts.nodeOf].
      assert (E : scalarNode (enc (bytesSize z)) = NStr (bytesSize z)) by (rewrite (proj2 (enc_scalar iph resolve _ R)), T; destruct (isQuoted _); reflexivity).
      rewrite E. right. split; [intros (z' & I); inversion I|]. exists (bytesSize z). split; [constructor|exact B].
  Qed.
  Lemma entry_float : forall k f, f = S754_zero false \/ (forall s, f <> S754_zero s) /\ Printed (formatFloat f) /\ IsFloat (resolve (formatFloat f)) f ->
    Entry k (tag k (AFloat f)) IsFloat (S754_zero false) f.
  Proof.
    intros k f H. apply entry_tag; cbn [isZero AFloat].
    - intro Z. destruct H as [->|(N & _)]; [reflexivity|]. destruct f; try discriminate. exfalso. eapply N. reflexivity.
    - intro Z. destruct H as [->|(N & P & I)]; [discriminate Z|]. change (anyTree (AFloat f)) with (TScalar (formatFloat f)).
      destruct (good_printed (formatFloat f) P) as [G E]; [destruct I; constructor|]. split; [exact G|]. rewrite E. exact I.
  Qed.

  (** ** Values *)
  Definition strEntries (m : smap value) : list (value * value) := map (fun e => (VStr (fst e), snd e)) m.
  Lemma insertValue_strs : forall e m, insertValue (VStr (fst e), snd e) (strEntries m) = strEntries (insertKey e m).
  Proof.
    unfold strEntries. intros e m. induction m as [|f m IH]; [reflexivity|]. cbn [map insertValue insertKey fst snd].
    destruct (String.compare (fst e) (fst f)); cbn [map fst snd]; try reflexivity. f_equal. exact IH.
  Qed.
  Lemma sorted_strs : forall m, sortedValue (VMap (strEntries m)) = VMap (strEntries (map (fun e => (fst e, sortedValue (snd e))) (byKey m))).
  Proof.
    intro m. cbn [sortedValue]. f_equal. rewrite <- byKey_map. unfold strEntries at 1. rewrite map_map. cbn [fst snd].
    induction m as [|e m IH]; [reflexivity|]. cbn [map fold_right fst snd]. rewrite IH.
    rewrite (insertValue_strs (fst e, sortedValue (snd e))). reflexivity.
  Qed.
  Lemma lookup_strs : forall {A} k (m : smap A), lookup k (map (fun e => (VStr (fst e), snd e)) m) = mget k m.
  Proof. intros A k m. induction m as [|[k' v] m IH]; [reflexivity|]. cbn. destruct (String.eqb k k'); [reflexivity|exact IH]. Qed.
  Lemma combine_strs : forall ks vs, List.length ks = List.length vs -> combine (map VStr ks) vs = strEntries (combine ks vs).
  Proof. induction ks as [|k ks IH]; intros [|v vs] H; try discriminate; [reflexivity|]. cbn. f_equal. apply IH. injection H as H. exact H. Qed.
  Lemma mget_map : forall {A B} (f : A -> B) k (m : smap A), mget k (map (fun e => (fst e, f (snd e))) m) = option_map f (mget k m).
  Proof. intros A B f k m. induction m as [|[k' v] m IH]; [reflexivity|]. cbn. destruct (String.eqb k k'); [reflexivity|exact IH]. Qed.
  Lemma valueTree_map : forall m, m <> [] -> valueTree (VMap m) =
    TMap (map (fun k => Some (enc k, match lookup k (map (fun kv => (fst kv, (snd kv, valueTree (snd kv)))) m) with Some (v, t) => underKey v t | None => TScalar "~" end))
      (Legacy.sortStrings (map (fun kv => sprint sprintFloat (fst kv)) m))).
  Proof. intros [|e m] N; [congruence|reflexivity]. Qed.
  Lemma valueTree_strs : forall m, m <> [] -> NoDup (map fst m) -> valueTree (VMap (strEntries m)) =
    TMap (map (fun e => Some (enc (fst e), underKey (snd e) (valueTree (snd e)))) (byKey m)).
  Proof.
    intros m' N D. rewrite valueTree_map by (destruct m'; [congruence|discriminate]).
    replace (map (fun kv => sprint sprintFloat (fst kv)) (strEntries m')) with (mkeys m') by (unfold strEntries; rewrite map_map; reflexivity).
    f_equal.
    replace (map (fun kv => (fst kv, (snd kv, valueTree (snd kv)))) (strEntries m'))
      with (map (fun e => (VStr (fst e), snd e)) (map (fun e : string * value => (fst e, (snd e, valueTree (snd e)))) m')) by (unfold strEntries; rewrite !map_map; reflexivity).
    transitivity (map (fun k => (fun k ov => Some (enc k, match ov with Some v => underKey v (valueTree v) | None => TScalar "~" end)) k (mget k m')) (Legacy.sortStrings (mkeys m'))).
    - apply map_ext. intro k. rewrite lookup_strs, (mget_map (fun v => (v, valueTree v))). destruct (mget k m'); reflexivity.
    - rewrite (sorted_get (fun k ov => Some (enc k, match ov with Some v => underKey v (valueTree v) | None => TScalar "~" end))) by exact D. reflexivity.
  Qed.
  Definition Fine (v : value) : Prop :=
    let t := valueTree v in Good t /\ IsValue (nodeOf t) (sortedValue v) /\ (match t with TFold _ => False | _ => True end) /\ vanishes t = false /\ underKey v t = t.
  Lemma value_fine : forall v, ValueOk v -> Fine v.
  Proof.
    intros v H. induction H as [|b|z F|f P [s E]|s [R N]|l H IH|ks vs L D K H IH]; unfold Fine; cbv zeta.
    - destruct good_tilde as [G E]. cbn [PrettyTree.valueTree scalarOf]. repeat split; try apply G. rewrite E. constructor.
    - destruct (good_bool b) as [G E]. cbn [PrettyTree.valueTree scalarOf]. repeat split; try apply G. rewrite E. constructor.
    - cbn [PrettyTree.valueTree scalarOf underKey]. rewrite (isInt_fits z F). destruct (good_itoa z) as [G E]. repeat split; try apply G. rewrite E. constructor.
    - cbn [PrettyTree.valueTree scalarOf]. destruct (good_printed (formatFloat f) P) as [G E']; [rewrite E; constructor|]. repeat split; try apply G. rewrite E', E. constructor.
    - cbn [PrettyTree.valueTree scalarOf]. destruct (good_enc s R) as (G & T & NN). repeat split; try apply G. cbn [YamlFacts.nodeOf sortedValue].
      rewrite (proj2 (enc_scalar iph resolve s R)). destruct N as [->|N]; [constructor|]. rewrite N. destruct (isQuoted s); constructor.
    - destruct l as [|x l].
      + cbn [PrettyTree.valueTree scalarOf sortedValue map]. repeat split; try apply good_flow. cbn. constructor. constructor.
      + assert (VT : valueTree (VList (x :: l)) = TSeq (map Some (map valueTree (x :: l)))) by (rewrite map_map; reflexivity). rewrite VT. clear VT.
        assert (F : Forall (fun t => Good t /\ match t with TFold _ => False | _ => True end /\ vanishes t = false) (map valueTree (x :: l))).
        { apply Forall_map, Forall_forall. intros v I. destruct (IH v I) as (A & B & C & Dv & _). repeat split; try assumption; apply A. }
        destruct (good_seq _ F) as [G E]. split; [exact G|]. split; [|split; [exact I|split; [|reflexivity]]].
        * rewrite E. cbn [map sortedValue]. constructor. change (Forall2 IsValue (map nodeOf (map valueTree (x :: l))) (map sortedValue (x :: l))).
          rewrite map_map. clear - IH. induction (x :: l) as [|v vs IHl]; cbn [map]; constructor; [apply (IH v (or_introl eq_refl))|]. apply IHl. intros w I. apply IH. right. exact I.
        * apply Forall_cons_iff in F. destruct F as [(_ & _ & V) _]. cbn [map vanishes forallb]. rewrite V. reflexivity.
    - rewrite combine_strs by exact L. set (m := combine ks vs).
      assert (Km : map fst m = ks). { unfold m. clear - L. revert vs L. induction ks as [|k ks IH]; intros [|v vs] L; try discriminate; [reflexivity|]. cbn. f_equal. apply IH. injection L as L. exact L. }
      assert (Vm : forall k v, In (k, v) m -> In k ks /\ In v vs) by (intros k v I; split; [eapply in_combine_l; exact I|eapply in_combine_r; exact I]).
      destruct m as [|e m0] eqn:Em.
      + cbn [strEntries map PrettyTree.valueTree scalarOf sortedValue fold_right]. repeat split; try apply good_flow. cbn. constructor. constructor.
      + assert (N : m <> []) by (rewrite Em; discriminate). rewrite <- Em in *. clear Em e m0.
        assert (Dm : NoDup (map fst m)) by (rewrite Km; exact D). rewrite (valueTree_strs m N Dm).
        assert (UK : forall k v, In (k, v) m -> underKey v (valueTree v) = valueTree v) by (intros k v I; apply (IH v), (Vm k v I)).
        assert (Kok : KeysOk m). { split; [exact Dm|]. rewrite Km. apply Forall_forall. intros k I. apply K, I. }
        set (its := map _ (byKey m)).
        assert (Ei : entriesOf its = map (fun e => (enc (fst e), valueTree (snd e))) (byKey m)).
        { unfold its. rewrite entries_some. apply map_ext_in. intros [k v] I. apply (byKey_In m) in I. cbn. rewrite (UK k v I). reflexivity. }
        destruct (good_sorted its m (fun _ v => valueTree v) IsValue sortedValue Ei Kok) as (G & _ & _).
        { intros k v I. destruct (IH v) as (A & B & _); [apply (Vm k v I)|]. split; assumption. }
        split; [exact G|]. split; [|split; [exact I|split; [|reflexivity]]].
        * rewrite sorted_strs. rewrite (node_entries its (map (fun e => (fst e, valueTree (snd e))) (byKey m))) by (rewrite Ei, map_map; reflexivity).
          assert (Nb : byKey m <> []). { intro B. apply N. pose proof (byKey_perm m) as P. rewrite B in P. apply Permutation_sym, Permutation_nil in P. exact P. }
          assert (X : IsValue (NMap (map (fun kt => (scalarNode (enc (fst kt)), nodeOf (snd kt))) (map (fun e => (fst e, valueTree (snd e))) (byKey m))))
                        (VMap (strEntries (map (fun e => (fst e, sortedValue (snd e))) (byKey m))))).
          { constructor. unfold strEntries. rewrite !map_map. cbn [fst snd].
            assert (Fb : Forall (fun e => In (fst e) ks /\ In (snd e) vs) (byKey m)) by (apply Forall_forall; intros [k v] I; apply (byKey_In m) in I; exact (Vm k v I)).
            clear - Fb IH K HR. induction Fb as [|[k v] l [I1 I2] Fb IHl]; cbn [map fst snd]; constructor; [|exact IHl]. cbn [fst snd] in *.
            destruct (K k I1) as [RK [Rk Sk]]. split; [exists k; apply key_text, RK|]. split; [|apply (IH v I2)].
            rewrite (proj2 (enc_scalar iph resolve k Rk)). destruct Sk as [->|Sk]; [constructor|]. rewrite Sk. destruct (isQuoted k); constructor. }
          destruct (byKey m); [congruence|]. exact X.
        * cbn [vanishes]. unfold its. destruct (byKey m) eqn:B; [|reflexivity]. exfalso. apply N. pose proof (byKey_perm m) as P. rewrite B in P. apply Permutation_sym, Permutation_nil in P. exact P.
  Qed.

  (** ** Putting segments together *)
  Lemma lays_cons : forall a b s ss, Lays a [s] -> Lays b ss -> Lays (a +? b) (s :: ss).
  Proof. intros a b s ss A B. exact (lays_app a b [s] ss A B). Qed.
  Fixpoint nodupb (l : list string) : bool := match l with [] => true | x :: l' => negb (smem x l') && nodupb l' end.
  Lemma nodupb_NoDup : forall l, nodupb l = true -> NoDup l.
  Proof.
    induction l as [|x l IH]; intro H; [constructor|]. cbn in H. apply andb_prop in H. destruct H as [A B]. constructor; [|exact (IH B)].
    apply negb_true_iff, smem_false in A. exact A.
  Qed.
  Lemma good_segs : forall ss, nodupb (map fst ss) = true -> forallb keyWord (map fst ss) = true -> Forall GoodOpt (map snd ss) -> GoodSegs ss.
  Proof.
    intros ss N K G. split; [apply nodupb_NoDup, N|]. clear N. induction ss as [|[k ot] ss IH]; [constructor|]. cbn in K, G. apply andb_prop in K. destruct K as [K1 K2].
    apply Forall_cons_iff in G. destruct G as [G1 G2]. constructor; [split; [apply keyWord_readable, K1|exact G1]|exact (IH K2 G2)].
  Qed.
  Lemma struct_means : forall {A} ss k ot (R : node -> A -> Prop) zero x, R NNull zero -> NoDup (map fst ss) -> In (k, ot) ss -> Means R zero ot x -> HasStruct (fieldsOf ss) k R x.
  Proof. intros A ss k ot R zero x Z D I M. apply (struct_seg ss k ot R x D I). destruct ot; [apply M|]. cbn in M. rewrite M. exact Z. Qed.
  Lemma entry_map : forall {A} k o ss (R : node -> A -> Prop) zero x, Lays o ss -> GoodSegs ss ->
    (forall n, Fields n (fieldsOf ss) -> (present ss <> [] -> exists m, n = NMap m) -> R n x) -> Entry k (inMap iph k o) R zero x.
  Proof.
    intros A k o ss R zero x L G H. destruct (struct_good o ss L G) as (its & -> & Gd & F & P). exists (Some (TMap its)). split; [apply lays_under|].
    split; [exact Gd|]. apply H; [exact F|]. intro N. apply P, N.
  Qed.
  Lemma entry_only : forall {A} (b : bool) k o (R : node -> A -> Prop) zero x, (b = false -> x = zero) -> (b = true -> Entry k o R zero x) -> Entry k (only b o) R zero x.
  Proof. intros A [] k o R zero x F T; cbn [only]; [exact (T eq_refl)|]. exists None. split; [apply lays_absent|exact (F eq_refl)]. Qed.
  Lemma entry_set : forall {A B} (p : option B) f k (R : node -> A -> Prop) (g : B -> A), (forall b, p = Some b -> Entry k (f b) (IsPtr R) None (Some (g b))) ->
    Entry k (isSet p f) (IsPtr R) None (option_map g p).
  Proof. intros A B [b|] f k R g H; cbn [isSet option_map]; [exact (H b eq_refl)|]. exists None. split; [apply lays_absent|reflexivity]. Qed.
  Lemma entry_ptr : forall {A} k o (R : node -> A -> Prop) zero x, Entry k o (fun n x => n <> NNull /\ R n x) zero x -> x <> zero -> Entry k o (IsPtr R) None (Some x).
  Proof.
    intros A k o R zero x (ot & L & M) N. exists ot. split; [exact L|]. destruct ot as [t|]; [|contradiction]. destruct M as (G & NN & H).
    split; [exact G|]. right. split; [exact NN|]. exists x. split; [reflexivity|exact H].
  Qed.
  Definition Elem {A} (o : option (list (option tree))) (R : node -> A -> Prop) (x : A) : Prop :=
    exists t, o = Some [Some t] /\ Good t /\ (match t with TFold _ => False | _ => True end) /\ vanishes t = false /\ R (nodeOf t) x.
  Lemma elem_item : forall {A} o ss (R : node -> A -> Prop) x, Lays o ss -> GoodSegs ss -> present ss <> [] ->
    (forall m, Fields (NMap m) (fieldsOf ss) -> R (NMap m) x) -> Elem (asItem o) R x.
  Proof.
    intros A o ss R x L G P H. destruct (struct_good o ss L G) as (its & -> & Gd & F & V). destruct (V P) as [V1 [m V2]]. exists (TMap its).
    split; [reflexivity|]. split; [exact Gd|]. split; [exact I|]. split; [exact V1|]. rewrite V2 in *. apply H, F.
  Qed.
  Lemma entry_seq : forall {A B} k (f : B -> option (list (option tree))) (R : node -> A -> Prop) l xs, l <> [] ->
    Forall2 (fun b x => Elem (f b) R x) l xs -> Entry k (inSeq iph k (optConcat (map f l))) (IsList R) [] xs.
  Proof.
    intros A B k f R l xs N F. assert (X : exists ts, optConcat (map f l) = Some (map Some ts) /\ Forall2 (fun t x => (Good t /\ match t with TFold _ => False | _ => True end /\ vanishes t = false) /\ R (nodeOf t) x) ts xs).
    { clear N. induction F as [|b x l xs (t & E & G & T & V & Rx) F IH]; [exists []; split; [reflexivity|constructor]|]. destruct IH as (ts & E' & F').
      exists (t :: ts). split; [cbn [map optConcat]; rewrite E, E'; reflexivity|]. constructor; [|exact F']. repeat split; try assumption; apply G. }
    destruct X as (ts & E & F'). unfold inSeq. rewrite E. cbn [option_map]. exists (Some (TSeq (map Some ts))). split; [apply lays_under|].
    assert (Ft : Forall (fun t => Good t /\ match t with TFold _ => False | _ => True end /\ vanishes t = false) ts).
    { clear - F'. induction F' as [|t x ts xs [H _] F IH]; constructor; [exact H|exact IH]. }
    destruct (good_seq ts Ft) as [G NO]. split; [exact G|]. rewrite NO. right. exists (map nodeOf ts). split.
    - destruct ts; [|reflexivity]. exfalso. apply N. inversion F'; subst. inversion F; subst. reflexivity.
    - clear - F'. induction F' as [|t x ts xs [_ H] F IH]; cbn [map]; constructor; [exact H|exact IH].
  Qed.
  Lemma present_has : forall ss k t, In (k, Some t) ss -> present ss <> [].
  Proof. intros ss k t I E. apply present_In in I. rewrite E in I. destruct I. Qed.

  Lemma present_means : forall {A} ss k ot (R : node -> A -> Prop) zero x, In (k, ot) ss -> Means R zero ot x -> x <> zero -> present ss <> [].
  Proof. intros A ss k [t|] R zero x I M N; [exact (present_has ss k t I)|contradiction]. Qed.
  Lemma byKey_some : forall {V} (m : smap V), m <> [] -> byKey m <> [].
  Proof. intros V m N B. apply N. pose proof (byKey_perm m) as P. rewrite B in P. apply Permutation_sym, Permutation_nil in P. exact P. Qed.

  Ltac segs := apply good_segs; [reflexivity|reflexivity|cbn [map snd]; repeat (constructor; [eapply means_good; eassumption|]); constructor].
  Ltac here := cbn [In]; repeat first [left; reflexivity|right].
  Ltac has := unfold HasText, HasTexts, HasTextMap, HasBool, HasInt, HasCond, HasSize;
    lazymatch goal with
    | |- Has _ _ _ _ _ => eapply has_seg; [apply nodupb_NoDup; reflexivity|here|eassumption]
    | |- HasStruct _ _ _ _ => eapply struct_means; [|apply nodupb_NoDup; reflexivity|here|eassumption]
    end.
  Ltac lay := repeat (eapply lays_cons; [eassumption|]); first [eassumption|exact lays_blank].
  Ltac shown M := eapply present_means; [|exact M|]; [here|].

  (** ** The parts of a step *)
  Notation ResourceObjectOk := (PrettySpec.ResourceObjectOk resolve ramInBytes formatFloat bytesSize).
  Notation ResourcesOk := (PrettySpec.ResourcesOk resolve ramInBytes formatFloat bytesSize).
  Notation ParameterOk := (PrettySpec.ParameterOk resolve formatFloat).
  Notation ContainerOk := (PrettySpec.ContainerOk resolve ramInBytes formatFloat bytesSize).
  Notation VolumeOk := (PrettySpec.VolumeOk resolve ramInBytes bytesSize).
  Notation PipelineOk := (PrettySpec.PipelineOk resolve ramInBytes formatFloat bytesSize).
  Notation build := (buildItems iph formatFloat sprintFloat bytesSize).
  Lemma entry_build : forall b, BuildOk b -> Entry "build" (build b) (IsPtr IsBuild) None (Some (sortedBuild b)).
  Proof.
    intros b (Ha & Hc & Hx & Hd & Hi & Hl & N). unfold buildItems. destruct (shortBuild b) eqn:S.
    - destruct b as [args cf cx df im lb]. unfold shortBuild in S. cbn [b_args b_cache_from b_context b_dockerfile b_image b_labels] in *.
      repeat (apply andb_prop in S; destruct S as [S ?]). destruct args, cf, cx, df, lb; try discriminate.
      assert (Ni : im <> "") by congruence. destruct (entry_text "build" im Hi) as ([t|] & L & M); [|contradiction].
      exists (Some t). split; [exact L|]. destruct M as [G T]. split; [exact G|]. right. split; [intro E; rewrite E in T; inversion T; congruence|].
      eexists. split; [reflexivity|]. constructor. exact T.
    - pose proof (entry_text "image" _ Hi) as (o1 & L1 & M1). pose proof (entry_textmap "args" _ Ha) as (o2 & L2 & M2).
      pose proof (entry_texts "cache_from" _ Hc) as (o3 & L3 & M3). pose proof (entry_text "context" _ Hx) as (o4 & L4 & M4).
      pose proof (entry_text "dockerfile" _ Hd) as (o5 & L5 & M5). pose proof (entry_textmap "labels" _ Hl) as (o6 & L6 & M6).
      eapply entry_map; [lay|segs|].
      intros n F P. assert (NM : exists m, n = NMap m).
      { apply P. unfold shortBuild in S. repeat (apply andb_false_iff in S; destruct S as [S|S]).
        - shown M2. apply byKey_some. intro Z. rewrite Z in S. discriminate.
        - shown M3. intro Z. rewrite Z in S. discriminate.
        - shown M4. intro Z. rewrite Z in S. discriminate.
        - shown M5. intro Z. rewrite Z in S. discriminate.
        - shown M6. apply byKey_some. intro Z. rewrite Z in S. discriminate. }
      destruct NM as [m ->]. right. split; [discriminate|]. eexists. split; [reflexivity|].
      eapply build_map; [exact F|..]; cbn [sortedBuild b_args b_cache_from b_context b_dockerfile b_image b_labels]; has.
  Qed.
  Lemma entry_push : forall p, PushOk p -> Entry "push" (tag "push" (AString (pu_image p))) (IsPtr IsPush) None (Some p).
  Proof.
    intros [im] [Hi N]. cbn [pu_image] in *. destruct (entry_text "push" im Hi) as ([t|] & L & M); [|contradiction].
    exists (Some t). split; [exact L|]. destruct M as [G T]. split; [exact G|]. right. split; [intro E; rewrite E in T; inversion T; congruence|].
    eexists. split; [reflexivity|]. constructor. exact T.
  Qed.
  Lemma isptr_map : forall {A} (R : node -> A -> Prop) m x, R (NMap m) x -> IsPtr R (NMap m) (Some x).
  Proof. intros. right. split; [discriminate|]. eexists. split; [reflexivity|assumption]. Qed.
  Lemma elem_device : forall d, DeviceOk d -> Elem (asItem (tag "name" (AString (vd_name d)) +? tag "path" (AString (vd_path d)))) (IsPtr IsDevice) (Some d).
  Proof.
    intros d (Hn & Hp & N). pose proof (entry_text "name" _ Hn) as (o1 & L1 & M1). pose proof (entry_text "path" _ Hp) as (o2 & L2 & M2).
    eapply elem_item; [lay|segs| |].
    - destruct N; [shown M1|shown M2]; assumption.
    - intros m F. apply isptr_map. eexists. split; [exact F|]. split; has.
  Qed.
  Lemma elem_mount : forall d, MountOk d -> Elem (asItem (tag "name" (AString (vm_name d)) +? tag "path" (AString (vm_path d)))) (IsPtr IsMount) (Some d).
  Proof.
    intros d (Hn & Hp & N). pose proof (entry_text "name" _ Hn) as (o1 & L1 & M1). pose proof (entry_text "path" _ Hp) as (o2 & L2 & M2).
    eapply elem_item; [lay|segs| |].
    - destruct N; [shown M1|shown M2]; assumption.
    - intros m F. apply isptr_map. eexists. split; [exact F|]. split; has.
  Qed.
  Lemma elems_same : forall {A} (P : A -> Prop) (f : option A -> option (list (option tree))) R l,
    (forall a, P a -> Elem (f (Some a)) R (Some a)) -> Forall (Present P) l -> Forall2 (fun b x => Elem (f b) R x) l l.
  Proof. intros A P f R l H F. induction F as [|o l (a & -> & Pa) F IH]; constructor; [exact (H a Pa)|exact IH]. Qed.
  Lemma entry_devices : forall l, Forall (Present DeviceOk) l -> l <> [] -> Entry "devices" (deviceItems iph formatFloat sprintFloat bytesSize l) (IsList (IsPtr IsDevice)) [] l.
  Proof. intros l F N. apply entry_seq; [exact N|]. eapply elems_same; [|exact F]. intros a H. apply elem_device, H. Qed.
  Lemma entry_mounts : forall l, Forall (Present MountOk) l -> l <> [] -> Entry "volumes" (mountItems iph formatFloat sprintFloat bytesSize l) (IsList (IsPtr IsMount)) [] l.
  Proof. intros l F N. apply entry_seq; [exact N|]. eapply elems_same; [|exact F]. intros a H. apply elem_mount, H. Qed.
  Lemma elem_port : forall p, PortOk p -> Elem (portElems iph formatFloat sprintFloat bytesSize p) (IsPtr IsPort) (Some p).
  Proof.
    intros p (Hp & Hh & Hr). unfold portElems. destruct (shortPort p) eqn:S.
    - destruct (good_itoa (po_port p)) as [G E]. eexists. split; [reflexivity|]. split; [exact G|]. split; [exact I|]. split; [reflexivity|]. rewrite E.
      right. split; [discriminate|]. eexists. split; [reflexivity|]. destruct p as [po h pr]. unfold shortPort in S. cbn [po_port po_host po_protocol] in *.
      apply andb_prop in S. destruct S as [S1 S2]. destruct pr; [|discriminate]. apply Z.eqb_eq in S1. subst. constructor. constructor. exact Hp.
    - pose proof (entry_int "port" _ Hp) as (o1 & L1 & M1). pose proof (entry_int "host" _ Hh) as (o2 & L2 & M2). pose proof (entry_text "protocol" _ Hr) as (o3 & L3 & M3).
      eapply elem_item; [lay|segs| |].
      + unfold shortPort in S. apply andb_false_iff in S. destruct S as [S|S]; [shown M2|shown M3].
        * intro Z. rewrite Z in S. discriminate.
        * intro Z. rewrite Z in S. discriminate.
      + intros m F. apply isptr_map. destruct p as [po h pr]. econstructor; [exact F|..]; cbn [po_port po_host po_protocol]; has.
  Qed.
  Lemma entry_ports : forall l, Forall (Present PortOk) l -> l <> [] -> Entry "ports" (portItems iph formatFloat sprintFloat bytesSize l) (IsList (IsPtr IsPort)) [] l.
  Proof. intros l F N. apply entry_seq; [exact N|]. eapply elems_same; [|exact F]. intros a H. apply elem_port, H. Qed.
  Lemma entry_ptr_map : forall {A} k o ss (R : node -> A -> Prop) x, Lays o ss -> GoodSegs ss -> present ss <> [] ->
    (forall m, Fields (NMap m) (fieldsOf ss) -> R (NMap m) x) -> Entry k (inMap iph k o) (IsPtr R) None (Some x).
  Proof. intros A k o ss R x L G P H. eapply entry_map; [exact L|exact G|]. intros n F Q. destruct (Q P) as [m ->]. apply isptr_map, H, F. Qed.
  Lemma entry_resourceObject : forall k r, ResourceObjectOk r -> Entry k (resourceObjectItems iph formatFloat sprintFloat bytesSize k r) (IsPtr (IsResourceObject ramInBytes)) None (Some r).
  Proof.
    intros k r (Hc & Hm & N). pose proof (entry_float "cpu" _ Hc) as (o1 & L1 & M1). pose proof (entry_size "memory" _ Hm) as (o2 & L2 & M2).
    eapply entry_ptr_map; [lay|segs| |].
    - destruct (Z.eq_dec (ro_memory r) 0) as [Z|Z]; [|shown M2; exact Z]. shown M1. intro E. apply N. destruct r. cbn in *. congruence.
    - intros m F. eexists. split; [exact F|]. split; has.
  Qed.
  Lemma optmap_id : forall {A} (o : option A), option_map (fun x => x) o = o.
  Proof. intros A []; reflexivity. Qed.
  Lemma entry_resources : forall r, ResourcesOk r -> Entry "resources" (resourcesItems iph formatFloat sprintFloat bytesSize r) (IsPtr (IsResources ramInBytes)) None (Some r).
  Proof.
    intros r (Hl & Hr & N).
    pose proof (entry_set (re_limits r) (resourceObjectItems iph formatFloat sprintFloat bytesSize "limits") "limits" (IsResourceObject ramInBytes) (fun x => x)
      (fun b E => entry_resourceObject "limits" b (Hl b E))) as (o1 & L1 & M1).
    pose proof (entry_set (re_requests r) (resourceObjectItems iph formatFloat sprintFloat bytesSize "requests") "requests" (IsResourceObject ramInBytes) (fun x => x)
      (fun b E => entry_resourceObject "requests" b (Hr b E))) as (o2 & L2 & M2). rewrite optmap_id in M1, M2.
    eapply entry_ptr_map; [lay|segs| |].
    - destruct N; [shown M1|shown M2]; assumption.
    - intros m F. eexists. split; [exact F|]. split; has.
  Qed.

  (** ** Maps of structs *)
  Lemma map_tree : forall k o ss, Lays o ss -> GoodSegs ss -> present ss <> [] ->
    exists t m, inMap iph k o = Some [Some (enc k, t)] /\ Good t /\ nodeOf t = NMap m /\ Fields (NMap m) (fieldsOf ss).
  Proof.
    intros k o ss L G P. destruct (struct_good o ss L G) as (its & -> & Gd & F & V). destruct (V P) as [_ [m E]]. exists (TMap its), m.
    split; [reflexivity|]. split; [exact Gd|]. split; [exact E|]. rewrite <- E. exact F.
  Qed.
  Lemma entry_maps : forall {V A} key (m : smap V) (f : string -> option V -> items) (R : node -> A -> Prop) (g : V -> A), KeysOk m ->
    (forall k v, In (k, v) m -> exists t, f k (Some v) = Some [Some (enc k, t)] /\ Good t /\ R (nodeOf t) (g v)) ->
    Entry key (inMap iph key (optConcat (map (fun k => f k (mget k m)) (Legacy.sortStrings (mkeys m))))) (IsMap R) [] (map (fun e => (fst e, g (snd e))) (byKey m)).
  Proof.
    intros V A key m f R g K H. rewrite sorted_get by apply K. set (ft := fun k v => match f k (Some v) with Some [Some (_, t)] => t | _ => TScalar "" end).
    assert (E : optConcat (map (fun e => f (fst e) (Some (snd e))) (byKey m)) = Some (map (fun e => Some (enc (fst e), ft (fst e) (snd e))) (byKey m))).
    { assert (F : Forall (fun e => In e m) (byKey m)) by (apply Forall_forall; intros [k v] I; apply (byKey_In m) in I; exact I).
      induction F as [|[k v] l I F IH]; [reflexivity|]. cbn [map optConcat fst snd]. rewrite IH. destruct (H k v I) as (t & Et & _).
      assert (Ef : ft k v = t) by (unfold ft; rewrite Et; reflexivity). rewrite Et, Ef. reflexivity. }
    rewrite E. set (its := map (fun e => Some (enc (fst e), ft (fst e) (snd e))) (byKey m)) in *. destruct (good_sorted its m ft R g) as (G & M & _).
    - unfold its. apply entries_some.
    - exact K.
    - intros k v I. destruct (H k v I) as (t & Et & Gt & Rt). unfold ft. rewrite Et. split; assumption.
    - exists (Some (TMap its)). split; [apply lays_under|]. split; assumption.
  Qed.
  Notation actual f := (f iph formatFloat sprintFloat bytesSize) (only parsing).
  Lemma entry_environ : forall m, KeysOk m -> Forall (Present VariableOk) (map snd m) ->
    Entry "environment" (actual environItems m) (IsMap (IsPtr IsVariable)) [] (byKey m).
  Proof.
    intros m K F. rewrite <- (map_same (byKey m)). unfold environItems.
    apply (entry_maps "environment" m (fun k ov => needs (match ov with Some v => v | None => None end) (actual variableItems k)) (IsPtr IsVariable) (fun v => v) K).
    intros k ov I. rewrite Forall_forall in F. destruct (F ov (in_map snd m (k, ov) I)) as (v & -> & Hv & Hs & N). cbn [needs]. unfold variableItems.
    destruct v as [v s]. cbn [v_value v_secret] in *. destruct (isEmpty s) eqn:S.
    - destruct s; [|discriminate]. assert (Nv : v <> "") by (intro Z; apply (proj1 N Z); reflexivity). destruct (good_enc v Hv) as (G & T & NN).
      exists (TScalar (enc v)). split; [destruct v; [congruence|reflexivity]|]. split; [exact G|]. right. split; [exact NN|]. eexists. split; [reflexivity|]. constructor. exact T.
    - assert (Ns : s <> "") by (intros ->; discriminate). pose proof (proj2 N Ns) as Z. subst v. destruct (entry_text "from_secret" s Hs) as (o1 & L1 & M1).
      destruct (map_tree k _ _ L1 ltac:(segs)) as (t & l & E & G & El & Fl); [shown M1; exact Ns|]. exists t. split; [exact E|]. split; [exact G|]. rewrite El. apply isptr_map.
      econstructor; [exact Fl| |has]. apply has_none. reflexivity.
  Qed.
  Lemma text_unique : forall n a b, IsText n a -> IsText n b -> a = b.
  Proof. intros n a b A B. inversion A; subst; inversion B; reflexivity. Qed.
  Lemma not_refers : forall n v s, ValueOk v -> (forall m w, v = VMap m -> ~ In (VStr "from_secret", w) m) -> IsValue n (sortedValue v) -> ~ RefersTo n s.
  Proof.
    intros n v s H N I (Ns & f & F & T). destruct T as [(n' & In1 & _)|[_ ->]]; [|congruence]. destruct F as [[_ ->]|(l & -> & F)]; [destruct In1|].
    inversion H; subst; cbn [sortedValue] in I; try (inversion I; fail).
    rewrite combine_strs in * by assumption. set (m := combine ks vs) in *. change (IsValue (NMap l) (sortedValue (VMap (strEntries m)))) in I.
    rewrite sorted_strs in I. inversion I as [| | | | | |? ? J]; subst.
    assert (X : exists key v0, In (key, v0) l /\ IsText key "from_secret").
    { clear - F In1. induction F as [|[k v] [k' v'] l f [A B] F IH]; [destruct In1|]. destruct In1 as [E|E]; [injection E as -> ->; exists k, v; split; [left; reflexivity|exact A]|].
      destruct (IH E) as (k0 & v0 & P & Q). exists k0, v0. split; [right; exact P|exact Q]. }
    destruct X as (key & v0 & Il & Tk). assert (Y : exists e, In e (strEntries (map (fun e => (fst e, sortedValue (snd e))) (byKey m))) /\ IsValue key (fst e)).
    { clear - J Il. induction J as [|[k v] e l es (_ & A & B) J IH]; [destruct Il|]. destruct Il as [E|E]; [injection E as -> ->; exists e; split; [left; reflexivity|exact A]|].
      destruct (IH E) as (e0 & P & Q). exists e0. split; [right; exact P|exact Q]. }
    destruct Y as ([k w] & Ie & Vk). cbn [fst] in Vk. unfold strEntries in Ie. rewrite map_map in Ie. apply in_map_iff in Ie. destruct Ie as ([k1 w1] & Ee & Ib). cbn in Ee. injection Ee as <- _.
    apply (byKey_In m) in Ib. inversion Vk; subst. inversion Tk; subst. apply (N _ w1 eq_refl). unfold strEntries. apply in_map_iff. exists ("from_secret", w1). split; [reflexivity|exact Ib].
  Qed.
  Lemma entry_settings : forall m, KeysOk m -> Forall (Present ParameterOk) (map snd m) ->
    Entry "settings" (actual settingItems m) (IsMap (IsPtr IsParameter)) [] (byKey (map (fun e => (fst e, option_map sortedParameter (snd e))) m)).
  Proof.
    intros m K F. rewrite byKey_map. unfold settingItems.
    apply (entry_maps "settings" m (fun k ov => needs (match ov with Some v => v | None => None end) (actual parameterItems k)) (IsPtr IsParameter) (option_map sortedParameter) K).
    intros k ov I. rewrite Forall_forall in F. destruct (F ov (in_map snd m (k, ov) I)) as (v & -> & Hp). cbn [needs]. unfold parameterItems.
    destruct v as [v s]. unfold PrettySpec.ParameterOk in Hp. cbn [p_value p_secret option_map sortedParameter] in *. destruct Hp as [(Ns & Hs & ->)|(-> & Hv & Nn & Nl & Nm)].
    - destruct (isEmpty s) eqn:S; [destruct s; [congruence|discriminate]|]. destruct (entry_text "from_secret" s Hs) as (o1 & L1 & M1).
      destruct (map_tree k _ _ L1 ltac:(segs)) as (t & l & E & G & El & Fl); [shown M1; exact Ns|]. exists t. split; [exact E|]. split; [exact G|]. rewrite El. apply isptr_map.
      constructor. split; [exact Ns|]. eexists. split; [exact Fl|has].
    - cbn [isEmpty String.eqb]. exists (anyTree (AValue v)). split; [reflexivity|]. destruct (value_fine v Hv) as (G & V & T & Va & U).
      assert (X : Good (anyTree (AValue v)) /\ IsValue (nodeOf (anyTree (AValue v))) (sortedValue v)).
      { cbn [PrettyTree.anyTree]. inversion Hv; subst; cbn [PrettyTree.below] in *; try (split; assumption).
        - congruence.
        - cbn [PrettyTree.valueTree scalarOf] in *. destruct (isInt z) eqn:Z; [split; assumption|]. rewrite isInt_fits in Z by assumption. discriminate.
        - destruct l; [congruence|]. split; assumption.
        - destruct (combine (map VStr ks) vs); [|split; assumption]. split; [apply good_below; [lia|apply good_flow]|]. cbn. constructor. constructor. }
      destruct X as [X1 X2]. split; [exact X1|]. right. split.
      + intro Z. rewrite Z in X2. inversion X2. destruct v; cbn in *; congruence.
      + eexists. split; [reflexivity|]. constructor; [|exact X2]. intro s. eapply not_refers; [exact Hv|exact Nm|exact X2].
  Qed.

  (** ** Conditions *)
  Lemma strings_texts : forall l ss, Forall2 IsText l ss -> Strings l ss.
  Proof. intros l ss F. induction F; constructor; assumption. Qed.
  Lemma strings_at : forall m f k l, Fields (NMap m) f -> NoDup (map fst f) -> Has f k (IsList IsText) [] l -> StringsAt m k l.
  Proof.
    intros m f k l F D H. destruct F as [[X _]|(m' & X & F)]; [discriminate X|]. injection X as <-.
    assert (Back : forall key v, In (key, v) m -> IsText key k -> In (k, v) f).
    { clear - F. intros key v I T. induction F as [|[a b] [c d] m f [A B] F IH]; [destruct I|]. cbn in A, B. destruct I as [I|I]; [|right; exact (IH I)].
      injection I as -> ->. left. subst. f_equal. eapply text_unique; eassumption. }
    assert (Forth : forall v, In (k, v) f -> exists key, In (key, v) m /\ IsText key k).
    { clear - F. intros v I. induction F as [|[a b] [c d] m f [A B] F IH]; [destruct I|]. cbn in A, B. destruct I as [I|I].
      - injection I as -> ->. subst. exists a. split; [left; reflexivity|exact A].
      - destruct (IH I) as (key & P & Q). exists key. split; [right; exact P|exact Q]. }
    destruct H as [(n & I & [[-> ->]|(ns & -> & T)])|[N ->]].
    - right. split; [|reflexivity]. intros key ns J T. pose proof (Back _ _ J T) as J'. assert (NNull = NSeq ns); [|discriminate].
      clear - D I J'. induction f as [|[a b] f IH]; [destruct I|]. cbn in D. apply NoDup_cons_iff in D. destruct D as [N D].
      destruct I as [I|I], J' as [J|J]; try congruence; [| |exact (IH D I J)].
      + injection I as -> ->. exfalso. apply N. apply (in_map fst) in J. exact J.
      + injection J as -> ->. exfalso. apply N. apply (in_map fst) in I. exact I.
    - left. destruct (Forth _ I) as (key & P & Q). exists key, ns. split; [exact P|]. split; [exact Q|]. apply strings_texts, T.
    - right. split; [|reflexivity]. intros key ns J T. apply N. pose proof (Back _ _ J T) as B. apply (in_map fst) in B. exact B.
  Qed.
  Lemma fields_NoDup : forall ss, NoDup (map fst ss) -> NoDup (map fst (fieldsOf ss)).
  Proof. intros ss D. unfold fieldsOf. rewrite map_map. apply present_NoDup, D. Qed.
  Definition noCondition : Condition := {| c_include := []; c_exclude := [] |}.
  Lemma entry_condition : forall k c, ConditionOk c -> Entry k (only (negb (isConditionEmpty c)) (under iph k (actual conditionTree c))) IsCondition noCondition c.
  Proof.
    intros k [inc exc] [Hi He]. unfold isConditionEmpty, conditionTree. cbn [c_include c_exclude] in *. apply entry_only.
    - destruct inc, exc; try discriminate. reflexivity.
    - intro N. destruct exc as [|x exc].
      + destruct inc as [|y inc]; [discriminate N|]. cbn [emptyList negb andb]. destruct (good_strings (y :: inc) Hi) as (G & ns & E & T); [discriminate|].
        exists (Some (stringsTree iph (y :: inc))). split; [apply lays_under|]. split; [exact G|]. rewrite E. constructor. apply strings_texts, T.
      + rewrite andb_false_r. destruct (entry_texts "include" _ Hi) as (o1 & L1 & M1). destruct (entry_texts "exclude" _ He) as (o2 & L2 & M2).
        eapply entry_map; [lay|segs|]. intros n F P. destruct P as [m ->]; [shown M2; discriminate|].
        constructor; (eapply strings_at; [exact F|apply fields_NoDup, nodupb_NoDup; reflexivity|has]).
  Qed.
  Definition noConditions : Conditions :=
    {| w_action := noCondition; w_cron := noCondition; w_ref := noCondition; w_repo := noCondition; w_instance := noCondition; w_target := noCondition;
       w_event := noCondition; w_branch := noCondition; w_status := noCondition; w_paths := noCondition; w_matrix := [] |}.
  Lemma fields_null : Fields NNull [].
  Proof. left. split; reflexivity. Qed.
  Ltac nothing := eexists; split; [exact fields_null|]; repeat split; right; split; [intros []|reflexivity|intros []|reflexivity].
  Lemma conditions_null : IsConditions NNull noConditions.
  Proof. exists []. split; [exact fields_null|]. repeat split; right; (split; [intros []|reflexivity]). Qed.
  Lemma noCondition_empty : forall c, isConditionEmpty c = true -> c = noCondition.
  Proof. intros [[] []] H; try discriminate. reflexivity. Qed.
  Lemma entry_conditions : forall k w, ConditionsOk w -> Entry k (only (negb (isConditionsEmpty w)) (actual conditionsItems k w)) IsConditions noConditions w.
  Proof.
    intros k w (H1 & H2 & H3 & H4 & H5 & H6 & H7 & H8 & H9 & H10 & H11). apply entry_only.
    - intro E. apply negb_false_iff in E. unfold isConditionsEmpty in E. repeat (apply andb_prop in E; let E' := fresh "E" in destruct E as [E E']; apply noCondition_empty in E').
      apply noCondition_empty in E. destruct w. cbn in *. unfold noConditions. congruence.
    - intros _. unfold conditionsItems. cbv zeta.
      destruct (entry_condition "action" _ H1) as (o1 & L1 & M1). destruct (entry_condition "cron" _ H2) as (o2 & L2 & M2).
      destruct (entry_condition "ref" _ H3) as (o3 & L3 & M3). destruct (entry_condition "repo" _ H4) as (o4 & L4 & M4).
      destruct (entry_condition "instance" _ H5) as (o5 & L5 & M5). destruct (entry_condition "target" _ H6) as (o6 & L6 & M6).
      destruct (entry_condition "event" _ H7) as (o7 & L7 & M7). destruct (entry_condition "branch" _ H8) as (o8 & L8 & M8).
      destruct (entry_condition "status" _ H9) as (o9 & L9 & M9). destruct (entry_condition "paths" _ H10) as (o10 & L10 & M10).
      eapply entry_map; [lay|segs|]. intros n F P. eexists. split; [exact F|]. repeat (split; [has|]). rewrite H11. apply has_none. reflexivity.
  Qed.

  (** ** Steps *)
  Lemma entry_list : forall {A B} k (l : list B) o (R : node -> list A -> Prop) x, (l = [] -> x = []) -> (l <> [] -> Entry k o R [] x) ->
    Entry k (only (negb (emptyList l)) o) R [] x.
  Proof. intros A B k l o R x N H. apply entry_only; destruct l; intro E; try discriminate E; [apply N; reflexivity|apply H; discriminate]. Qed.
  Lemma entry_set_id : forall {A} (p : option A) f k (R : node -> A -> Prop), (forall b, p = Some b -> Entry k (f b) (IsPtr R) None (Some b)) ->
    Entry k (isSet p f) (IsPtr R) None p.
  Proof. intros A p f k R H. rewrite <- (optmap_id p) at 2. apply entry_set, H. Qed.
  Lemma elem_container : forall c, ContainerOk c -> Elem (asItem (actual containerItems c)) (IsPtr (IsContainer ramInBytes)) (Some (sortedContainer c)).
  Proof.
    intros c H. destruct H as [Hbuild Hcommand Hcommands Hdepends Hdevices Hdns Hsearch Hentry [Henv1 Henv2] Hextra Hfailure Himage Hnetwork [Hname Nname] Hports Hpull Hpush Hres [Hset1 Hset2] Hshell Huser Hmounts Hwhen Hwd].
    destruct (entry_text "name" _ Hname) as (o1 & L1 & M1). destruct (entry_text "pull" _ Hpull) as (o2 & L2 & M2).
    destruct (entry_text "image" _ Himage) as (o3 & L3 & M3).
    destruct (entry_set (ct_build c) build "build" IsBuild sortedBuild (fun b E => entry_build b (Hbuild b E))) as (o4 & L4 & M4).
    destruct (entry_set_id (ct_push c) (fun p => tag "push" (AString (pu_image p))) "push" IsPush (fun b E => entry_push b (Hpush b E))) as (o5 & L5 & M5).
    destruct (entry_bool "detach" (ct_detach c)) as (o6 & L6 & M6). destruct (entry_text "user" _ Huser) as (o7 & L7 & M7).
    destruct (entry_text "shell" _ Hshell) as (o8 & L8 & M8). destruct (entry_texts "entrypoint" _ Hentry) as (o9 & L9 & M9).
    destruct (entry_texts "command" _ Hcommand) as (o10 & L10 & M10). destruct (entry_texts "commands" _ Hcommands) as (o11 & L11 & M11).
    destruct (entry_texts "dns" _ Hdns) as (o12 & L12 & M12). destruct (entry_texts "dns_search" _ Hsearch) as (o13 & L13 & M13).
    destruct (entry_texts "extra_hosts" _ Hextra) as (o14 & L14 & M14). destruct (entry_text "network_mode" _ Hnetwork) as (o15 & L15 & M15).
    assert (X : Entry "settings" (only (negb (emptyList (ct_settings c))) (actual settingItems (ct_settings c))) (IsMap (IsPtr IsParameter)) []
      (byKey (map (fun e => (fst e, option_map sortedParameter (snd e))) (ct_settings c)))).
    { apply entry_list; [intros ->; reflexivity|]. intros _. apply entry_settings; assumption. }
    destruct X as (o16 & L16 & M16).
    assert (X : Entry "environment" (only (negb (emptyList (ct_environment c))) (actual environItems (ct_environment c))) (IsMap (IsPtr IsVariable)) [] (byKey (ct_environment c))).
    { apply entry_list; [intros ->; reflexivity|]. intros _. apply entry_environ; assumption. }
    destruct X as (o17 & L17 & M17). destruct (entry_text "failure" _ Hfailure) as (o18 & L18 & M18).
    destruct (entry_bool "privileged" (ct_privileged c)) as (o19 & L19 & M19). destruct (entry_text "working_dir" _ Hwd) as (o20 & L20 & M20).
    assert (X : Entry "devices" (only (negb (emptyList (ct_devices c))) (actual deviceItems (ct_devices c))) (IsList (IsPtr IsDevice)) [] (ct_devices c)).
    { apply entry_list; [tauto|]. apply entry_devices, Hdevices. }
    destruct X as (o21 & L21 & M21).
    assert (X : Entry "ports" (only (negb (emptyList (ct_ports c))) (actual portItems (ct_ports c))) (IsList (IsPtr IsPort)) [] (ct_ports c)).
    { apply entry_list; [tauto|]. apply entry_ports, Hports. }
    destruct X as (o22 & L22 & M22).
    destruct (entry_set_id (ct_resources c) (actual resourcesItems) "resources" (IsResources ramInBytes) (fun b E => entry_resources b (Hres b E))) as (o23 & L23 & M23).
    assert (X : Entry "volumes" (only (negb (emptyList (ct_volumes c))) (actual mountItems (ct_volumes c))) (IsList (IsPtr IsMount)) [] (ct_volumes c)).
    { apply entry_list; [tauto|]. apply entry_mounts, Hmounts. }
    destruct X as (o24 & L24 & M24). destruct (entry_conditions "when" _ Hwhen) as (o25 & L25 & M25).
    assert (X : Entry "depends_on" (only (negb (emptyList (ct_depends c))) (tag "depends_on" (AStrings (ct_depends c)))) (IsList IsText) [] (ct_depends c)).
    { apply entry_list; [tauto|]. intros _. apply entry_texts, Hdepends. }
    destruct X as (o26 & L26 & M26).
    eapply elem_item; [unfold containerItems; lay|segs|shown M1; exact Nname|].
    intros m F. apply isptr_map. eexists. split; [exact F|]. cbn [sortedContainer ct_build ct_command ct_commands ct_detach ct_depends ct_devices ct_dns ct_dns_search ct_entrypoint
      ct_environment ct_extra_hosts ct_failure ct_image ct_network ct_name ct_ports ct_privileged ct_pull ct_push ct_resources ct_settings ct_shell ct_user ct_volumes ct_when ct_working_dir].
    repeat (split; [has; apply conditions_null|]). repeat (split; [has|]). has.
  Qed.

  (** ** Pipelines *)
  Lemma entry_blank : forall {A} k o (R : node -> A -> Prop) zero x, Entry k o R zero x -> Entry k (o +? blank) R zero x.
  Proof. intros A k o R zero x (ot & L & M). exists ot. split; [apply lays_then_blank, L|exact M]. Qed.
  Lemma entry_containers : forall k l, Forall (Present ContainerOk) l ->
    Entry k (actual containersItems k l) (IsList (IsPtr (IsContainer ramInBytes))) [] (map (option_map sortedContainer) l).
  Proof.
    intros k l F. unfold containersItems. apply entry_list; [intros ->; reflexivity|]. intro N. apply entry_seq; [exact N|].
    clear N. induction F as [|o l (c & -> & H) F IH]; cbn [map]; constructor; [|exact IH]. cbn [isSet option_map]. apply elem_container, H.
  Qed.
  Lemma entry_emptyDir : forall d, Readable (ve_medium d) -> SizeOk (ve_size d) -> Entry "temp" (actual emptyDirItems d) (IsPtr (IsEmptyDir ramInBytes)) None (Some d).
  Proof.
    intros d Hm Hs. unfold emptyDirItems. destruct (isEmptyDirEmpty d) eqn:E.
    - exists (Some (TScalar "{}")). split; [apply lays_under|]. split; [apply good_flow|]. change (nodeOf (TScalar "{}")) with (NMap []). apply isptr_map.
      exists []. split; [right; exists []; split; [reflexivity|constructor]|]. unfold isEmptyDirEmpty in E. apply andb_prop in E. destruct E as [E1 E2].
      apply Z.eqb_eq in E1. destruct d as [[|? ?] z]; cbn in *; [|discriminate]. split; right; (split; [intros []|assumption || reflexivity]).
    - destruct (entry_text "medium" _ Hm) as (o1 & L1 & M1). destruct (entry_size "size_limit" _ Hs) as (o2 & L2 & M2).
      eapply entry_ptr_map; [lay|segs| |].
      + unfold isEmptyDirEmpty in E. apply andb_false_iff in E. destruct E as [E|E]; [shown M2|shown M1]; intro Z; rewrite Z in E; discriminate.
      + intros m F. eexists. split; [exact F|]. split; has.
  Qed.
  Lemma entry_hostPath : forall d, Readable (vh_path d) -> vh_path d <> "" -> Entry "host" (actual hostPathItems d) (IsPtr IsHostPath) None (Some d).
  Proof.
    intros d H N. destruct (entry_text "path" _ H) as (o1 & L1 & M1). eapply entry_ptr_map; [lay|segs|shown M1; exact N|].
    intros m F. eexists. split; [exact F|]. has.
  Qed.
  Lemma elem_volume : forall v, VolumeOk v -> Elem (asItem (tag "name" (AString (vo_name v)) +? isSet (vo_empty v) (actual emptyDirItems) +? isSet (vo_host v) (actual hostPathItems)))
    (IsPtr (IsVolume ramInBytes)) (Some v).
  Proof.
    intros v (Hn & N & He & Hh). destruct (entry_text "name" _ Hn) as (o1 & L1 & M1).
    destruct (entry_set_id (vo_empty v) (actual emptyDirItems) "temp" (IsEmptyDir ramInBytes) (fun d E => entry_emptyDir d (proj1 (He d E)) (proj2 (He d E)))) as (o2 & L2 & M2).
    destruct (entry_set_id (vo_host v) (actual hostPathItems) "host" IsHostPath (fun d E => entry_hostPath d (proj1 (Hh d E)) (proj2 (Hh d E)))) as (o3 & L3 & M3).
    eapply elem_item; [lay|segs|shown M1; exact N|]. intros m F. apply isptr_map. eexists. split; [exact F|]. repeat (split; [has|]). has.
  Qed.
  Lemma entry_volumes : forall l, Forall (Present VolumeOk) l -> l <> [] -> Entry "volumes" (actual volumeItems l) (IsList (IsPtr (IsVolume ramInBytes))) [] l.
  Proof. intros l F N. apply entry_seq; [exact N|]. eapply elems_same; [|exact F]. intros a H. apply elem_volume, H. Qed.
  Lemma entry_clone : forall c, Fits (cl_depth c) -> Entry "clone" (only (negb (isCloneEmpty c)) (actual cloneItems c)) IsClone {| cl_disable := false; cl_depth := 0; cl_skip_verify := false |} c.
  Proof.
    intros c H. apply entry_only.
    - intro E. apply negb_false_iff in E. unfold isCloneEmpty in E. apply andb_prop in E. destruct E as [E E3]. apply andb_prop in E. destruct E as [E1 E2].
      apply Z.eqb_eq in E1. destruct c as [[] d []]; try discriminate. cbn in E1. subst. reflexivity.
    - intros _. destruct (entry_int "depth" _ H) as (o1 & L1 & M1). destruct (entry_bool "disable" (cl_disable c)) as (o2 & L2 & M2). destruct (entry_bool "skip_verify" (cl_skip_verify c)) as (o3 & L3 & M3).
      eapply entry_map; [lay|segs|]. intros n F P. eexists. split; [exact F|]. repeat (split; [has|]). has.
  Qed.
  Lemma entry_concurrency : forall z, Fits z -> Entry "concurrency" (only (negb (Z.eqb z 0)) (actual concurrencyItems z)) IsConcurrency 0%Z z.
  Proof.
    intros z H. apply entry_only.
    - intro E. apply negb_false_iff, Z.eqb_eq in E. exact E.
    - intros _. destruct (entry_int "limit" _ H) as (o1 & L1 & M1). eapply entry_map; [lay|segs|]. intros n F P. eexists. split; [exact F|]. has.
  Qed.
  Lemma entry_workspace : forall w, Readable (ws_base w) -> Readable (ws_path w) ->
    Entry "workspace" (only (negb (isWorkspaceEmpty w)) (actual workspaceItems w)) IsWorkspace {| ws_base := ""; ws_path := "" |} w.
  Proof.
    intros w Hb Hp. apply entry_only.
    - intro E. apply negb_false_iff in E. unfold isWorkspaceEmpty in E. apply andb_prop in E. destruct E as [E1 E2]. destruct w as [b pa]. cbn in *. destruct b, pa; try discriminate. reflexivity.
    - intros _. destruct (entry_text "base" _ Hb) as (o1 & L1 & M1). destruct (entry_text "path" _ Hp) as (o2 & L2 & M2).
      eapply entry_map; [lay|segs|]. intros n F P. eexists. split; [exact F|]. split; has.
  Qed.
  Definition shownPlatform (p : Platform) : Platform :=
    match p with {| pl_os := ""; pl_arch := ""; pl_variant := ""; pl_version := "" |} => defaultPlatform | pl => pl end.
  Lemma word_readable : forall s, keyWord s = true -> Readable s.
  Proof. intros s H. apply keyWord_readable in H. apply H. Qed.
  Lemma entry_platform : forall p, Readable (pl_os p) -> Readable (pl_arch p) -> Readable (pl_variant p) -> Readable (pl_version p) ->
    Entry "platform" (if isPlatformEmpty p then actual defaultItems else actual platformItems p) IsPlatform defaultPlatform (shownPlatform p).
  Proof.
    intros p H1 H2 H3 H4. destruct (isPlatformEmpty p) eqn:E.
    - unfold isPlatformEmpty in E. apply andb_prop in E. destruct E as [E E4]. apply andb_prop in E. destruct E as [E E3]. apply andb_prop in E. destruct E as [E1 E2].
      destruct p as [a b c d]. cbn [pl_os pl_arch pl_variant pl_version] in *. destruct a, b, c, d; try discriminate. cbn [shownPlatform].
      destruct (entry_text "os" "linux" (word_readable "linux" eq_refl)) as (o1 & L1 & M1). destruct (entry_text "arch" "amd64" (word_readable "amd64" eq_refl)) as (o2 & L2 & M2).
      eapply entry_map; [lay|segs|]. intros n F P. eexists. split; [exact F|]. cbn [pl_os pl_arch pl_variant pl_version defaultPlatform].
      split; [has|]. split; [has|]. split; apply has_none; reflexivity.
    - assert (Es : shownPlatform p = p). { destruct p as [[] [] [] []]; try reflexivity. discriminate E. } rewrite Es.
      destruct (entry_text "os" _ H1) as (o1 & L1 & M1). destruct (entry_text "arch" _ H2) as (o2 & L2 & M2). destruct (entry_text "variant" _ H3) as (o3 & L3 & M3). destruct (entry_text "version" _ H4) as (o4 & L4 & M4).
      eapply entry_map; [lay|segs|]. intros n F P. eexists. split; [exact F|]. repeat (split; [has|]). has.
  Qed.

  (** ** Documents *)
  Definition Ends (o : items) : Prop := exists its, o = Some (its ++ [None]).
  Lemma ends_blank : Ends blank.
  Proof. exists []. reflexivity. Qed.
  Lemma ends_then : forall a b sa, Lays a sa -> Ends b -> Ends (a +? b).
  Proof. intros a b sa (ia & -> & _) (ib & ->). exists (ia ++ ib). cbn. rewrite app_assoc. reflexivity. Qed.
  Lemma doc_good : forall o ss, Lays o ss -> Ends o -> GoodSegs ss -> forallb (fun k => topKey (enc k)) (map fst ss) = true ->
    exists its, o = Some (its ++ [None]) /\ Good (TMap its) /\ Top its /\ Fields (nodeOf (TMap its)) (fieldsOf ss).
  Proof.
    intros o ss (its' & -> & E) (its & Ei) G T. injection Ei as ->. exists its. split; [reflexivity|].
    rewrite entriesOf_app in E. cbn [entriesOf flat_map] in E. rewrite app_nil_r in E.
    destruct (struct_good (Some its) ss (ex_intro _ its (conj eq_refl E)) G) as (its0 & Ei & Gd & F & _). injection Ei as <-.
    split; [exact Gd|]. split; [|exact F]. unfold Top. change (flat_map _ its) with (entriesOf its) in E. rewrite E. apply Forall_map. cbn [fst]. apply Forall_forall. intros [k t] I. apply present_In in I.
    cbn [fst]. rewrite forallb_forall in T. apply T. apply (in_map fst) in I. exact I.
  Qed.
  Definition HeaderOf (n : node) (v k t : string) : Prop := exists f, Fields n f /\ HasText f "version" v /\ HasText f "kind" k /\ HasText f "type" t.
  Definition DocOf (o : items) (v k t : string) (R : node -> Prop) : Prop :=
    exists its, o = Some (its ++ [None]) /\ Good (TMap its) /\ Top its /\ HeaderOf (nodeOf (TMap its)) v k t /\ R (nodeOf (TMap its)).
  Lemma clone_null : IsClone NNull {| cl_disable := false; cl_depth := 0; cl_skip_verify := false |}.
  Proof. exists []. split; [exact fields_null|]. repeat split; right; (split; [intros []|reflexivity]). Qed.
  Lemma concurrency_null : IsConcurrency NNull 0%Z.
  Proof. exists []. split; [exact fields_null|]. right. split; [intros []|reflexivity]. Qed.
  Lemma workspace_null : IsWorkspace NNull {| ws_base := ""; ws_path := "" |}.
  Proof. exists []. split; [exact fields_null|]. split; right; (split; [intros []|reflexivity]). Qed.
  Ltac ends := repeat first [exact ends_blank|eapply ends_then; [first [eassumption|exact lays_blank|exact lays_nil]|]].
  Lemma lays_skip : forall o ss, Lays o ss -> Lays (Some [] +? o) ss.
  Proof. intros o ss H. exact (lays_app (Some []) o [] ss lays_nil H). Qed.
  Ltac layd := repeat lazymatch goal with
    | |- Lays blank _ => exact lays_blank
    | |- Lays (blank +? _) _ => apply lays_blank_then
    | |- Lays (Some [] +? _) _ => apply lays_skip
    | |- Lays (_ +? _) _ => eapply lays_cons; [eassumption|]
    end.
  Lemma pipeline_doc : forall p, PipelineOk p -> DocOf (actual pipelineItems p) (pi_version p) (pi_kind p) (pi_type p) (fun n => IsPipeline ramInBytes n (sortedPipeline p)).
  Proof.
    intros p H. destruct H as [Hv [Hk _] Ht Hn Hc Hcc Hd Hnode (Hp1 & Hp2 & Hp3 & Hp4) Hps Hsv Hst Htr Hvo [Hw1 Hw2]].
    destruct (entry_text "version" _ Hv) as (o1 & L1 & M1). destruct (entry_text "kind" _ Hk) as (o2 & L2 & M2).
    destruct (entry_text "type" _ Ht) as (o3 & L3 & M3). destruct (entry_text "name" _ Hn) as (o4 & L4 & M4).
    destruct (entry_platform _ Hp1 Hp2 Hp3 Hp4) as ([t5|] & L5 & M5).
    2:{ exfalso. destruct L5 as (its & E5 & E5'). destruct (isPlatformEmpty (pi_platform p)); unfold defaultItems, platformItems, inMap, under in E5.
        - cbn in E5. injection E5 as <-. discriminate E5'.
        - destruct (tag "os" (AString (pl_os (pi_platform p))) +? _) as [x|]; [|discriminate E5]. cbn in E5. injection E5 as <-. discriminate E5'. }
    destruct (entry_clone _ Hc) as (o6 & L6 & M6). destruct (entry_concurrency _ Hcc) as (o7 & L7 & M7). destruct (entry_workspace _ Hw1 Hw2) as (o8 & L8 & M8).
    destruct (entry_containers "steps" _ Hst) as (o9 & L9 & M9). destruct (entry_containers "services" _ Hsv) as (o10 & L10 & M10).
    assert (X : Entry "volumes" (only (negb (emptyList (pi_volumes p))) (actual volumeItems (pi_volumes p) +? blank)) (IsList (IsPtr (IsVolume ramInBytes))) [] (pi_volumes p)).
    { apply entry_list; [tauto|]. intro N. apply entry_blank, entry_volumes; assumption. }
    destruct X as (o11 & L11 & M11).
    assert (X : Entry "image_pull_secrets" (only (negb (emptyList (pi_pull_secrets p))) (tag "image_pull_secrets" (AStrings (pi_pull_secrets p)) +? blank)) (IsList IsText) [] (pi_pull_secrets p)).
    { apply entry_list; [tauto|]. intro N. apply entry_blank, entry_texts; assumption. }
    destruct X as (o12 & L12 & M12).
    assert (X : Entry "node" (only (negb (emptyList (pi_node p))) (tag "node" (AMap (pi_node p)) +? blank)) (IsMap IsText) [] (byKey (pi_node p))).
    { apply entry_list; [intros ->; reflexivity|]. intro N. apply entry_blank, entry_textmap; assumption. }
    destruct X as (o13 & L13 & M13).
    assert (X : Entry "trigger" (only (negb (isConditionsEmpty (pi_trigger p))) (actual conditionsItems "trigger" (pi_trigger p) +? blank)) IsConditions noConditions (pi_trigger p)).
    { pose proof (entry_conditions "trigger" _ Htr) as X. destruct (negb (isConditionsEmpty (pi_trigger p))); [apply entry_blank|]; exact X. }
    destruct X as (o14 & L14 & M14).
    assert (X : Entry "depends_on" (only (negb (emptyList (pi_depends p))) (tag "depends_on" (AStrings (pi_depends p)) +? blank)) (IsList IsText) [] (pi_depends p)).
    { apply entry_list; [tauto|]. intro N. apply entry_blank, entry_texts; assumption. }
    destruct X as (o15 & L15 & M15).
    eassert (LL : Lays (actual pipelineItems p) _) by (unfold pipelineItems; layd).
    edestruct (doc_good _ _ LL) as (its & E & G & T & F); [unfold pipelineItems; ends|segs|reflexivity|]. exists its. split; [exact E|]. split; [exact G|]. split; [exact T|].
    split; (eexists; split; [exact F|]).
    - split; [has|]. split; has.
    - assert (EP : pi_platform (sortedPipeline p) = shownPlatform (pi_platform p)) by (cbn; destruct (pi_platform p) as [[] [] [] []]; reflexivity). rewrite EP.
      cbn [sortedPipeline pi_version pi_kind pi_type pi_name pi_clone pi_concurrency pi_depends pi_node pi_platform pi_pull_secrets pi_services pi_steps pi_trigger pi_volumes pi_workspace].
      do 4 (split; [has|]). split; [has; apply clone_null|]. split; [has; apply concurrency_null|]. do 2 (split; [has|]).
      split; [eapply struct_seg; [apply nodupb_NoDup; reflexivity|here|exact (proj2 M5)]|]. do 3 (split; [has|]). split; [has; apply conditions_null|]. split; [has|]. has; apply workspace_null.
  Qed.

  (** ** The other resources *)
  Definition nodeOpt (ot : option tree) : node := match ot with Some t => nodeOf t | None => NNull end.
  Lemma struct_eq : forall ss k ot, NoDup (map fst ss) -> In (k, ot) ss -> HasStruct (fieldsOf ss) k eq (nodeOpt ot).
  Proof. intros ss k ot D I. apply (struct_seg ss k ot eq _ D I). destruct ot; reflexivity. Qed.
  Lemma struct_none : forall ss k, smem k (map fst ss) = false -> HasStruct (fieldsOf ss) k eq NNull.
  Proof.
    intros ss k H. right. split; [|reflexivity]. intro I. unfold fieldsOf in I. rewrite map_map in I. cbn [fst] in I. apply present_keys, smem_In in I. congruence.
  Qed.
  Lemma entry_field : forall k o k' x, Entry k' o IsText "" x -> keyWord k' = true ->
    Entry k (inMap iph k o) (fun n x => exists h, Fields n h /\ HasText h k' x) "" x.
  Proof.
    intros k o k' x (ot & L & M) K. eapply entry_map; [exact L| |].
    - apply good_segs; [reflexivity|cbn; rewrite K; reflexivity|]. constructor; [eapply means_good; exact M|constructor].
    - intros n F P. eexists. split; [exact F|]. eapply has_seg; [apply nodupb_NoDup; reflexivity|left; reflexivity|exact M].
  Qed.
  Lemma cron_doc : forall c, CronOk c -> DocOf (actual cronItems c) (cr_version c) (cr_kind c) (cr_type c) (fun n => IsCron n c).
  Proof.
    intros c (Hv & Hk & Ht & Hn & Hs & Hb & Hta).
    destruct (entry_text "version" _ Hv) as (o1 & L1 & M1). assert (RK : Readable (cr_kind c)) by (rewrite Hk; apply word_readable; reflexivity).
    destruct (entry_text "kind" _ RK) as (o2 & L2 & M2). destruct (entry_text "name" _ Hn) as (o3 & L3 & M3).
    destruct (entry_text "schedule" _ Hs) as (o4 & L4 & M4). destruct (entry_text "branch" _ Hb) as (o5 & L5 & M5).
    assert (X : Entry "deployment" (only (hasDeployment c) (inMap iph "deployment" (tag "target" (AString (cr_target c))))) (fun n x => exists h, Fields n h /\ HasText h "target" x) "" (cr_target c)).
    { apply entry_only; [unfold hasDeployment; destruct (cr_target c); [reflexivity|discriminate]|]. intros _. apply entry_field; [apply entry_text, Hta|reflexivity]. }
    destruct X as (o6 & L6 & M6).
    assert (X : Entry "spec" (actual specItems c) (fun n c => exists g deploy h, Fields n g /\ HasStruct g "deployment" eq deploy /\
      Fields deploy h /\ HasText g "schedule" (cr_schedule c) /\ HasText g "branch" (cr_branch c) /\ HasText h "target" (cr_target c)) c c).
    { eapply entry_map; [lay|segs|]. intros n F P. eexists. exists (nodeOpt o6).
      assert (Y : exists h, Fields (nodeOpt o6) h /\ HasText h "target" (cr_target c)).
      { destruct o6 as [t|]; [exact (proj2 M6)|]. cbn in M6. rewrite M6. exists []. split; [exact fields_null|]. right. split; [intros []|reflexivity]. }
      destruct Y as (h & Y1 & Y2). exists h. split; [exact F|]. split; [apply struct_eq; [apply nodupb_NoDup; reflexivity|here]|]. split; [exact Y1|]. split; [has|]. split; [has|exact Y2]. }
    destruct X as ([t7|] & L7 & M7).
    2:{ exfalso. destruct L7 as (its & E & E'). unfold specItems, inMap, under in E.
        destruct (tag "schedule" (AString (cr_schedule c)) +? _) as [x|]; [|discriminate E]. cbn in E. injection E as <-. discriminate E'. }
    eassert (LL : Lays (actual cronItems c) _) by (unfold cronItems; layd).
    edestruct (doc_good _ _ LL) as (its & E & G & T & F); [unfold cronItems; ends|segs|reflexivity|]. exists its. split; [exact E|]. split; [exact G|]. split; [exact T|].
    rewrite Ht. split; (eexists; split; [exact F|]).
    - split; [has|]. split; [has|]. apply has_none. reflexivity.
    - split; [has|]. split; [has|]. split; [rewrite Ht; apply has_none; reflexivity|]. split; [has|]. destruct M7 as (_ & g & deploy & h & F1 & F2 & F3 & F4 & F5 & F6).
      exists (nodeOpt (Some t7)), g, deploy, h. split; [apply struct_eq; [apply nodupb_NoDup; reflexivity|here]|].
      repeat (split; [assumption|]). assumption.
  Qed.
  Lemma signature_doc : forall s, SignatureOk s -> DocOf (actual signatureItems s) (si_version s) (si_kind s) "" (fun n => IsSignature n s).
  Proof.
    intros s (Hv & Hk & Hh). destruct (entry_text "version" _ Hv) as (o1 & L1 & M1). assert (RK : Readable (si_kind s)) by (rewrite Hk; apply word_readable; reflexivity).
    destruct (entry_text "kind" _ RK) as (o2 & L2 & M2). destruct (entry_text "hmac" _ Hh) as (o3 & L3 & M3).
    eassert (LL : Lays (actual signatureItems s) _) by (unfold signatureItems; layd).
    edestruct (doc_good _ _ LL) as (its & E & G & T & F); [unfold signatureItems; ends|segs|reflexivity|]. exists its. split; [exact E|]. split; [exact G|]. split; [exact T|].
    split; (eexists; split; [exact F|]).
    - split; [has|]. split; [has|]. apply has_none. reflexivity.
    - split; [has|]. split; has.
  Qed.
  Lemma good_fold : forall ps, ps <> [] -> Forall (fun p => p <> "" /\ Forall (fun c => (33 <= code c <= 126)%N) (list_ascii_of_string p)) ps ->
    Good (TFold ps) /\ nodeOf (TFold ps) = NStr (join " " ps +++ nl)%string.
  Proof.
    intros ps N F. split; [|reflexivity]. assert (B : forall c, (33 <= code c <= 126)%N -> c <> " "%char) by (intros c H; intros ->; cbn in H; lia).
    assert (V : forall p, Forall (fun c => (33 <= code c <= 126)%N) (list_ascii_of_string p) -> Visible p).
    { intros p Fp. apply visible_ascii. induction p as [|c p IH]; [reflexivity|]. cbn [list_ascii_of_string] in Fp. apply Forall_cons_iff in Fp. destruct Fp as [H Fp].
      cbn [sforallb]. rewrite (IH Fp), andb_true_r. apply between_iff. lia. }
    split; [|split; [|constructor]].
    - split; [exact N|]. eapply Forall_impl; [|exact F]. intros p [Np Fp]. split; [exact Np|]. split; [|apply visible_oneLine, V, Fp].
      destruct p as [|c p]; [reflexivity|]. cbn [list_ascii_of_string] in Fp. apply Forall_cons_iff in Fp. destruct Fp as [H _]. cbn. apply Ascii.eqb_neq, B, H.
    - cbn [Shows]. eapply Forall_impl; [|exact F]. intros p [_ Fp]. apply V, Fp.
  Qed.
  Lemma lays_two : forall a b s1 s2 ss, Lays a [s1; s2] -> Lays b ss -> Lays (a +? b) (s1 :: s2 :: ss).
  Proof. intros a b s1 s2 ss A B. exact (lays_app a b [s1; s2] ss A B). Qed.
  Lemma secret_doc : forall s, SecretOk s -> exists d, FoldedData (se_data s) d /\ DocOf (actual secretItems s) (se_version s) (se_kind s) (se_type s) (fun n => IsSecret n
    {| se_version := se_version s; se_kind := se_kind s; se_type := se_type s; se_name := se_name s;
       se_data := d; se_get_path := se_get_path s; se_get_name := se_get_name s; se_get_key := se_get_key s |}).
  Proof.
    intros s (Hv & Hk & Ht & Hn & Hp & Hgn & Hgk & H). assert (RK : Readable (se_kind s)) by (rewrite Hk; apply word_readable; reflexivity).
    destruct (entry_text "version" _ Hv) as (o1 & L1 & M1). destruct (entry_text "kind" _ RK) as (o2 & L2 & M2). destruct (entry_text "type" _ Ht) as (o3 & L3 & M3).
    destruct (entry_text "name" _ Hn) as (o4 & L4 & M4).
    destruct H as [([Hd (c & Ic & Nc)] & E1 & E2 & E3)|(Ed & N)].
    - set (u := removeSpaces (se_data s)). assert (Sq : squeezed (se_data s) u) by apply removed_spaces.
      assert (Fu : Forall (fun c => (33 <= code c <= 126)%N) (list_ascii_of_string u)).
      { rewrite Sq. apply Forall_forall. intros x I. apply filter_In in I. destruct I as [I K]. rewrite Forall_forall in Hd. apply negb_true_iff, orb_false_iff in K. destruct K as [K1 K2].
        apply Ascii.eqb_neq in K1, K2. destruct (Hd x I) as [->|B]; [congruence|]. assert (code x <> 32%N); [|lia]. intro Z. apply K1. rewrite <- (ascii_N_embedding x). unfold code in Z. rewrite Z. reflexivity. }
      assert (Nu : u <> ""). { intro Z. assert (In c (list_ascii_of_string u)) as I; [|rewrite Z in I; destruct I]. rewrite Sq. apply filter_In. split; [exact Ic|].
        apply negb_true_iff, orb_false_iff. split; apply Ascii.eqb_neq; tauto. }
      pose proof (chunk_pieces u Nu) as P. assert (Np : chunk u 60 <> []) by (intro Z; destruct P as (_ & w & l & Z' & _); rewrite Z in Z'; destruct w; discriminate).
      destruct (good_fold (chunk u 60) Np) as [G5 E5].
      { apply Forall_forall. intros p Ip. split; [eapply pieces_nonempty; eassumption|]. apply Forall_forall. intros x Ix. rewrite Forall_forall in Fu. apply Fu. eapply pieces_in; eassumption. }
      set (t5 := TFold (chunk u 60)) in *.
      exists (join " " (chunk u 60) +++ nl)%string. split; [right; exists u, (chunk u 60); repeat split; assumption || exact Sq || apply P|].
      assert (L5 : Lays (tag "name" (AString (se_name s)) +? dataItems iph (se_data s)) [("name", o4); ("data", Some t5)]).
      { eapply lays_cons; [exact L4|]. apply lays_under. }
      assert (Ne : isEmpty (se_data s) = false) by (destruct (se_data s); [destruct Ic|reflexivity]).
      assert (ES : actual secretItems s = tag "version" (AString (se_version s)) +? tag "kind" (AString (se_kind s)) +? tag "type" (AString (se_type s)) +?
        (tag "name" (AString (se_name s)) +? dataItems iph (se_data s)) +? Some [] +? blank +? blank).
      { unfold secretItems, isSecretGetEmpty. rewrite Ne, E1, E2, E3. reflexivity. }
      assert (LL : Lays (actual secretItems s) [("version", o1); ("kind", o2); ("type", o3); ("name", o4); ("data", Some t5)]).
      { rewrite ES. do 3 (eapply lays_cons; [eassumption|]). eapply lays_two; [exact L5|]. layd. }
      assert (M5 : Means IsText "" (Some t5) (join " " (chunk u 60) +++ nl)%string) by (split; [exact G5|]; rewrite E5; constructor).
      edestruct (doc_good _ _ LL) as (its & E & G & T & F); [rewrite ES; ends|segs|reflexivity|]. exists its. split; [exact E|]. split; [exact G|]. split; [exact T|].
      split; (eexists; split; [exact F|]).
      + split; [has|]. split; has.
      + cbn [se_version se_kind se_type se_name se_data se_get_path se_get_name se_get_key]. do 5 (split; [has|]). rewrite E1, E2, E3. exists NNull, []. split; [apply struct_none; reflexivity|].
        split; [exact fields_null|]. repeat split; right; (split; [intros []|reflexivity]).
    - exists "". split; [left; split; [exact Ed|reflexivity]|].
      destruct (entry_text "path" _ Hp) as (o5 & L5 & M5). destruct (entry_text "name" _ Hgn) as (o6 & L6 & M6). destruct (entry_text "key" _ Hgk) as (o7 & L7 & M7).
      assert (X : Entry "get" (actual getItems s) (fun n s => exists g, Fields n g /\ HasText g "path" (se_get_path s) /\ HasText g "name" (se_get_name s) /\ HasText g "key" (se_get_key s)) s s).
      { eapply entry_map; [lay|segs|]. intros n F P. eexists. split; [exact F|]. split; [has|]. split; has. }
      destruct X as ([t8|] & L8 & M8).
      2:{ exfalso. destruct L8 as (its & E & E'). unfold getItems, inMap, under in E.
          destruct (tag "path" (AString (se_get_path s)) +? _) as [x|]; [|discriminate E]. cbn in E. injection E as <-. discriminate E'. }
      assert (Ng : isSecretGetEmpty s = false). { unfold isSecretGetEmpty. destruct (se_get_path s), (se_get_name s), (se_get_key s); try reflexivity. tauto. }
      assert (L9 : Lays (tag "name" (AString (se_name s)) +? blank +? actual getItems s) [("name", o4); ("get", Some t8)]).
      { eapply lays_cons; [exact L4|]. apply lays_blank_then, L8. }
      assert (ES : actual secretItems s = tag "version" (AString (se_version s)) +? tag "kind" (AString (se_kind s)) +? tag "type" (AString (se_type s)) +? Some [] +?
        (tag "name" (AString (se_name s)) +? blank +? actual getItems s) +? blank +? blank).
      { unfold secretItems. rewrite Ed, Ng. reflexivity. }
      assert (LL : Lays (actual secretItems s) [("version", o1); ("kind", o2); ("type", o3); ("name", o4); ("get", Some t8)]).
      { rewrite ES. do 3 (eapply lays_cons; [eassumption|]). apply lays_skip. eapply lays_two; [exact L9|]. layd. }
      edestruct (doc_good _ _ LL) as (its & E & G & T & F); [rewrite ES; ends|segs|reflexivity|]. exists its. split; [exact E|]. split; [exact G|]. split; [exact T|].
      split; (eexists; split; [exact F|]).
      + split; [has|]. split; has.
      + cbn [se_version se_kind se_type se_name se_data se_get_path se_get_name se_get_key]. do 4 (split; [has|]). split; [apply has_none; reflexivity|].
        destruct M8 as (_ & g & G1 & G2 & G3 & G4). exists (nodeOpt (Some t8)), g. split; [apply struct_eq; [apply nodupb_NoDup; reflexivity|here]|]. repeat split; assumption.
  Qed.
End Round.
