(** * ParseFacts.v: lemmas about Model/RawParse.v. *)
From Coq Require Import Lia.
From Verif Require Import Model.Go Model.Types Model.RawParse Spec.ParseSpec Proofs.GoFacts.

Lemma dropCR_snoc l : dropCR (l +++ cr)%string = l.
Proof.
  induction l as [|c l IH]; [reflexivity|]. change ((String c l +++ cr)%string) with (String c (l +++ cr)%string).
  cbn [dropCR]. rewrite IH. destruct (l +++ cr)%string eqn:E; [|reflexivity].
  apply sapp_eq_nil in E as [_ E]. discriminate.
Qed.
Lemma dropCR_no l : (forall l', l <> l' +++ cr)%string -> dropCR l = l.
Proof.
  induction l as [|c l IH]; intro H; [reflexivity|]. destruct l as [|d l].
  - simpl. destruct (Ascii.eqb_spec c CR) as [->|]; [|reflexivity]. exfalso. apply (H ""). reflexivity.
  - change (String c (dropCR (String d l)) = String c (String d l)). f_equal. apply IH.
    intros l' E. apply (H (String c l')). simpl. rewrite E. reflexivity.
Qed.
Lemma Chomp_dropCR r l : Chomp r l <-> dropCR r = l.
Proof.
  split.
  - intros [l'|l' H]; [apply dropCR_snoc|apply dropCR_no, H].
  - intros <-. induction r as [|c r IH].
    + apply Chomp_no. intros l' E. destruct l'; discriminate.
    + destruct r as [|d r].
      * simpl. destruct (Ascii.eqb_spec c CR) as [->|N]; [exact (Chomp_cr "")|].
        apply Chomp_no. intros l' E. destruct l' as [|x l']; [injection E as ->; congruence|].
        injection E as _ E. destruct l'; discriminate.
      * change (dropCR (String c (String d r))) with (String c (dropCR (String d r))).
        remember (String d r) as r' eqn:Er.
        generalize dependent (dropCR r'). intros x IH. destruct IH as [l'|l' H].
        -- exact (Chomp_cr (String c l')).
        -- apply Chomp_no. intros l1 E. destruct l1 as [|y l1].
           ++ injection E as _ E. congruence.
           ++ injection E as _ E. exact (H l1 E).
Qed.
Lemma Chomp_exists rls : exists ls, Forall2 Chomp rls ls.
Proof.
  exists (map dropCR rls). induction rls; simpl; constructor; [apply Chomp_dropCR; reflexivity|assumption].
Qed.
Lemma Forall2_Chomp rls ls : Forall2 Chomp rls ls <-> ls = map dropCR rls.
Proof.
  split.
  - induction 1 as [|r l rs ls H _ IH]; [reflexivity|]. simpl. apply Chomp_dropCR in H. congruence.
  - intros ->. induction rls; simpl; constructor; [apply Chomp_dropCR; reflexivity|assumption].
Qed.

Lemma Lines_exists s : exists ls, Lines s ls.
Proof.
  induction s as [|c s (ls & IH)]; [exists []; constructor|].
  destruct (Ascii.eqb_spec c NL) as [->|N].
  - exists ("" :: ls). change (String NL s) with ("" +++ nl +++ s)%string. constructor; [simpl; tauto|exact IH].
  - inversion IH as [|l H1 H2|l s' ls' H1 H2]; subst.
    + exists [String c ""]. constructor; [discriminate|]. simpl. intuition.
    + exists [String c s]. constructor; [discriminate|]. simpl. intuition.
    + exists (String c l :: ls'). change (String c (l +++ nl +++ s'))%string with (String c l +++ nl +++ s')%string.
      constructor; [simpl; intuition|assumption].
Qed.

(** The lines up to the first that does not fit. *)
Fixpoint fitting (ls : list string) : list string :=
  match ls with
  | [] => []
  | l :: ls' => if N.ltb (slen l) maxToken then l :: fitting ls' else []
  end.
Lemma fitting_short ls : Forall Short ls -> fitting ls = ls.
Proof.
  induction 1 as [|l ls H _ IH]; [reflexivity|]. simpl. unfold Short in H.
  apply N.ltb_lt in H. unfold maxToken. rewrite H, IH. reflexivity.
Qed.
Lemma fitting_long pre l post : Forall Short pre -> ~ Short l -> fitting (pre ++ l :: post) = pre.
Proof.
  intros Hp Hl. induction Hp as [|x pre H _ IH]; simpl.
  - unfold Short in Hl. destruct (N.ltb_spec (slen l) maxToken); [contradiction|reflexivity].
  - unfold Short in H. apply N.ltb_lt in H. unfold maxToken. rewrite H, IH. reflexivity.
Qed.

Lemma scan_pieces_cons p l :
  l <> [] ->
  scan_pieces (p :: l) = if N.ltb (slen p) maxToken then dropCR p :: scan_pieces l else [].
Proof. destruct l; [congruence|reflexivity]. Qed.

Lemma scan_lines_Lines s rls : Lines s rls -> scan_lines s = map dropCR (fitting rls).
Proof.
  unfold scan_lines. induction 1 as [|l H1 H2|l s ls H1 H2 IH].
  - reflexivity.
  - rewrite split_on_none by (apply hasChar_false; exact H2). cbn [scan_pieces fitting].
    apply isEmpty_false in H1. rewrite H1. destruct (N.ltb _ _); reflexivity.
  - change (l +++ nl +++ s)%string with (l +++ String NL s)%string.
    rewrite split_on_app by (apply hasChar_false; exact H1).
    rewrite scan_pieces_cons by apply split_on_nonempty. rewrite IH. simpl.
    destruct (N.ltb _ _); reflexivity.
Qed.

(** ** Documents *)
Lemma isSeparator_spec l : isSeparator l = true <-> Starts "---" l.
Proof. apply prefix_spec. Qed.
Lemma isTerminator_spec l : isTerminator l = true <-> Starts "..." l.
Proof. apply prefix_spec. Qed.
Lemma Plain_spec l : Plain l <-> isSeparator l = false /\ isTerminator l = false.
Proof. unfold Plain. rewrite <- isSeparator_spec, <- isTerminator_spec, !not_true_iff_false. reflexivity. Qed.
Lemma term_not_sep l : Starts "..." l -> isSeparator l = false.
Proof. intros [r ->]. reflexivity. Qed.

Lemma append_last_snoc l x d : append_last (l ++ [x]) d = l ++ [(x +++ d)%string].
Proof.
  induction l as [|y l IH]; [reflexivity|]. simpl. rewrite IH.
  destruct (l ++ [x]) eqn:E; [destruct l; discriminate|reflexivity].
Qed.

Lemma raw_loop_body body ls docs d :
  Forall Plain body ->
  raw_loop (body ++ ls) (docs ++ [d]) true = raw_loop ls (docs ++ [(d +++ text body)%string]) true.
Proof.
  intro H. revert d. induction H as [|l body Hl _ IH]; intro d.
  - unfold text. simpl. rewrite sapp_nil_r. reflexivity.
  - apply Plain_spec in Hl as [H1 H2]. cbn [app raw_loop]. rewrite H1, H2.
    rewrite !append_last_snoc, IH. unfold text. cbn [map concats].
    rewrite <- !sapp_assoc. reflexivity.
Qed.
Lemma raw_loop_blocks ls ds : Blocks ls ds -> forall docs, raw_loop ls docs true = docs ++ map text ds.
Proof.
  induction 1 as [|t rest Ht|sep body ls ds Hs Hb _ IH]; intro docs.
  - simpl. rewrite app_nil_r. reflexivity.
  - cbn [raw_loop]. rewrite (term_not_sep _ Ht). apply isTerminator_spec in Ht. rewrite Ht.
    simpl. rewrite app_nil_r. reflexivity.
  - cbn [raw_loop]. apply isSeparator_spec in Hs. rewrite Hs. rewrite raw_loop_body by exact Hb.
    rewrite IH. rewrite <- app_assoc. reflexivity.
Qed.
Lemma raw_loop_File ls ds : File ls ds -> raw_loop ls [] false = map text ds.
Proof.
  intros [|ls' doc docs H|l body ls' docs Hp H|t rest Ht].
  - reflexivity.
  - inversion H as [| |sep body ls0 ds0 Hs Hb Hbl]; subst. cbn [raw_loop].
    apply isSeparator_spec in Hs. rewrite Hs.
    rewrite raw_loop_body by exact Hb. rewrite (raw_loop_blocks _ _ Hbl). reflexivity.
  - inversion Hp as [|x y Hl Hb]; subst. apply Plain_spec in Hl as [H1 H2].
    cbn [raw_loop app]. rewrite H1, H2. cbn [append_last].
    change [(("" +++ l) +++ nl)%string] with ([] ++ [(l +++ nl)%string]).
    rewrite raw_loop_body by exact Hb. rewrite (raw_loop_blocks _ _ H).
    reflexivity.
  - cbn [raw_loop]. rewrite (term_not_sep _ Ht). apply isTerminator_spec in Ht. rewrite Ht. reflexivity.
Qed.

Lemma Blocks_or_body ls :
  exists body ls' docs, Forall Plain body /\ Blocks ls' docs /\ ls = body ++ ls'.
Proof.
  induction ls as [|l ls (body & ls' & docs & Hb & H & ->)].
  - exists [], [], []. repeat constructor.
  - destruct (isSeparator l) eqn:E1; [|destruct (isTerminator l) eqn:E2].
    + exists [], (l :: body ++ ls'), (body :: docs). repeat split; [constructor|].
      constructor; [apply isSeparator_spec, E1|exact Hb|exact H].
    + exists [], (l :: body ++ ls'), []. repeat split; [constructor|]. constructor. apply isTerminator_spec, E2.
    + exists (l :: body), ls', docs. repeat split; [|exact H].
      constructor; [apply Plain_spec; auto|exact Hb].
Qed.
Lemma File_exists ls : exists docs, File ls docs.
Proof.
  destruct (Blocks_or_body ls) as (body & ls' & docs & Hb & H & ->).
  destruct body as [|l body]; [|exists ((l :: body) :: docs); constructor; assumption].
  simpl. inversion H as [|t rest Ht|sep b l' ds Hs Hb' Hbl]; subst.
  - exists []. constructor.
  - exists [[]]. apply File_term. exact Ht.
  - exists (b :: ds). apply File_sep. constructor; assumption.
Qed.

Lemma raw_docs_File s rls ls docs :
  Lines s rls -> Forall Short rls -> Forall2 Chomp rls ls -> File ls docs -> raw_docs s = map text docs.
Proof.
  intros H1 H2 H3 H4. unfold raw_docs. rewrite (scan_lines_Lines _ _ H1), (fitting_short _ H2).
  apply Forall2_Chomp in H3. rewrite <- H3. apply raw_loop_File, H4.
Qed.

Definition header_of (r : RawResource) : Header :=
  {| h_version := rr_version r; h_kind := rr_kind r; h_type := rr_type r |}.
Lemma decode_raw_ok D d r :
  decode_raw D d = Ok r <-> rr_data r = d /\ dec_header D d = Some (header_of r).
Proof.
  unfold decode_raw, decoded. destruct (dec_header D d) as [[v k t]|]; simpl.
  - split.
    + intro E. injection E as <-. split; reflexivity.
    + destruct r as [v' k' t' d']; simpl. intros [<- E]. injection E as -> -> ->. reflexivity.
  - split; [discriminate|]. intros [_ E]. discriminate.
Qed.
Lemma decode_raw_err D d e : decode_raw D d = Err e <-> e = yamlError /\ dec_header D d = None.
Proof.
  unfold decode_raw, decoded. destruct (dec_header D d) as [[v k t]|]; simpl; split.
  - discriminate.
  - intros [_ E]; discriminate.
  - intro E; injection E as <-; auto.
  - intros [-> _]; reflexivity.
Qed.
Lemma decode_raw_panic D d : decode_raw D d <> Panic.
Proof. unfold decode_raw, decoded. destruct (dec_header D d); discriminate. Qed.
Lemma parseRawString_panic D s : parseRawString D s <> Panic.
Proof. apply otraverse_panic. intros d _. apply decode_raw_panic. Qed.

Lemma Forall2_map_l {A B C} (f : A -> B) (R : B -> C -> Prop) l l' :
  Forall2 R (map f l) l' <-> Forall2 (fun a => R (f a)) l l'.
Proof.
  revert l'; induction l as [|a l IH]; intros l'; simpl; split; intro H; inversion H; subst; constructor;
    auto; apply IH; auto.
Qed.
Lemma Forall2_impl2 {A B} (R S : A -> B -> Prop) l l' :
  (forall a b, R a b -> S a b) -> Forall2 R l l' -> Forall2 S l l'.
Proof. induction 2; constructor; auto. Qed.

Lemma parse_raw_exact D s rls ls docs :
  Lines s rls -> Forall Short rls -> Forall2 Chomp rls ls -> File ls docs ->
  forall res,
    parseRawString D s = Ok res <->
    Forall2 (fun doc r => rr_data r = text doc /\ dec_header D (text doc) = Some (header_of r)) docs res.
Proof.
  intros H1 H2 H3 H4 res. unfold parseRawString. rewrite (raw_docs_File _ _ _ _ H1 H2 H3 H4).
  rewrite otraverse_ok, Forall2_map_l. split; apply Forall2_impl2; intros; apply decode_raw_ok; assumption.
Qed.
Lemma parse_raw_error D s rls ls docs :
  Lines s rls -> Forall Short rls -> Forall2 Chomp rls ls -> File ls docs ->
  (exists e, parseRawString D s = Err e) <-> (exists doc, In doc docs /\ dec_header D (text doc) = None).
Proof.
  intros H1 H2 H3 H4. unfold parseRawString. rewrite (raw_docs_File _ _ _ _ H1 H2 H3 H4). split.
  - intros (e & H). apply otraverse_err in H as (l1 & d & l2 & bs & E & _ & H).
    apply decode_raw_err in H as [_ H].
    assert (Hd : In d (map text docs)) by (rewrite E; apply in_or_app; right; left; reflexivity).
    apply in_map_iff in Hd as (doc & <- & Hin). exists doc. auto.
  - intros (doc & Hin & H). destruct (otraverse (decode_raw D) (map text docs)) as [r|e|] eqn:E.
    + exfalso. apply otraverse_ok in E. apply Forall2_map_l in E. clear -Hin H E.
      induction E as [|x y l l' Hxy _ IH]; [destruct Hin|]. destruct Hin as [->|Hin]; [|auto].
      apply decode_raw_ok in Hxy as [_ Hxy]. congruence.
    + eauto.
    + exfalso. revert E. apply otraverse_panic. intros a _. apply decode_raw_panic.
Qed.

(** ** Over-long lines *)
Lemma Lines_app a b la lb :
  Lines a la -> (a = "" \/ exists a', a = a' +++ nl)%string -> Lines b lb -> Lines (a +++ b)%string (la ++ lb).
Proof.
  intros Ha. revert b lb. induction Ha as [|l H1 H2|l s ls H1 H2 IH]; intros b lb He Hb.
  - exact Hb.
  - exfalso. destruct He as [He|[a' He]]; [contradiction|]. apply H2. rewrite He, laos_app.
    apply in_or_app. right. left. reflexivity.
  - rewrite !sapp_assoc. simpl app. constructor; [exact H1|]. apply IH; [|exact Hb].
    destruct He as [He|[a' He]].
    + apply sapp_eq_nil in He as [_ He]. discriminate.
    + (* l ++ nl ++ s = a' ++ nl *)
      destruct s as [|c s]; [left; reflexivity|right].
      assert (E : exists s', String c s = (s' +++ nl)%string).
      { clear -He. revert a' He. induction l as [|x l IHl]; intros a' He.
        - destruct a' as [|y a']; [discriminate|]. simpl in He. injection He as _ He. eauto.
        - destruct a' as [|y a']; simpl in He.
          + injection He as _ He. destruct l; discriminate.
          + injection He as _ He. eauto. }
      exact E.
Qed.

Lemma slen_app a b : slen (a +++ b)%string = (slen a + slen b)%N.
Proof. unfold slen. rewrite slength_app. lia. Qed.

Lemma long_line_dropped a long b :
  (a = "" \/ exists a', a = a' +++ nl)%string ->
  ~ In NL (list_ascii_of_string long) -> (65536 <= slen long)%N ->
  (b = "" \/ exists b', b = nl +++ b')%string ->
  raw_docs (a +++ long +++ b)%string = raw_docs a.
Proof.
  intros Ha Hnl Hlen Hb. unfold raw_docs. f_equal.
  destruct (Lines_exists a) as [la Hla].
  assert (Hlong : exists post, Lines (long +++ b)%string (long :: post)).
  { destruct Hb as [->|[b' ->]].
    - exists []. rewrite sapp_nil_r. constructor; [|exact Hnl]. intros ->. unfold slen in Hlen. simpl in Hlen. lia.
    - destruct (Lines_exists b') as [lb Hlb]. exists lb. constructor; assumption. }
  destruct Hlong as [post Hlong].
  rewrite (scan_lines_Lines _ _ Hla), (scan_lines_Lines _ _ (Lines_app _ _ _ _ Hla Ha Hlong)).
  f_equal. clear -Hlen. induction la as [|l la IH]; simpl.
  - destruct (N.ltb_spec (slen long) maxToken) as [H|H]; [unfold maxToken in H; lia|reflexivity].
  - destruct (N.ltb _ _); [rewrite IH|]; reflexivity.
Qed.

(** ** Line endings *)
Lemma crlf_app a b : crlf (a +++ b)%string = (crlf a +++ crlf b)%string.
Proof. induction a as [|c a IH]; simpl; [reflexivity|]. destruct (Ascii.eqb c NL); simpl; rewrite IH; reflexivity. Qed.
Lemma crlf_noNL l : ~ In NL (list_ascii_of_string l) -> crlf l = l.
Proof.
  induction l as [|c l IH]; simpl; [reflexivity|]. intro H.
  destruct (Ascii.eqb_spec c NL) as [->|]; [tauto|]. rewrite IH by tauto. reflexivity.
Qed.
Lemma snoc_char_In l c : In c (list_ascii_of_string (l +++ String c "")%string).
Proof. rewrite laos_app. apply in_or_app. right. left. reflexivity. Qed.

(** The lines of [crlf s]. *)
Lemma crlf_scan s rls :
  Lines s rls -> ~ In CR (list_ascii_of_string s) -> Forall (fun l => (slen l < 65535)%N) rls ->
  scan_lines (crlf s) = scan_lines s.
Proof.
  intros H Hcr Hlen. rewrite (scan_lines_Lines _ _ H).
  rewrite fitting_short by (eapply Forall_impl; [|exact Hlen]; unfold Short; intros l' Hl'; simpl in Hl'; lia).
  induction H as [|l H1 H2|l s ls H1 H2 IH].
  - reflexivity.
  - rewrite crlf_noNL by exact H2.
    assert (HL : Lines l [l]) by (constructor; assumption).
    rewrite (scan_lines_Lines _ _ HL), fitting_short; [reflexivity|].
    eapply Forall_impl; [|exact Hlen]; unfold Short; intros l' Hl'; simpl in Hl'; lia.
  - rewrite !crlf_app. rewrite (crlf_noNL l) by exact H1. change (crlf nl) with (cr +++ nl)%string.
    inversion Hlen as [|x y Hl Hls]; subst.
    assert (Hcr' : ~ In CR (list_ascii_of_string s)).
    { intro Hin. apply Hcr. rewrite !laos_app. apply in_or_app. right. apply in_or_app. right. exact Hin. }
    destruct (Lines_exists (crlf s)) as [ls' Hls'].
    assert (HL : Lines (l +++ (cr +++ nl) +++ crlf s)%string ((l +++ cr)%string :: ls')).
    { replace (l +++ (cr +++ nl) +++ crlf s)%string with ((l +++ cr) +++ nl +++ crlf s)%string
        by (rewrite !sapp_assoc; reflexivity).
      constructor; [|exact Hls']. rewrite laos_app. intro Hin. apply in_app_or in Hin as [Hin|Hin]; [tauto|].
      simpl in Hin. destruct Hin as [Hin|[]]. discriminate. }
    rewrite (scan_lines_Lines _ _ HL). cbn [fitting].
    assert (E : N.ltb (slen (l +++ cr)%string) maxToken = true).
    { apply N.ltb_lt. rewrite slen_app. change (slen cr) with 1%N. unfold maxToken. lia. }
    rewrite E. cbn [map]. rewrite dropCR_snoc. f_equal.
    + symmetry. apply dropCR_no. intros l' ->. apply Hcr. rewrite !laos_app. apply in_or_app. left.
      apply in_or_app. right. left. reflexivity.
    + rewrite <- IH by assumption. rewrite (scan_lines_Lines _ _ Hls'). reflexivity.
Qed.

Lemma crlf_raw_docs s rls :
  Lines s rls -> ~ In CR (list_ascii_of_string s) -> Forall (fun l => (slen l < 65535)%N) rls ->
  raw_docs (crlf s) = raw_docs s.
Proof. intros. unfold raw_docs. erewrite crlf_scan by eassumption. reflexivity. Qed.

Lemma final_newline_scan s :
  s <> "" -> (forall s', s <> s' +++ nl)%string -> scan_lines (s +++ nl)%string = scan_lines s.
Proof.
  intros Hne Hno. destruct (Lines_exists s) as [ls H]. rewrite (scan_lines_Lines _ _ H).
  assert (H' : Lines (s +++ nl)%string ls).
  { induction H as [|l H1 H2|l s ls H1 H2 IH].
    - congruence.
    - replace (l +++ nl)%string with (l +++ nl +++ "")%string by (rewrite sapp_nil_r; reflexivity).
      constructor; [exact H2|constructor].
    - rewrite !sapp_assoc. constructor; [exact H1|]. apply IH.
      + intros ->. apply (Hno l). rewrite sapp_nil_r. reflexivity.
      + intros s' ->. apply (Hno (l +++ nl +++ s')%string). rewrite !sapp_assoc. reflexivity. }
  rewrite (scan_lines_Lines _ _ H'). reflexivity.
Qed.
Lemma final_newline_raw_docs s :
  s <> "" -> (forall s', s <> s' +++ nl)%string -> raw_docs (s +++ nl)%string = raw_docs s.
Proof. intros. unfold raw_docs. rewrite final_newline_scan by assumption. reflexivity. Qed.

(** ** Parse *)
Lemma omap_ok {A B} (f : A -> B) m b : omap f m = Ok b <-> exists a, m = Ok a /\ b = f a.
Proof.
  destruct m; simpl; split; try discriminate.
  - intro H; injection H as <-; eauto.
  - intros (a' & E & ->); congruence.
  - intros (a' & E & _); discriminate.
  - intros (a' & E & _); discriminate.
Qed.
Lemma decoded_ok {A} (o : option A) a : decoded o = Ok a <-> o = Some a.
Proof. destruct o; simpl; split; congruence. Qed.

Lemma parseRaw_ok D r res : parseRaw D r = Ok res <-> Typed D r res.
Proof.
  unfold parseRaw. split.
  - destruct (String.eqb_spec (rr_kind r) "cron") as [E1|N1];
    [|destruct (String.eqb_spec (rr_kind r) "secret") as [E2|N2];
    [|destruct (String.eqb_spec (rr_kind r) "signature") as [E3|N3];
    [|destruct (String.eqb_spec (rr_kind r) "registry") as [E4|N4]]]];
    rewrite omap_ok; intros (a & H & ->); apply decoded_ok in H.
    + apply Typed_cron; assumption.
    + apply Typed_secret; assumption.
    + apply Typed_signature; assumption.
    + apply Typed_registry; assumption.
    + apply Typed_pipeline; [|assumption]. simpl. intuition congruence.
  - intros [c E H|s E H|s E H|g E H|p E H].
    + rewrite E. simpl. rewrite H. reflexivity.
    + rewrite E. simpl. rewrite H. reflexivity.
    + rewrite E. simpl. rewrite H. reflexivity.
    + rewrite E. simpl. rewrite H. reflexivity.
    + simpl in E. destruct (String.eqb_spec (rr_kind r) "cron") as [E1|N1]; [exfalso; intuition congruence|].
      destruct (String.eqb_spec (rr_kind r) "secret") as [E2|N2]; [exfalso; intuition congruence|].
      destruct (String.eqb_spec (rr_kind r) "signature") as [E3|N3]; [exfalso; intuition congruence|].
      destruct (String.eqb_spec (rr_kind r) "registry") as [E4|N4]; [exfalso; intuition congruence|].
      rewrite H. reflexivity.
Qed.
Lemma parseRaw_panic D r : parseRaw D r <> Panic.
Proof.
  unfold parseRaw, decoded.
  destruct (String.eqb _ "cron"); [destruct (dec_cron _ _); discriminate|].
  destruct (String.eqb _ "secret"); [destruct (dec_secret _ _); discriminate|].
  destruct (String.eqb _ "signature"); [destruct (dec_signature _ _); discriminate|].
  destruct (String.eqb _ "registry"); [destruct (dec_registry _ _); discriminate|].
  destruct (dec_pipeline _ _); discriminate.
Qed.
Lemma parse_one_ok D r res : parse_one D r = Ok res <-> Typed D r res /\ getKind res <> "".
Proof.
  unfold parse_one. rewrite obind_ok. split.
  - intros (x & Hx & H). apply parseRaw_ok in Hx. destruct (String.eqb_spec (getKind x) "") as [|N]; [discriminate|].
    injection H as <-. auto.
  - intros [H N]. exists res. split; [apply parseRaw_ok, H|]. apply String.eqb_neq in N. rewrite N. reflexivity.
Qed.
Lemma parse_ok D s m :
  parse D s = Ok m <->
  exists raws, parseRawString D s = Ok raws /\
    Forall2 (fun raw res => Typed D raw res /\ getKind res <> "") raws (mf_resources m).
Proof.
  unfold parse. rewrite obind_ok. split.
  - intros (raws & H1 & H). exists raws. split; [exact H1|]. rewrite obind_ok in H.
    destruct H as (rs & H2 & E). injection E as <-. simpl. apply otraverse_ok in H2.
    eapply Forall2_impl2; [|exact H2]. intros a b. apply parse_one_ok.
  - intros (raws & H1 & H). exists raws. split; [exact H1|]. rewrite obind_ok. exists (mf_resources m).
    split; [|destruct m; reflexivity]. apply otraverse_ok. eapply Forall2_impl2; [|exact H].
    intros a b. apply parse_one_ok.
Qed.
Lemma parse_panic D s : parse D s <> Panic.
Proof.
  unfold parse. intro H. rewrite obind_panic in H. destruct H as [H|(raws & _ & H)].
  - exact (parseRawString_panic _ _ H).
  - rewrite obind_panic in H. destruct H as [H|(rs & _ & H)]; [|discriminate].
    revert H. apply otraverse_panic. intros r _ E. unfold parse_one in E. rewrite obind_panic in E.
    destruct E as [E|(x & _ & E)]; [exact (parseRaw_panic _ _ E)|]. destruct (String.eqb _ _); discriminate.
Qed.
Lemma unmarshalJSON_ok D split m b m' :
  unmarshalJSON D split m b = Ok m' <->
  exists msgs raws rs, split b = Some msgs /\
    Forall2 (fun d r => rr_data r = d /\ dec_header D d = Some (header_of r)) msgs raws /\
    Forall2 (Typed D) raws rs /\ mf_resources m' = mf_resources m ++ rs.
Proof.
  unfold unmarshalJSON. rewrite obind_ok. split.
  - intros (msgs & H1 & H). apply decoded_ok in H1. rewrite obind_ok in H. destruct H as (rs & H & E).
    injection E as <-. apply otraverse_ok in H. simpl.
    assert (HH : exists raws, Forall2 (fun d r => rr_data r = d /\ dec_header D d = Some (header_of r)) msgs raws
                              /\ Forall2 (Typed D) raws rs).
    { clear H1. induction H as [|d r ms rs' Hd _ IH]; [exists []; split; constructor|].
      destruct IH as (raws & IH1 & IH2). rewrite obind_ok in Hd. destruct Hd as (raw & Hr1 & Hr2).
      apply decode_raw_ok in Hr1. apply parseRaw_ok in Hr2. exists (raw :: raws). split; constructor; assumption. }
    destruct HH as (raws & HA & HB). exists msgs, raws, rs. repeat split; try assumption.
  - intros (msgs & raws & rs & H1 & H2 & H3 & E). exists msgs. split; [apply decoded_ok, H1|].
    rewrite obind_ok. exists rs. split; [|destruct m'; simpl in E; rewrite E; reflexivity].
    apply otraverse_ok. clear H1 E. revert rs H3. induction H2 as [|d r ms raws Hd _ IH]; intros rs H3;
      inversion H3; subst; constructor.
    + rewrite obind_ok. exists r. split; [apply decode_raw_ok, Hd|apply parseRaw_ok; assumption].
    + apply IH; assumption.
Qed.
