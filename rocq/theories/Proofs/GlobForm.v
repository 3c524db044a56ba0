(** * GlobForm.v: a pattern that matches is well formed. *)
From Coq Require Import Lia ZifyN Permutation.
From Verif Require Import Model.Go Model.Quote Model.Glob Model.Bitbucket.
From Verif Require Import Spec.GlobSpec Spec.ConverterSpec.
From Verif Require Import Proofs.GoFacts Proofs.GlobFacts Proofs.GlobItems Proofs.GlobMatch Proofs.GlobClaims.
From Verif Require Spec.ScriptSpec Proofs.ScriptFacts Proofs.ConverterFacts.
Import ScriptSpec (utf8).

Lemma parses_app : forall a b x y, Parses a b -> Parses x y -> Parses (a ++ x) (b ++ y).
Proof.
  intros a b x y P Q. induction P as [|ps its P IH|ps its P IH|r ps its N P IH|r ps its P IH|negated ls rs ps its Nl C Hd P IH]; cbn [app]; try (constructor; assumption); [exact Q|].
  rewrite <- !app_assoc. cbn [app]. constructor; assumption.
Qed.
Lemma utf8_code : forall c, (code c < 128)%N -> utf8 (code c) = String c "".
Proof. intros c L. rewrite YamlStrings.utf8_ascii by exact L. unfold byte, code. rewrite ascii_N_embedding. reflexivity. Qed.
Lemma getEsc_shape : forall chunk r rest, getEsc chunk = Some (r, rest) -> exists l, ClassChar l r /\ Forall Valid l /\ chunk = (utf8Text l +++ rest)%string.
Proof.
  intros [|c s] r rest; [discriminate|]. cbn [getEsc]. destruct (Ascii.eqb c "-") eqn:E1; [discriminate|]. destruct (Ascii.eqb c "]") eqn:E2; [discriminate|]. cbn [orb].
  destruct (Ascii.eqb_spec c "\") as [->|E3].
  - destruct s as [|d s]; [discriminate|]. destruct (nextRune d s) as [[r' t]|] eqn:E; [|discriminate]. destruct (isEmpty t); [discriminate|]. intro H. injection H as -> ->.
    destruct (next_shape _ _ _ _ E) as (k & -> & U & V). exists [backslash; r]. split; [constructor|]. split; [apply Forall_cons; [left; reflexivity|apply Forall_cons; [exact V|apply Forall_nil]]|].
    rewrite !text_cons. change (utf8Text []) with "". rewrite sapp_nil_r, U. reflexivity.
  - destruct (nextRune c s) as [[r' t]|] eqn:E; [|discriminate]. destruct (isEmpty t); [discriminate|]. intro H. injection H as -> ->.
    destruct (next_shape _ _ _ _ E) as (k & -> & U & V). exists [r]. split; [|split; [apply Forall_cons; [exact V|apply Forall_nil]|]].
    + constructor. cbn. intros [<-|[<-|[<-|[]]]]; cbn in U; injection U as <- <-; [discriminate E1|discriminate E2|apply E3; reflexivity].
    + rewrite text_cons. change (utf8Text []) with "". rewrite sapp_nil_r, U. reflexivity.
Qed.
Lemma prefix_one : forall s n, hasPrefix s (String n "") = true -> s = String n (sdrop 1 s).
Proof. intros [|c s] n H; [discriminate|]. rewrite prefix_char in H. apply Ascii.eqb_eq in H. subst c. destruct s; reflexivity. Qed.
Lemma classRanges_shape : forall f first r m chunk found rest, classRanges f first r m chunk = Some (found, rest) -> exists ls rs,
  Forall2 ClassRange ls rs /\ Forall Valid (concat ls) /\ chunk = (utf8Text (concat ls) +++ String "]" rest)%string /\ (first = true -> ls <> []).
Proof.
  induction f as [|f IH]; intros first r m chunk found rest; [discriminate|]. cbn [classRanges]. destruct (hasPrefix chunk "]" && negb first) eqn:E.
  - apply andb_true_iff in E. destruct E as [E Ef]. intro H. injection H as <- <-. exists [], []. split; [constructor|]. split; [constructor|]. split; [exact (prefix_one _ _ E)|].
    intros ->. discriminate Ef.
  - destruct (getEsc chunk) as [[lo chunk1]|] eqn:G; [|discriminate]. destruct (getEsc_shape _ _ _ G) as (l & C & Fl & ->).
    destruct (hasPrefix chunk1 "-") eqn:Hd.
    + pose proof (prefix_one _ _ Hd) as Hc. destruct (getEsc (sdrop 1 chunk1)) as [[hi chunk2]|] eqn:G2; [|discriminate]. destruct (getEsc_shape _ _ _ G2) as (l' & C' & Fl' & E2). rewrite E2 in Hc. subst chunk1.
      intro H. destruct (IH _ _ _ _ _ _ H) as (ls & rs & CC & F & -> & _). exists ((l ++ dash :: l') :: ls), ((lo, hi) :: rs). split; [constructor; [constructor; assumption|exact CC]|].
      cbn [concat]. split; [apply Forall_app; split; [apply Forall_app; split; [exact Fl|constructor; [left; reflexivity|exact Fl']]|exact F]|]. split; [|intros _; discriminate].
      rewrite !text_app, text_cons. change (utf8 dash) with "-". rewrite !sapp_assoc. reflexivity.
    + intro H. destruct (IH _ _ _ _ _ _ H) as (ls & rs & CC & F & -> & _). exists (l :: ls), ((lo, lo) :: rs). split; [constructor; [constructor; assumption|exact CC]|].
      cbn [concat]. split; [apply Forall_app; split; assumption|]. split; [rewrite text_app, sapp_assoc; reflexivity|intros _; discriminate].
Qed.
Definition Low (s : string) : Prop := forall c, In c (list_ascii_of_string s) -> (code c < 128)%N.
Lemma low_first : forall d s, Low (String d s) -> firstRune d s = (code d, s) /\ Low s.
Proof.
  intros d s H. split; [|intros c I; apply H; right; exact I]. unfold firstRune, nextRune. specialize (H d (or_introl eq_refl)). apply N.ltb_lt in H. rewrite H. reflexivity.
Qed.
Lemma chunk_shape : forall f chunk s t, Low s -> snd (scanLoop false chunk) = "" -> matchChunkFrom f chunk s = Rest t ->
  Low t /\ exists ps its, Forall Valid ps /\ chunk = utf8Text ps /\ Parses ps its.
Proof.
  induction f as [|f IH]; intros chunk s t L Sc; [discriminate|]. cbn [matchChunkFrom]. destruct chunk as [|c chunk].
  { intro H. injection H as <-. split; [exact L|]. exists [], []. repeat split; constructor. }
  destruct s as [|d s]; [discriminate|]. destruct (low_first d s L) as [Ef Ls]. assert (Ld := L d (or_introl eq_refl)).
  destruct (Ascii.eqb_spec c "[") as [->|N1].
  - rewrite Ef. destruct chunk as [|e chunk]; [discriminate|]. rewrite scan_byte in Sc by reflexivity. cbn [Ascii.eqb Bool.eqb pre snd] in Sc.
    destruct (classRanges _ true _ _ _) as [[found chunk3]|] eqn:R; [|discriminate]. destruct (classRanges_shape _ _ _ _ _ _ _ R) as (ls & rs & CC & F & Ec & Nl).
    destruct (Bool.eqb found _); [discriminate|]. intro H.
    assert (Sc3 : snd (scanLoop false chunk3) = "").
    { destruct (Ascii.eqb_spec e "^") as [->|Ne].
      - rewrite scan_byte in Sc by reflexivity. cbn [Ascii.eqb Bool.eqb pre snd] in Sc. rewrite Ec, (scan_classes ls rs _ CC F), scan_byte in Sc by reflexivity. exact Sc.
      - rewrite Ec, (scan_classes ls rs _ CC F), scan_byte in Sc by reflexivity. exact Sc. }
    destruct (IH _ _ _ Ls Sc3 H) as (Lt & ps & its & Fp & -> & P). split; [exact Lt|].
    exists (bracket :: (if Ascii.eqb e "^" then [caret] else []) ++ concat ls ++ closing :: ps), (OneOf (Ascii.eqb e "^") rs :: its). split; [|split].
    + constructor; [left; reflexivity|]. apply Forall_app. split; [destruct (Ascii.eqb e "^"); [apply Forall_cons; [left; reflexivity|]|]; apply Forall_nil|]. apply Forall_app. split; [exact F|]. constructor; [left; reflexivity|exact Fp].
    + rewrite text_cons, !text_app, text_cons. change (utf8 bracket) with "[". change (utf8 closing) with "]". cbn [String.append]. rewrite <- Ec.
      destruct (Ascii.eqb_spec e "^") as [->|Ne]; reflexivity.
    + constructor; [exact (Nl eq_refl)|exact CC| |exact P]. intros He Hh. rewrite He in Ec.
      destruct (concat ls) as [|h q] eqn:El; [discriminate|]. cbn in Hh. subst h. rewrite text_cons in Ec. change (utf8 caret) with "^" in Ec. cbn in Ec. injection Ec as -> _. discriminate.
  - destruct (Ascii.eqb_spec c "?") as [->|N2].
    + destruct (Ascii.eqb d "/"); [discriminate|]. rewrite Ef. cbn [snd]. intro H. rewrite scan_byte in Sc by reflexivity. destruct (IH _ _ _ Ls Sc H) as (Lt & ps & its & Fp & -> & P).
      split; [exact Lt|]. exists (question :: ps), (Any :: its). split; [constructor; [left; reflexivity|exact Fp]|]. split; [reflexivity|constructor; exact P].
    + destruct (Ascii.eqb_spec c "\") as [->|N3].
      * destruct chunk as [|e chunk]; [discriminate|]. destruct (Ascii.eqb_spec e d) as [->|]; [|discriminate]. intro H. rewrite scan_escape in Sc.
        destruct (IH _ _ _ Ls Sc H) as (Lt & ps & its & Fp & -> & P). split; [exact Lt|]. exists (backslash :: code d :: ps), (Lit (code d) :: its).
        split; [constructor; [left; reflexivity|constructor; [left; lia|exact Fp]]|]. split; [|constructor; exact P]. rewrite !text_cons, utf8_code by exact Ld. reflexivity.
      * destruct (Ascii.eqb_spec c d) as [->|]; [|discriminate]. intro H. destruct (Ascii.eqb_spec d "*") as [->|N4]; [discriminate|].
        assert (Sd : snd (scanLoop false chunk) = "").
        { rewrite scan_byte in Sc; [|apply Ascii.eqb_neq; exact N3|apply Ascii.eqb_neq in N4; rewrite N4; reflexivity]. apply Ascii.eqb_neq in N1. rewrite N1 in Sc. destruct (Ascii.eqb d "]"); exact Sc. }
        destruct (IH _ _ _ Ls Sd H) as (Lt & ps & its & Fp & -> & P). split; [exact Lt|]. exists (code d :: ps), (Lit (code d) :: its).
        split; [constructor; [left; lia|exact Fp]|]. split; [rewrite text_cons, utf8_code by exact Ld; reflexivity|]. constructor; [|exact P].
        assert (Inj : forall e, code d = code e -> d = e) by (intros e He; rewrite <- (ascii_N_embedding d), <- (ascii_N_embedding e); unfold code in He; rewrite He; reflexivity).
        intros [E|[E|[E|[E|[]]]]]; [apply N4|apply N2|apply N1|apply N3]; apply Inj; symmetry; exact E.
Qed.
Lemma scan_parts : forall n b s, String.length s <= n -> s = (fst (scanLoop b s) +++ snd (scanLoop b s))%string /\ snd (scanLoop b (fst (scanLoop b s))) = "".
Proof.
  induction n as [|n IH]; intros b s L; (destruct s as [|c s]; [split; reflexivity|]); cbn [String.length] in L; [lia|].
  destruct (Ascii.eqb_spec c "\") as [->|Nc].
  - destruct s as [|d s]; [split; reflexivity|]. rewrite scan_escape. cbn [pre fst snd String.append]. rewrite scan_escape. cbn [pre snd]. cbn in L. destruct (IH b s) as [E E']; [lia|]. split; [|exact E'].
    rewrite <- E. reflexivity.
  - destruct (Ascii.eqb c "*" && negb b) eqn:E.
    + cbn [scanLoop]. apply Ascii.eqb_neq in Nc. rewrite Nc, E. split; reflexivity.
    + apply Ascii.eqb_neq in Nc. rewrite (scan_byte b c s Nc E). set (b' := if Ascii.eqb c "[" then true else if Ascii.eqb c "]" then false else b).
      cbn [pre fst snd String.append]. rewrite (scan_byte b c _ Nc E). fold b'. cbn [pre snd]. destruct (IH b' s) as [A B]; [lia|]. split; [|exact B]. rewrite <- A. reflexivity.
Qed.
Lemma stars_shape : forall p, exists n, p = (utf8Text (repeat asterisk n) +++ dropStars p)%string /\ hasPrefix (dropStars p) "*" = false.
Proof.
  induction p as [|c p (n & E & H)]; [exists 0; split; reflexivity|]. cbn [dropStars]. destruct (Ascii.eqb c "*") eqn:Ec.
  - apply Ascii.eqb_eq in Ec. subst c. exists (S n). split; [|exact H]. cbn [repeat]. rewrite text_cons, sapp_assoc, <- E. reflexivity.
  - exists 0. split; [reflexivity|]. rewrite prefix_char. exact Ec.
Qed.
Lemma stars_parse : forall n, Forall Valid (repeat asterisk n) /\ Parses (repeat asterisk n) (repeat Star n).
Proof. induction n as [|n [A B]]; split; constructor; auto. left. reflexivity. Qed.
Lemma low_suffix : forall a b, Low (a +++ b) -> Low b.
Proof. intros a b H c I. apply H. rewrite laos_app. apply in_or_app. right. exact I. Qed.
Lemma match_shape : forall f p s, Low s -> matchFrom f p s = Some true -> exists ps its, Forall Valid ps /\ p = utf8Text ps /\ Parses ps its.
Proof.
  induction f as [|f IH]; intros p s L; [discriminate|]. cbn [matchFrom]. destruct (isEmpty p) eqn:Ep.
  { apply isEmpty_true in Ep. intros _. exists [], []. repeat split; [constructor|exact Ep|constructor]. }
  destruct (stars_shape p) as (n & Es & Hs). unfold scanChunk. destruct (scan_parts _ false (dropStars p) (Nat.le_refl _)) as [E1 E2].
  destruct (scanLoop false (dropStars p)) as [chunk rest] eqn:Sc. cbn [fst snd] in *. rewrite E1 in Es, Hs. rewrite Es. clear E1.
  destruct (stars_parse n) as [Fn Pn].
  assert (K : (exists m t, Low m /\ matchChunk chunk m = Rest t /\ matchFrom f rest t = Some true) ->
    exists ps its, Forall Valid ps /\ (utf8Text (repeat asterisk n) +++ chunk +++ rest = utf8Text ps)%string /\ Parses ps its).
  { intros (m & t & Lm & Hm & Ht). destruct (chunk_shape _ _ _ _ Lm E2 Hm) as (Lt & ps1 & its1 & F1 & -> & P1). destruct (IH _ _ Lt Ht) as (ps2 & its2 & F2 & -> & P2).
    exists (repeat asterisk n ++ ps1 ++ ps2), (repeat Star n ++ its1 ++ its2). split; [repeat (apply Forall_app; split); assumption|]. split; [rewrite !text_app; reflexivity|].
    apply parses_app; [exact Pn|apply parses_app; assumption]. }
  destruct (hasPrefix _ "*" && isEmpty chunk) eqn:Ee.
  { apply andb_true_iff in Ee. destruct Ee as [_ Ee]. apply isEmpty_true in Ee. subst chunk. intros _.
    assert (rest = "").
    { destruct rest as [|c rest]; [reflexivity|]. exfalso. cbn [String.append] in Hs. rewrite prefix_char in Hs.
      clear - Sc Hs. destruct (dropStars p) as [|x y]; [discriminate|]. cbn [scanLoop] in Sc. destruct (Ascii.eqb x "\"); [destruct y; [discriminate|destruct (scanLoop false y); discriminate]|].
      destruct (Ascii.eqb x "*") eqn:Ex; cbn in Sc; [injection Sc as -> ->; rewrite Ex in Hs; discriminate|]. destruct (scanLoop _ y); discriminate. }
    subst rest. exists (repeat asterisk n), (repeat Star n). split; [exact Fn|]. split; [rewrite !sapp_nil_r; reflexivity|exact Pn]. }
  assert (Sk : (if hasPrefix (utf8Text (repeat asterisk n) +++ chunk +++ rest) "*"
      then match skipTo chunk (isEmpty rest) s with Rest t => matchFrom f rest t | Bad => None | No => Some false end else Some false) = Some true ->
      exists m t, Low m /\ matchChunk chunk m = Rest t /\ matchFrom f rest t = Some true).
  { intro H. destruct (hasPrefix (utf8Text (repeat asterisk n) +++ chunk +++ rest) "*"); [|discriminate H]. revert H. destruct s as [|c s]; [discriminate|]. rewrite skip_attempt. destruct (Ascii.eqb c "/"); [discriminate|].
    destruct (attempt _ _ _) as [| |t] eqn:At; [discriminate..|]. destruct (attempt_sound _ _ _ _ At) as (w & m & -> & _ & Hm). intro H. exists m, t. split; [|auto].
    apply (low_suffix (String c w)). exact L. }
  destruct (matchChunk chunk s) as [| |t] eqn:Hm; [discriminate|intro H; exact (K (Sk H))|].
  destruct (isEmpty t || negb (isEmpty rest)); intro H; [|exact (K (Sk H))]. apply K. exists s, t. auto.
Qed.
Lemma low_text : forall rs, Forall Ascii7 rs -> Low (utf8Text rs) /\ Forall Valid rs.
Proof.
  induction 1 as [|r rs A F [IH IV]]; [split; [intros c []|constructor]|]. unfold Ascii7 in A. split; [|constructor; [left; lia|exact IV]].
  rewrite text_cons, YamlStrings.utf8_ascii by exact A. intros c [<-|I]; [rewrite ScriptFacts.code_byte; lia|exact (IH c I)].
Qed.
Theorem glob_names : forall p rs, Forall Ascii7 rs -> globMatch p (utf8Text rs) = Some true -> Names p rs.
Proof.
  intros p rs A H. destruct (low_text rs A) as [L V]. destruct (match_shape _ _ _ L H) as (ps & its & F & -> & P). exists ps, its. repeat split; auto.
  apply (glob_sound ps its rs P F V (or_introl A) H).
Qed.
Theorem names_glob : forall p rs, Forall Valid rs -> CalmPattern p -> Names p rs -> globMatch p (utf8Text rs) = Some true.
Proof. intros p rs V C (ps & its & F & E & P & G). rewrite E. apply (glob_complete ps its rs P F V (C ps its F E P) G). Qed.

(** ** Bitbucket *)
Lemma slash_count : forall ps its, Parses ps its -> ~ In bracket ps -> forall rs, GlobMatches its rs -> count_occ N.eq_dec rs slash <= count_occ N.eq_dec ps slash.
Proof.
  induction 1 as [|ps its P IH|ps its P IH|r ps its N P IH|r ps its P IH|negated ls rs' ps its Nl C Hd P IH]; intros NB rs G; inversion G; subst.
  - apply Nat.le_refl.
  - rewrite count_occ_app. rewrite (proj1 (count_occ_not_In N.eq_dec a slash)) by assumption. rewrite count_occ_cons_neq by discriminate.
    apply IH; [intro; apply NB; right; assumption|assumption].
  - rewrite !count_occ_cons_neq by (discriminate || congruence). apply IH; [intro; apply NB; right; assumption|assumption].
  - assert (X := IH ltac:(intro; apply NB; right; assumption) _ ltac:(eassumption)). cbn [count_occ]. destruct (N.eq_dec r slash); lia.
  - assert (X := IH ltac:(intro; apply NB; right; right; assumption) _ ltac:(eassumption)). rewrite (count_occ_cons_neq N.eq_dec ps) || idtac. cbn [count_occ]. destruct (N.eq_dec r slash), (N.eq_dec backslash slash); lia.
  - exfalso. apply NB. left. reflexivity.
Qed.
Lemma text_bracket : forall ps, Forall Valid ps -> hasChar "[" (utf8Text ps) = false -> ~ In bracket ps.
Proof.
  intros ps F H I. apply in_split in I. destruct I as (a & b & ->). rewrite text_app, text_cons, hasChar_app in H. apply orb_false_iff in H. destruct H as [_ H]. discriminate.
Qed.
Theorem few_slashes : forall p rs, Forall Ascii7 rs -> hasChar "[" p = false -> slashes p < count_occ N.eq_dec rs slash -> globMatch p (utf8Text rs) <> Some true.
Proof.
  intros p rs A NB L H. destruct (glob_names p rs A H) as (ps & its & F & -> & P & G). pose proof (slash_count ps its P (text_bracket ps F NB) rs G) as X.
  rewrite text_slashes in L by exact F. lia.
Qed.
Section Selection.
  Variables ordT ordB : smap BStage -> smap BStage.
  Hypothesis permT : forall m, Permutation m (ordT m).
  Hypothesis permB : forall m, Permutation m (ordB m).
  Lemma glob_selection : forall c ref tag branch, Stripped "refs/tags/" ref (utf8Text tag) -> Stripped "refs/heads/" ref (utf8Text branch) ->
    Forall Ascii7 tag -> Forall Ascii7 branch ->
    let s := pipelineFor globMatch ordT ordB c ref in
    (exists p, In (p, s) (bc_tags c) /\ Names p tag) \/
    ((forall p t, In (p, t) (bc_tags c) -> CalmPattern p -> ~ Names p tag) /\
     ((exists p, In (p, s) (bc_branches c) /\ Names p branch) \/
      ((forall p t, In (p, t) (bc_branches c) -> CalmPattern p -> ~ Names p branch) /\ s = bc_default c))).
  Proof.
    intros c ref tag branch St Sb At Ab s. destruct (low_text tag At) as [_ Vt]. destruct (low_text branch Ab) as [_ Vb].
    destruct (ConverterFacts.selected_ok globMatch ordT ordB c ref permT permB) as (tag' & branch' & St' & Sb' & H). fold s in H.
    rewrite <- (ConverterFacts.stripped_unique _ _ _ _ St St'), <- (ConverterFacts.stripped_unique _ _ _ _ Sb Sb') in H.
    destruct H as [(p & I & M)|[Nt H]]; [left; exists p; split; [exact I|exact (glob_names p tag At M)]|]. right.
    split; [intros p t I C M; apply (Nt t); exists p; split; [exact I|exact (names_glob p tag Vt C M)]|].
    destruct H as [(p & I & M)|[Nb H]]; [left; exists p; split; [exact I|exact (glob_names p branch Ab M)]|]. right. split; [|exact H].
    intros p t I C M; apply (Nb t); exists p; split; [exact I|exact (names_glob p branch Vb C M)].
  Qed.
  Lemma glob_branches : forall c branch, Forall Ascii7 branch ->
    (forall p t, In (p, t) (bc_tags c) -> hasChar "[" p = false /\ slashes p <= 1) ->
    let s := pipelineFor globMatch ordT ordB c ("refs/heads/" +++ utf8Text branch) in
    (exists p, In (p, s) (bc_branches c) /\ Names p branch) \/
    ((forall p t, In (p, t) (bc_branches c) -> CalmPattern p -> ~ Names p branch) /\ s = bc_default c).
  Proof.
    intros c branch A H s. set (head := [114; 101; 102; 115; 47; 104; 101; 97; 100; 115; 47]%N).
    assert (Ah : Forall Ascii7 (head ++ branch)) by (apply Forall_app; split; [repeat constructor|exact A]).
    assert (Et : utf8Text (head ++ branch) = ("refs/heads/" +++ utf8Text branch)%string) by (rewrite text_app; reflexivity).
    destruct (glob_selection c ("refs/heads/" +++ utf8Text branch) (head ++ branch) branch) as [(p & I & M)|[_ K]]; [| |exact Ah|exact A| |exact K].
    - right. split; [|exact Et]. intros r E. discriminate.
    - left. reflexivity.
    - exfalso. destruct M as (ps & its & F & -> & P & G). destruct (H _ _ I) as [NB L]. pose proof (slash_count ps its P (text_bracket ps F NB) _ G) as X.
      rewrite text_slashes in L by exact F. rewrite count_occ_app in X. change (count_occ N.eq_dec head slash) with 2 in X. lia.
  Qed.
End Selection.
