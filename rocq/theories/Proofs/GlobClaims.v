(** * GlobClaims.v: when path.Match matches. *)
From Coq Require Import Lia ZifyN.
From Verif Require Import Model.Go Model.Quote Model.Glob.
From Verif Require Import Spec.GlobSpec.
From Verif Require Import Proofs.GoFacts Proofs.GlobFacts Proofs.GlobItems Proofs.GlobMatch.
From Verif Require Spec.ScriptSpec Proofs.ScriptFacts.
Import ScriptSpec (utf8).

(** ** Meaning, in parts *)
Lemma globs_app : forall its its' a b, GlobMatches its a -> GlobMatches its' b -> GlobMatches (its ++ its') (a ++ b).
Proof.
  intros its its' a b H H'. induction H as [|a' its rs N H IH|r its rs N H IH|r its rs H IH|negated ranges r its rs A H IH]; cbn [app]; try (constructor; assumption); [exact H'|].
  rewrite <- app_assoc. constructor; assumption.
Qed.
Lemma globs_split : forall its its' rs, GlobMatches (its ++ its') rs -> exists a b, rs = a ++ b /\ GlobMatches its a /\ GlobMatches its' b.
Proof.
  induction its as [|it its IH]; intros its' rs H; [exists [], rs; repeat split; [constructor|exact H]|]. cbn [app] in H. inversion H; subst;
  match goal with X : GlobMatches (its ++ its') _ |- _ => destruct (IH _ _ X) as (x & y & -> & A & B) end.
  - exists (a ++ x), y. rewrite app_assoc. repeat split; [constructor; assumption|exact B].
  - exists (r :: x), y. repeat split; [constructor; assumption|exact B].
  - exists (r :: x), y. repeat split; [constructor; assumption|exact B].
  - exists (r :: x), y. repeat split; [constructor; assumption|exact B].
Qed.
Lemma globs_stars : forall n a, GlobMatches (repeat Star n) a -> ~ In slash a.
Proof. induction n as [|n IH]; intros a H; cbn in H; inversion H; subst; [auto|]. intro I. apply in_app_or in I. destruct I; [contradiction|]. eapply IH; eassumption. Qed.
Lemma stars_globs : forall n a, n <> 0 -> ~ In slash a -> GlobMatches (repeat Star n) a.
Proof.
  intros n a Hn N. destruct n as [|n]; [contradiction|]. cbn [repeat]. rewrite <- (app_nil_r a). constructor; [exact N|].
  clear. induction n as [|n IH]; [constructor|]. cbn [repeat]. change (@nil N) with (@nil N ++ []). constructor; [auto|exact IH].
Qed.

(** ** A chunk in place *)
Lemma sdrop_self : forall a b, sdrop (String.length a) (a +++ b) = b. Proof. exact sdrop_app. Qed.
Lemma cm_exact : forall its a b, ~ In Star its -> GlobMatches its a -> Forall Valid a -> cm its (utf8Text (a ++ b)) = Some (utf8Text b).
Proof.
  intros its a b NS H. induction H as [|a' its rs N H IH|r its rs N H IH|r its rs H IH|negated ranges r its rs A H IH]; intro F; cbn [app cm].
  - reflexivity.
  - exfalso. apply NS. left. reflexivity.
  - inversion F as [|? ? V F']; subst. rewrite text_cons. destruct (utf8_shape r V) as (c & k & E & _). rewrite E. cbn [String.append].
    assert (Ec : Ascii.eqb c "/" = false) by (apply (valid_head r c k "/" V E); [exact N|reflexivity]). rewrite Ec. unfold firstRune. rewrite (next_utf8 r c k _ V E). cbn [snd].
    apply IH; [intro; apply NS; right; assumption|exact F'].
  - inversion F as [|? ? V F']; subst. rewrite text_cons. unfold hasPrefix. rewrite prefix_app, sdrop_app. apply IH; [intro; apply NS; right; assumption|exact F'].
  - inversion F as [|? ? V F']; subst. rewrite text_cons. destruct (utf8_shape r V) as (c & k & E & _). rewrite E. cbn [String.append].
    unfold firstRune. rewrite (next_utf8 r c k _ V E). apply accepts_ok in A. rewrite A. apply IH; [intro; apply NS; right; assumption|exact F'].
Qed.
(** A chunk that matches earlier leaves more, but no more slashes. *)
Lemma cm_left : forall its a b, ~ In Star its -> GlobMatches its a -> Forall Valid a -> Forall Valid b ->
  (forall negated ranges, In (OneOf negated ranges) its -> ~ Accepts negated ranges slash) ->
  forall u t, cm its (u +++ utf8Text (a ++ b)) = Some t -> exists u', t = (u' +++ utf8Text b)%string /\ slashes u' = slashes u.
Proof.
  intros its a b NS H. induction H as [|a' its rs N H IH|r its rs N H IH|r its rs H IH|negated ranges r its rs A H IH]; intros F Fb CA u t; cbn [app cm].
  - intro E. injection E as <-. exists u. auto.
  - exfalso. apply NS. left. reflexivity.
  - inversion F as [|? ? V F']; subst. assert (NS' : ~ In Star its) by (intro; apply NS; right; assumption).
    assert (CA' : forall negated ranges, In (OneOf negated ranges) its -> ~ Accepts negated ranges slash) by (intros; apply CA; right; assumption).
    assert (St : Starts (utf8Text (r :: rs ++ b))) by (apply text_starts'; constructor; [exact V|apply Forall_app; split; assumption]).
    destruct u as [|d u]; cbn [String.append].
    + rewrite text_cons. destruct (utf8_shape r V) as (c & k & E & _). rewrite E. cbn [String.append]. destruct (Ascii.eqb c "/"); [discriminate|].
      unfold firstRune. rewrite (next_utf8 r c k _ V E). cbn [snd]. intro Ht. apply (IH NS' F' Fb CA' "" t Ht).
    + destruct (Ascii.eqb d "/") eqn:Ed; [discriminate|]. destruct (firstRune d _) as [r' t'] eqn:Ef. cbn [snd]. destruct (first_left _ _ _ _ _ St Ef) as (u' & -> & Su & _).
      rewrite text_cons, <- sapp_assoc. intro Ht. destruct (IH NS' F' Fb CA' _ t Ht) as (u'' & -> & Su'). exists u''. split; [reflexivity|].
      rewrite Su', slashes_app, Su, slashes_cons, Ed, (utf8_slashes r V). apply N.eqb_neq in N. rewrite N. lia.
  - inversion F as [|? ? V F']; subst. assert (NS' : ~ In Star its) by (intro; apply NS; right; assumption).
    assert (CA' : forall negated ranges, In (OneOf negated ranges) its -> ~ Accepts negated ranges slash) by (intros; apply CA; right; assumption).
    destruct (hasPrefix _ _) eqn:Hp; [|discriminate]. unfold hasPrefix in Hp. apply prefix_spec in Hp. destruct Hp as [x Ex]. rewrite Ex, sdrop_app. intro Ht.
    rewrite text_cons, <- sapp_assoc in Ex. destruct (app_split _ _ _ _ Ex) as [(m & Em & ->)|(m & Nm & Em & _)].
    + destruct (IH NS' F' Fb CA' m t Ht) as (u' & -> & Su). exists u'. split; [reflexivity|]. rewrite Su. apply (f_equal slashes) in Em. rewrite !slashes_app in Em. lia.
    + exfalso. apply (f_equal String.length) in Em. rewrite !slength_app in Em. destruct m; [apply Nm; reflexivity|cbn in Em; lia].
  - inversion F as [|? ? V F']; subst. assert (NS' : ~ In Star its) by (intro; apply NS; right; assumption).
    assert (CA' : forall negated ranges, In (OneOf negated ranges) its -> ~ Accepts negated ranges slash) by (intros; apply CA; right; assumption).
    assert (St : Starts (utf8Text (r :: rs ++ b))) by (apply text_starts'; constructor; [exact V|apply Forall_app; split; assumption]).
    assert (Nr : r <> slash) by (intros ->; exact (CA _ _ (or_introl eq_refl) A)).
    destruct u as [|d u]; cbn [String.append].
    + rewrite text_cons. destruct (utf8_shape r V) as (c & k & E & _). rewrite E. cbn [String.append].
      unfold firstRune. rewrite (next_utf8 r c k _ V E). destruct (accepts negated ranges r); [|discriminate]. intro Ht. apply (IH NS' F' Fb CA' "" t Ht).
    + destruct (firstRune d _) as [r' t'] eqn:Ef. destruct (accepts negated ranges r') eqn:Ea; [|discriminate]. apply accepts_ok in Ea.
      destruct (first_left _ _ _ _ _ St Ef) as (u' & -> & Su & Sd).
      assert (Ed : Ascii.eqb d "/" = false). { apply Ascii.eqb_neq. intro H'. specialize (Sd H'). subst r'. exact (CA _ _ (or_introl eq_refl) Ea). }
      rewrite text_cons, <- sapp_assoc. intro Ht. destruct (IH NS' F' Fb CA' _ t Ht) as (u'' & -> & Su'). exists u''. split; [reflexivity|].
      rewrite Su', slashes_app, Su, slashes_cons, Ed, (utf8_slashes r V). apply N.eqb_neq in Nr. rewrite Nr. lia.
Qed.
Lemma attempt_finds : forall ps1 its1 (last : bool) a b, Parses ps1 its1 -> Forall Valid ps1 -> ~ In Star its1 -> GlobMatches its1 a -> Forall Valid a -> Forall Valid b ->
  (last = true -> b = []) -> (last = false -> forall negated ranges, In (OneOf negated ranges) its1 -> ~ Accepts negated ranges slash) ->
  forall w, slashes w = 0 -> exists t, attempt (utf8Text ps1) last (w +++ utf8Text (a ++ b)) = Rest t /\
    exists u, t = (u +++ utf8Text b)%string /\ slashes u = 0 /\ (last = true -> u = "").
Proof.
  intros ps1 its1 last a b P F NS G Fa Fb Lb CA. induction w as [|c w IH]; intro Sw.
  - cbn [String.append]. unfold attempt. rewrite (chunk_items ps1 its1 _ P F NS), (cm_exact its1 a b NS G Fa). cbn [ofItems].
    exists (utf8Text b). split; [destruct last; [rewrite (Lb eq_refl)|rewrite orb_true_r]; reflexivity|]. exists "". auto.
  - rewrite slashes_cons in Sw. destruct (Ascii.eqb c "/") eqn:Ec; [discriminate|]. cbn in Sw. destruct (IH Sw) as (t & Et & Ht).
    cbn [String.append]. unfold attempt. rewrite skip_attempt, Ec, Et. rewrite (chunk_items ps1 its1 _ P F NS).
    destruct (cm its1 _) as [t'|] eqn:E; cbn [ofItems]; [|exists t; auto].
    destruct last; cbn [negb].
    + rewrite orb_false_r. destruct (isEmpty t') eqn:Z; [|exists t; auto]. apply isEmpty_true in Z. subst t'. exists "". split; [reflexivity|]. exists "". rewrite (Lb eq_refl). auto.
    + rewrite orb_true_r. exists t'. split; [reflexivity|]. change (String c (w +++ utf8Text (a ++ b))) with (String c w +++ utf8Text (a ++ b))%string in E.
      destruct (cm_left its1 a b NS G Fa Fb (CA eq_refl) _ _ E) as (u & -> & Su). exists u. split; [reflexivity|]. rewrite slashes_cons, Ec in Su. split; [lia|discriminate].
Qed.
Lemma calm_suffix : forall a b, Calm (a ++ b) -> Calm b.
Proof. intros a b C before between after negated ranges E. apply (C (a ++ before) between after). rewrite E, app_assoc. reflexivity. Qed.
Lemma complete : forall f ps its rs u, length ps < f -> Parses ps its -> Forall Valid ps -> Forall Valid rs -> Calm its -> GlobMatches its rs ->
  slashes u = 0 -> (u = "" \/ exists its', its = Star :: its') -> matchFrom f (utf8Text ps) (u +++ utf8Text rs) = Some true.
Proof.
  induction f as [|f IH]; intros ps its rs u L P F Fr C G Su Hu; [lia|].
  destruct ps as [|p ps0] eqn:Eps.
  { inversion P; subst. inversion G; subst. destruct Hu as [->|[its' X]]; [reflexivity|discriminate]. }
  rewrite <- Eps in *. assert (NE : ps <> []) by (rewrite Eps; discriminate). clear Eps.
  destruct (parts_exist ps its P F NE) as (n & ps1 & its1 & ps2 & its2 & PT & Sc). rewrite (match_step f ps its n ps1 its1 ps2 its2 _ NE F PT Sc).
  destruct PT as [_ Eits P1 P2 NS R F1 F2 Em Ln]. rewrite Eits in G. destruct (globs_split _ _ _ G) as (s & rs' & -> & Gs & G').
  destruct (globs_split _ _ _ G') as (a & b & -> & G1 & G2). apply Forall_app in Fr. destruct Fr as [Fs Fr]. apply Forall_app in Fr. destruct Fr as [Fa Fb].
  assert (Lb : isEmpty (utf8Text ps2) = true -> b = []).
  { rewrite (text_empty ps2 F2). destruct ps2; [|discriminate]. intros _. inversion P2; subst. inversion G2. reflexivity. }
  assert (C2 : Calm its2) by (rewrite Eits, app_assoc in C; exact (calm_suffix _ _ C)).
  destruct (Nat.eqb_spec n 0) as [->|Hn].
  - cbn in Gs. inversion Gs; subst s. cbn [app]. destruct Hu as [->|[its' X]].
    + cbn [String.append]. rewrite (cm_exact its1 a b NS G1 Fa). destruct (isEmpty (utf8Text ps2)) eqn:Z; cbn [negb].
      * rewrite (Lb eq_refl). cbn [utf8Text map concats isEmpty orb]. apply (IH ps2 its2 [] ""); auto; [lia|]. rewrite (Lb eq_refl) in G2. exact G2.
      * rewrite orb_true_r. apply (IH ps2 its2 b ""); auto. lia.
    + exfalso. rewrite Eits in X. cbn in X. destruct its1 as [|it its1]; [rewrite (Em eq_refl) in X; discriminate|]. injection X as -> _. apply NS. left. reflexivity.
  - assert (Sw : slashes (u +++ utf8Text s) = 0) by (rewrite slashes_app, Su, (text_noslash s Fs (globs_stars n s Gs)); reflexivity).
    rewrite text_app, <- sapp_assoc. destruct its1 as [|it its1'] eqn:Ei.
    + rewrite (Em eq_refl) in G2. inversion G1; inversion G2; subst. cbn [app utf8Text map concats]. rewrite sapp_nil_r, (hasChar_slashes _ Sw). reflexivity.
    + rewrite <- Ei in *. destruct (attempt_finds ps1 its1 (isEmpty (utf8Text ps2)) a b P1 F1 NS G1 Fa Fb Lb) with (w := (u +++ utf8Text s)%string) as (t & Et & u' & -> & Su' & Lu'); [|exact Sw|].
      * intros Z negated ranges I. destruct R as [->|[its3 ->]].
        { exfalso. assert (ps2 = []) by (apply (parses_nil ps2 [] P2); reflexivity). subst ps2. discriminate. }
        destruct n as [|n]; [contradiction|]. apply (C (repeat Star n) its1 its3 negated ranges); [|exact I]. rewrite Eits. change (Star :: its1 ++ Star :: its3) with ([Star] ++ its1 ++ Star :: its3).
        rewrite (app_assoc (repeat Star n)), <- repeat_cons. reflexivity.
      * rewrite Et. apply (IH ps2 its2 b u'); auto; [lia|]. destruct R as [->|R]; [|right; exact R]. left. apply Lu'.
        assert (ps2 = []) by (apply (parses_nil ps2 [] P2); reflexivity). subst ps2. reflexivity.
Qed.
Theorem glob_complete : forall ps its rs, Parses ps its -> Forall Valid ps -> Forall Valid rs -> Calm its -> GlobMatches its rs ->
  globMatch (utf8Text ps) (utf8Text rs) = Some true.
Proof.
  intros ps its rs P F Fr C G. unfold globMatch. apply (complete _ ps its rs ""); auto. pose proof (text_length ps F). lia.
Qed.

(** ** Soundness *)
Definition ValidItem (it : item) : Prop := match it with Lit r => Valid r | _ => True end.
Lemma items_valid : forall ps its, Parses ps its -> Forall Valid ps -> Forall ValidItem its.
Proof.
  induction 1 as [|ps its P IH|ps its P IH|r ps its N P IH|r ps its P IH|negated ls rs ps its Nl C Hd P IH]; intro F; try (inversion F as [|? ? V F']; subst).
  - constructor.
  - constructor; [exact I|auto].
  - constructor; [exact I|auto].
  - constructor; [exact V|auto].
  - inversion F' as [|? ? V' F'']; subst. constructor; [exact V'|auto].
  - constructor; [exact I|]. apply IH. apply Forall_app in F'. destruct F' as [_ F']. apply Forall_app in F'. destruct F' as [_ F']. inversion F'; assumption.
Qed.
Lemma cm_sound : forall its rs t, Forall ValidItem its -> Forall Valid rs -> cm its (utf8Text rs) = Some t ->
  exists a b, rs = a ++ b /\ t = utf8Text b /\ GlobMatches its a.
Proof.
  induction its as [|it its IH]; intros rs t Fi F; cbn [cm].
  - intro E. injection E as <-. exists [], rs. repeat split; constructor.
  - inversion Fi as [|? ? Vi Fi']; subst. destruct it as [| |r|negated ranges]; [discriminate|..].
    + destruct F as [|r rs V F]; [discriminate|]. rewrite text_cons. destruct (utf8_shape r V) as (c & k & E & _). rewrite E. cbn [String.append].
      destruct (Ascii.eqb_spec c "/") as [|Nc]; [discriminate|]. unfold firstRune. rewrite (next_utf8 r c k _ V E). cbn [snd]. intro Ht.
      destruct (IH rs t Fi' F Ht) as (a & b & -> & -> & G). exists (r :: a), b. repeat split. constructor; [|exact G]. intros ->. apply Nc. cbn in E. injection E as <- _. reflexivity.
    + destruct (hasPrefix _ _) eqn:Hp; [|discriminate]. unfold hasPrefix in Hp. apply prefix_spec in Hp. destruct Hp as [x Ex]. rewrite Ex, sdrop_app. intro Ht.
      destruct F as [|r' rs V F]; [exfalso; destruct (utf8_shape r Vi) as (c & k & E & _); rewrite E in Ex; discriminate|].
      rewrite text_cons in Ex. destruct (utf8_inj _ _ _ _ V Vi Ex) as [-> <-]. destruct (IH rs t Fi' F Ht) as (a & b & -> & -> & G). exists (r :: a), b. repeat split. constructor. exact G.
    + destruct F as [|r rs V F]; [discriminate|]. rewrite text_cons. destruct (utf8_shape r V) as (c & k & E & _). rewrite E. cbn [String.append].
      unfold firstRune. rewrite (next_utf8 r c k _ V E). destruct (accepts negated ranges r) eqn:A; [|discriminate]. apply accepts_ok in A. intro Ht.
      destruct (IH rs t Fi' F Ht) as (a & b & -> & -> & G). exists (r :: a), b. repeat split. constructor; assumption.
Qed.
Lemma attempt_sound : forall chunk last name t, attempt chunk last name = Rest t -> exists w m, name = (w +++ m)%string /\ slashes w = 0 /\ matchChunk chunk m = Rest t.
Proof.
  intros chunk last. induction name as [|c name IH]; intros t.
  - unfold attempt. destruct (matchChunk chunk "") as [| |t'] eqn:E; try discriminate. cbn [skipTo]. destruct (isEmpty t' || negb last); [|discriminate]. intro H. exists "", "". rewrite <- H. auto.
  - unfold attempt. rewrite skip_attempt. assert (S : (if Ascii.eqb c "/" then No else attempt chunk last name) = Rest t ->
      exists w m, String c name = (w +++ m)%string /\ slashes w = 0 /\ matchChunk chunk m = Rest t).
    { destruct (Ascii.eqb c "/") eqn:Ec; [discriminate|]. intro H. destruct (IH t H) as (w & m & -> & Sw & Hm). exists (String c w), m. rewrite slashes_cons, Ec. auto. }
    destruct (matchChunk chunk (String c name)) as [| |t'] eqn:E; [discriminate|exact S|]. destruct (isEmpty t' || negb last); [|exact S].
    intro H. exists "", (String c name). rewrite <- H. auto.
Qed.
Lemma starts_ascii : forall rs w m, Forall Ascii7 rs -> utf8Text rs = (w +++ m)%string -> Starts m.
Proof.
  intros rs w m F E. destruct m as [|c m]; [exact I|]. intros [H _]. assert (I : In c (list_ascii_of_string (utf8Text rs))) by (rewrite E, laos_app; apply in_or_app; right; left; reflexivity).
  clear E. induction F as [|r rs A F IH]; [destruct I|]. rewrite text_cons, YamlStrings.utf8_ascii, laos_app in I by exact A. apply in_app_or in I. destruct I as [[<-|[]]|I]; [|exact (IH I)].
  rewrite ScriptFacts.code_byte in H by (unfold Ascii7 in A; lia). unfold Ascii7 in A. lia.
Qed.
Lemma anchored_suffix : forall a b, Anchored (a ++ b) -> Anchored b.
Proof. intros a b H before it after E. apply (H (a ++ before) it after). rewrite E, app_assoc. reflexivity. Qed.
Lemma sound : forall f ps its rs, length ps < f -> Parses ps its -> Forall Valid ps -> Forall Valid rs -> Forall Ascii7 rs \/ Anchored its ->
  matchFrom f (utf8Text ps) (utf8Text rs) = Some true -> GlobMatches its rs.
Proof.
  induction f as [|f IH]; intros ps its rs L P F Fr H; [lia|].
  destruct ps as [|p ps0] eqn:Eps.
  { inversion P; subst. cbn [matchFrom utf8Text map concats isEmpty]. rewrite (text_empty rs Fr). destruct rs; [constructor|discriminate]. }
  rewrite <- Eps in *. assert (NE : ps <> []) by (rewrite Eps; discriminate). clear Eps.
  destruct (parts_exist ps its P F NE) as (n & ps1 & its1 & ps2 & its2 & PT & Sc). rewrite (match_step f ps its n ps1 its1 ps2 its2 _ NE F PT Sc).
  destruct PT as [_ Eits P1 P2 NS R F1 F2 Em Ln]. pose proof (items_valid ps1 its1 P1 F1) as Fi.
  assert (H2 : forall a b, rs = a ++ b -> Forall Ascii7 b \/ Anchored its2).
  { intros a b ->. destruct H as [H|H]; [left; apply Forall_app in H; exact (proj2 H)|right; rewrite Eits, app_assoc in H; exact (anchored_suffix _ _ H)]. }
  destruct (Nat.eqb_spec n 0) as [->|Hn].
  - destruct (cm its1 (utf8Text rs)) as [t|] eqn:E; [|discriminate]. destruct (isEmpty t || _); [|discriminate]. destruct (cm_sound its1 rs t Fi Fr E) as (a & b & -> & -> & G).
    intro M. rewrite Eits. cbn [repeat app]. apply Forall_app in Fr. apply globs_app; [exact G|]. apply (IH ps2 its2 b); auto; [lia|tauto|]. exact (H2 a b eq_refl).
  - destruct its1 as [|it its1'] eqn:Ei.
    + rewrite (Em eq_refl) in Eits. cbn [app] in Eits. rewrite app_nil_r in Eits. intro M. injection M as M. apply negb_true_iff in M. apply slashes_hasChar in M. rewrite text_slashes in M by exact Fr.
      rewrite Eits. apply stars_globs; [exact Hn|]. apply (count_occ_not_In N.eq_dec). exact M.
    + rewrite <- Ei in *. destruct (attempt _ _ _) as [| |t] eqn:At; [discriminate..|]. intro M. destruct (attempt_sound _ _ _ _ At) as (w & m & Ew & Sw & Hm).
      rewrite (chunk_items ps1 its1 _ P1 F1 NS) in Hm. destruct (cm its1 m) as [t'|] eqn:E; [|discriminate]. cbn [ofItems] in Hm. injection Hm as ->.
      assert (St : Starts m).
      { destruct H as [H|H]; [exact (starts_ascii rs w m H Ew)|]. destruct n as [|n]; [contradiction|].
        destruct (H (repeat Star n) it (its1' ++ its2)) as [-> |[r ->]].
        - rewrite Eits, Ei. change (Star :: it :: its1' ++ its2) with ([Star] ++ it :: its1' ++ its2). rewrite (app_assoc (repeat Star n)), <- repeat_cons. reflexivity.
        - exfalso. apply NS. rewrite Ei. left. reflexivity.
        - rewrite Ei in E, Fi. cbn [cm] in E. destruct (hasPrefix m (utf8 r)) eqn:Hp; [|discriminate]. unfold hasPrefix in Hp. apply prefix_spec in Hp. destruct Hp as [x ->].
          inversion Fi as [|? ? V _]; subst. destruct (utf8_shape r V) as (c & k & Ec & _ & A & B). rewrite Ec. cbn. unfold cont.
          destruct (N.lt_ge_cases r 128) as [L'|L']; [destruct (A L') as [-> _]; lia|specialize (B L'); lia]. }
      destruct (text_split rs w m Fr Ew St) as (s & rs' & -> & -> & ->). apply Forall_app in Fr. destruct Fr as [Fs Fr].
      destruct (cm_sound its1 rs' t Fi Fr E) as (a & b & -> & -> & G). apply Forall_app in Fr. rewrite Eits. apply globs_app.
      * apply stars_globs; [exact Hn|]. rewrite text_slashes in Sw by exact Fs. apply (count_occ_not_In N.eq_dec). exact Sw.
      * apply globs_app; [exact G|]. apply (IH ps2 its2 b); auto; [lia|tauto|]. apply (H2 (s ++ a) b). apply app_assoc.
Qed.
Theorem glob_sound : forall ps its rs, Parses ps its -> Forall Valid ps -> Forall Valid rs -> Forall Ascii7 rs \/ Anchored its ->
  globMatch (utf8Text ps) (utf8Text rs) = Some true -> GlobMatches its rs.
Proof. intros ps its rs P F Fr H. apply sound; auto. pose proof (text_length ps F). lia. Qed.
