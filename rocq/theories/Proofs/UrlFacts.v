(** * UrlFacts.v: url.Parse on clone URLs. *)
From Coq Require Import Lia ZifyN.
From Verif Require Import Model.Go Model.Url.
From Verif Require Import Spec.UrlSpec.
From Verif Require Import Proofs.GoFacts.

(** ** Characters *)
Lemma chars_app : forall l a b, Chars l (a +++ b) <-> Chars l a /\ Chars l b.
Proof.
  intros l a b. unfold Chars. rewrite laos_app. split.
  - intro H. split; intros c I; apply H; apply in_or_app; auto.
  - intros [H H'] c I. apply in_app_or in I. destruct I; auto.
Qed.
Lemma chars_all : forall f l s, Chars l s -> sforallb f l = true -> sforallb f s = true.
Proof. intros f l s H F. apply sforallb_In. intros c I. rewrite sforallb_In in F. exact (F c (H c I)). Qed.
Lemma chars_none : forall d l s, Chars l s -> hasChar d l = false -> hasChar d s = false.
Proof. intros d l s H F. apply hasChar_false. intro I. apply hasChar_false in F. exact (F (H d I)). Qed.
Lemma all_one : forall f c s, sforallb f (String c s) = (f c && sforallb f s)%bool.
Proof. reflexivity. Qed.
Lemma cutFirst_some : forall c a b, hasChar c a = false -> cutFirst c (a +++ String c b) = Some (a, b).
Proof.
  induction a as [|d a IH]; intros b H; cbn; [rewrite Ascii.eqb_refl; reflexivity|]. unfold hasChar in H. cbn in H. apply orb_false_iff in H. destruct H as [H H'].
  rewrite Ascii.eqb_sym in H. rewrite H, IH by exact H'. reflexivity.
Qed.
Lemma cutFirst_none : forall c a, hasChar c a = false -> cutFirst c a = None.
Proof.
  induction a as [|d a IH]; intro H; [reflexivity|]. unfold hasChar in H. cbn in H. apply orb_false_iff in H. destruct H as [H H'].
  cbn. rewrite Ascii.eqb_sym in H. rewrite H, IH by exact H'. reflexivity.
Qed.
Lemma cutLast_none : forall c a, hasChar c a = false -> cutLast c a = None.
Proof.
  induction a as [|d a IH]; intro H; [reflexivity|]. unfold hasChar in H. cbn in H. apply orb_false_iff in H. destruct H as [H H'].
  cbn. rewrite Ascii.eqb_sym in H. rewrite H, IH by exact H'. reflexivity.
Qed.
Lemma cutLast_some : forall c a b, hasChar c b = false -> cutLast c (a +++ String c b) = Some (a, b).
Proof.
  induction a as [|d a IH]; intros b H; cbn; [rewrite (cutLast_none c b H), Ascii.eqb_refl; reflexivity|]. rewrite IH by exact H. reflexivity.
Qed.
Lemma cutFirst_shape : forall c s a b, cutFirst c s = Some (a, b) -> s = (a +++ String c b)%string /\ hasChar c a = false.
Proof.
  induction s as [|d s IH]; intros a b; cbn; [discriminate|]. destruct (Ascii.eqb_spec d c) as [->|N]; [intro H; injection H as <- <-; auto|].
  destruct (cutFirst c s) as [[x y]|]; [|discriminate]. intro H. injection H as <- <-. destruct (IH x y eq_refl) as [-> Hx]. split; [reflexivity|].
  unfold hasChar in *. cbn. rewrite Hx. apply Ascii.eqb_neq in N. rewrite Ascii.eqb_sym, N. reflexivity.
Qed.

(** ** Escapes *)
Lemma unhex_ok : forall c x, unhex c = Some x <-> In (c, x) hexDigits.
Proof.
  intros c x. split.
  - intro H. assert (A : forall c, match unhex c with Some x => existsb (fun p => Ascii.eqb (fst p) c && N.eqb (snd p) x) hexDigits | None => true end = true).
    { intro d. destruct d as [[] [] [] [] [] [] [] []]; reflexivity. }
    specialize (A c). rewrite H in A. apply existsb_exists in A. destruct A as ([d y] & I & E). cbn in E. apply andb_true_iff in E. destruct E as [E E'].
    apply Ascii.eqb_eq in E. apply N.eqb_eq in E'. subst. exact I.
  - intro I. assert (A : forallb (fun p => match unhex (fst p) with Some y => N.eqb y (snd p) | None => false end) hexDigits = true) by reflexivity.
    rewrite forallb_forall in A. specialize (A _ I). cbn in A. destruct (unhex c); [|discriminate]. apply N.eqb_eq in A. subst. reflexivity.
Qed.
Lemma unescape_ok : forall s t, Escaped s t -> unescape Plain s = Some t.
Proof.
  induction 1 as [|c s t N H IH|a b x y s t Ha Hb H IH]; cbn [unescape]; [reflexivity|..].
  - apply Ascii.eqb_neq in N. rewrite N, IH. reflexivity.
  - cbn [Ascii.eqb Bool.eqb]. apply unhex_ok in Ha, Hb. rewrite Ha, Hb, IH. cbn [option_map]. rewrite (N.mul_comm x 16). reflexivity.
Qed.
Lemma unescape_shape : forall n s t, String.length s <= n -> unescape Plain s = Some t -> Escaped s t.
Proof.
  induction n as [|n IH]; intros [|c s] t L; cbn in L; try lia; try (intro H; injection H as <-; constructor). cbn [unescape].
  destruct (Ascii.eqb_spec c "%") as [->|N].
  - destruct s as [|a [|b s]]; try discriminate. destruct (unhex a) as [x|] eqn:Ha; [|discriminate]. destruct (unhex b) as [y|] eqn:Hb; [|discriminate].
    destruct (unescape Plain s) as [u|] eqn:E; [|discriminate]. intro H. injection H as <-. rewrite (N.mul_comm x 16). apply unhex_ok in Ha, Hb. constructor; auto. apply IH; [cbn in L; lia|exact E].
  - destruct (unescape Plain s) as [u|] eqn:E; [|discriminate]. intro H. injection H as <-. constructor; auto. apply IH; [lia|exact E].
Qed.
Lemma escaped_cut : forall a c b t, c <> "%"%char -> In c (list_ascii_of_string ":/@") -> Escaped (a +++ String c b) t -> exists x y, Escaped a x /\ Escaped b y.
Proof.
  intros a c b t Nc Ic. assert (Nh : forall x, ~ In (c, x) hexDigits).
  { intros x I. apply unhex_ok in I. cbn in Ic. destruct Ic as [<-|[<-|[<-|[]]]]; discriminate. }
  assert (G : forall n a t, String.length a <= n -> Escaped (a +++ String c b) t -> exists x y, Escaped a x /\ Escaped b y).
  { induction n as [|n IH]; intros a0 t0 L H.
    - destruct a0; [|cbn in L; lia]. cbn in H. inversion H; subst; [eexists "", _; split; [constructor|eassumption]|contradiction].
    - destruct a0 as [|d a0]; cbn in H; [inversion H; subst; [eexists "", _; split; [constructor|eassumption]|contradiction]|]. cbn in L.
      remember (String d (a0 +++ String c b)) as w eqn:Ew. destruct H as [|c' s t' N H'|p' q' x y s t' Ha Hb H']; [discriminate|injection Ew as -> ->|injection Ew as <- Es].
      + destruct (IH _ _ (le_S_n _ _ L) H') as (u & v & U & V). eexists _, v. split; [constructor; eassumption|exact V].
      + destruct a0 as [|p a0]; cbn in Es; [injection Es as -> Es; exfalso; exact (Nh _ Ha)|]. injection Es as -> Es.
        destruct a0 as [|q a0]; cbn in Es; [injection Es as -> Es; exfalso; exact (Nh _ Hb)|]. injection Es as -> Es. subst s. cbn in L.
        destruct (IH a0 t') as (u & v & U & V); [lia|exact H'|]. eexists _, v. split; [constructor; eassumption|exact V]. }
  apply (G (String.length a)). reflexivity.
Qed.
Lemma unescape_host : forall s, sforallb (fun c => negb (Ascii.eqb c "%") && negb (hostEscapes c)) s = true -> unescape Host s = Some s.
Proof.
  induction s as [|c s IH]; [reflexivity|]. rewrite all_one. intro H. apply andb_true_iff in H. destruct H as [H H']. apply andb_true_iff in H. destruct H as [H1 H2].
  apply negb_true_iff in H1, H2. cbn [unescape]. rewrite H1, H2, andb_false_r, IH by exact H'. reflexivity.
Qed.

(** ** Scheme *)
Lemma scheme_chars : forall s rest whole, Chars (lettersDigits +++ "+-.") s -> schemeFrom false whole (s +++ String ":" rest) = Some ((s +++ ":")%string, rest).
Proof.
  induction s as [|c s IH]; intros rest whole H; [reflexivity|]. change (String c s) with (String c "" +++ s)%string in H. apply chars_app in H. destruct H as [Hc Hs].
  cbn [String.append schemeFrom]. assert (B : isLower c || isUpper c || (negb false && (isDigit c || hasChar c "+-.")) = true).
  { pose proof (chars_all (fun c => isLower c || isUpper c || (negb false && (isDigit c || hasChar c "+-."))) _ _ Hc eq_refl) as B. cbn [sforallb] in B. rewrite andb_true_r in B. exact B. }
  rewrite B, IH by exact Hs. destruct (s +++ ":")%string eqn:E; [apply sapp_eq_nil in E; destruct E; discriminate|reflexivity].
Qed.
Lemma trimSuffix_app : forall a b, trimSuffix (a +++ b) b = a.
Proof.
  intros a b. unfold trimSuffix. replace (hasSuffix (a +++ b) b) with true by (symmetry; apply hasSuffix_spec; exists a; reflexivity).
  rewrite slength_app. replace (String.length a + String.length b - String.length b) with (String.length a) by lia. apply stake_app.
Qed.
Lemma getscheme_ok : forall s rest, Scheme s -> getscheme (s +++ String ":" rest) = Some (s, rest).
Proof.
  intros s rest (c & s' & -> & Hc & Hs). unfold getscheme. cbn [String.append schemeFrom]. assert (B : isLower c || isUpper c = true).
  { pose proof (chars_all (fun c => isLower c || isUpper c) _ _ Hc eq_refl) as B. cbn [sforallb] in B. rewrite andb_true_r in B. exact B. }
  rewrite B. cbn [orb]. rewrite (scheme_chars s' rest _ Hs). destruct (s' +++ ":")%string eqn:E; [apply sapp_eq_nil in E; destruct E; discriminate|]. cbn [isEmpty].
  rewrite <- E. change (String c (s' +++ ":")) with (String c s' +++ ":")%string. rewrite trimSuffix_app. reflexivity.
Qed.

(** ** Authority *)
Lemma host_ok : forall text host port, HostText text host -> Port port ->
  parseHost (text +++ port) = Some (text +++ port)%string /\ hostname (text +++ port) = host /\ hasChar "@" (text +++ port) = false /\ hasChar "/" (text +++ port) = false.
Proof.
  intros text host port H P.
  assert (Pd : exists l, Chars l port /\ l = (digits +++ ":")%string).
  { eexists. split; [|reflexivity]. destruct P as [->|(d & -> & D)]; [intros c []|]. intros c [<-|I]; [apply in_or_app || (rewrite laos_app; apply in_or_app); right; left; reflexivity|].
    rewrite laos_app. apply in_or_app. left. exact (D c I). }
  destruct Pd as (l & Pl & ->).
  assert (Pv : validOptionalPort port = true).
  { destruct P as [->|(d & -> & D)]; [reflexivity|]. cbn [String.append validOptionalPort Ascii.eqb Bool.eqb andb]. exact (chars_all isDigit _ _ D eq_refl). }
  destruct H as [(-> & Nh & C)|(-> & Nh & C)].
  - assert (Hb : hasPrefix (host +++ port) "[" = false).
    { destruct host as [|c host]; [contradiction|]. destruct (hasPrefix (String c host +++ port) "[") eqn:X; [|reflexivity]. exfalso. apply prefix_spec in X. destruct X as [r X]. injection X as -> _.
      specialize (C "["%char (or_introl eq_refl)). vm_compute in C. repeat (destruct C as [C|C]; [discriminate|]). destruct C. }
    assert (Ue : unescape Host (host +++ port) = Some (host +++ port)%string).
    { apply unescape_host. rewrite sforallb_app. rewrite (chars_all _ _ _ C), (chars_all _ _ _ Pl); reflexivity. }
    assert (Hc : hasChar ":" host = false) by (apply (chars_none _ _ _ C); reflexivity).
    split; [|split; [|split; rewrite hasChar_app, (chars_none _ _ _ C), (chars_none _ _ _ Pl); reflexivity]].
    + unfold parseHost. rewrite Hb. destruct P as [->|(d & -> & D)].
      * rewrite sapp_nil_r in *. rewrite (cutLast_none _ _ Hc). exact Ue.
      * cbn [String.append] in *. rewrite cutLast_some by (apply (chars_none _ _ _ D); reflexivity). rewrite (chars_all isDigit _ _ D eq_refl). exact Ue.
    + unfold hostname. destruct P as [->|(d & -> & D)].
      * rewrite sapp_nil_r in *. rewrite (cutLast_none _ _ Hc), Hb. reflexivity.
      * cbn [String.append] in *. rewrite cutLast_some by (apply (chars_none _ _ _ D); reflexivity). rewrite (chars_all isDigit _ _ D eq_refl).
        destruct (hasPrefix host "[") eqn:X; [|reflexivity]. exfalso. unfold hasPrefix in *. apply prefix_spec in X. destruct X as [r ->]. rewrite sapp_assoc, prefix_app in Hb. discriminate.
  - assert (Eb : (("[" +++ host +++ "]") +++ port)%string = (("[" +++ host) +++ String "]" port)%string) by (cbn; rewrite sapp_assoc; reflexivity). rewrite Eb.
    assert (Ue : unescape Host (("[" +++ host) +++ String "]" port) = Some (("[" +++ host) +++ String "]" port)%string).
    { apply unescape_host. change (String "]" port) with ("]" +++ port)%string. rewrite !sforallb_app. rewrite (chars_all _ _ _ C), (chars_all _ _ _ Pl); reflexivity. }
    split; [|split; [|split; change (String "]" port) with ("]" +++ port)%string; rewrite !hasChar_app, (chars_none _ _ _ C), (chars_none _ _ _ Pl); reflexivity]].
    + unfold parseHost. replace (hasPrefix (("[" +++ host) +++ String "]" port) "[") with true by (symmetry; rewrite sapp_assoc; apply prefix_app).
      rewrite cutLast_some by (apply (chars_none _ _ _ Pl); reflexivity). rewrite Pv.
      replace (index 0 "%25" ("[" +++ host)) with (@None nat); [exact Ue|].
      assert (G : forall s, hasChar "%" s = false -> index 0 "%25" s = None).
      { induction s as [|c s IH]; intro Hs; [reflexivity|]. unfold hasChar in Hs. cbn in Hs. apply orb_false_iff in Hs. destruct Hs as [Hs Hs']. cbn [index].
        destruct (String.prefix "%25" (String c s)) eqn:E; [apply prefix_spec in E; destruct E as [r E]; injection E as -> _; vm_compute in Hs; discriminate|]. rewrite IH by exact Hs'. reflexivity. }
      symmetry. apply G. rewrite hasChar_app, (chars_none _ _ _ C); reflexivity.
    + unfold hostname. assert (B : hasPrefix (("[" +++ host) +++ "]") "[" && hasSuffix (("[" +++ host) +++ "]") "]" = true).
      { apply andb_true_iff. split; [rewrite sapp_assoc; apply prefix_app|]. apply hasSuffix_spec. exists ("[" +++ host)%string. reflexivity. }
      assert (S : stake (String.length (("[" +++ host) +++ "]") - 2) (sdrop 1 (("[" +++ host) +++ "]")) = host).
      { rewrite slength_app. cbn [String.append String.length sdrop]. replace (S (String.length host) + 1 - 2) with (String.length host) by lia. apply stake_app. }
      destruct P as [->|(d & -> & D)].
      * destruct (cutLast ":" (("[" +++ host) +++ "]")) as [[a b]|] eqn:E; [|rewrite B; exact S].
        assert (sforallb isDigit b = false) as ->; [|rewrite B; exact S].
        assert (K : forall s a b, cutLast ":" (s +++ "]") = Some (a, b) -> exists b', b = (b' +++ "]")%string).
        { clear. induction s as [|c s IH]; intros a b; cbn; [discriminate|]. destruct (cutLast ":" (s +++ "]")) as [[x y]|] eqn:E.
          - intro H. injection H as <- <-. exact (IH x y eq_refl).
          - destruct (Ascii.eqb c ":"); [|discriminate]. intro H. injection H as <- <-. exists s. reflexivity. }
        destruct (K _ _ _ E) as [b' ->]. rewrite sforallb_app. apply andb_false_r.
      * cbn [String.append]. change (String "]" (String ":" d)) with ("]" +++ String ":" d)%string. rewrite <- sapp_assoc.
        change (String "[" ((host +++ "]") +++ String ":" d)) with ((String "[" (host +++ "]")) +++ String ":" d)%string.
        rewrite cutLast_some by (apply (chars_none _ _ _ D); reflexivity). rewrite (chars_all isDigit _ _ D eq_refl).
        change (String "[" (host +++ "]")) with (("[" +++ host) +++ "]")%string. rewrite B. exact S.
Qed.
Lemma authority_ok : forall user text host port, User user -> HostText text host -> Port port ->
  parseAuthority (user +++ text +++ port) = Some (text +++ port)%string /\ hasChar "/" (user +++ text +++ port) = false.
Proof.
  intros user text host port U H P. destruct (host_ok text host port H P) as (Hh & _ & Ha & Hs). unfold parseAuthority. destruct U as [->|(u & t & -> & C & E)].
  - cbn [String.append]. rewrite (cutLast_none _ _ Ha). auto.
  - rewrite sapp_assoc. cbn [String.append]. rewrite (cutLast_some _ _ _ Ha), Hh. replace (validUserinfo u) with true by (symmetry; apply (chars_all _ _ _ C); reflexivity).
    split.
    + destruct (cutFirst ":" u) as [[a b]|] eqn:Ec; [|rewrite (unescape_ok u t E); reflexivity]. destruct (cutFirst_shape _ _ _ _ Ec) as [-> _].
      destruct (escaped_cut a ":" b t) as (x & y & X & Y); [discriminate|cbn; auto|exact E|]. rewrite (unescape_ok _ _ X), (unescape_ok _ _ Y). reflexivity.
    + rewrite hasChar_app, (chars_none _ _ _ C) by reflexivity. change (String "@" (text +++ port)) with ("@" +++ text +++ port)%string. rewrite hasChar_app, Hs. reflexivity.
Qed.
