(** * ImageFacts.v *)
From Coq Require Import Lia.
From Verif Require Import Model.Go Model.Types Model.Image Model.Dind Spec.ImageSpec Proofs.GoFacts.

(** ** cut *)
Lemma cut_none sep s : hasChar sep s = false -> cut sep s = (s, None).
Proof.
  unfold hasChar. induction s as [|c s IH]; [reflexivity|]. simpl. rewrite orb_false_iff. intros [H1 H2].
  rewrite Ascii.eqb_sym, H1, IH by assumption. reflexivity.
Qed.
Lemma cut_some sep a b : hasChar sep a = false -> cut sep (a +++ String sep b)%string = (a, Some b).
Proof.
  unfold hasChar. induction a as [|c a IH]; simpl.
  - intros _. rewrite Ascii.eqb_refl. reflexivity.
  - rewrite orb_false_iff. intros [H1 H2]. rewrite Ascii.eqb_sym, H1, IH by assumption. reflexivity.
Qed.
Lemma cut_inv sep s a o : cut sep s = (a, o) ->
  hasChar sep a = false /\ s = (a +++ match o with Some b => String sep b | None => "" end)%string.
Proof.
  unfold hasChar. revert a o. induction s as [|c s IH]; simpl; intros a o.
  - intros [= <- <-]. split; reflexivity.
  - destruct (Ascii.eqb c sep) eqn:E.
    + intros [= <- <-]. apply Ascii.eqb_eq in E; subst. split; reflexivity.
    + destruct (cut sep s) as [a' o'] eqn:C. intros [= <- <-]. destruct (IH _ _ eq_refl) as [H1 H2].
      simpl. rewrite Ascii.eqb_sym, E, H1. split; [reflexivity|]. congruence.
Qed.

Lemma hasChar_cons c d s : hasChar c (String d s) = Ascii.eqb c d || hasChar c s.
Proof. reflexivity. Qed.
Lemma eqb_none (f : ascii -> bool) sep s : f sep = false -> sforallb f s = true -> hasChar sep s = false.
Proof.
  intros Hf H. apply hasChar_false. intro Hin. rewrite sforallb_In in H. specialize (H _ Hin). congruence.
Qed.

(** ** Path components *)
Lemma LowNum_one c : isLowNum c = true -> LowNum (String c "").
Proof. intro H. split; [discriminate|]. simpl. rewrite H. reflexivity. Qed.
Lemma LowNum_snoc s c : sforallb isLowNum s = true -> isLowNum c = true -> LowNum (s +++ String c "").
Proof.
  intros Hs H. split; [destruct s; discriminate|]. rewrite sforallb_app, Hs. simpl. rewrite H. reflexivity.
Qed.
Lemma Component_snoc s c : Component s -> isLowNum c = true -> Component (s +++ String c "").
Proof.
  intros Hs Hc. destruct Hs as [s [_ Hs]|s sep t Hs Hsep [_ Ht]].
  - apply Comp_one, LowNum_snoc; assumption.
  - rewrite !sapp_assoc. apply Comp_more; try assumption. apply LowNum_snoc; assumption.
Qed.
Definition nameInv (q : nameState) (pre : string) : Prop :=
  match q with
  | NStart => pre = ""
  | NAlnum => Component pre
  | NDot => exists p, Component p /\ pre = (p +++ ".")%string
  | NUnder => exists p, Component p /\ pre = (p +++ "_")%string
  | NUnder2 => exists p, Component p /\ pre = (p +++ "__")%string
  | NDash => exists p d, Component p /\ Dashes d /\ pre = (p +++ d)%string
  end.
Lemma nameStep_inv q c q' pre : nameStep q c = Some q' -> nameInv q pre -> nameInv q' (pre +++ String c "")%string.
Proof.
  unfold nameStep. destruct (isLowNum c) eqn:Hc.
  - intros [= <-]. cbn [nameInv]. destruct q; cbn [nameInv].
    + intros ->. apply Comp_one, LowNum_one, Hc.
    + intro H. apply Component_snoc; assumption.
    + intros (p & Hp & ->). rewrite sapp_assoc. apply Comp_more; [exact Hp|simpl; auto|apply LowNum_one, Hc].
    + intros (p & Hp & ->). rewrite sapp_assoc. apply Comp_more; [exact Hp|simpl; auto|apply LowNum_one, Hc].
    + intros (p & Hp & ->). rewrite sapp_assoc. apply Comp_more; [exact Hp|simpl; auto|apply LowNum_one, Hc].
    + intros (p & d & Hp & Hd & ->). rewrite sapp_assoc. apply Comp_more; [exact Hp|auto|apply LowNum_one, Hc].
  - destruct q; try discriminate.
    + destruct (Ascii.eqb_spec c "."); [intros [= <-]; subst; cbn; eauto|].
      destruct (Ascii.eqb_spec c "_"); [intros [= <-]; subst; cbn; eauto|].
      destruct (Ascii.eqb_spec c "-"); [intros [= <-]; subst; cbn|discriminate].
      intro H. exists pre, "-". split; [exact H|]. split; [|reflexivity]. intros x [<-|[]]. reflexivity.
    + destruct (Ascii.eqb_spec c "_"); [intros [= <-]; subst; cbn|discriminate].
      intros (p & Hp & ->). exists p. rewrite sapp_assoc. auto.
    + destruct (Ascii.eqb_spec c "-"); [intros [= <-]; subst; cbn|discriminate].
      intros (p & d & Hp & Hd & ->). exists p, (d +++ "-")%string. rewrite sapp_assoc. split; [exact Hp|].
      split; [|reflexivity]. intro x. rewrite laos_app, in_app_iff. intros [H|[<-|[]]]; auto.
Qed.
Lemma nameRun_sound s : forall q pre, nameInv q pre -> nameRun q s = true -> Component (pre +++ s).
Proof.
  induction s as [|c s IH]; intros q pre Hq; cbn [nameRun].
  - rewrite sapp_nil_r. destruct q; try discriminate. auto.
  - destruct (nameStep q c) as [q'|] eqn:E; [|discriminate]. intro H.
    replace (pre +++ String c s)%string with ((pre +++ String c "") +++ s)%string by (rewrite sapp_assoc; reflexivity).
    apply (IH q'); [|exact H]. eapply nameStep_inv; eauto.
Qed.
Lemma nameRun_lownum t : forall q r, LowNum t -> nameRun q (t +++ r) = nameRun NAlnum r.
Proof.
  induction t as [|c t IH]; intros q r [Hne Ht]; [congruence|]. simpl in Ht. apply andb_true_iff in Ht as [Hc Ht].
  simpl. unfold nameStep. rewrite Hc. destruct t as [|d t]; [reflexivity|]. apply IH. split; [discriminate|exact Ht].
Qed.
Lemma nameRun_dashes d : forall q t r, Dashes d -> (q = NAlnum \/ q = NDash) -> LowNum t ->
  nameRun q (d +++ t +++ r) = nameRun NAlnum r.
Proof.
  induction d as [|c d IH]; intros q t r Hd Hq Ht; [exact (nameRun_lownum t q r Ht)|].
  assert (c = "-"%char) as -> by (apply Hd; left; reflexivity).
  assert (nameStep q "-" = Some NDash) as E by (destruct Hq as [-> | ->]; reflexivity).
  cbn [String.append nameRun]. rewrite E. apply IH; auto. intros x Hx. apply Hd. right. exact Hx.
Qed.
Lemma nameRun_component s : Component s -> forall r, nameRun NStart (s +++ r) = nameRun NAlnum r.
Proof.
  induction 1 as [s Hs|s sep t Hs IH Hsep Ht]; intro r; [apply nameRun_lownum, Hs|].
  rewrite !sapp_assoc, IH. destruct Hsep as [[<-|[<-|[<-|[]]]]|Hd].
  - simpl. apply nameRun_lownum, Ht.
  - simpl. apply nameRun_lownum, Ht.
  - simpl. apply nameRun_lownum, Ht.
  - apply nameRun_dashes; auto.
Qed.
Lemma nameComponent_iff s : nameComponent s = true <-> Component s.
Proof.
  split.
  - intro H. apply (nameRun_sound s NStart ""); [reflexivity|exact H].
  - intro H. unfold nameComponent. rewrite <- (sapp_nil_r s), (nameRun_component _ H). reflexivity.
Qed.

Definition compChar (c : ascii) : bool := isLowNum c || Ascii.eqb c "." || Ascii.eqb c "_" || Ascii.eqb c "-".
Lemma sforallb_impl (f g : ascii -> bool) s : (forall c, f c = true -> g c = true) -> sforallb f s = true -> sforallb g s = true.
Proof. rewrite !sforallb_In. auto. Qed.
Lemma Component_chars s : Component s -> sforallb compChar s = true.
Proof.
  assert (L : forall t, LowNum t -> sforallb compChar t = true).
  { intros t [_ H]. revert H. apply sforallb_impl. unfold compChar. intros c ->. reflexivity. }
  induction 1 as [s Hs|s sep t Hs IH Hsep Ht]; [auto|]. rewrite !sforallb_app, IH, (L t Ht), andb_true_r.
  destruct Hsep as [[<-|[<-|[<-|[]]]]|Hd]; try reflexivity. apply sforallb_In. intros c Hc. rewrite (Hd c Hc). reflexivity.
Qed.
Lemma Component_nonempty s : Component s -> s <> "".
Proof.
  intro H. destruct H as [s [H _]|s sep t Hs Hsep [H _]]; [exact H|]. intro E.
  apply sapp_eq_nil in E as [_ E]. apply sapp_eq_nil in E as [_ E]. contradiction.
Qed.
Lemma compChar_no c s : compChar c = false -> Component s -> hasChar c s = false.
Proof. intros Hc Hs. apply (eqb_none compChar); [exact Hc|apply Component_chars, Hs]. Qed.
Lemma comps_iff l : forallb nameComponent l = true <-> Forall Component l.
Proof. rewrite forallb_forall, Forall_forall. split; intros H x Hx; apply nameComponent_iff, H, Hx. Qed.

(** ** Hosts *)
Lemma lastByte_snoc c s b : lastByte c (s +++ String b "") = b.
Proof. revert c. induction s as [|d s IH]; intro c; simpl; auto. Qed.
Lemma snoc_case s : s = "" \/ exists m b, s = (m +++ String b "")%string.
Proof.
  induction s as [|c s IH]; [auto|]. right. destruct IH as [->|(m & b & ->)]; [exists "", c|exists (String c m), b]; reflexivity.
Qed.
Lemma domainComponent_iff s : domainComponent s = true <-> HostComponent s.
Proof.
  unfold domainComponent, HostComponent. destruct s as [|a s].
  - split; [discriminate|]. intros (a & b & [H|(m & H & _)] & _); discriminate.
  - rewrite !andb_true_iff. split.
    + intros [[Ha Hm] Hl]. destruct (snoc_case s) as [->|(m & b & ->)].
      * exists a, a. auto.
      * exists a, b. rewrite lastByte_snoc in Hl. split; [|auto]. right. exists m. split; [reflexivity|].
        rewrite sforallb_app, andb_true_iff in Hm. destruct Hm as [Hm _]. rewrite sforallb_In in Hm. intros c Hc.
        apply Hm, orb_true_iff in Hc. destruct Hc as [Hc|Hc]; [auto|right; apply Ascii.eqb_eq, Hc].
    + intros (x & b & H & Ha & Hb). destruct H as [H|(m & H & Hm)].
      * injection H as -> ->. simpl. auto.
      * injection H as -> ->. rewrite lastByte_snoc. split; [split|]; auto. rewrite sforallb_app. simpl. rewrite Hb, andb_true_r.
        apply sforallb_In. intros c Hc. destruct (Hm c Hc) as [-> | ->]; [reflexivity|apply orb_true_r].
Qed.
Definition hostChar (c : ascii) : bool := isAlNum c || Ascii.eqb c "-".
Lemma HostComponent_chars s : HostComponent s -> sforallb hostChar s = true.
Proof.
  intros (a & b & H & Ha & Hb). unfold hostChar. destruct H as [->|(m & -> & Hm)].
  - simpl. rewrite Ha. reflexivity.
  - cbn [sforallb]. rewrite sforallb_app. simpl. rewrite Ha, Hb. simpl. rewrite andb_true_r. apply sforallb_In. intros c Hc.
    destruct (Hm c Hc) as [-> | ->]; [reflexivity|apply orb_true_r].
Qed.
Lemma HostComponent_no c s : hostChar c = false -> HostComponent s -> hasChar c s = false.
Proof. intros Hc Hs. apply (eqb_none hostChar); [exact Hc|apply HostComponent_chars, Hs]. Qed.
Lemma hasChar_join c sep l : hasChar c sep = false -> Forall (fun x => hasChar c x = false) l -> hasChar c (join sep l) = false.
Proof.
  intros Hs H. induction H as [|x l Hx H IH]; [reflexivity|]. destruct l as [|y l]; [exact Hx|].
  change (join sep (x :: y :: l)) with (x +++ sep +++ join sep (y :: l))%string. rewrite !hasChar_app, Hx, Hs, IH. reflexivity.
Qed.
Lemma domainName_iff s : domainName s = true <-> exists hs, hs <> [] /\ Forall HostComponent hs /\ s = join "." hs.
Proof.
  unfold domainName. rewrite forallb_forall. split.
  - intro H. exists (split_on "." s). split; [apply split_on_nonempty|]. split.
    + apply Forall_forall. intros x Hx. apply domainComponent_iff, H, Hx.
    + symmetry. apply join_split_on.
  - intros (hs & Hne & H & ->). rewrite split_on_join; [|exact Hne|].
    + rewrite Forall_forall in H. intros x Hx. apply domainComponent_iff, H, Hx.
    + eapply Forall_impl; [|exact H]. intros x. apply HostComponent_no. reflexivity.
Qed.
Lemma domainName_no c s : hostChar c = false -> Ascii.eqb c "." = false -> domainName s = true -> hasChar c s = false.
Proof.
  intros Hc Hd H. apply domainName_iff in H as (hs & _ & H & ->). apply hasChar_join; [unfold hasChar; simpl; rewrite Hd; reflexivity|].
  eapply Forall_impl; [|exact H]. intros x. apply HostComponent_no, Hc.
Qed.
Lemma domainOk_iff s : domainOk s = true <-> Domain s.
Proof.
  unfold domainOk. split.
  - intro H. assert (J := join_split_on ":" s). destruct (split_on ":" s) as [|h [|p [|q l]]]; try discriminate.
    + apply domainName_iff in H as (hs & Hne & H & E). exists hs. split; [exact Hne|]. split; [exact H|]. left. simpl in J. congruence.
    + apply andb_true_iff in H as [H Hp]. apply domainName_iff in H as (hs & Hne & H & E). exists hs. split; [exact Hne|]. split; [exact H|].
      right. exists p. unfold portNumber in Hp. apply andb_true_iff in Hp as [Hp1 Hp2]. rewrite negb_true_iff, isEmpty_false in Hp1.
      split; [|auto]. cbn [join] in J. rewrite <- J, E. reflexivity.
  - intros (hs & Hne & H & [->|(p & -> & Hp & Hd)]).
    + assert (D : domainName (join "." hs) = true) by (apply domainName_iff; eauto).
      rewrite split_on_none; [exact D|]. apply domainName_no; [reflexivity|reflexivity|exact D].
    + assert (D : domainName (join "." hs) = true) by (apply domainName_iff; eauto).
      change (":" +++ p)%string with (String ":" p). rewrite split_on_app by (apply domainName_no; [reflexivity|reflexivity|exact D]).
      rewrite split_on_none by (apply (eqb_none isDigit); [reflexivity|exact Hd]).
      rewrite D. unfold portNumber. rewrite Hd. apply isEmpty_false in Hp. rewrite Hp. reflexivity.
Qed.
Lemma Domain_no c s : hostChar c = false -> Ascii.eqb c "." = false -> Ascii.eqb c ":" = false -> Domain s -> hasChar c s = false.
Proof.
  intros Hc Hd Hp (hs & Hne & H & Hs).
  assert (D : hasChar c (join "." hs) = false) by (apply domainName_no; [exact Hc|exact Hd|apply domainName_iff; eauto]).
  destruct Hs as [->|(p & -> & _ & Hd')]; [exact D|]. rewrite hasChar_app, D. simpl. rewrite hasChar_cons, Hp. simpl.
  apply (eqb_none isDigit); [|exact Hd']. unfold hostChar, isAlNum, isLowNum in Hc. rewrite !orb_false_iff in Hc. tauto.
Qed.
Lemma Domain_nonempty s : Domain s -> s <> "".
Proof. intro H. apply domainOk_iff in H. intros ->. discriminate. Qed.

(** ** Tags and digests *)
Lemma tagOk_iff s : tagOk s = true <-> Tag s.
Proof.
  unfold tagOk, Tag. destruct s as [|c s]; [split; [discriminate|intros (c & s' & H & _); discriminate]|].
  rewrite !andb_true_iff, Nat.leb_le, sforallb_In. split.
  - intros [[H1 H2] H3]. exists c, s. repeat split; auto. intros d Hd. apply H2 in Hd.
    rewrite !orb_true_iff, !Ascii.eqb_eq in Hd. tauto.
  - intros (c' & s' & H & H1 & H2 & H3). injection H as <- <-. repeat split; auto. intros d Hd.
    rewrite !orb_true_iff, !Ascii.eqb_eq. destruct (H3 d Hd) as [|[|]]; auto.
Qed.
Lemma Tag_no c s : isWord c || Ascii.eqb c "." || Ascii.eqb c "-" = false -> Tag s -> hasChar c s = false.
Proof.
  intros Hc H. apply (eqb_none (fun c => isWord c || Ascii.eqb c "." || Ascii.eqb c "-")); [exact Hc|].
  destruct H as (d & s' & -> & _ & Hd & H). cbn [sforallb]. rewrite Hd. simpl. apply sforallb_In. intros x Hx.
  rewrite !orb_true_iff, !Ascii.eqb_eq. destruct (H x Hx) as [|[|]]; auto.
Qed.
Lemma Tag_nonempty s : Tag s -> s <> "".
Proof. intros (c & s' & -> & _). discriminate. Qed.

Section Facts.
  Variable av : string -> bool.

  Lemma digestOk_iff s : digestOk av s = true <-> Digest av s.
  Proof.
    unfold digestOk, Digest. split.
    - destruct (cut ":" s) as [alg [e|]] eqn:C; [|destruct (digestSize alg); discriminate]. apply cut_inv in C as [_ ->].
      unfold digestSize. destruct (String.eqb_spec alg "sha256") as [->|N1]; [|destruct (String.eqb_spec alg "sha384") as [->|N2];
        [|destruct (String.eqb_spec alg "sha512") as [->|N3]; [|discriminate]]];
        rewrite !andb_true_iff, Nat.eqb_eq; intros [[A L] H]; do 3 eexists; (split; [reflexivity|]); unfold Hex; simpl; eauto 8.
    - intros (alg & e & n & -> & Hin & A & L & H). change (":" +++ e)%string with (String ":" e).
      destruct Hin as [E|[E|[E|[]]]]; injection E as <- <-; rewrite cut_some by reflexivity; cbn [digestSize String.eqb Ascii.eqb Bool.eqb];
        unfold digestSize; simpl (String.eqb _ _); rewrite A, L, H, Nat.eqb_refl; reflexivity.
  Qed.
  Lemma Digest_nonempty s : Digest av s -> s <> "".
  Proof. intros (alg & e & n & -> & _) E. apply sapp_eq_nil in E as [_ E]. discriminate. Qed.
  Lemma isIdentifier_iff s : isIdentifier s = true <-> Hex 64 s.
  Proof. unfold isIdentifier, Hex. rewrite andb_true_iff, Nat.eqb_eq. reflexivity. Qed.

  (** ** Parsing a full reference *)
  Lemma join_snoc_app sep l x t : join sep (l ++ [(x +++ t)%string]) = (join sep (l ++ [x]) +++ t)%string.
  Proof.
    induction l as [|y l IH]; [reflexivity|]. destruct l as [|z l].
    - simpl. rewrite !sapp_assoc. reflexivity.
    - change (join sep ((y :: z :: l) ++ [(x +++ t)%string])) with (y +++ sep +++ join sep ((z :: l) ++ [(x +++ t)%string]))%string.
      rewrite IH. change (join sep ((y :: z :: l) ++ [x])) with (y +++ sep +++ join sep ((z :: l) ++ [x]))%string.
      rewrite !sapp_assoc. reflexivity.
  Qed.
  Lemma join_cons sep x l : l <> [] -> join sep (x :: l) = (x +++ sep +++ join sep l)%string.
  Proof. destruct l; [congruence|reflexivity]. Qed.

  Definition allSegs (r : Ref) (segs : list string) : list string :=
    if isEmpty (r_domain r) then segs else r_domain r :: segs.
  Lemma refName_join r segs : segs <> [] -> r_path r = join "/" segs -> refName r = join "/" (allSegs r segs).
  Proof.
    intros Hne E. unfold refName, allSegs. destruct (isEmpty (r_domain r)); [exact E|].
    rewrite join_cons by exact Hne. rewrite E. reflexivity.
  Qed.

  Lemma optional_tag t : t = "" \/ Tag t -> (if isEmpty t then "" else ":" +++ t)%string = match t with "" => "" | _ => String ":" t end.
  Proof. destruct t; reflexivity. Qed.

  Lemma parse_text r : ValidRef av r -> parseRef av (refString r) = Some r.
  Proof.
    intros (segs & Hne & Hc & Hp & Hd & Ht & Hg & Hlen).
    pose proof (refName_join r segs Hne Hp) as En.
    set (tagPart := (if isEmpty (r_tag r) then "" else ":" +++ r_tag r)%string).
    set (digPart := (if isEmpty (r_digest r) then "" else "@" +++ r_digest r)%string).
    assert (Hsegs : forall c, compChar c = false -> Forall (fun x => hasChar c x = false) segs).
    { intros c H. eapply Forall_impl; [|exact Hc]. intros x. apply compChar_no, H. }
    assert (Hall : forall c, compChar c = false -> hostChar c = false -> Ascii.eqb c ":" = false -> Forall (fun x => hasChar c x = false) (allSegs r segs)).
    { intros c H1 H2 H3. unfold allSegs. destruct (isEmpty (r_domain r)) eqn:E; [auto|]. constructor; [|auto].
      destruct Hd as [Hd|[Hd _]]; [|apply isEmpty_false in E; contradiction]. apply Domain_no; auto.
      destruct (Ascii.eqb_spec c "."); [subst; discriminate|reflexivity]. }
    assert (Htag : forall c, isWord c || Ascii.eqb c "." || Ascii.eqb c "-" = false -> Ascii.eqb c ":" = false -> hasChar c tagPart = false).
    { intros c H1 H2. unfold tagPart. destruct (isEmpty (r_tag r)) eqn:E; [reflexivity|]. simpl. rewrite hasChar_cons, H2. simpl.
      destruct Ht as [Ht|Ht]; [rewrite Ht in E; discriminate|]. apply Tag_no; assumption. }
    destruct (exists_last Hne) as (init & l & Es).
    assert (Eall : exists init', allSegs r segs = init' ++ [l]).
    { unfold allSegs. destruct (isEmpty (r_domain r)); [exists init; exact Es|]. exists (r_domain r :: init). rewrite Es. reflexivity. }
    destruct Eall as (init' & Eall).
    assert (Hl : Component l) by (rewrite Es in Hc; apply Forall_app in Hc as [_ Hc]; inversion Hc; assumption).
    assert (Hfront : split_on "/" (refName r +++ tagPart) = init' ++ [(l +++ tagPart)%string]).
    { rewrite En, Eall, <- join_snoc_app. apply split_on_join; [destruct init'; discriminate|].
      specialize (Hall "/"%char eq_refl eq_refl eq_refl). rewrite Eall in Hall. apply Forall_app in Hall as [H1 H2]. apply Forall_app.
      split; [exact H1|]. inversion H2; subst. constructor; [|constructor]. rewrite hasChar_app, H3. simpl.
      apply Htag; reflexivity. }
    assert (Hcut : cut "@" (refString r) = (refName r +++ tagPart, if isEmpty (r_digest r) then None else Some (r_digest r))%string).
    { unfold refString. fold tagPart digPart. rewrite <- sapp_assoc.
      assert (N : hasChar "@" (refName r +++ tagPart) = false).
      { rewrite hasChar_app, En. rewrite hasChar_join; [|reflexivity|apply Hall; reflexivity]. simpl. apply Htag; reflexivity. }
      unfold digPart. destruct (isEmpty (r_digest r)); [rewrite sapp_nil_r; apply cut_none, N|].
      apply (cut_some "@"), N. }
    assert (Hcut2 : cut ":" (l +++ tagPart) = (l, if isEmpty (r_tag r) then None else Some (r_tag r))).
    { assert (N : hasChar ":" l = false) by (apply compChar_no; [reflexivity|exact Hl]).
      unfold tagPart. destruct (isEmpty (r_tag r)); [rewrite sapp_nil_r; apply cut_none, N|]. apply (cut_some ":"), N. }
    unfold parseRef. rewrite Hcut, Hfront, last_last, Hcut2, removelast_last, <- Eall, <- En.
    assert (Hg' : (match (if isEmpty (r_digest r) then None else Some (r_digest r)) with Some d => digestOk av d | None => true end) = true).
    { destruct (isEmpty (r_digest r)) eqn:E; [reflexivity|]. apply isEmpty_false in E. apply digestOk_iff. tauto. }
    assert (Ht' : (match (if isEmpty (r_tag r) then None else Some (r_tag r)) with Some d => tagOk d | None => true end) = true).
    { destruct (isEmpty (r_tag r)) eqn:E; [reflexivity|]. apply isEmpty_false in E. apply tagOk_iff. tauto. }
    apply Nat.leb_le in Hlen. rewrite Hg', Ht', Hlen. cbn [andb].
    assert (Hpn : parseName (allSegs r segs) = Some (r_domain r, r_path r)).
    { unfold allSegs. destruct (isEmpty (r_domain r)) eqn:E.
      - apply isEmpty_true in E. rewrite E, Hp. unfold parseName. destruct segs as [|h t]; [congruence|].
        assert (forallb nameComponent (h :: t) = true) as F by (apply comps_iff, Hc).
        destruct Hd as [Hd|[_ Hd]]; [apply Domain_nonempty in Hd; contradiction|].
        destruct (negb (Nat.eqb (length t) 0) && domainOk h && forallb nameComponent t) eqn:B; [exfalso|rewrite F; reflexivity].
        apply andb_true_iff in B as [B _]. apply andb_true_iff in B as [B1 B2]. apply Hd. split; [|apply domainOk_iff, B2].
        destruct t; [discriminate|simpl; lia].
      - destruct Hd as [Hd|[Hd _]]; [|apply isEmpty_false in E; contradiction]. unfold parseName.
        apply domainOk_iff in Hd. rewrite Hd. apply comps_iff in Hc. rewrite Hc.
        destruct segs; [congruence|]. cbn [length Nat.eqb negb andb]. rewrite Hp. reflexivity. }
    rewrite Hpn. destruct r as [d p t g]; cbn [r_domain r_path r_tag r_digest] in *. f_equal.
    f_equal; [destruct t; reflexivity|destruct g; reflexivity].
  Qed.

  Lemma parse_inv s r : parseRef av s = Some r -> ValidRef av r /\ refString r = s.
  Proof.
    unfold parseRef. destruct (cut "@" s) as [front dig] eqn:C1. apply cut_inv in C1 as [N1 Es].
    destruct (cut ":" (last (split_on "/" front) "")) as [l tag] eqn:C2. apply cut_inv in C2 as [N2 El].
    destruct ((match dig with Some d => digestOk av d | None => true end) && (match tag with Some t => tagOk t | None => true end) &&
              Nat.leb (String.length (join "/" (removelast (split_on "/" front) ++ [l]))) 255) eqn:G; [|discriminate].
    apply andb_true_iff in G as [G Glen]. apply andb_true_iff in G as [Gd Gt]. apply Nat.leb_le in Glen.
    set (name := removelast (split_on "/" front) ++ [l]) in *.
    destruct (parseName name) as [[d p]|] eqn:P; [|discriminate]. intros [= <-].
    set (t := match tag with Some t => t | None => "" end). set (g := match dig with Some d => d | None => "" end).
    assert (Ht : (if isEmpty t then "" else ":" +++ t)%string = (match tag with Some b => String ":" b | None => "" end) /\ (t = "" \/ Tag t)).
    { unfold t. destruct tag as [t'|]; [|split; [reflexivity|auto]]. apply tagOk_iff in Gt. split; [|auto].
      apply Tag_nonempty, isEmpty_false in Gt. rewrite Gt. reflexivity. }
    assert (Hg : (if isEmpty g then "" else "@" +++ g)%string = (match dig with Some b => String "@" b | None => "" end) /\ (g = "" \/ Digest av g)).
    { unfold g. destruct dig as [g'|]; [|split; [reflexivity|auto]]. apply digestOk_iff in Gd. split; [|auto].
      apply Digest_nonempty, isEmpty_false in Gd. rewrite Gd. reflexivity. }
    destruct Ht as [Et Ht]. destruct Hg as [Eg Hg].
    assert (En : join "/" name = refName {| r_domain := d; r_path := p; r_tag := t; r_digest := g |} /\
                 exists segs, segs <> [] /\ Forall Component segs /\ p = join "/" segs /\
                   (Domain d \/ (d = "" /\ ~ (2 <= length segs /\ Domain (hd "" segs))))).
    { unfold parseName in P. destruct name as [|h tl] eqn:Nm; [discriminate|].
      destruct (negb (Nat.eqb (length tl) 0) && domainOk h && forallb nameComponent tl) eqn:B.
      - injection P as <- <-. apply andb_true_iff in B as [B B3]. apply andb_true_iff in B as [B1 B2].
        apply domainOk_iff in B2. apply comps_iff in B3. assert (tl <> []) by (destruct tl; [discriminate|congruence]).
        split; [|exists tl; auto 8]. unfold refName. cbn [r_domain r_path]. apply Domain_nonempty, isEmpty_false in B2. rewrite B2.
        apply join_cons. assumption.
      - destruct (forallb nameComponent (h :: tl)) eqn:F; [|discriminate]. injection P as <- <-. split; [reflexivity|].
        apply comps_iff in F. exists (h :: tl). split; [discriminate|]. split; [exact F|]. split; [reflexivity|]. right.
        split; [reflexivity|]. intros [L D]. cbn [hd] in D. apply domainOk_iff in D. rewrite D in B.
        inversion F as [|? ? _ F']; subst. apply comps_iff in F'. rewrite F' in B. destruct tl; [simpl in L; lia|discriminate]. }
    destruct En as [En (segs & S1 & S2 & S3 & S4)]. split.
    - exists segs. cbn [r_domain r_path r_tag r_digest]. rewrite <- En. auto 10.
    - unfold refString. cbn [r_tag r_digest]. rewrite Et, Eg, <- En, Es, <- sapp_assoc. f_equal.
      unfold name. rewrite <- join_snoc_app, <- El, <- app_removelast_last by apply split_on_nonempty. apply join_split_on.
  Qed.

  (** ** Normalisation *)
  Lemma NoSlash_iff s : hasChar "/" s = false <-> NoSlash s.
  Proof. apply hasChar_false. Qed.
  Lemma hostLike_iff s : hostLike s = true <-> HostLike s.
  Proof.
    unfold hostLike, HostLike. rewrite !orb_true_iff, !hasChar_In, String.eqb_eq. tauto.
  Qed.
  Lemma hostLike_false s : hostLike s = false <-> ~ HostLike s.
  Proof. rewrite <- hostLike_iff. symmetry. apply not_true_iff_false. Qed.

  Lemma split_long s t : Long s t <-> let '(d, r) := splitDockerDomain s in t = (d +++ "/" +++ r)%string.
  Proof.
    split.
    - intro H. unfold splitDockerDomain. destruct H as [d rem Hd Hh Hn|d rem Hd Hr|d x Hd Hx|u rem Hu Hh|x Hx].
      + apply NoSlash_iff in Hd. change ("/" +++ rem)%string with (String "/" rem). rewrite (cut_some "/" d rem Hd).
        apply hostLike_iff in Hh. rewrite Hh.
        destruct (String.eqb_spec d "index.docker.io") as [->|N1]; [exfalso; apply Hn; right; reflexivity|].
        destruct (String.eqb_spec d "docker.io") as [->|N2]; [exfalso; apply Hn; left; reflexivity|]. reflexivity.
      + assert (hasChar "/" rem = true) as S by (apply not_false_iff_true; intro H; apply NoSlash_iff in H; contradiction).
        destruct Hd as [-> | ->]; change ("/" +++ rem)%string with (String "/" rem); rewrite cut_some by reflexivity; cbn [hostLike hasChar sexistsb Ascii.eqb orb];
          simpl; rewrite S; reflexivity.
      + apply NoSlash_iff in Hx.
        destruct Hd as [-> | ->]; change ("/" +++ x)%string with (String "/" x); rewrite cut_some by reflexivity; simpl; rewrite Hx; reflexivity.
      + apply NoSlash_iff in Hu. change ("/" +++ rem)%string with (String "/" rem). rewrite (cut_some "/" u rem Hu).
        apply hostLike_false in Hh. rewrite Hh. simpl. rewrite hasChar_app, hasChar_cons, Ascii.eqb_refl, orb_true_r. reflexivity.
      + apply NoSlash_iff in Hx. rewrite (cut_none _ _ Hx). simpl. rewrite Hx. reflexivity.
    - unfold splitDockerDomain. destruct (cut "/" s) as [h o] eqn:C. apply cut_inv in C as [Hh Es]. subst s.
      destruct o as [rem|]; [|rewrite sapp_nil_r].
      + destruct (hostLike h) eqn:L.
        * apply hostLike_iff in L. apply NoSlash_iff in Hh. change (String "/" rem) with ("/" +++ rem)%string.
          destruct (String.eqb_spec h "index.docker.io") as [->|N1].
          -- simpl. destruct (hasChar "/" rem) eqn:S; simpl; intros ->.
             ++ apply (Long_hub "index.docker.io"); [right; reflexivity|]. intro N. apply NoSlash_iff in N. congruence.
             ++ apply (Long_hub_official "index.docker.io"); [right; reflexivity|apply NoSlash_iff, S].
          -- destruct (String.eqb_spec h "docker.io") as [->|N2].
             ++ simpl. destruct (hasChar "/" rem) eqn:S; simpl; intros ->.
                ** apply (Long_hub "docker.io"); [left; reflexivity|]. intro N. apply NoSlash_iff in N. congruence.
                ** apply (Long_hub_official "docker.io"); [left; reflexivity|apply NoSlash_iff, S].
             ++ simpl. intros ->. apply Long_host; auto. intros [->| ->]; contradiction.
        * apply hostLike_false in L. apply NoSlash_iff in Hh. simpl. rewrite hasChar_app, hasChar_cons, Ascii.eqb_refl, orb_true_r. simpl.
          intros ->. change (String "/" rem) with ("/" +++ rem)%string. apply Long_user; assumption.
      + simpl. rewrite Hh. simpl. intros ->. apply Long_official, NoSlash_iff, Hh.
  Qed.
  Lemma Long_total s : exists t, Long s t.
  Proof. destruct (splitDockerDomain s) as [d r] eqn:E. exists (d +++ "/" +++ r)%string. apply split_long. rewrite E. reflexivity. Qed.
  Lemma Long_det s t t' : Long s t -> Long s t' -> t = t'.
  Proof. rewrite !split_long. destruct (splitDockerDomain s). congruence. Qed.

  (** A written-out name is its own written-out name. *)
  Lemma Long_idem s t : Long s t -> Long t t.
  Proof.
    assert (H1 : forall u r, NoSlash u -> Long ("docker.io/" +++ u +++ "/" +++ r) ("docker.io/" +++ u +++ "/" +++ r)).
    { intros u r Hu. change ("docker.io/" +++ u +++ "/" +++ r)%string with ("docker.io" +++ "/" +++ (u +++ "/" +++ r))%string at 1.
      apply (Long_hub "docker.io"); [left; reflexivity|]. intro H. apply H. rewrite !laos_app, !in_app_iff. simpl. auto. }
    assert (H2 : forall r, ~ NoSlash r -> Long ("docker.io/" +++ r) ("docker.io/" +++ r)).
    { intros r Hr. change ("docker.io/" +++ r)%string with ("docker.io" +++ "/" +++ r)%string at 1. apply (Long_hub "docker.io"); [left; reflexivity|exact Hr]. }
    destruct 1 as [d rem Hd Hh Hn|d rem Hd Hr|d x Hd Hx|u rem Hu Hh|x Hx].
    - apply Long_host; assumption.
    - apply H2, Hr.
    - apply (H1 "library"). unfold NoSlash. simpl. intuition discriminate.
    - apply H1, Hu.
    - apply (H1 "library"). unfold NoSlash. simpl. intuition discriminate.
  Qed.
  Lemma Long_slash s t : Long s t -> hasChar "/" t = true.
  Proof.
    destruct 1 as [d rem Hd Hh Hn|d rem Hd Hr|d x Hd Hx|u rem Hu Hh|x Hx]; try reflexivity.
    rewrite hasChar_app. apply orb_true_r.
  Qed.
  Lemma Hex_no_slash n s : Hex n s -> hasChar "/" s = false.
  Proof. intros [_ H]. apply (eqb_none isHexLower); [reflexivity|exact H]. Qed.
  Lemma Digest_no_slash s : Digest av s -> hasChar "/" s = false.
  Proof.
    intros (alg & e & n & -> & Hin & _ & H). rewrite hasChar_app.
    change (hasChar "/" (":" +++ e)%string) with (hasChar "/" e). rewrite (Hex_no_slash _ _ H), orb_false_r.
    destruct Hin as [E|[E|[E|[]]]]; injection E as <- <-; reflexivity.
  Qed.

  (** The lower-case check never refuses a parsable name. *)
  Lemma toLower_low f s : (forall c, f c = true -> isUpper c = false) -> sforallb f s = true -> toLower s = s.
  Proof.
    intros Hf. unfold toLower. induction s as [|c s IH]; [reflexivity|]. simpl. rewrite andb_true_iff. intros [Hc Hs].
    rewrite IH by exact Hs. unfold lowerChar. rewrite (Hf c Hc). reflexivity.
  Qed.
  Lemma compChar_low c : compChar c = true -> isUpper c = false.
  Proof.
    unfold compChar, isLowNum, isLower, isDigit, isUpper, between. intro H.
    destruct (Ascii.eqb_spec c "."); [subst; reflexivity|]. destruct (Ascii.eqb_spec c "_"); [subst; reflexivity|].
    destruct (Ascii.eqb_spec c "-"); [subst; reflexivity|]. rewrite !orb_false_r in H.
    apply not_true_iff_false. rewrite andb_true_iff, !N.leb_le. rewrite orb_true_iff, !andb_true_iff, !N.leb_le in H. lia.
  Qed.
  Lemma toLower_app a b : toLower (a +++ b) = (toLower a +++ toLower b)%string.
  Proof. apply smap_chars_app. Qed.
  Lemma cut_fst_app sep a b : hasChar sep a = false -> fst (cut sep (a +++ b)) = (a +++ fst (cut sep b))%string.
  Proof.
    unfold hasChar. induction a as [|c a IH]; [reflexivity|]. simpl. rewrite orb_false_iff. intros [H1 H2].
    rewrite Ascii.eqb_sym, H1. specialize (IH H2). destruct (cut sep (a +++ b)). simpl in *. rewrite IH. reflexivity.
  Qed.
  Lemma remote_lower r segs d :
    segs <> [] -> Forall Component segs -> r_path r = join "/" segs ->
    (r_tag r = "" \/ Tag (r_tag r)) -> (r_digest r = "" \/ Digest av (r_digest r)) ->
    forall pre, r_path r = (pre +++ d)%string ->
    let tail := ((if isEmpty (r_tag r) then "" else ":" +++ r_tag r) +++ (if isEmpty (r_digest r) then "" else "@" +++ r_digest r))%string in
    toLower (fst (cut ":" (d +++ tail))) = fst (cut ":" (d +++ tail)).
  Proof.
    intros Hne Hc Hp Ht Hg pre Ed tail.
    assert (Hl : sforallb (fun c => compChar c || Ascii.eqb c "/") (r_path r) = true).
    { rewrite Hp. clear -Hc. induction Hc as [|x l Hx Hl IH]; [reflexivity|].
      assert (X : sforallb (fun c => compChar c || Ascii.eqb c "/") x = true).
      { apply Component_chars in Hx. revert Hx. apply sforallb_impl. intros c ->. reflexivity. }
      destruct l as [|y l]; [exact X|]. change (join "/" (x :: y :: l)) with (x +++ "/" +++ join "/" (y :: l))%string.
      rewrite !sforallb_app, X, IH. reflexivity. }
    rewrite Ed, sforallb_app, andb_true_iff in Hl. destruct Hl as [_ Hl].
    assert (Ld : toLower d = d).
    { apply (toLower_low (fun c => compChar c || Ascii.eqb c "/")); [|exact Hl]. intros c. rewrite orb_true_iff. intros [H|H].
      - apply compChar_low, H.
      - apply Ascii.eqb_eq in H; subst. reflexivity. }
    assert (Nd : hasChar ":" d = false) by (apply (eqb_none (fun c => compChar c || Ascii.eqb c "/")); [reflexivity|exact Hl]).
    rewrite cut_fst_app by exact Nd. rewrite toLower_app, Ld. f_equal. unfold tail.
    destruct (isEmpty (r_tag r)); [|reflexivity]. cbn [String.append].
    destruct (isEmpty (r_digest r)) eqn:E; [reflexivity|]. destruct Hg as [Hg|Hg]; [rewrite Hg in E; discriminate|].
    destruct Hg as (alg & e & n & -> & Hin & _). change ("@" +++ alg +++ ":" +++ e)%string with (("@" +++ alg) +++ String ":" e)%string.
    destruct Hin as [X|[X|[X|[]]]]; injection X as <- <-; reflexivity.
  Qed.
  Lemma normalized_iff s r :
    parseNormalizedNamed av s = Some r <-> ~ Hex 64 s /\ Long s (refString r) /\ ValidRef av r.
  Proof.
    unfold parseNormalizedNamed. pose proof (split_long s (refString r)) as L.
    destruct (isIdentifier s) eqn:I.
    { split; [discriminate|]. intros [H _]. exfalso. apply H, isIdentifier_iff, I. }
    assert (NI : ~ Hex 64 s) by (intro H; apply isIdentifier_iff in H; congruence).
    destruct (splitDockerDomain s) as [d rem] eqn:E. split.
    - destruct (negb _); [discriminate|]. intro H. apply parse_inv in H as [V T]. rewrite L. auto.
    - intros (_ & H & V). apply L in H.
      assert (toLower (fst (cut ":" rem)) = fst (cut ":" rem)) as ->.
      { destruct V as (segs & Hne & Hc & Hp & Hd & Ht & Hg & Hlen). unfold refString in H.
        (* the remainder is a suffix of path and tail *)
        assert (S : exists pre d', r_path r = (pre +++ d')%string /\
                    rem = (d' +++ ((if isEmpty (r_tag r) then "" else ":" +++ r_tag r) +++ (if isEmpty (r_digest r) then "" else "@" +++ r_digest r)))%string).
        { assert (Nd : hasChar "/" d = false).
          { unfold splitDockerDomain in E. destruct (cut "/" s) as [h o] eqn:C. apply cut_inv in C as [Hh _].
            assert (G : forall x y, hasChar "/" x = false ->
              (let domain := if String.eqb x "index.docker.io" then "docker.io" else x in
               if String.eqb domain "docker.io" && negb (hasChar "/" y) then (domain, "library/" +++ y)%string else (domain, y)) = (d, rem) ->
              hasChar "/" d = false).
            { intros x y Hx. cbv zeta. destruct (String.eqb_spec x "index.docker.io"); destruct (_ && _); intros [= <- _]; auto. }
            destruct o as [rr|]; [destruct (hostLike h)|]; revert E; apply G; auto. }
          destruct (isEmpty (r_domain r)) eqn:Ed.
          - unfold refName in H. rewrite Ed in H. rewrite Hp in H.
            destruct segs as [|g [|g' segs']]; [congruence| |].
            + exfalso. cbn [join] in H. assert (hasChar "/" g = false) by (apply compChar_no; [reflexivity|inversion Hc; assumption]).
              assert (X : hasChar "/" (if isEmpty (r_tag r) then "" else ":" +++ r_tag r)%string = false).
              { destruct (isEmpty (r_tag r)) eqn:Et; [reflexivity|].
                destruct Ht as [Ht|Ht]; [rewrite Ht in Et; discriminate|]. change (hasChar "/" (r_tag r) = false). apply Tag_no; [reflexivity|exact Ht]. }
              assert (Y : hasChar "/" (if isEmpty (r_digest r) then "" else "@" +++ r_digest r)%string = false).
              { destruct (isEmpty (r_digest r)) eqn:Eg; [reflexivity|]. destruct Hg as [Hg|Hg]; [rewrite Hg in Eg; discriminate|].
                change (hasChar "/" (r_digest r) = false). apply Digest_no_slash, Hg. }
              apply (f_equal (hasChar "/")) in H. rewrite !hasChar_app, X, Y, H0 in H.
              change (false = hasChar "/" d || true) in H. rewrite orb_true_r in H. discriminate.
            + assert (hasChar "/" g = false) by (apply compChar_no; [reflexivity|inversion Hc; assumption]).
              exists (g +++ "/")%string, (join "/" (g' :: segs')). rewrite join_cons in * by discriminate.
              split; [rewrite Hp; rewrite sapp_assoc; reflexivity|].
              apply (f_equal (cut "/")) in H. rewrite !sapp_assoc in H. cbn [String.append] in H.
              rewrite (cut_some "/" g _ H0) in H. rewrite (cut_some "/" d _ Nd) in H. injection H as _ H. symmetry. exact H.
          - unfold refName in H. rewrite Ed in H. exists "", (r_path r). split; [reflexivity|].
            destruct Hd as [Hd|[Hd _]]; [|apply isEmpty_false in Ed; contradiction].
            assert (ND : hasChar "/" (r_domain r) = false) by (apply Domain_no; auto).
            apply (f_equal (cut "/")) in H. rewrite !sapp_assoc in H. cbn [String.append] in H.
            rewrite (cut_some "/" _ _ ND) in H. rewrite (cut_some "/" d _ Nd) in H. injection H as _ H. symmetry. exact H. }
        destruct S as (pre & d' & E1 & E2). rewrite E2. eapply remote_lower; eauto. }
      rewrite String.eqb_refl. cbn [negb]. rewrite <- H. apply parse_text, V.
  Qed.

  (** ** What Trim, Expand and MatchHostname see *)
  Theorem canonicalRef_iff s r : canonicalRef av s = Some r <-> IsImage av s r.
  Proof.
    unfold canonicalRef, parseAnyReference, IsImage. destruct (isIdentifier s) eqn:I.
    - apply isIdentifier_iff in I. split; [|tauto]. unfold parseNamed.
      destruct (parseNormalizedNamed av ("sha256:" +++ s)) as [r'|] eqn:P; [|discriminate].
      destruct (String.eqb_spec (refString r') ("sha256:" +++ s)%string) as [E|]; [|discriminate]. exfalso.
      apply normalized_iff in P as (_ & L & _). apply Long_slash in L. rewrite E, hasChar_app, (Hex_no_slash _ _ I) in L. discriminate.
    - assert (NI : ~ Hex 64 s) by (intro H; apply isIdentifier_iff in H; congruence).
      destruct (digestOk av s) eqn:D.
      + apply digestOk_iff in D. split; [|tauto]. unfold parseNamed.
        destruct (parseNormalizedNamed av s) as [r'|] eqn:P; [|discriminate].
        destruct (String.eqb_spec (refString r') s) as [E|]; [|discriminate]. exfalso.
        apply normalized_iff in P as (_ & L & _). apply Long_slash in L. rewrite E, (Digest_no_slash _ D) in L. discriminate.
      + assert (ND : ~ Digest av s) by (intro H; apply digestOk_iff in H; congruence).
        assert (N2 : forall r', Long s (refString r') -> ValidRef av r' -> parseNamed av (refString r') = Some r').
        { intros r' L V. unfold parseNamed. assert (parseNormalizedNamed av (refString r') = Some r') as ->.
          { apply normalized_iff. split; [|split; [eapply Long_idem; eauto|exact V]]. intro H.
            apply Hex_no_slash in H. apply Long_slash in L. congruence. }
          rewrite String.eqb_refl. reflexivity. }
        destruct (parseNormalizedNamed av s) as [r'|] eqn:P; cbn [option_map].
        * apply normalized_iff in P as (_ & L & V). rewrite (N2 _ L V). split.
          -- intros [= <-]. auto.
          -- intros (L' & V' & _). pose proof (Long_det _ _ _ L L') as E. apply parse_text in V, V'. congruence.
        * split; [discriminate|]. intros (L & V & _). assert (parseNormalizedNamed av s = Some r) by (apply normalized_iff; auto). congruence.
  Qed.
  Lemma IsImage_det s r r' : IsImage av s r -> IsImage av s r' -> r = r'.
  Proof. rewrite <- !canonicalRef_iff. congruence. Qed.
  Lemma not_image s : canonicalRef av s = None <-> ~ exists r, IsImage av s r.
  Proof.
    destruct (canonicalRef av s) as [r|] eqn:E.
    - split; [discriminate|]. intro H. exfalso. apply H. exists r. apply canonicalRef_iff, E.
    - split; [|reflexivity]. intros _ [r H]. apply canonicalRef_iff in H. congruence.
  Qed.

  (** A valid reference whose text is its own long form is an image name. *)
  Lemma image_text r : ValidRef av r -> Long (refString r) (refString r) -> IsImage av (refString r) r.
  Proof.
    intros V L. pose proof (Long_slash _ _ L) as S. split; [exact L|]. split; [exact V|].
    split; intro H; [apply Hex_no_slash in H|apply Digest_no_slash in H]; congruence.
  Qed.

  (** ** Expand *)
  Lemma tagNameOnly_eq r : tagNameOnly r = Tagged r.
  Proof. unfold tagNameOnly, Tagged. destruct (r_tag r), (r_digest r); reflexivity. Qed.
  Lemma Tagged_valid r : ValidRef av r -> ValidRef av (Tagged r).
  Proof.
    intro V. unfold Tagged. destruct (r_tag r) eqn:Et; [|exact V]. destruct (r_digest r) eqn:Eg; [|exact V].
    destruct V as (segs & H1 & H2 & H3 & H4 & H5 & H6 & H7). exists segs. cbn [r_domain r_path r_tag r_digest].
    repeat split; auto. right. apply tagOk_iff. reflexivity.
  Qed.
  Lemma refString_Tagged r : exists t, refString (Tagged r) = (refString r +++ t)%string /\ hasChar "/" t = false /\
    (r_tag r = "" -> r_digest r = "" -> t = ":latest") /\ (r_tag r <> "" \/ r_digest r <> "" -> t = "").
  Proof.
    unfold Tagged. destruct (r_tag r) eqn:Et; [destruct (r_digest r) eqn:Eg|].
    - exists ":latest". unfold refString, refName. cbn [r_domain r_path r_tag r_digest isEmpty]. rewrite Et, Eg. cbn [isEmpty].
      rewrite !sapp_nil_r. repeat split; auto. intros [H|H]; congruence.
    - exists "". rewrite sapp_nil_r. repeat split; auto. congruence.
    - exists "". rewrite sapp_nil_r. repeat split; auto. congruence.
  Qed.
  Lemma Long_app0 s t u : Long s t -> Long (t +++ u) (t +++ u).
  Proof.
    assert (H2 : forall r, ~ NoSlash r -> Long ("docker.io/" +++ r) ("docker.io/" +++ r)).
    { intros r Hr. change ("docker.io/" +++ r)%string with ("docker.io" +++ "/" +++ r)%string at 1. apply (Long_hub "docker.io"); [left; reflexivity|exact Hr]. }
    destruct 1 as [d rem Hd Hh Hn|d rem Hd Hr|d x Hd Hx|u' rem Hu Hh|x Hx].
    - rewrite !sapp_assoc. apply Long_host; assumption.
    - rewrite sapp_assoc. apply H2. intro N. apply Hr. intro H. apply N. rewrite laos_app, in_app_iff. auto.
    - apply (H2 ("library/" +++ x +++ u)%string). intro N. apply N. simpl. auto 10.
    - rewrite !sapp_assoc. apply H2. intro N. apply N. rewrite laos_app, in_app_iff. simpl. auto.
    - apply (H2 ("library/" +++ x +++ u)%string). intro N. apply N. simpl. auto 10.
  Qed.
  Lemma Long_app s u : Long s s -> Long (s +++ u) (s +++ u).
  Proof. apply Long_app0. Qed.
  Lemma image_tagged s r : IsImage av s r -> IsImage av (refString (Tagged r)) (Tagged r).
  Proof.
    intros (L & V & _). apply image_text; [apply Tagged_valid, V|].
    destruct (refString_Tagged r) as (t & -> & _). apply Long_app. eapply Long_idem; eauto.
  Qed.

  Definition tailOf (r : Ref) : string :=
    ((if isEmpty (r_tag r) then "" else ":" +++ r_tag r) +++ (if isEmpty (r_digest r) then "" else "@" +++ r_digest r))%string.
  Lemma tailOf_no_slash r : ValidRef av r -> hasChar "/" (tailOf r) = false.
  Proof.
    intros (segs & Hne & Hc & Hp & Hd & Ht & Hg & Hlen). unfold tailOf. rewrite hasChar_app. apply orb_false_iff. split.
    - destruct (isEmpty (r_tag r)) eqn:Et; [reflexivity|].
      destruct Ht as [Ht|Ht]; [rewrite Ht in Et; discriminate|]. change (hasChar "/" (r_tag r) = false). apply Tag_no; [reflexivity|exact Ht].
    - destruct (isEmpty (r_digest r)) eqn:Eg; [reflexivity|]. destruct Hg as [Hg|Hg]; [rewrite Hg in Eg; discriminate|].
      change (hasChar "/" (r_digest r) = false). apply Digest_no_slash, Hg.
  Qed.
  Lemma split_first u v a b : NoSlash u -> NoSlash v -> (u +++ "/" +++ a)%string = (v +++ "/" +++ b)%string -> u = v /\ a = b.
  Proof.
    intros Hu Hv H. apply NoSlash_iff in Hu, Hv. apply (f_equal (cut "/")) in H.
    change ("/" +++ a)%string with (String "/" a) in H. change ("/" +++ b)%string with (String "/" b) in H.
    rewrite (cut_some _ _ _ Hu), (cut_some _ _ _ Hv) in H. injection H as -> ->. auto.
  Qed.
  Lemma Component_NoSlash x : Component x -> NoSlash x.
  Proof. intro H. apply NoSlash_iff, compChar_no; [reflexivity|exact H]. Qed.
  Lemma Domain_NoSlash x : Domain x -> NoSlash x.
  Proof. intro H. apply NoSlash_iff, Domain_no; auto. Qed.

  Lemma first_seg r u rem : ValidRef av r -> NoSlash u -> refString r = (u +++ "/" +++ rem)%string ->
    (r_domain r = u /\ Domain u /\ rem = (r_path r +++ tailOf r)%string) \/
    (r_domain r = "" /\ ~ Domain u /\ Component u /\ exists p', r_path r = (u +++ "/" +++ p')%string /\ rem = (p' +++ tailOf r)%string).
  Proof.
    intros V Hu E. pose proof (tailOf_no_slash r V) as Nt. destruct V as (segs & Hne & Hc & Hp & Hd & Ht & Hg & Hlen).
    unfold refString in E. fold (tailOf r) in E. unfold refName in E. destruct (isEmpty (r_domain r)) eqn:Ed.
    - right. apply isEmpty_true in Ed. split; [exact Ed|]. destruct segs as [|g [|g' segs']]; [congruence| |].
      + exfalso. rewrite Hp in E. cbn [join] in E. inversion Hc; subst. apply Component_NoSlash, NoSlash_iff in H1.
        apply (f_equal (hasChar "/")) in E. rewrite !hasChar_app, Nt, H1 in E. change (false = hasChar "/" u || true) in E.
        rewrite orb_true_r in E. discriminate.
      + inversion Hc; subst. rewrite Hp, join_cons in E by discriminate. rewrite !sapp_assoc in E.
        apply split_first in E as [<- <-]; [|apply Component_NoSlash; assumption|exact Hu].
        destruct Hd as [Hd|[_ Hd]]; [apply Domain_nonempty in Hd; contradiction|]. cbn [hd length] in Hd.
        split; [intro D; apply Hd; split; [lia|exact D]|]. split; [assumption|]. exists (join "/" (g' :: segs')).
        rewrite Hp, join_cons by discriminate. auto.
    - left. destruct Hd as [Hd|[Hd _]]; [|apply isEmpty_false in Ed; contradiction]. rewrite !sapp_assoc in E.
      apply split_first in E as [<- <-]; [auto|apply Domain_NoSlash, Hd|exact Hu].
  Qed.

  Definition Untagged (r : Ref) : Ref := {| r_domain := r_domain r; r_path := r_path r; r_tag := ""; r_digest := "" |}.
  Lemma Untagged_valid r : ValidRef av r -> ValidRef av (Untagged r).
  Proof. intros (segs & H1 & H2 & H3 & H4 & H5 & H6 & H7). exists segs. cbn. repeat split; auto. Qed.
  Lemma Untagged_text r : refString (Untagged r) = refName r.
  Proof. unfold refString, refName, Untagged. cbn. rewrite !sapp_nil_r. reflexivity. Qed.
  Lemma docker_io_Domain : Domain "docker.io".
  Proof. apply domainOk_iff. reflexivity. Qed.

  (** What a written-out reference looks like. *)
  Lemma image_cases s r : IsImage av s r ->
    (r_domain r = "docker.io" /\ ~ NoSlash (r_path r)) \/
    (r_domain r <> "docker.io" /\ exists d rem, NoSlash d /\ HostLike d /\ ~ Hub d /\ refName r = (d +++ "/" +++ rem)%string).
  Proof.
    intros (L & V & _). pose proof (tailOf_no_slash r V) as Nt. remember (refString r) as t eqn:E.
    assert (HubCase : forall rem, ~ NoSlash rem -> "docker.io/" +++ rem = refString r -> r_domain r = "docker.io" /\ ~ NoSlash (r_path r)).
    { intros rem Hr E'. symmetry in E'. change ("docker.io/" +++ rem)%string with ("docker.io" +++ "/" +++ rem)%string in E'.
      apply first_seg in E' as [(D & _ & ->)|(_ & D & _)]; [|exfalso; apply D, docker_io_Domain|exact V|unfold NoSlash; simpl; intuition discriminate].
      split; [exact D|]. intro N. apply Hr. apply NoSlash_iff. rewrite hasChar_app, Nt, orb_false_r. apply NoSlash_iff, N. }
    destruct L as [d rem Hd Hh Hn|d rem Hd Hr|d x Hd Hx|u rem Hu Hh|x Hx].
    - right. symmetry in E. pose proof E as E'. apply first_seg in E' as [(D & HD & Er)|(D & _ & HC & p' & Ep & Er)]; [| |exact V|exact Hd].
      + split; [intro X; apply Hn; left; congruence|]. exists d, (r_path r). repeat split; auto. unfold refName. rewrite D.
        apply Domain_nonempty, isEmpty_false in HD. rewrite HD. reflexivity.
      + split; [intro X; rewrite X in D; discriminate|]. exists d, p'. repeat split; auto. unfold refName. rewrite D. exact Ep.
    - left. eapply HubCase; eauto.
    - left. apply (HubCase ("library/" +++ x)%string); [|exact E]. intro N. apply N. simpl. auto 10.
    - left. apply (HubCase (u +++ "/" +++ rem)%string); [|exact E]. intro N. apply N. rewrite laos_app, in_app_iff. simpl. auto.
    - left. apply (HubCase ("library/" +++ x)%string); [|exact E]. intro N. apply N. simpl. auto 10.
  Qed.
  Lemma hub_text r : ValidRef av r -> r_domain r = "docker.io" -> refString r = ("docker.io/" +++ r_path r +++ tailOf r)%string.
  Proof. intros V E. unfold refString, refName. rewrite E. cbn [isEmpty]. rewrite sapp_assoc. reflexivity. Qed.

  (** ** Expand *)
  Theorem Expand_image s r : IsImage av s r -> Expand av s = refString (Tagged r).
  Proof. intro H. unfold Expand. apply canonicalRef_iff in H. rewrite H, tagNameOnly_eq. reflexivity. Qed.
  Theorem Expand_other s : (~ exists r, IsImage av s r) -> Expand av s = s.
  Proof. intro H. unfold Expand. apply not_image in H. rewrite H. reflexivity. Qed.
  Lemma Tagged_idem r : Tagged (Tagged r) = Tagged r.
  Proof.
    unfold Tagged at 2 3. destruct (r_tag r) eqn:Et; [destruct (r_digest r) eqn:Eg; [reflexivity|]|];
      unfold Tagged; rewrite Et; try rewrite Eg; reflexivity.
  Qed.
  Lemma image_dec s : {r | IsImage av s r} + {~ exists r, IsImage av s r}.
  Proof.
    destruct (canonicalRef av s) as [r|] eqn:E; [left; exists r; apply canonicalRef_iff, E|right; apply not_image, E].
  Qed.
  Theorem Expand_idem s : Expand av (Expand av s) = Expand av s.
  Proof.
    destruct (image_dec s) as [[r H]|H].
    - rewrite (Expand_image _ _ H). apply image_tagged in H. rewrite (Expand_image _ _ H), Tagged_idem. reflexivity.
    - rewrite !(Expand_other _ H). reflexivity.
  Qed.
  Lemma Tagged_tag r : r_tag (Tagged r) <> "" \/ r_digest (Tagged r) <> "".
  Proof.
    unfold Tagged. destruct (r_tag r) eqn:Et; [destruct (r_digest r) eqn:Eg|]; cbn; [left; discriminate|right; congruence|left; congruence].
  Qed.

  Lemma LowNum_Host t : LowNum t -> HostComponent t.
  Proof.
    intros [Hne Ht]. apply domainComponent_iff. destruct t as [|c t]; [congruence|]. simpl in Ht. apply andb_true_iff in Ht as [Hc Ht].
    unfold domainComponent. rewrite !andb_true_iff. unfold isAlNum at 1. rewrite Hc. split; [split; [reflexivity|]|].
    - revert Ht. apply sforallb_impl. intros d Hd. unfold isAlNum. rewrite Hd. reflexivity.
    - clear Hne. revert c Hc. induction t as [|d t IH]; intros c Hc; cbn [lastByte]; [unfold isAlNum; rewrite Hc; reflexivity|].
      simpl in Ht. apply andb_true_iff in Ht as [Hd Ht]. auto.
  Qed.
  Lemma Host_dash h d t : HostComponent h -> Dashes d -> LowNum t -> HostComponent (h +++ d +++ t).
  Proof.
    intros Hh Hd Ht. pose proof (HostComponent_chars _ Hh) as Ch. apply domainComponent_iff in Hh. apply domainComponent_iff.
    pose proof (LowNum_Host _ Ht) as Th. pose proof (HostComponent_chars _ Th) as Ct. apply domainComponent_iff in Th.
    destruct h as [|c h]; [discriminate|]. cbn [String.append domainComponent]. cbn [domainComponent] in Hh.
    apply andb_true_iff in Hh as [Hh _]. apply andb_true_iff in Hh as [Hc Hh]. rewrite Hc, !sforallb_app. cbn [andb].
    assert (sforallb hostChar d = true) as Cd by (apply sforallb_In; intros x Hx; rewrite (Hd x Hx); reflexivity).
    fold hostChar. cbn [sforallb] in Ch. apply andb_true_iff in Ch as [_ Ch]. unfold hostChar in *. rewrite Ch, Cd, Ct. cbn [andb].
    destruct t as [|e t]; [discriminate|]. cbn [domainComponent] in Th. apply andb_true_iff in Th as [_ Th].
    assert (L : forall a x, lastByte x (a +++ String e t) = lastByte e t) by (induction a; intro x; simpl; auto).
    rewrite <- sapp_assoc, L. exact Th.
  Qed.
  Lemma Component_Domain s : Component s -> hasChar "_" s = false -> Domain s.
  Proof.
    intros H N. assert (exists hs, hs <> [] /\ Forall HostComponent hs /\ s = join "." hs) as (hs & H1 & H2 & H3); [|exists hs; auto].
    induction H as [s Hs|s sep t Hs IH Hsep Ht].
    - exists [s]. split; [discriminate|]. split; [constructor; [apply LowNum_Host, Hs|constructor]|reflexivity].
    - rewrite !hasChar_app, !orb_false_iff in N. destruct N as (N1 & N2 & N3). destruct (IH N1) as (hs & H1 & H2 & ->).
      destruct Hsep as [[<-|[<-|[<-|[]]]]|Hd]; try discriminate.
      + exists (hs ++ [t]). split; [destruct hs; discriminate|]. split; [apply Forall_app; split; [exact H2|constructor; [apply LowNum_Host, Ht|constructor]]|].
        clear -H1. induction hs as [|h hs IH]; [congruence|]. destruct hs as [|h' hs]; [reflexivity|].
        change (join "." ((h :: h' :: hs) ++ [t])) with (h +++ "." +++ join "." ((h' :: hs) ++ [t]))%string.
        rewrite <- IH by discriminate. change (join "." (h :: h' :: hs)) with (h +++ "." +++ join "." (h' :: hs))%string.
        rewrite !sapp_assoc. reflexivity.
      + destruct (exists_last H1) as (init & l & ->). apply Forall_app in H2 as [Hi Hl]. inversion Hl; subst.
        exists (init ++ [(l +++ sep +++ t)%string]). split; [destruct init; discriminate|]. split.
        * apply Forall_app. split; [exact Hi|]. constructor; [apply Host_dash; assumption|constructor].
        * rewrite join_snoc_app. reflexivity.
  Qed.
  Theorem image_host s r : IsImage av s r ->
    Domain (r_domain r) \/
    (r_domain r = "" /\ exists u rem, refName r = (u +++ "/" +++ rem)%string /\ NoSlash u /\ HostLike u /\ hasChar "_" u = true).
  Proof.
    intro H. pose proof H as (L & V & _). destruct (image_cases _ _ H) as [[E _]|[N (d & rem & Hd & Hh & Hn & E)]].
    - left. rewrite E. apply docker_io_Domain.
    - pose proof V as (segs & _ & _ & _ & [HD|[HD _]] & _); [left; exact HD|right]. split; [exact HD|].
      exists d, rem. repeat split; auto.
      pose proof (Untagged_valid _ V) as V0. assert (E0 : refString (Untagged r) = (d +++ "/" +++ rem)%string) by (rewrite Untagged_text; exact E).
      apply first_seg in E0 as [(D & HDm & _)|(_ & ND & HC & _)]; [| |exact V0|exact Hd].
      + exfalso. cbn in D. apply Domain_nonempty in HDm. congruence.
      + destruct (hasChar "_" d) eqn:U; [reflexivity|]. exfalso. apply ND, Component_Domain; assumption.
  Qed.

  (** ** Trim *)
  Lemma familiar_short r : ValidRef av r -> Short_name r (familiarName r).
  Proof.
    intro V. unfold familiarName. destruct (String.eqb_spec (r_domain r) "docker.io") as [E|N]; [|apply SN_other, N].
    pose proof (join_split_on "/" (r_path r)) as J. pose proof (split_on_pieces "/" (r_path r)) as Pc.
    destruct (split_on "/" (r_path r)) as [|l [|x [|y rest]]] eqn:S.
    - exfalso. exact (split_on_nonempty _ _ S).
    - apply SN_hub; [exact E|]. intros x Nx Hx. rewrite Hx in S. change ("library/" +++ x)%string with ("library" +++ String "/" x)%string in S.
      rewrite split_on_app in S by reflexivity. injection S as _ S. exact (split_on_nonempty _ _ S).
    - destruct (String.eqb_spec l "library") as [->|Nl].
      + apply SN_official; [exact E| |symmetry; exact J]. inversion Pc as [|? ? _ Pc']; inversion Pc'; subst. apply NoSlash_iff. assumption.
      + apply SN_hub; [exact E|]. intros x' Nx Hx. rewrite Hx in S. change ("library/" +++ x')%string with ("library" +++ String "/" x')%string in S.
        rewrite split_on_app in S by reflexivity. injection S as S _. congruence.
    - apply SN_hub; [exact E|]. intros x' Nx Hx. rewrite Hx in S. change ("library/" +++ x')%string with ("library" +++ String "/" x')%string in S.
      rewrite split_on_app in S by reflexivity. apply NoSlash_iff in Nx. rewrite (split_on_none _ _ Nx) in S. discriminate.
  Qed.
  Lemma Short_det r x y : Short_name r x -> Short_name r y -> x = y.
  Proof.
    destruct 1 as [x r H1 H2 H3|r H1 H2|r H1]; inversion 1 as [y' r' K1 K2 K3|r' K1 K2|r' K1]; subst; try congruence; try contradiction.
    - rewrite H3 in K3. apply (sapp_inv_head "library/") in K3. exact K3.
    - exfalso. exact (K2 x H2 H3).
    - exfalso. exact (H2 y K2 K3).
  Qed.
  Theorem Trim_image s r : IsImage av s r -> Short_name r (Trim av s).
  Proof. intro H. unfold Trim. pose proof H as (_ & V & _). apply canonicalRef_iff in H. rewrite H. apply familiar_short, V. Qed.
  Theorem Trim_other s : (~ exists r, IsImage av s r) -> Trim av s = s.
  Proof. intro H. unfold Trim. apply not_image in H. rewrite H. reflexivity. Qed.
  Lemma Trim_unique s r x : IsImage av s r -> Short_name r x -> Trim av s = x.
  Proof. intros H Hx. eapply Short_det; [apply Trim_image, H|exact Hx]. Qed.

  Lemma Short_same r r' x : r_domain r = r_domain r' -> r_path r = r_path r' -> Short_name r x -> Short_name r' x.
  Proof.
    intros Ed Ep. destruct 1 as [x r H1 H2 H3|r H1 H2|r H1].
    - apply SN_official; congruence.
    - rewrite Ep. apply SN_hub; [congruence|]. intros y Hy. rewrite <- Ep. auto.
    - replace (refName r) with (refName r') by (unfold refName; rewrite Ed, Ep; reflexivity). apply SN_other. congruence.
  Qed.
  Lemma Tagged_same r : r_domain (Tagged r) = r_domain r /\ r_path (Tagged r) = r_path r.
  Proof. unfold Tagged. destruct (r_tag r); [destruct (r_digest r)|]; auto. Qed.
  Theorem Trim_Expand s : Trim av (Expand av s) = Trim av s.
  Proof.
    destruct (image_dec s) as [[r H]|H].
    - rewrite (Expand_image _ _ H). apply image_tagged in H as H'. apply (Trim_unique _ _ _ H').
      destruct (Tagged_same r). eapply Short_same; [symmetry; eassumption|symmetry; eassumption|]. apply Trim_image, H.
    - rewrite (Expand_other _ H). reflexivity.
  Qed.

  (** Adding a tag. *)
  Lemma Long_tail s t u : Long s t -> hasChar "/" u = false -> Long (s +++ u) (t +++ u).
  Proof.
    intros L Hu. assert (NN : forall x, NoSlash x -> NoSlash (x +++ u)%string).
    { intros x Hx. apply NoSlash_iff. apply NoSlash_iff in Hx. rewrite hasChar_app, Hx, Hu. reflexivity. }
    assert (NY : forall x, ~ NoSlash x -> ~ NoSlash (x +++ u)%string).
    { intros x Hx N. apply Hx. intro H. apply N. rewrite laos_app, in_app_iff. auto. }
    destruct L as [d rem Hd Hh Hn|d rem Hd Hr|d x Hd Hx|u' rem Hu' Hh|x Hx]; rewrite !sapp_assoc.
    - apply Long_host; assumption.
    - apply Long_hub; auto.
    - apply Long_hub_official; auto.
    - apply Long_user; auto.
    - apply Long_official; auto.
  Qed.
  Lemma image_with_tag s r t : IsImage av s r -> r_tag r = "" -> r_digest r = "" -> Tag t -> ~ Digest av (s +++ ":" +++ t) ->
    IsImage av (s +++ ":" +++ t) (WithTag r t).
  Proof.
    intros (L & V & _ & _) Et Eg Ht Hd. split; [|split; [|split; [|exact Hd]]].
    - replace (refString (WithTag r t)) with (refString r +++ ":" +++ t)%string.
      + apply Long_tail; [exact L|]. change (hasChar "/" t = false). apply Tag_no; [reflexivity|exact Ht].
      + unfold refString, WithTag, refName. cbn [r_domain r_path r_tag r_digest]. rewrite Et, Eg. cbn [isEmpty].
        apply Tag_nonempty, isEmpty_false in Ht. rewrite Ht, !sapp_nil_r. reflexivity.
    - destruct V as (segs & H1 & H2 & H3 & H4 & H5 & H6 & H7). exists segs. cbn. repeat split; auto.
    - intros [_ H]. rewrite sforallb_app, andb_true_iff in H. destruct H as [_ H]. discriminate.
  Qed.
  Theorem Trim_tag s r t : IsImage av s r -> r_tag r = "" -> r_digest r = "" -> Tag t -> ~ Digest av (s +++ ":" +++ t) ->
    Trim av (s +++ ":" +++ t) = Trim av s.
  Proof.
    intros H Et Eg Ht Hd. pose proof (image_with_tag _ _ _ H Et Eg Ht Hd) as H'. apply (Trim_unique _ _ _ H').
    eapply Short_same; [..|apply Trim_image, H]; reflexivity.
  Qed.

  (** Trim again. *)
  Lemma parse_segments u rem segs : u :: rem = segs -> rem <> [] -> Forall Component segs -> String.length (join "/" segs) <= 255 ->
    exists r, ValidRef av r /\ refName r = join "/" segs /\ r_tag r = "" /\ r_digest r = "" /\ (r_domain r = u \/ r_domain r = "").
  Proof.
    intros <- Hr Hc Hl. destruct (domainOk u) eqn:D.
    - apply domainOk_iff in D. exists {| r_domain := u; r_path := join "/" rem; r_tag := ""; r_digest := "" |}.
      assert (E : refName {| r_domain := u; r_path := join "/" rem; r_tag := ""; r_digest := "" |} = join "/" (u :: rem)).
      { unfold refName. cbn [r_domain r_path]. pose proof (Domain_nonempty _ D) as Ne. apply isEmpty_false in Ne. rewrite Ne, join_cons by exact Hr. reflexivity. }
      split; [|split; [exact E|cbn; auto]]. exists rem. inversion Hc; subst. rewrite E. cbn. repeat split; auto.
    - exists {| r_domain := ""; r_path := join "/" (u :: rem); r_tag := ""; r_digest := "" |}.
      split; [|split; [reflexivity|cbn; auto]]. exists (u :: rem). repeat split; auto; [discriminate|]. right. cbn. split; [reflexivity|].
      intros [_ X]. apply domainOk_iff in X. congruence.
  Qed.
  Lemma Untagged_name r : refName (Untagged r) = refName r.
  Proof. reflexivity. Qed.

  Theorem Trim_idem s :
    (forall r u rem, IsImage av s r -> r_domain r = "docker.io" -> r_path r = (u +++ "/" +++ rem)%string -> ~ Hub u) ->
    Trim av (Trim av s) = Trim av s.
  Proof.
    intro Hsafe. destruct (image_dec s) as [[r H]|H]; [|rewrite !(Trim_other _ H); reflexivity].
    pose proof (Trim_image _ _ H) as Sh. pose proof H as (L & V & _). set (x := Trim av s) in *.
    pose proof (Untagged_valid _ V) as V0.
    destruct Sh as [x r H1 H2 H3|r H1 H2|r H1].
    - (* official image *)
      destruct (image_dec x) as [[r' H']|H']; [|apply Trim_other, H'].
      apply (Trim_unique _ _ _ H'). destruct H' as (L' & V' & _).
      assert (L2 : Long x ("docker.io/library/" +++ x)) by (apply Long_official, H2).
      pose proof (Long_det _ _ _ L' L2) as E. assert (E0 : refString (Untagged r) = ("docker.io/library/" +++ x)%string).
      { rewrite Untagged_text. unfold refName. rewrite H1, H3. reflexivity. }
      assert (r' = Untagged r) as -> by (apply parse_text in V', V0; congruence).
      eapply Short_same; [..|apply SN_official; [exact H1|exact H2|exact H3]]; reflexivity.
    - destruct (image_cases _ _ H) as [[_ Hs]|[N _]]; [|contradiction].
      destruct V as (segs & Hne & Hc & Hp & Hd & Ht & Hg & Hlen).
      destruct segs as [|u [|v rest]]; [congruence| |].
      { exfalso. apply Hs. rewrite Hp. cbn [join]. inversion Hc. apply Component_NoSlash. assumption. }
      set (rem := v :: rest) in *. assert (Ep : r_path r = (u +++ "/" +++ join "/" rem)%string) by (rewrite Hp; apply join_cons; discriminate).
      assert (Hu : NoSlash u) by (inversion Hc; apply Component_NoSlash; assumption).
      assert (Hlp : String.length (r_path r) <= 255).
      { unfold refName in Hlen. rewrite H1 in Hlen. cbn [isEmpty] in Hlen. rewrite !slength_app in Hlen. lia. }
      destruct (hostLike u) eqn:HL.
      + apply hostLike_iff in HL. specialize (Hsafe r u (join "/" rem) H H1 Ep).
        destruct (parse_segments u rem (u :: rem) eq_refl) as (r' & V' & E' & T' & G' & D'); [discriminate|exact Hc|rewrite <- Hp; exact Hlp|].
        assert (Es : refString r' = r_path r).
        { unfold refString. rewrite T', G', E', <- Hp, !sapp_nil_r. reflexivity. }
        assert (I' : IsImage av (r_path r) r').
        { rewrite <- Es. apply image_text; [exact V'|]. rewrite Es, Ep. apply Long_host; assumption. }
        apply (Trim_unique _ _ _ I'). replace (r_path r) with (refName r') by (rewrite E', Hp; reflexivity). apply SN_other.
        intro X. rewrite X in D'. destruct D' as [D'|D']; [|discriminate]. apply Hsafe. left. congruence.
      + apply hostLike_false in HL.
        assert (E0 : refString (Untagged r) = ("docker.io/" +++ r_path r)%string).
        { rewrite Untagged_text. unfold refName. rewrite H1. reflexivity. }
        assert (I' : IsImage av (r_path r) (Untagged r)).
        { split; [rewrite E0, Ep; apply Long_user; assumption|]. split; [exact V0|].
          split; intro X; [apply Hex_no_slash in X|apply Digest_no_slash in X]; apply Hs, NoSlash_iff, X. }
        apply (Trim_unique _ _ _ I'). eapply Short_same; [..|apply SN_hub; [exact H1|exact H2]]; reflexivity.
    - destruct (image_cases _ _ H) as [[N _]|[_ (d & rem & Hd & Hh & Hn & E)]]; [contradiction|].
      assert (I' : IsImage av (refName r) (Untagged r)).
      { rewrite <- Untagged_text. apply image_text; [exact V0|]. rewrite Untagged_text, E. apply Long_host; assumption. }
      apply (Trim_unique _ _ _ I'). eapply Short_same; [..|apply SN_other, H1]; reflexivity.
  Qed.

  (** ** Match *)
  Lemma Match_loop_iff from to : Match_loop av from to = true <-> exists m, In m to /\ from = Trim av m.
  Proof.
    induction to as [|m to IH]; cbn [Match_loop]; [split; [discriminate|intros (m & [] & _)]|].
    destruct (String.eqb_spec from (Trim av m)) as [E|N].
    - split; [intros _; exists m; simpl; auto|reflexivity].
    - rewrite IH. split; intros (q & Hq & E); exists q; simpl; auto. destruct Hq as [->|Hq]; [contradiction|auto].
  Qed.
  Lemma ImageMatch_iff a l : ImageMatch av a l = true <-> exists m, In m l /\ Trim av a = Trim av m.
  Proof. apply Match_loop_iff. Qed.
  Lemma ImageMatch_one a b : ImageMatch av a [b] = true <-> Trim av a = Trim av b.
  Proof. rewrite ImageMatch_iff. split; [intros (m & [<-|[]] & E); exact E|intro E; exists b; simpl; auto]. Qed.
  Theorem ImageMatch_list a l : ImageMatch av a l = true <-> exists b, In b l /\ ImageMatch av a [b] = true.
  Proof. rewrite ImageMatch_iff. split; intros (b & Hb & E); exists b; split; auto; apply ImageMatch_one, E. Qed.
  Theorem ImageMatch_equiv :
    (forall a, ImageMatch av a [a] = true) /\
    (forall a b, ImageMatch av a [b] = true -> ImageMatch av b [a] = true) /\
    (forall a b c, ImageMatch av a [b] = true -> ImageMatch av b [c] = true -> ImageMatch av a [c] = true).
  Proof. repeat split; intros *; rewrite ?ImageMatch_one; congruence. Qed.
  Theorem MatchTag_equiv :
    (forall a, MatchTag av a a = true) /\
    (forall a b, MatchTag av a b = true -> MatchTag av b a = true) /\
    (forall a b c, MatchTag av a b = true -> MatchTag av b c = true -> MatchTag av a c = true).
  Proof. unfold MatchTag. repeat split; intros *; rewrite ?String.eqb_eq; congruence. Qed.
  Theorem MatchTag_Match a b : MatchTag av a b = true -> ImageMatch av a [b] = true.
  Proof.
    unfold MatchTag. rewrite String.eqb_eq, ImageMatch_one. intro E. rewrite <- (Trim_Expand a), <- (Trim_Expand b), E. reflexivity.
  Qed.
  Lemma refString_inj r r' : ValidRef av r -> ValidRef av r' -> refString r = refString r' -> r = r'.
  Proof. intros V V' E. apply parse_text in V, V'. congruence. Qed.
  Theorem MatchTag_iff a b ra rb : IsImage av a ra -> IsImage av b rb -> (MatchTag av a b = true <-> Tagged ra = Tagged rb).
  Proof.
    intros Ha Hb. unfold MatchTag. rewrite String.eqb_eq, (Expand_image _ _ Ha), (Expand_image _ _ Hb). split; [|congruence].
    destruct Ha as (_ & Va & _), Hb as (_ & Vb & _). apply refString_inj; apply Tagged_valid; assumption.
  Qed.

  Lemma not_NoSlash_split p : ~ NoSlash p -> exists u rem, NoSlash u /\ p = (u +++ "/" +++ rem)%string.
  Proof.
    intro H. destruct (cut "/" p) as [u o] eqn:C. apply cut_inv in C as [Hu E]. destruct o as [rem|].
    - exists u, rem. split; [apply NoSlash_iff, Hu|exact E].
    - exfalso. apply H. rewrite E, sapp_nil_r. apply NoSlash_iff, Hu.
  Qed.
  Theorem Match_same_repository a b ra rb : IsImage av a ra -> IsImage av b rb -> HubSafe ra -> HubSafe rb ->
    (ImageMatch av a [b] = true <-> r_domain ra = r_domain rb /\ r_path ra = r_path rb).
  Proof.
    intros Ha Hb Sa Sb. rewrite ImageMatch_one. split.
    2:{ intros [E1 E2]. symmetry. apply (Trim_unique _ _ _ Hb). eapply Short_same; [exact E1|exact E2|]. apply Trim_image, Ha. }
    intro E. pose proof (Trim_image _ _ Ha) as Na. pose proof (Trim_image _ _ Hb) as Nb. rewrite <- E in Nb. clear E.
    assert (W : forall r r' x, HubSafe r -> r_domain r = "docker.io" -> ~ NoSlash (r_path r) ->
                IsImage av x r' -> r_domain r' <> "docker.io" -> r_path r <> refName r').
    { intros r r' x S D NS I' N E. destruct (image_cases _ _ I') as [[X _]|[_ (d & rem & Hd & Hh & Hn & E')]]; [contradiction|].
      rewrite E' in E. exact (S D d rem Hd E Hh). }
    assert (W2 : forall r x s, IsImage av s r -> r_domain r <> "docker.io" -> NoSlash x -> x <> refName r).
    { intros r x s I' N Hx E. destruct (image_cases _ _ I') as [[X _]|[_ (d & rem & Hd & Hh & Hn & E')]]; [contradiction|].
      apply Hx. rewrite E, E', laos_app, in_app_iff. simpl. auto. }
    assert (W3 : forall r s, IsImage av s r -> r_domain r = "docker.io" -> ~ NoSlash (r_path r)).
    { intros r s I' D. destruct (image_cases _ _ I') as [[_ X]|[X _]]; [exact X|contradiction]. }
    inversion Na as [x r H1 H2 H3 Er Ex|r H1 H2 Er Ex|r H1 Er Ex]; inversion Nb as [y r' K1 K2 K3 Kr Kx|r' K1 K2 Kr Kx|r' K1 Kr Kx]; subst.
    - split; [congruence|]. rewrite H3, K3. congruence.
    - exfalso. apply (W3 _ _ Hb K1). rewrite Kx. exact H2.
    - exfalso. exact (W2 _ _ _ Hb K1 H2 (eq_sym Kx)).
    - exfalso. apply (W3 _ _ Ha H1). rewrite Ex. exact K2.
    - split; congruence.
    - exfalso. apply (W ra rb b Sa H1 (W3 _ _ Ha H1) Hb K1). congruence.
    - exfalso. apply (W2 _ _ _ Ha H1 K2). congruence.
    - exfalso. apply (W rb ra a Sb K1 (W3 _ _ Hb K1) Ha H1). congruence.
    - destruct Ha as (_ & Va & _), Hb as (_ & Vb & _). assert (X : refString (Untagged ra) = refString (Untagged rb)) by (rewrite !Untagged_text; congruence).
      apply refString_inj in X; [|apply Untagged_valid; assumption|apply Untagged_valid; assumption].
      unfold Untagged in X. injection X as -> ->. auto.
  Qed.
  Theorem MatchHostname_iff s r h : IsImage av s r ->
    (MatchHostname av s h = true <-> r_domain r = (if String.eqb h "index.docker.io" then "docker.io" else h)).
  Proof. intro H. unfold MatchHostname. apply canonicalRef_iff in H. rewrite H. apply String.eqb_eq. Qed.
  Theorem MatchHostname_other s h : (~ exists r, IsImage av s r) -> MatchHostname av s h = false.
  Proof. intro H. unfold MatchHostname. apply not_image in H. rewrite H. reflexivity. Qed.
  Theorem MatchHostname_unique s h h' :
    MatchHostname av s h = true -> MatchHostname av s h' = true -> h <> "index.docker.io" -> h' <> "index.docker.io" -> h = h'.
  Proof.
    destruct (image_dec s) as [[r H]|H]; [|rewrite (MatchHostname_other _ _ H); discriminate].
    rewrite !(MatchHostname_iff _ _ _ H). intros E E' N N'.
    destruct (String.eqb_spec h "index.docker.io"), (String.eqb_spec h' "index.docker.io"); congruence.
  Qed.
  Theorem Expand_tagged s r : IsImage av s r ->
    IsImage av (Expand av s) (Tagged r) /\ (r_tag (Tagged r) <> "" \/ r_digest (Tagged r) <> "").
  Proof. intro H. rewrite (Expand_image _ _ H). split; [eapply image_tagged, H|apply Tagged_tag]. Qed.
  Theorem ImageMatch_tag s r t x :
    IsImage av s r -> r_tag r = "" -> r_digest r = "" -> Tag t -> ~ Digest av (s +++ ":" +++ t) ->
    ImageMatch av (s +++ ":" +++ t) [x] = ImageMatch av s [x] /\ ImageMatch av x [(s +++ ":" +++ t)%string] = ImageMatch av x [s].
  Proof. intros H Et Eg Ht Hd. unfold ImageMatch, Match_loop. rewrite (Trim_tag _ _ _ H Et Eg Ht Hd). auto. Qed.
End Facts.

(** ** DindFunc *)
Theorem DindFunc_iff av images c :
  DindFunc av images c = true <->
  ct_commands c = [] /\ ct_command c = [] /\ ct_entrypoint c = [] /\
  exists img, In img images /\ ImageMatch av img [ct_image c] = true.
Proof.
  unfold DindFunc. destruct (ct_commands c), (ct_command c), (ct_entrypoint c); cbn [negb length Nat.eqb];
    try (split; [discriminate|intros (? & ? & ? & _); discriminate]).
  rewrite existsb_exists. split; [intros (i & H & E); eauto 10|intros (_ & _ & _ & i & H & E); eauto].
Qed.
Theorem DindFunc_same_repository av images c r :
  IsImage av (ct_image c) r -> HubSafe r ->
  (forall img, In img images -> exists ri, IsImage av img ri /\ HubSafe ri) ->
  ct_commands c = [] -> ct_command c = [] -> ct_entrypoint c = [] ->
  (DindFunc av images c = true <->
   exists img ri, In img images /\ IsImage av img ri /\ r_domain ri = r_domain r /\ r_path ri = r_path r).
Proof.
  intros Hc Sc Hi C1 C2 C3. rewrite DindFunc_iff. split.
  - intros (_ & _ & _ & img & Hin & M). destruct (Hi img Hin) as (ri & Ii & Si). exists img, ri.
    apply (Match_same_repository av _ _ _ _ Ii Hc Si Sc) in M. tauto.
  - intros (img & ri & Hin & Ii & E1 & E2). repeat split; auto. exists img. split; [exact Hin|].
    destruct (Hi img Hin) as (ri' & Ii' & Si). pose proof (IsImage_det _ _ _ _ Ii Ii') as <-.
    apply (Match_same_repository av _ _ _ _ Ii Hc Si Sc). auto.
Qed.

(** ** Characters *)
Lemma image_characters : forall c,
  (isLowNum c = true <-> In c (list_ascii_of_string "abcdefghijklmnopqrstuvwxyz0123456789")) /\
  (isAlNum c = true <-> In c (list_ascii_of_string "abcdefghijklmnopqrstuvwxyz0123456789ABCDEFGHIJKLMNOPQRSTUVWXYZ")) /\
  (isWord c = true <-> In c (list_ascii_of_string "abcdefghijklmnopqrstuvwxyz0123456789ABCDEFGHIJKLMNOPQRSTUVWXYZ_")) /\
  (isHexLower c = true <-> In c (list_ascii_of_string "0123456789abcdef")) /\
  (isDigit c = true <-> In c (list_ascii_of_string "0123456789")).
Proof.
  intro c. rewrite <- !hasChar_In.
  assert (E : isLowNum c = hasChar c "abcdefghijklmnopqrstuvwxyz0123456789" /\
    isAlNum c = hasChar c "abcdefghijklmnopqrstuvwxyz0123456789ABCDEFGHIJKLMNOPQRSTUVWXYZ" /\
    isWord c = hasChar c "abcdefghijklmnopqrstuvwxyz0123456789ABCDEFGHIJKLMNOPQRSTUVWXYZ_" /\
    isHexLower c = hasChar c "0123456789abcdef" /\ isDigit c = hasChar c "0123456789").
  { destruct c as [[] [] [] [] [] [] [] []]; repeat split; reflexivity. }
  destruct E as (-> & -> & -> & -> & ->). tauto.
Qed.
