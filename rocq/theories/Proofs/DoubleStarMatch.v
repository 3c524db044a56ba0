(** * DoubleStarMatch.v: what a component matches. *)
From Coq Require Import Lia.
From Verif Require Import Model.Go Model.Glob Model.DoubleStar.
From Verif Require Import Spec.GlobSpec Spec.DoubleStarSpec.
From Verif Require Import Proofs.GoFacts Proofs.DoubleStarFacts.

(** ** Choices *)
Lemma chosen_one : forall x cs e, Chosen ([[x]] :: cs) e <-> exists e', e = x :: e' /\ Chosen cs e'.
Proof.
  intros x cs e. split.
  - intro H. inversion H as [|o os cs' e' I C]; subst. destruct I as [<-|[]]. exists e'. auto.
  - intros (e' & -> & C). apply (chosen_more [x]); [left; reflexivity|exact C].
Qed.
Lemma chosen_options : forall o cs e, Chosen (map (fun x => [[x]]) o ++ cs) e <-> exists e', e = o ++ e' /\ Chosen cs e'.
Proof.
  induction o as [|x o IH]; intros cs e; cbn [map app].
  - split; [intro H; exists e; auto|intros (e' & -> & H); exact H].
  - rewrite chosen_one. split.
    + intros (e' & -> & H). apply IH in H. destruct H as (e'' & -> & H). exists e''. auto.
    + intros (e' & -> & H). eexists. split; [reflexivity|]. apply IH. exists e'. auto.
Qed.
Lemma option_component : forall t o, Option t o -> forall p cs, Component p cs -> Component (t ++ p) (map (fun x => [[x]]) o ++ cs).
Proof.
  induction 1 as [|t o H IH|t o H IH|r t o N H IH]; intros p cs C; cbn [app map]; [exact C|apply component_star; auto|apply component_any; auto|apply component_literal; [|auto]].
  intro X. apply N. cbn in *. tauto.
Qed.
Lemma onestar_tail : forall o os cs, In o os -> OneStar (os :: cs) -> OneStar cs.
Proof. intros o os cs I H e before after C E. apply (H (o ++ e) (o ++ before) after); [apply chosen_more; assumption|]. rewrite E, <- !app_assoc. reflexivity. Qed.
Lemma onestar_option : forall o os cs, In o os -> OneStar (os :: cs) -> OneStar (map (fun x => [[x]]) o ++ cs).
Proof. intros o os cs I H e before after C. apply chosen_options in C. destruct C as (e' & -> & C). apply H. apply chosen_more; assumption. Qed.
Lemma matches_one : forall x cs n, ComponentMatches ([[x]] :: cs) n <-> exists e, Chosen cs e /\ PartsMatch (x :: e) n.
Proof.
  intros x cs n. unfold ComponentMatches. split.
  - intros (e & C & M). apply chosen_one in C. destruct C as (e' & -> & C). exists e'. auto.
  - intros (e & C & M). exists (x :: e). split; [apply chosen_one; exists e; auto|exact M].
Qed.
(** ** The empty text *)
Lemma match_empty : forall e n, PartsMatch e n -> n = [] -> Forall (fun x => x = PStar) e.
Proof. induction 1 as [|a ps n H IH| | |]; intro E; try discriminate; constructor; [reflexivity|]. apply app_eq_nil in E. exact (IH (proj2 E)). Qed.
Lemma stars_text : forall p cs, Component p cs -> forall e, Chosen cs e -> Forall (fun x => x = PStar) e -> exists k, p = repeat 42%N k /\ e = repeat PStar k.
Proof.
  induction 1 as [|p cs H IH|p cs H IH|r p cs N H IH|r p cs N H IH|negated ls rs p cs Nl F Hd H IH|texts os p cs Nt F Fo H IH]; intros e C A;
    try (apply chosen_one in C; destruct C as (e' & -> & C); inversion A as [|? ? X A']; subst; try discriminate X).
  - inversion C. exists 0. auto.
  - destruct (IH e' C A') as (k & -> & ->). exists (S k). auto.
  - inversion C as [|o os' cs' e' I C']; subst. apply Forall_app in A. destruct A as [A _]. rewrite Forall_forall in Fo, A. destruct (Fo o I) as (x & Ix & Nx). elim (Nx (A x Ix)).
Qed.
Lemma empty_ok : forall p cs, Component p cs -> OneStar cs -> (ComponentMatches cs [] <-> p = [] \/ p = [42%N]).
Proof.
  intros p cs C O. split.
  - intros (e & H & M). destruct (stars_text p cs C e H (match_empty e [] M eq_refl)) as (k & -> & ->). destruct k as [|[|k]]; [left; reflexivity|right; reflexivity|].
    elim (O _ [] (repeat PStar k) H). reflexivity.
  - intros [-> | ->].
    + inversion C; subst. exists []. split; constructor.
    + inversion C as [|p0 cs0 C0| | r p0 cs0 N _| | |]; subst; [|elim N; cbn; auto]. inversion C0; subst. exists [PStar]. split; [apply (chosen_more [PStar]); [left; reflexivity|constructor]|]. apply (match_star []). constructor.
Qed.
Lemma isStars_ok : forall k p, isStars k p = true <-> p = repeat 42%N k.
Proof. intros k p. unfold isStars. destruct (list_eq_dec N.eq_dec p (repeat 42%N k)); split; auto; discriminate. Qed.
Lemma two_stars : forall p cs, Component p cs -> OneStar cs -> p <> [42%N; 42%N].
Proof.
  intros p cs C O ->. inversion C as [|p0 cs0 C0| | r p0 cs0 N _| | |]; subst; [|elim N; cbn; auto]. inversion C0 as [|p1 cs1 C1| | r p1 cs1 N _| | |]; subst; [|elim N; cbn; auto]. inversion C1; subst.
  apply (O [PStar; PStar] [] []); [|reflexivity]. apply (chosen_more [PStar]); [left; reflexivity|]. apply (chosen_more [PStar]); [left; reflexivity|constructor].
Qed.
Lemma suffixes_ok : forall l s, In s (suffixes l) <-> s <> [] /\ exists a, l = a ++ s.
Proof.
  induction l as [|c l IH]; intro s; cbn [suffixes]; split.
  - intros [].
  - intros (N & a & E). symmetry in E. apply app_eq_nil in E. elim (N (proj2 E)).
  - intros [<-|I]; [split; [discriminate|exists []; reflexivity]|]. apply IH in I. destruct I as (N & a & ->). split; [exact N|]. exists (c :: a). reflexivity.
  - intros (N & a & E). destruct a as [|d a]; [left; exact E|right]. injection E as -> ->. apply IH. split; [exact N|]. exists a. reflexivity.
Qed.
(** ** The loop *)
Definition Decides (x : option bool) (P : Prop) : Prop := exists b, x = Some b /\ (b = true <-> P).
Lemma decides_yes : forall x P, Decides x P -> (yes x = true <-> P).
Proof. intros x P (b & -> & H). destruct b; exact H. Qed.
Lemma decides_same : forall x P Q, Decides x P -> (P <-> Q) -> Decides x Q.
Proof. intros x P Q (b & E & H) PQ. exists b. split; [exact E|]. rewrite H. exact PQ. Qed.
Lemma decides_no : forall P : Prop, ~ P -> Decides (Some false) P.
Proof. intros P N. exists false. split; [reflexivity|]. split; [discriminate|contradiction]. Qed.
Lemma enter_ok : forall f p n cs, Component p cs -> OneStar cs -> Decides (matchLoop (S f) p n) (ComponentMatches cs n) ->
  Decides (enter (matchLoop (S f)) p n) (ComponentMatches cs n).
Proof.
  intros f p n cs C O D. unfold enter. destruct p as [|c p]; [destruct n; exact D|]. cbn [isNil andb]. destruct n as [|r n]; cbn [isNil andb]; [|exact D].
  destruct (isStars 1 (c :: p)) eqn:E; [exact D|]. apply decides_no. intro M. apply (empty_ok _ _ C O) in M. destruct M as [M|M]; [discriminate|]. apply (proj2 (isStars_ok 1 _)) in M. congruence.
Qed.
Lemma try_ok : forall m options (P : list N -> Prop), Forall (fun o => Decides (m o) (P o)) options -> Decides (tryOptions m options) (exists o, In o options /\ P o).
Proof.
  intros m options P. induction 1 as [|o os (b & E & H) F IH]; cbn [tryOptions]; [apply decides_no; intros (o & [] & _)|]. rewrite E. destruct b.
  - exists true. split; [reflexivity|]. split; [|auto]. intros _. exists o. split; [left; reflexivity|]. apply H. reflexivity.
  - destruct IH as (b & E' & H'). exists b. split; [exact E'|]. rewrite H'. split.
    + intros (x & I & X). exists x. split; [right; exact I|exact X].
    + intros (x & [<-|I] & X); [apply H in X; discriminate|]. exists x. auto.
Qed.
Lemma option_chars : forall t o, Option t o -> Forall (fun c => c <> comma /\ c <> closingBrace /\ c <> backslash) t.
Proof.
  induction 1 as [|t o H IH|t o H IH|r t o N H IH]; constructor; try exact IH; try (repeat split; discriminate). repeat split; intros ->; apply N; cbn; tauto.
Qed.
Lemma joined_chars : forall (P : N -> Prop) sep l, P sep -> Forall (Forall P) l -> Forall P (joinWith sep l).
Proof.
  intros P sep l Ps. induction 1 as [|t l Ht F IH]; [constructor|]. destruct l as [|u l]; [exact Ht|]. change (joinWith sep (t :: u :: l)) with (t ++ sep :: joinWith sep (u :: l)). apply Forall_app. split; [exact Ht|]. constructor; assumption.
Qed.
Lemma forall2_in_left : forall (A B : Type) (R : A -> B -> Prop) l m x, Forall2 R l m -> In x l -> exists y, In y m /\ R x y.
Proof. intros A B R l m x. induction 1 as [|a b l m H F IH]; intros []; [subst; exists b; split; [left; reflexivity|exact H]|]. destruct (IH H0) as (y & I & Y). exists y. split; [right; exact I|exact Y]. Qed.
Lemma forall2_in_right : forall (A B : Type) (R : A -> B -> Prop) l m y, Forall2 R l m -> In y m -> exists x, In x l /\ R x y.
Proof. intros A B R l m y. induction 1 as [|a b l m H F IH]; intros []; [subst; exists a; split; [left; reflexivity|exact H]|]. destruct (IH H0) as (x & I & X). exists x. split; [right; exact I|exact X]. Qed.
Lemma join_length : forall sep l t, In t l -> length t <= length (joinWith sep l).
Proof.
  intros sep. induction l as [|u l IH]; intros t I; [destruct I|]. destruct l as [|v l]; [destruct I as [<-|[]]; reflexivity|].
  change (joinWith sep (u :: v :: l)) with (u ++ sep :: joinWith sep (v :: l)). rewrite app_length. cbn [length]. destruct I as [<-|I]; [lia|]. specialize (IH t I). lia.
Qed.
Theorem loop_ok : forall fuel p n cs, length p < fuel -> Component p cs -> OneStar cs -> Decides (matchLoop fuel p n) (ComponentMatches cs n).
Proof.
  induction fuel as [|fuel IH]; intros p n cs L C O; [lia|].
  destruct n as [|r n].
  { destruct p as [|c p].
    - inversion C; subst. exists true. split; [reflexivity|]. split; auto. intros _. exists []. split; constructor.
    - eexists. split; [reflexivity|]. rewrite (empty_ok _ _ C O), orb_true_iff, !isStars_ok. split.
      + intros [X|X]; [right; exact X|]. elim (two_stars _ _ C O X).
      + intros [X|X]; [discriminate|left; exact X]. }
  assert (E : forall p' n' cs', length p' < fuel -> Component p' cs' -> OneStar cs' -> Decides (enter (matchLoop fuel) p' n') (ComponentMatches cs' n')).
  { intros p' n' cs' L' C' O'. destruct fuel as [|f]; [lia|]. apply enter_ok; [exact C'|exact O'|]. apply IH; assumption. }
  destruct C as [|p cs C|p cs C|c p cs N C|c p cs N C|negated ls rs p cs Nl F Hd C|texts os p cs Nt F Fo C].
  - apply decides_no. intros (e & H & M). inversion H; subst. inversion M.
  - pose proof (onestar_tail [PStar] [[PStar]] _ (or_introl eq_refl) O) as O'. cbn [length] in L. cbn [matchLoop]. change (N.eqb asterisk 92) with false. change (N.eqb asterisk 42) with true. cbv iota.
    destruct p as [|d p]; cbn [isNil].
    + exists true. split; [reflexivity|]. split; [|auto]. intros _. apply matches_one. inversion C; subst. exists []. split; [constructor|]. rewrite <- (app_nil_r (r :: n)). constructor. constructor.
    + eexists. split; [reflexivity|]. rewrite existsb_exists, matches_one. split.
      * intros (s & I & Y). apply suffixes_ok in I. destruct I as (_ & a & ->). apply (decides_yes _ _ (E (d :: p) s cs ltac:(lia) C O')) in Y. destruct Y as (e & He & M). exists e. split; [exact He|]. constructor. exact M.
      * intros (e & He & M). inversion M as [|a ps n0 M' Eps En| | |]; subst.
        destruct n0 as [|x n0].
        -- assert (X : ComponentMatches cs []) by (exists e; auto). apply (empty_ok _ _ C O') in X. destruct X as [X|X]; [discriminate|]. exists (r :: n). rewrite ?En. split; [apply suffixes_ok; split; [discriminate|exists []; reflexivity]|].
           apply (decides_yes _ _ (E (d :: p) (r :: n) cs ltac:(lia) C O')). injection X as -> ->. inversion C as [|p0 cs0 C0| | q p0 cs0 Nq _| | |]; subst; [|elim Nq; cbn; auto]. inversion C0; subst.
           exists [PStar]. split; [apply (chosen_more [PStar]); [left; reflexivity|constructor]|]. rewrite <- (app_nil_r (r :: n)). constructor. constructor.
        -- exists (x :: n0). split; [apply suffixes_ok; split; [discriminate|exists a; congruence]|]. apply (decides_yes _ _ (E (d :: p) (x :: n0) cs ltac:(lia) C O')). exists e. auto.
  - pose proof (onestar_tail [PAny] [[PAny]] _ (or_introl eq_refl) O) as O'. cbn [length] in L. cbn [matchLoop]. change (N.eqb question 92) with false. change (N.eqb question 42) with false. change (N.eqb question 91) with false. change (N.eqb question 123) with false. change (N.eqb question 63) with true. cbn [orb].
    apply (decides_same _ _ _ (IH p n cs ltac:(lia) C O')). rewrite matches_one. split; intros (e & He & M); exists e; (split; [exact He|]); [constructor; exact M|inversion M; assumption].
  - pose proof (onestar_tail [PLit c] [[PLit c]] _ (or_introl eq_refl) O) as O'. cbn [length] in L. cbn [matchLoop].
    assert (c <> 92 /\ c <> 42 /\ c <> 91 /\ c <> 123 /\ c <> 63)%N as (A1 & A2 & A3 & A4 & A5) by (repeat split; intros ->; apply N; cbn; tauto).
    apply N.eqb_neq in A1, A2, A3, A4, A5. rewrite A1, A2, A3, A4, A5. cbn [orb]. destruct (N.eqb_spec c r) as [->|Nr].
    + apply (decides_same _ _ _ (IH p n cs ltac:(lia) C O')). rewrite matches_one. split; intros (e & He & M); exists e; (split; [exact He|]); [constructor; exact M|inversion M; assumption].
    + apply decides_no. rewrite matches_one. intros (e & _ & M). inversion M. contradiction.
  - pose proof (onestar_tail [PLit c] [[PLit c]] _ (or_introl eq_refl) O) as O'. cbn [length] in L. cbn [matchLoop]. change (N.eqb backslash 92) with true. cbv iota.
    assert (c <> 65533%N) as A by (intros ->; apply N; cbn; tauto). apply N.eqb_neq in A. rewrite A. destruct (N.eqb_spec c r) as [->|Nr].
    + apply (decides_same _ _ _ (IH p n cs ltac:(lia) C O')). rewrite matches_one. split; intros (e & He & M); exists e; (split; [exact He|]); [constructor; exact M|inversion M; assumption].
    + apply decides_no. rewrite matches_one. intros (e & _ & M). inversion M. contradiction.
  - pose proof (onestar_tail [PClass negated rs] [[PClass negated rs]] _ (or_introl eq_refl) O) as O'. cbn [length] in L. rewrite !app_length in L. cbn [length] in L. cbn [matchLoop].
    change (N.eqb bracket 92) with false. change (N.eqb bracket 42) with false. change (N.eqb bracket 91) with true. cbv iota.
    assert (Fp : Forall (Passed 93) ls) by (clear - F; induction F; constructor; [eapply setRange_passed; eassumption|assumption]).
    replace ((if negated then [caret] else []) ++ concat ls ++ closing :: p) with (((if negated then [caret] else []) ++ concat ls) ++ closing :: p) by (symmetry; apply app_assoc).
    rewrite passed_cut by (apply passed_app; [destruct negated; [apply passed_one; discriminate|apply passed_nil]|apply passed_concat; exact Fp]).
    assert (Nc : concat ls <> []).
    { destruct F as [|l x ls0 rs0 R _]; [contradiction|]. cbn. intro X. apply app_eq_nil in X. exact (setRange_nil _ _ R (proj1 X)). }
    assert (Ll : length ls <= length (concat ls)).
    { clear - F. induction F as [|l x ls rs R F IH]; [reflexivity|]. cbn [concat length]. rewrite app_length. pose proof (setRange_nil _ _ R). destruct l; [contradiction|]. cbn [length]. lia. }
    assert (isNil ((if negated then [caret] else []) ++ concat ls) = false) as -> by (destruct negated; [reflexivity|]; destruct (concat ls); [contradiction|reflexivity]).
    set (class := (if negated then [caret] else []) ++ concat ls).
    assert (match class with c' :: _ => N.eqb c' 94 | [] => false end = negated) as ->.
    { unfold class. destruct negated; [reflexivity|]. destruct (concat ls) as [|c' l']; [reflexivity|]. apply N.eqb_neq. exact (Hd eq_refl). }
    replace (if negated then tl class else class) with (concat ls) by (unfold class; destruct negated; reflexivity).
    rewrite (classLoop_ok ls rs F) by (unfold class; rewrite app_length; lia). cbn [orb].
    assert (Ac : Bool.eqb (existsb (fun x => N.leb (fst x) r && N.leb r (snd x)) rs) negated = false <-> Accepts negated rs r).
    { unfold Accepts. pose proof (within_ok rs r) as W. destruct negated, (existsb (fun x => N.leb (fst x) r && N.leb r (snd x)) rs); cbn; split; intro X; try discriminate; try reflexivity.
      - exfalso. apply X. apply W. reflexivity.
      - intro Y. apply W in Y. discriminate.
      - apply W. reflexivity.
      - apply W in X. discriminate. }
    destruct (Bool.eqb _ negated).
    + apply decides_no. rewrite matches_one. intros (e & _ & M). inversion M as [| | | |g q x ps m A M']; subst. apply Ac in A. discriminate.
    + apply (decides_same _ _ _ (IH p n cs ltac:(lia) C O')). rewrite matches_one. split; intros (e & He & M); exists e; (split; [exact He|]); [constructor; [apply Ac; reflexivity|exact M]|inversion M; assumption].
  - cbn [length] in L. rewrite app_length in L. cbn [length] in L. cbn [matchLoop].
    change (N.eqb opening 92) with false. change (N.eqb opening 42) with false. change (N.eqb opening 91) with false. change (N.eqb opening 123) with true. cbv iota.
    assert (Ft : Forall (Forall (fun c => c <> comma /\ c <> closingBrace /\ c <> backslash)) texts) by (clear - F; induction F; constructor; [eapply option_chars; eassumption|assumption]).
    rewrite passed_cut.
    2:{ apply passed_plain. apply (joined_chars (fun c => c <> 125 /\ c <> 92)%N comma); [split; discriminate|]. eapply Forall_impl; [|exact Ft]. intros t Ht. eapply Forall_impl; [|exact Ht]. intros c (_ & A & B). auto. }
    change 44%N with comma. rewrite split_join; [|discriminate|exact Nt|].
    2:{ eapply Forall_impl; [|exact Ft]. intros t Ht. split; [eapply Forall_impl; [|exact Ht]; intros c (A & _); exact A|].
        clear - Ht. induction Ht as [|c t (_ & _ & A) Ht IHt]; [discriminate|]. destruct t; [exact A|exact IHt]. }
    eapply decides_same; [apply (try_ok _ texts (fun t => exists o, Option t o /\ In o os /\ exists e, Chosen cs e /\ PartsMatch (o ++ e) (r :: n)))|].
    + apply Forall_forall. intros t It. destruct (forall2_in_left _ _ _ _ _ _ F It) as (o & Io & Ho).
      pose proof (E (t ++ p) (r :: n) _ ltac:(rewrite app_length; pose proof (join_length comma texts t It); lia) (option_component t o Ho p cs C) (onestar_option o os cs Io O)) as D.
      eapply decides_same; [exact D|]. unfold ComponentMatches. split.
      * intros (e & He & M). apply chosen_options in He. destruct He as (e' & -> & He). exists o. split; [exact Ho|]. split; [exact Io|]. exists e'. auto.
      * intros (o' & Ho' & _ & e & He & M). assert (o' = o) as ->.
        { clear - Ho Ho'. revert o' Ho'. induction Ho as [|t o H IH|t o H IH|q t o N H IH]; intros o' Ho'; inversion Ho'; subst; try reflexivity; try (f_equal; apply IH; assumption);
            try (match goal with X : ~ In _ _ |- _ => elim X; cbn; tauto end). }
        exists (o ++ e). split; [apply chosen_options; exists e; auto|exact M].
    + split.
      * intros (t & It & o & Ho & Io & e & He & M). exists (o ++ e). split; [apply chosen_more; assumption|exact M].
      * intros (e & He & M). inversion He as [|o os' cs' e' Io He']; subst. destruct (forall2_in_right _ _ _ _ _ _ F Io) as (t & It & Ho). exists t. split; [exact It|]. exists o. split; [exact Ho|]. split; [exact Io|]. exists e'. auto.
Qed.
Theorem component_ok : forall p n cs, Component p cs -> OneStar cs -> Decides (matchComponent p n) (ComponentMatches cs n).
Proof. intros p n cs C O. unfold matchComponent. apply enter_ok; [exact C|exact O|]. apply loop_ok; [lia|exact C|exact O]. Qed.
