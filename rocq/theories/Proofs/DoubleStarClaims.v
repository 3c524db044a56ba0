(** * DoubleStarClaims.v: what a pattern matches. *)
From Coq Require Import Lia.
From Verif Require Import Model.Go Model.Quote Model.Types Model.Glob Model.DoubleStar Model.Cond.
From Verif Require Import Spec.GlobSpec Spec.DoubleStarSpec Spec.CondSpec.
From Verif Require Import Proofs.GoFacts Proofs.GlobFacts Proofs.DoubleStarFacts Proofs.DoubleStarMatch Proofs.CondFacts.

(** ** Texts *)
Lemma runes_text : forall rs, Forall Valid rs -> runes (utf8Text rs) = rs.
Proof.
  intros rs F. unfold runes.
  assert (A : forall fuel, length rs <= fuel -> runesFrom fuel (utf8Text rs) = rs).
  2:{ apply A. apply text_length. exact F. }
  induction F as [|r rs V F IH]; intros fuel L; [destruct fuel; reflexivity|]. destruct fuel as [|f]; [cbn in L; lia|].
  rewrite text_cons. destruct (utf8_shape r V) as (c & k & Ek & _). rewrite Ek. cbn [String.append runesFrom]. unfold firstRune. rewrite (next_utf8 r c k _ V Ek). f_equal. apply IH. cbn in L. lia.
Qed.
Lemma last_rest : forall (w p : list N), (p <> [] -> last p 0%N <> 92%N) -> last w 0%N <> 92%N -> last (w ++ p) 0%N <> 92%N.
Proof.
  induction w as [|c w IH]; intros p A B; [destruct p; [exact B|apply A; discriminate]|]. cbn [app]. destruct w as [|d w].
  - destruct p as [|e p]; [exact B|]. cbn [app]. change (last (c :: e :: p) 0%N) with (last (e :: p) 0%N). apply A. discriminate.
  - apply (IH p A). exact B.
Qed.
Lemma setChar_slash : forall l r, SetChar l r -> ~ In slash l.
Proof. intros l r [x N|x N] I; apply N; cbn in *; destruct I as [I|I]; [auto|contradiction|discriminate|destruct I as [I|[]]; auto]. Qed.
Lemma setRange_slash : forall l x, SetRange l x -> ~ In slash l.
Proof.
  intros l x [t r H|t lo t' hi H H'] I; [exact (setChar_slash _ _ H I)|]. apply in_app_or in I. destruct I as [I|[I|I]]; [exact (setChar_slash _ _ H I)|discriminate|exact (setChar_slash _ _ H' I)].
Qed.
Lemma option_slash : forall t o, Option t o -> Forall (fun c => c <> slash) t.
Proof. induction 1 as [|t o H IH|t o H IH|r t o N H IH]; constructor; try exact IH; try discriminate. intros ->. apply N. cbn. tauto. Qed.
Lemma component_text : forall p cs, Component p cs -> Forall (fun c => c <> slash) p /\ last p 0%N <> 92%N.
Proof.
  induction 1 as [|p cs H (A & B)|p cs H (A & B)|r p cs N H (A & B)|r p cs N H (A & B)|negated ls rs p cs Nl F Hd H (A & B)|texts os p cs Nt F Fo H (A & B)].
  - split; [constructor|discriminate].
  - split; [constructor; [discriminate|exact A]|]. apply (last_rest [asterisk]); [auto|discriminate].
  - split; [constructor; [discriminate|exact A]|]. apply (last_rest [question]); [auto|discriminate].
  - split; [constructor; [intros ->; apply N; cbn; tauto|exact A]|]. apply (last_rest [r]); [auto|]. cbn. intros ->. apply N. cbn. tauto.
  - split; [constructor; [discriminate|]; constructor; [intros ->; apply N; cbn; tauto|exact A]|]. apply (last_rest [backslash; r]); [auto|]. intros X. apply N. left. symmetry. exact X.
  - split.
    + constructor; [discriminate|]. apply Forall_app. split; [destruct negated; repeat constructor; discriminate|]. apply Forall_app. split; [|constructor; [discriminate|exact A]].
      clear - F. induction F as [|l x ls rs R F IH]; [constructor|]. cbn [concat]. apply Forall_app. split; [|exact IH]. apply Forall_forall. intros c I ->. exact (setRange_slash _ _ R I).
    + replace (bracket :: (if negated then [caret] else []) ++ concat ls ++ closing :: p) with ((bracket :: (if negated then [caret] else []) ++ concat ls ++ [closing]) ++ p) by (cbn; rewrite <- !app_assoc; reflexivity).
      apply last_rest; [auto|]. replace (bracket :: (if negated then [caret] else []) ++ concat ls ++ [closing]) with ((bracket :: (if negated then [caret] else []) ++ concat ls) ++ [closing]) by (cbn; rewrite <- app_assoc; reflexivity). rewrite last_last. discriminate.
  - split.
    + constructor; [discriminate|]. apply Forall_app. split; [|constructor; [discriminate|exact A]]. apply joined_chars; [discriminate|]. clear - F. induction F; constructor; [eapply option_slash; eassumption|assumption].
    + replace (opening :: joinWith comma texts ++ closingBrace :: p) with ((opening :: joinWith comma texts ++ [closingBrace]) ++ p) by (cbn; rewrite <- app_assoc; reflexivity).
      apply last_rest; [auto|]. replace (opening :: joinWith comma texts ++ [closingBrace]) with ((opening :: joinWith comma texts) ++ [closingBrace]) by reflexivity. rewrite last_last. discriminate.
Qed.
Lemma level_text : forall t l, LevelText t l -> Forall (fun c => c <> slash) t /\ last t 0%N <> 92%N.
Proof. intros t [|cs] H; [rewrite H; split; [repeat constructor; discriminate|discriminate]|]. exact (component_text t cs (proj1 H)). Qed.
Lemma joined_valid : forall l, Forall (Forall Valid) l -> Forall Valid (joinWith slash l).
Proof. intros l F. apply joined_chars; [left; reflexivity|exact F]. Qed.
Lemma pattern_split : forall texts ls, Forall (Forall Valid) texts -> texts <> [] -> Forall2 LevelText texts ls ->
  splitUnescaped 47 false (runes (utf8Text (joinWith slash texts))) = texts.
Proof.
  intros texts ls V N F. rewrite runes_text by (apply joined_valid; exact V). change 47%N with slash. apply split_join; [discriminate|exact N|].
  clear - F. induction F; constructor; [eapply level_text; eassumption|assumption].
Qed.
Lemma value_split : forall v ns, Value v ns -> splitUnescaped 47 false (runes v) = ns.
Proof.
  intros v ns (-> & V & N & F). rewrite runes_text by (apply joined_valid; exact V). change 47%N with slash. apply split_join; [discriminate|exact N|].
  eapply Forall_impl; [|exact F]. intros n (A & B). split; [|exact B]. apply Forall_forall. intros c I ->. exact (A I).
Qed.
(** ** Levels *)
Lemma levels_none : forall ls ns, LevelsMatch ls ns -> ns = [] -> ls = [].
Proof.
  induction 1 as [|cs n ls ns M L IH|skipped ls ns N L IH]; intro E; [reflexivity|discriminate|]. apply app_eq_nil in E. destruct E as [-> ->]. elim (N (IH eq_refl)). reflexivity.
Qed.
Lemma pathSuffixes_ok : forall l s, In s (pathSuffixes l) <-> s <> [] /\ exists a, l = a ++ s.
Proof.
  induction l as [|c l IH]; intro s; cbn [pathSuffixes]; split.
  - intros [].
  - intros (N & a & E). symmetry in E. apply app_eq_nil in E. elim (N (proj2 E)).
  - intros [<-|I]; [split; [discriminate|exists []; reflexivity]|]. apply IH in I. destruct I as (N & a & ->). split; [exact N|]. exists (c :: a). reflexivity.
  - intros (N & a & E). destruct a as [|d a]; [left; exact E|right]. injection E as -> ->. apply IH. split; [exact N|]. exists a. reflexivity.
Qed.
Lemma levels_ok : forall texts ls, Forall2 LevelText texts ls -> forall ns, Decides (doMatching texts ns) (LevelsMatch ls ns).
Proof.
  induction 1 as [|t l texts ls H F IH]; intro ns.
  - cbn [doMatching]. exists (isNil ns). split; [reflexivity|]. destruct ns; cbn; split; intro X; [constructor|reflexivity|discriminate|inversion X].
  - destruct ns as [|n ns]; [apply decides_no; intro M; discriminate (levels_none _ _ M eq_refl)|]. cbn [doMatching]. destruct l as [|cs].
    + assert (isStars 2 t = true) as -> by (apply isStars_ok; exact H). destruct F as [|t' l' texts ls H' F]; cbn [isNil].
      * exists true. split; [reflexivity|]. split; [|auto]. intros _. rewrite <- (app_nil_r (n :: ns)). apply levels_deep; [intros _; discriminate|constructor].
      * eexists. split; [reflexivity|]. rewrite existsb_exists. split.
        -- intros (s & I & Y). apply pathSuffixes_ok in I. destruct I as (_ & a & ->). apply (decides_yes _ _ (IH s)) in Y. apply levels_deep; [discriminate|exact Y].
        -- intro M. inversion M as [| |skipped ls0 ns0 _ M' E1 E2]; subst. exists ns0. split.
           ++ apply pathSuffixes_ok. split; [|exists skipped; congruence]. intros ->. discriminate (levels_none _ _ M' eq_refl).
           ++ apply (decides_yes _ _ (IH ns0)). exact M'.
    + destruct H as [C O]. destruct (isStars 2 t) eqn:S; [apply isStars_ok in S; elim (two_stars t cs C O S)|].
      destruct (component_ok t n cs C O) as (b & E & D). rewrite E. destruct b.
      * apply (decides_same _ _ _ (IH ns)). split; intro M; [apply levels_one; [apply D; reflexivity|exact M]|inversion M; assumption].
      * apply decides_no. intro M. inversion M as [|cs0 n0 ls0 ns0 X _|]; subst. apply D in X. discriminate.
Qed.
(** ** Patterns *)
Theorem doubleStar_decides : forall pattern ls v ns, Pattern pattern ls -> Value v ns -> Decides (doubleStar pattern v) (LevelsMatch ls ns).
Proof.
  intros pattern ls v ns (texts & -> & V & N & F) W. unfold doubleStar. rewrite (pattern_split texts ls V N F), (value_split v ns W). apply levels_ok. exact F.
Qed.
Theorem doubleStar_ok : forall pattern ls v ns, Pattern pattern ls -> Value v ns -> (doubleStar pattern v = Some true <-> LevelsMatch ls ns).
Proof. intros pattern ls v ns P W. destruct (doubleStar_decides pattern ls v ns P W) as (b & -> & D). rewrite <- D. split; [intro E; injection E as ->; reflexivity|intros ->; reflexivity]. Qed.
Theorem doubleStar_no_error : forall pattern ls v ns, Pattern pattern ls -> Value v ns -> doubleStar pattern v <> None.
Proof. intros pattern ls v ns P W. destruct (doubleStar_decides pattern ls v ns P W) as (b & -> & _). discriminate. Qed.
Theorem doubleStar_says : forall pattern ls v ns, Pattern pattern ls -> Value v ns -> (doubleStar pattern v = Some true <-> Says pattern v).
Proof.
  intros pattern ls v ns P W. split.
  - intro H. exists ls, ns. split; [exact P|]. split; [exact W|]. apply (doubleStar_ok _ _ _ _ P W). exact H.
  - intros (ls' & ns' & P' & W' & M). apply (doubleStar_ok _ _ _ _ P' W'). exact M.
Qed.
Theorem condition_says : forall c v ns, Value v ns -> (forall p, In p (c_include c) \/ In p (c_exclude c) -> exists ls, Pattern p ls) ->
  (Match doubleStar c v = true <->
   (forall p, In p (c_exclude c) -> ~ Says p v) /\ (c_include c = [] \/ exists p, In p (c_include c) /\ Says p v)).
Proof.
  intros c v ns W A. rewrite Match_spec. unfold CondSpec.Accepts, Hits. split.
  - intros (N & I). split.
    + intros p Ip S. apply N. exists p. split; [exact Ip|]. destruct (A p (or_intror Ip)) as (ls & P). apply (doubleStar_says _ _ _ _ P W). exact S.
    + destruct I as [I|(p & Ip & H)]; [left; exact I|right]. exists p. split; [exact Ip|]. destruct (A p (or_introl Ip)) as (ls & P). apply (doubleStar_says _ _ _ _ P W). exact H.
  - intros (N & I). split.
    + intros (p & Ip & H). apply (N p Ip). destruct (A p (or_intror Ip)) as (ls & P). apply (doubleStar_says _ _ _ _ P W). exact H.
    + destruct I as [I|(p & Ip & H)]; [left; exact I|right]. exists p. split; [exact Ip|]. destruct (A p (or_introl Ip)) as (ls & P). apply (doubleStar_says _ _ _ _ P W). exact H.
Qed.
(** ** Plain patterns *)
Lemma join_app : forall sep a b, a <> [] -> b <> [] -> joinWith sep (a ++ b) = joinWith sep a ++ sep :: joinWith sep b.
Proof.
  intros sep. induction a as [|x a IH]; intros b Na Nb; [contradiction|]. destruct a as [|y a].
  - cbn [app]. destruct b; [contradiction|reflexivity].
  - change ((x :: y :: a) ++ b) with (x :: y :: (a ++ b)). change (joinWith sep (x :: y :: a ++ b)) with (x ++ sep :: joinWith sep ((y :: a) ++ b)). rewrite IH by (discriminate || exact Nb).
    change (joinWith sep (x :: y :: a)) with (x ++ sep :: joinWith sep (y :: a)). rewrite <- app_assoc. reflexivity.
Qed.
Lemma split_exists : forall (w : list N), exists ts, ts <> [] /\ w = joinWith slash ts /\ Forall (fun t => ~ In slash t /\ incl t w) ts.
Proof.
  induction w as [|c w (ts & N & E & F)].
  - exists [[]]. split; [discriminate|]. split; [reflexivity|]. repeat constructor; [intros []|intros x []].
  - destruct (N.eq_dec c slash) as [->|Nc].
    + exists ([] :: ts). split; [discriminate|]. split; [destruct ts; [contradiction|]; rewrite E; reflexivity|]. constructor; [split; [intros []|intros x []]|].
      eapply Forall_impl; [|exact F]. intros t (A & B). split; [exact A|]. intros x I. right. apply B. exact I.
    + destruct ts as [|t ts]; [contradiction|]. exists ((c :: t) :: ts). split; [discriminate|]. split; [rewrite E; destruct ts; reflexivity|]. pose proof (Forall_inv F) as (A & B). pose proof (Forall_inv_tail F) as F'. constructor.
      * split; [intros [X|X]; [exact (Nc X)|exact (A X)]|]. intros x [<-|I]; [left; reflexivity|right; apply B; exact I].
      * eapply Forall_impl; [|exact F']. intros u (A' & B'). split; [exact A'|]. intros x I. right. apply B'. exact I.
Qed.
Lemma plain_value : forall w, PlainValue w -> exists ns, w = joinWith slash ns /\ ns <> [] /\ Value (utf8Text w) ns /\ Forall (fun n => ~ In slash n /\ PlainValue n) ns.
Proof.
  intros w P. destruct (split_exists w) as (ns & N & E & F). exists ns. split; [exact E|]. split; [exact N|].
  assert (A : Forall (fun n => ~ In slash n /\ PlainValue n) ns).
  { eapply Forall_impl; [|exact F]. intros n (A & B). split; [exact A|]. unfold PlainValue in *. rewrite Forall_forall in *. intros x I. apply P. apply B. exact I. }
  split; [|exact A]. split; [rewrite <- E; reflexivity|]. split.
  { eapply Forall_impl; [|exact A]. intros n (_ & B). eapply Forall_impl; [|exact B]. intros x (V & _). exact V. }
  split; [exact N|]. eapply Forall_impl; [|exact A]. intros n (S & B). split; [exact S|]. clear S. induction B as [|c n (_ & Nc) B IH]; [discriminate|]. destruct n; [exact Nc|exact IH].
Qed.
Definition lits (t : list N) : list (list (list part)) := map (fun r => [[PLit r]]) t.
Lemma chosen_lits : forall t cs e, Chosen (lits t ++ cs) e <-> exists e', e = map PLit t ++ e' /\ Chosen cs e'.
Proof.
  induction t as [|r t IH]; intros cs e; cbn [lits map app].
  - split; [intro H; exists e; auto|intros (e' & -> & H); exact H].
  - rewrite chosen_one. split.
    + intros (e' & -> & H). apply IH in H. destruct H as (e'' & -> & H). exists e''. auto.
    + intros (e' & -> & H). eexists. split; [reflexivity|]. apply IH. exists e'. auto.
Qed.
Lemma parts_lits : forall t e n, PartsMatch (map PLit t ++ e) n <-> exists n', n = t ++ n' /\ PartsMatch e n'.
Proof.
  induction t as [|r t IH]; intros e n; cbn [map app].
  - split; [intro H; exists n; auto|intros (n' & -> & H); exact H].
  - split.
    + intro H. inversion H as [| | |q ps m M|]; subst. apply IH in M. destruct M as (n' & -> & M). exists n'. auto.
    + intros (n' & -> & M). constructor. apply IH. exists n'. auto.
Qed.
Lemma lits_component : forall t p cs, PlainText t -> ~ In slash t -> Component p cs -> Component (t ++ p) (lits t ++ cs).
Proof.
  induction t as [|r t IH]; intros p cs P S C; [exact C|]. inversion P as [|? ? (V & N) P']; subst. cbn [app lits map]. apply component_literal.
  - intro X. cbn in X, N. destruct X as [X|[X|[X|[X|[X|[X|[]]]]]]]; try (apply N; tauto). apply S. left. symmetry. exact X.
  - apply IH; [exact P'|intro X; apply S; right; exact X|exact C].
Qed.
Lemma lits_onestar : forall t tail, (tail = [] \/ tail = [PStar]) -> OneStar (lits t ++ map (fun x => [[x]]) tail).
Proof.
  intros t tail T e before after C E. apply chosen_lits in C. destruct C as (e' & -> & C). rewrite <- (app_nil_r (map (fun x => [[x]]) tail)) in C. apply chosen_options in C. destruct C as (e'' & -> & C). inversion C; subst e''.
  assert (D : forall x y : part, {x = y} + {x <> y}) by (repeat decide equality).
  apply (f_equal (fun l => count_occ D l PStar)) in E. rewrite !count_occ_app in E.
  assert (count_occ D (map PLit t) PStar = 0) as Z by (apply count_occ_not_In; intro I; apply in_map_iff in I; destruct I as (x & X & _); discriminate).
  rewrite Z in E. cbn in E. destruct (D PStar PStar) as [_|X]; [|contradiction]. destruct T as [-> | ->]; cbn in E; [lia|]. destruct (D PStar PStar) as [_|X]; [|contradiction]. lia.
Qed.
Lemma levels_lits : forall ts ls ns, LevelsMatch (map (fun t => Level (lits t)) ts ++ ls) ns <-> exists ns', ns = ts ++ ns' /\ LevelsMatch ls ns'.
Proof.
  induction ts as [|t ts IH]; intros ls ns; cbn [map app].
  - split; [intro H; exists ns; auto|intros (n' & -> & H); exact H].
  - split.
    + intro H. inversion H as [|cs n ls0 ns0 (e & C & M) L|]; subst. rewrite <- (app_nil_r (lits t)) in C. apply chosen_lits in C. destruct C as (e' & -> & C). inversion C; subst e'. apply parts_lits in M. destruct M as (n' & -> & M). inversion M; subst n'. rewrite app_nil_r.
      apply IH in L. destruct L as (ns' & -> & L). exists ns'. auto.
    + intros (ns' & -> & L). constructor; [|apply IH; exists ns'; auto]. exists (map PLit t). split.
      * rewrite <- (app_nil_r (lits t)). apply chosen_lits. exists []. split; [symmetry; apply app_nil_r|constructor].
      * rewrite <- (app_nil_r (map PLit t)). apply parts_lits. exists []. split; [symmetry; apply app_nil_r|constructor].
Qed.
Lemma plain_levels : forall ts, Forall (fun t => ~ In slash t /\ PlainText t) ts -> Forall2 LevelText ts (map (fun t => Level (lits t)) ts).
Proof.
  induction 1 as [|t ts (S & P) F IH]; constructor; [|exact IH]. split.
  - rewrite <- (app_nil_r t) at 1. rewrite <- (app_nil_r (lits t)). apply lits_component; [exact P|exact S|constructor].
  - rewrite <- (app_nil_r (lits t)). exact (lits_onestar t [] (or_introl eq_refl)).
Qed.
Lemma plain_split : forall p, PlainText p -> exists ts, ts <> [] /\ p = joinWith slash ts /\ Forall (fun t => ~ In slash t /\ PlainText t) ts.
Proof.
  intros p P. destruct (split_exists p) as (ts & N & E & F). exists ts. split; [exact N|]. split; [exact E|]. eapply Forall_impl; [|exact F]. intros t (A & B). split; [exact A|]. unfold PlainText in *. rewrite Forall_forall in *. intros x I. apply P. apply B. exact I.
Qed.
Lemma plain_valid : forall ts, Forall (fun t => ~ In slash t /\ PlainText t) ts -> Forall (Forall Valid) ts.
Proof. intros ts F. eapply Forall_impl; [|exact F]. intros t (_ & P). eapply Forall_impl; [|exact P]. intros x (V & _). exact V. Qed.
Lemma join_inj : forall a b, a <> [] -> b <> [] -> Forall (fun t => ~ In slash t /\ PlainValue t) a -> Forall (fun t => ~ In slash t /\ PlainValue t) b -> joinWith slash a = joinWith slash b -> a = b.
Proof.
  assert (A : forall a, a <> [] -> Forall (fun t => ~ In slash t /\ PlainValue t) a -> splitUnescaped slash false (joinWith slash a) = a).
  { intros a N F. apply split_join; [discriminate|exact N|]. eapply Forall_impl; [|exact F]. intros n (S & B). split; [apply Forall_forall; intros c I ->; exact (S I)|]. clear S. induction B as [|c n (_ & Nc) B IH]; [discriminate|]. destruct n; [exact Nc|exact IH]. }
  intros a b Na Nb Fa Fb E. rewrite <- (A a Na Fa), <- (A b Nb Fb), E. reflexivity.
Qed.
Lemma plain_text_value : forall t, PlainText t -> PlainValue t.
Proof. intros t P. eapply Forall_impl; [|exact P]. intros r (V & N). split; [exact V|]. intros ->. apply N. cbn. tauto. Qed.

Theorem plain_only_itself : forall p w, PlainText p -> PlainValue w -> (doubleStar (utf8Text p) (utf8Text w) = Some true <-> w = p).
Proof.
  intros p w P W. destruct (plain_split p P) as (ts & N & -> & F). destruct (plain_value w W) as (ns & Ew & Nn & V & Fn).
  rewrite (doubleStar_ok _ (map (fun t => Level (lits t)) ts) _ ns); [| |exact V].
  2:{ exists ts. split; [reflexivity|]. split; [exact (plain_valid ts F)|]. split; [exact N|]. apply plain_levels. exact F. }
  rewrite <- (app_nil_r (map _ ts)), levels_lits. split.
  - intros (ns' & -> & L). inversion L; subst ns'. rewrite app_nil_r in Ew. exact Ew.
  - intros ->. exists []. split; [|constructor]. rewrite app_nil_r. apply join_inj; [exact Nn|exact N|exact Fn| |symmetry; exact Ew].
    eapply Forall_impl; [|exact F]. intros t (S & T). split; [exact S|]. apply plain_text_value. exact T.
Qed.
Theorem below : forall p w, PlainText p -> PlainValue w ->
  (doubleStar (utf8Text (p ++ [slash; asterisk; asterisk])) (utf8Text w) = Some true <-> exists rest, w = p ++ slash :: rest).
Proof.
  intros p w P W. destruct (plain_split p P) as (ts & N & -> & F). destruct (plain_value w W) as (ns & Ew & Nn & V & Fn).
  rewrite (doubleStar_ok _ (map (fun t => Level (lits t)) ts ++ [Deep]) _ ns); [| |exact V].
  2:{ exists (ts ++ [[asterisk; asterisk]]). split; [rewrite join_app by (exact N || discriminate); reflexivity|]. split; [apply Forall_app; split; [exact (plain_valid ts F)|repeat constructor; left; reflexivity]|]. split; [destruct ts; discriminate|].
      apply Forall2_app; [apply plain_levels; exact F|]. constructor; [reflexivity|constructor]. }
  rewrite levels_lits. split.
  - intros (ns' & -> & L). inversion L as [| |skipped ls ns0 Ns L']; subst. inversion L'; subst ns0. exists (joinWith slash skipped). rewrite app_nil_r. apply join_app; [exact N|]. apply Ns. reflexivity.
  - intros (rest & Er). assert (PlainValue rest) as R by (unfold PlainValue in W; rewrite Er in W; apply Forall_app in W; destruct W as [_ W]; inversion W; assumption).
    destruct (plain_value rest R) as (rs & -> & Nr & _ & Fr). exists rs. split.
    + apply join_inj; [exact Nn|destruct ts; [contradiction|discriminate]|exact Fn| |].
      * apply Forall_app. split; [|exact Fr]. eapply Forall_impl; [|exact F]. intros t (S & T). split; [exact S|]. apply plain_text_value. exact T.
      * rewrite join_app by assumption. rewrite <- Ew. exact Er.
    + rewrite <- (app_nil_r rs). apply levels_deep; [intros _; exact Nr|constructor].
Qed.
Theorem within_level : forall p w, PlainText p -> PlainValue w ->
  (doubleStar (utf8Text (p ++ [asterisk])) (utf8Text w) = Some true <-> exists rest, w = p ++ rest /\ ~ In slash rest).
Proof.
  intros p w P W. destruct (plain_split p P) as (ts & N & -> & F). destruct (plain_value w W) as (ns & Ew & Nn & V & Fn).
  destruct (exists_last N) as (init & t & ->). apply Forall_app in F. destruct F as [Fi Ft]. pose proof (Forall_inv Ft) as (St & Pt).
  assert (J : forall u, joinWith slash (init ++ [t ++ u]) = joinWith slash (init ++ [t]) ++ u).
  { intro u. destruct init as [|x init]; [reflexivity|]. rewrite !join_app by discriminate. rewrite <- app_assoc. reflexivity. }
  rewrite (doubleStar_ok _ (map (fun t => Level (lits t)) init ++ [Level (lits t ++ [[[PStar]]])]) _ ns); [| |exact V].
  2:{ exists (init ++ [t ++ [asterisk]]). split; [rewrite J; reflexivity|]. split.
      - apply Forall_app. split; [exact (plain_valid init Fi)|]. constructor; [|constructor]. apply Forall_app. split; [eapply Forall_impl; [|exact Pt]; intros x (X & _); exact X|repeat constructor; left; reflexivity].
      - split; [destruct init; discriminate|]. apply Forall2_app; [apply plain_levels; exact Fi|]. constructor; [|constructor]. split; [apply lits_component; [exact Pt|exact St|]; repeat constructor|]. exact (lits_onestar t [PStar] (or_intror eq_refl)). }
  rewrite levels_lits. split.
  - intros (ns' & -> & L). inversion L as [|cs n ls0 ns0 (e & C & M) L'|]; subst. inversion L'; subst ns0. apply chosen_lits in C. destruct C as (e' & -> & C). apply chosen_one in C. destruct C as (e'' & -> & C). inversion C; subst e''. apply parts_lits in M. destruct M as (u & -> & M).
    exists u. split; [apply J|]. apply Forall_app in Fn. destruct Fn as [_ Fn]. inversion Fn as [|? ? (S & _) _]; subst. intro X. apply S. apply in_or_app. right. exact X.
  - intros (rest & Er & Sr). assert (PlainValue rest) as R by (unfold PlainValue in W; rewrite Er in W; apply Forall_app in W; exact (proj2 W)).
    exists [t ++ rest]. split.
    + apply join_inj; [exact Nn|destruct init; discriminate|exact Fn| |rewrite J, <- Ew; exact Er].
      apply Forall_app. split; [eapply Forall_impl; [|exact Fi]; intros x (S & T); split; [exact S|apply plain_text_value; exact T]|]. constructor; [|constructor]. split.
      * intro X. apply in_app_or in X. destruct X; contradiction.
      * apply Forall_app. split; [apply plain_text_value; exact Pt|exact R].
    + constructor; [|constructor]. exists (map PLit t ++ [PStar]). split; [apply chosen_lits; exists [PStar]; split; [reflexivity|]; apply (chosen_more [PStar]); [left; reflexivity|constructor]|]. apply parts_lits. exists rest. split; [reflexivity|]. rewrite <- (app_nil_r rest). repeat constructor.
Qed.
Theorem everything : forall w, PlainValue w -> doubleStar "**" (utf8Text w) = Some true.
Proof.
  intros w W. destruct (plain_value w W) as (ns & Ew & Nn & V & Fn). apply (doubleStar_ok _ [Deep] _ ns); [|exact V|].
  - exists [[asterisk; asterisk]]. split; [reflexivity|]. split; [repeat constructor; left; reflexivity|]. split; [discriminate|]. constructor; [reflexivity|constructor].
  - rewrite <- (app_nil_r ns). apply levels_deep; [intros _; exact Nn|constructor].
Qed.
(** ** Conditions of plain patterns *)
Lemma text_inj : forall a b, Forall Valid a -> Forall Valid b -> utf8Text a = utf8Text b -> a = b.
Proof. intros a b A B E. rewrite <- (runes_text a A), <- (runes_text b B), E. reflexivity. Qed.
Lemma valid_value : forall w, PlainValue w -> Forall Valid w.
Proof. intros w W. eapply Forall_impl; [|exact W]. intros x (V & _). exact V. Qed.
Theorem condition_lists : forall c w, PlainValue w ->
  (forall p, In p (c_include c) \/ In p (c_exclude c) -> exists t, p = utf8Text t /\ PlainText t) ->
  (Match doubleStar c (utf8Text w) = true <-> ~ In (utf8Text w) (c_exclude c) /\ (c_include c = [] \/ In (utf8Text w) (c_include c))).
Proof.
  intros c w W A.
  assert (H : forall ps, (forall p, In p ps -> exists t, p = utf8Text t /\ PlainText t) -> (Hits doubleStar ps (utf8Text w) <-> In (utf8Text w) ps)).
  { intros ps Ap. split.
    - intros (p & I & M). destruct (Ap p I) as (t & -> & T). apply (plain_only_itself t w T W) in M. subst w. exact I.
    - intro I. exists (utf8Text w). split; [exact I|]. destruct (Ap _ I) as (t & E & T).
      assert (w = t) as -> by (apply text_inj; [exact (valid_value w W)|apply valid_value, plain_text_value, T|exact E]). apply plain_only_itself; [exact T|exact W|reflexivity]. }
  rewrite Match_spec. unfold CondSpec.Accepts. rewrite (H (c_exclude c)), (H (c_include c)) by auto. reflexivity.
Qed.
