(** * TriggerFacts.v: the refs a converted pipeline is triggered for. *)
From Coq Require Import Lia.
From Verif Require Import Model.Go Model.Quote Model.Types Model.Glob Model.DoubleStar Model.Cond Model.Legacy.
From Verif Require Import Spec.GlobSpec Spec.DoubleStarSpec Spec.CondSpec Spec.LegacySpec.
From Verif Require Import Proofs.GoFacts Proofs.GlobFacts Proofs.DoubleStarFacts Proofs.DoubleStarMatch Proofs.DoubleStarClaims Proofs.CondFacts Proofs.LegacyFacts Proofs.LegacyMore.

(** ** Code points of any bytes *)
Lemma first_short : forall c s r t, firstRune c s = (r, t) -> String.length t <= String.length s.
Proof.
  intros c s r t. unfold firstRune. destruct (nextRune c s) as [[r' t']|] eqn:E; intro H; injection H as <- <-; [|reflexivity].
  destruct (next_shape _ _ _ _ E) as (k & -> & _). rewrite slength_app. lia.
Qed.
Lemma runes_fuel : forall f s, String.length s <= f -> forall g, String.length s <= g -> runesFrom f s = runesFrom g s.
Proof.
  induction f as [|f IH]; intros s L g L'; [destruct s; [destruct g; reflexivity|cbn in L; lia]|]. destruct s as [|c s]; [destruct g; reflexivity|]. destruct g as [|g]; [cbn in L'; lia|].
  cbn [runesFrom]. destruct (firstRune c s) as [r t] eqn:E. apply first_short in E. cbn in L, L'. f_equal. apply IH; lia.
Qed.
Lemma runes_cons : forall c s, runes (String c s) = let '(r, t) := firstRune c s in r :: runes t.
Proof.
  intros c s. unfold runes. cbn [String.length runesFrom]. destruct (firstRune c s) as [r t] eqn:E. apply first_short in E. f_equal. apply runes_fuel; lia.
Qed.
Lemma first_ascii : forall c s, (code c < 128)%N -> firstRune c s = (code c, s).
Proof. intros c s L. unfold firstRune, nextRune. apply N.ltb_lt in L. rewrite L. reflexivity. Qed.
Lemma code_inj : forall c d, code c = code d -> c = d.
Proof. intros c d E. unfold code in E. rewrite <- (ascii_N_embedding c), <- (ascii_N_embedding d), E. reflexivity. Qed.
Lemma first_low : forall c s r t, firstRune c s = (r, t) -> (r < 128)%N -> code c = r /\ t = s.
Proof.
  intros c s r t. unfold firstRune. destruct (nextRune c s) as [[r' t']|] eqn:E; intros H L; injection H as <- <-; [|discriminate L].
  destruct (next_shape _ _ _ _ E) as (k & -> & U & V). destruct (utf8_shape r' V) as (c' & k' & U' & _ & A & _). rewrite U in U'. injection U' as <- <-. destruct (A L) as [-> ->]. auto.
Qed.
Definition codes (s : string) : list N := map code (list_ascii_of_string s).
Definition Low (s : string) : Prop := Forall (fun r => (r < 128)%N) (codes s).
Lemma runes_low : forall w s, Low w -> runes (w +++ s) = codes w ++ runes s.
Proof.
  induction w as [|c w IH]; intros s L; [reflexivity|]. inversion L as [|? ? Lc L']; subst. cbn [String.append]. rewrite runes_cons, first_ascii by exact Lc. cbn. f_equal. apply IH. exact L'.
Qed.
Lemma runes_prefix : forall w s l, Low w -> runes s = codes w ++ l -> exists x, s = (w +++ x)%string /\ runes x = l.
Proof.
  induction w as [|c w IH]; intros s l L E; [exists s; auto|]. inversion L as [|? ? Lc L']; subst. destruct s as [|d s]; [discriminate|]. rewrite runes_cons in E. destruct (firstRune d s) as [r t] eqn:F. cbn in E. injection E as -> E.
  destruct (first_low _ _ _ _ F Lc) as [Ed ->]. apply code_inj in Ed. subst d. destruct (IH s l L' E) as (x & -> & X). exists x. auto.
Qed.
(** ** A level in front *)
Lemma split_head : forall s esc t u l, splitUnescaped 47 esc s = t :: u :: l -> exists s', s = t ++ slash :: s' /\ splitUnescaped 47 false s' = u :: l.
Proof.
  induction s as [|c s IH]; intros esc t u l E; [discriminate|]. cbn [splitUnescaped] in E. destruct (N.eqb_spec c 47) as [->|N].
  - destruct esc; cbn [negb andb] in E.
    + destruct (splitUnescaped 47 (47 =? 92)%N s) as [|p ps] eqn:S; [discriminate|]. injection E as <- ->. destruct (IH _ _ _ _ S) as (s' & -> & S'). exists s'. auto.
    + injection E as <- E. exists s. auto.
  - cbn [andb] in E. destruct (splitUnescaped 47 (c =? 92)%N s) as [|p ps] eqn:S; [discriminate|]. injection E as <- ->. destruct (IH _ _ _ _ S) as (s' & -> & S'). exists s'. auto.
Qed.
Definition Name (w : string) : Prop := Low w /\ PlainText (codes w) /\ ~ In slash (codes w).
Lemma codes_app : forall a b, codes (a +++ b) = codes a ++ codes b.
Proof. intros a b. unfold codes. rewrite laos_app, map_app. reflexivity. Qed.
Lemma split_level : forall w p, Name w -> splitUnescaped 47 false (runes (w +++ "/" +++ p)) = codes w :: splitUnescaped 47 false (runes p).
Proof.
  intros w p (L & P & S). rewrite runes_low by exact L. change ("/" +++ p)%string with (String "/" p). rewrite runes_cons, first_ascii by reflexivity.
  change (code "/") with 47%N. clear L. revert P S. generalize (codes w). intros t P S.
  induction t as [|c t IH]; [reflexivity|]. inversion P as [|? ? (_ & N) P']; subst. cbn [app splitUnescaped].
  assert (c <> 47 /\ c <> 92)%N as (A & B) by (split; intros ->; [apply S; left; reflexivity|apply N; cbn; tauto]). apply N.eqb_neq in A, B. rewrite A, B. cbn [andb].
  rewrite IH by (exact P' || intro X; apply S; right; exact X). reflexivity.
Qed.
Lemma name_component : forall w n, Name w -> Decides (matchComponent (codes w) n) (n = codes w).
Proof.
  intros w n (L & P & S). eapply decides_same.
  - apply component_ok; [rewrite <- (app_nil_r (codes w)); apply lits_component; [exact P|exact S|constructor]|exact (lits_onestar _ [] (or_introl eq_refl))].
  - unfold ComponentMatches. split.
    + intros (e & C & M). apply chosen_lits in C. destruct C as (e' & -> & C). inversion C; subst e'. apply parts_lits in M. destruct M as (n' & -> & M). inversion M. apply app_nil_r.
    + intros ->. exists (map PLit (codes w)). split; [apply chosen_lits; exists []; split; [symmetry; apply app_nil_r|constructor]|].
      rewrite <- (app_nil_r (map PLit (codes w))). apply parts_lits. exists []. split; [symmetry; apply app_nil_r|constructor].
Qed.
Theorem level_in_front : forall w p v, Name w -> (doubleStar (w +++ "/" +++ p) v = Some true <-> exists x, v = (w +++ "/" +++ x)%string /\ doubleStar p x = Some true).
Proof.
  intros w p v W. unfold doubleStar. rewrite split_level by exact W.
  assert (St : isStars 2 (codes w) = false).
  { destruct (isStars 2 (codes w)) eqn:E; [|reflexivity]. apply isStars_ok in E. destruct W as (_ & P & _). rewrite E in P. inversion P as [|? ? (_ & N) _]. elim N. cbn. auto. }
  split.
  - destruct (splitUnescaped 47 false (runes v)) as [|n ns] eqn:Sv; [cbn; discriminate|]. cbn [doMatching]. rewrite St. destruct (name_component w n W) as (b & E & D). rewrite E. destruct b; [|discriminate].
    rewrite (proj1 D eq_refl) in Sv. destruct ns as [|m ns].
    + destruct (splitUnescaped 47 false (runes p)) eqn:Sp; [elim (split_some _ _ _ Sp)|discriminate].
    + destruct (split_head _ _ _ _ _ Sv) as (s' & Es & Ss).
      destruct (runes_prefix (w +++ "/") v s') as (x & -> & X); [unfold Low; rewrite codes_app; apply Forall_app; split; [exact (proj1 W)|repeat constructor]|rewrite Es, codes_app, <- app_assoc; reflexivity|].
      intro M. exists x. rewrite sapp_assoc. split; [reflexivity|]. rewrite X, Ss. exact M.
  - intros (x & -> & M). rewrite split_level by exact W. cbn [doMatching]. rewrite St. destruct (name_component w (codes w) W) as (b & E & D). rewrite E. rewrite (proj2 D eq_refl). exact M.
Qed.
Lemma anything : forall v, doubleStar "**" v = Some true.
Proof. intro v. unfold doubleStar. destruct (splitUnescaped 47 false (runes v)) eqn:E; [elim (split_some _ _ _ E)|reflexivity]. Qed.
(** ** Refs *)
Lemma names : Name "refs" /\ Name "heads" /\ Name "tags" /\ Name "pull" /\ Name "pull-requests" /\ Name "merge-requests".
Proof.
  assert (A : forall w, forallb (fun c => N.ltb (code c) 128 && negb (hasChar c "*?[{\/")) (list_ascii_of_string w) = true -> Name w).
  { intros w H. rewrite forallb_forall in H. assert (B : forall r, In r (codes w) -> (r < 128)%N /\ ~ In r [asterisk; question; bracket; opening; backslash; slash]).
    { intros r I. apply in_map_iff in I. destruct I as (c & <- & I). apply H in I. apply andb_true_iff in I. destruct I as [I J]. apply N.ltb_lt in I. split; [exact I|]. intro X. apply negb_true_iff in J.
      assert (forall d, code c = code d -> hasChar d "*?[{\/" = false) as K by (intros d Ed; apply code_inj in Ed; subst; exact J).
      cbn in X. destruct X as [X|[X|[X|[X|[X|[X|[]]]]]]]; [specialize (K "*"%char (eq_sym X))|specialize (K "?"%char (eq_sym X))|specialize (K "["%char (eq_sym X))|specialize (K "{"%char (eq_sym X))|specialize (K "\"%char (eq_sym X))|specialize (K "/"%char (eq_sym X))]; discriminate. }
    split; [apply Forall_forall; intros r I; exact (proj1 (B r I))|]. split.
    - apply Forall_forall. intros r I. destruct (B r I) as [Lr Nr]. split; [left; lia|]. intro X. apply Nr. cbn in *. tauto.
    - intro I. destruct (B slash I) as [_ Nr]. apply Nr. cbn. tauto. }
  repeat split; apply A; reflexivity.
Qed.
Theorem ref_in_front : forall kind p ref, In kind ["heads"; "tags"; "pull"; "pull-requests"; "merge-requests"] ->
  (doubleStar ("refs/" +++ kind +++ "/" +++ p) ref = Some true <-> exists x, ref = ("refs/" +++ kind +++ "/" +++ x)%string /\ doubleStar p x = Some true).
Proof.
  intros kind p ref K. destruct names as (R & N). assert (Name kind) as W by (destruct N as (? & ? & ? & ? & ?); cbn in K; destruct K as [<-|[<-|[<-|[<-|[<-|[]]]]]]; assumption).
  change ("refs/" +++ kind +++ "/" +++ p)%string with ("refs" +++ "/" +++ (kind +++ "/" +++ p))%string. rewrite (level_in_front "refs" _ ref R). split.
  - intros (y & -> & M). apply (level_in_front kind p y W) in M. destruct M as (x & -> & M). exists x. auto.
  - intros (x & -> & M). exists (kind +++ "/" +++ x)%string. split; [reflexivity|]. apply (level_in_front kind p _ W). exists x. auto.
Qed.
Lemma below_ref : forall kind ref, In kind ["heads"; "tags"; "pull"; "pull-requests"; "merge-requests"] ->
  (doubleStar ("refs/" +++ kind +++ "/**") ref = Some true <-> exists x, ref = ("refs/" +++ kind +++ "/" +++ x)%string).
Proof.
  intros kind ref K. change ("refs/" +++ kind +++ "/**")%string with ("refs/" +++ kind +++ "/" +++ "**")%string. rewrite (ref_in_front kind "**" ref K). split; intros (x & H); exists x; [tauto|]. split; [exact H|apply anything].
Qed.
Lemma hits_cons : forall g p ps v, Hits g (p :: ps) v <-> g p v = Some true \/ Hits g ps v.
Proof.
  intros g p ps v. unfold Hits. split.
  - intros (q & [<-|I] & H); [left; exact H|right]. exists q. auto.
  - intros [H|(q & I & H)]; [exists p; split; [left; reflexivity|exact H]|]. exists q. split; [right; exact I|exact H].
Qed.
Lemma hits_app : forall g a b v, Hits g (a ++ b) v <-> Hits g a v \/ Hits g b v.
Proof.
  intros g a b v. induction a as [|p a IH]; cbn [app]; [|rewrite !hits_cons, IH; tauto]. split; [auto|]. intros [(p & [] & _)|H]. exact H.
Qed.
Lemma hits_heads : forall bs ref, Hits doubleStar (map (fun b => "refs/heads/" +++ b)%string bs) ref <->
  exists x b, ref = ("refs/heads/" +++ x)%string /\ In b bs /\ doubleStar b x = Some true.
Proof.
  intros bs ref. unfold Hits. split.
  - intros (p & I & H). apply in_map_iff in I. destruct I as (b & <- & I). apply (ref_in_front "heads" b ref) in H; [|cbn; auto]. destruct H as (x & -> & H). exists x, b. auto.
  - intros (x & b & -> & I & H). exists ("refs/heads/" +++ b)%string. split; [apply in_map_iff; exists b; auto|]. apply (ref_in_front "heads" b); [cbn; auto|]. exists x. auto.
Qed.
Theorem converted_refs : forall getenv parseURL g remote p, CompleteConfig g -> toPipeline getenv parseURL g remote = Ok p ->
  c_include (lg_branches g) <> [] -> c_exclude (lg_branches g) = [] -> forall ref,
  Match doubleStar (w_ref (pi_trigger p)) ref = true <->
  (exists x b, ref = ("refs/heads/" +++ x)%string /\ In b (c_include (lg_branches g)) /\ doubleStar b x = Some true) \/
  Reviewed ref \/
  ((exists x, ref = ("refs/tags/" +++ x)%string) /\ exists c, In (Some c) (pi_steps p) /\ TagStep c).
Proof.
  intros getenv parseURL g remote p C H Ni Ne ref. destruct (toPipeline_ok getenv parseURL g remote C) as (p' & H' & R). rewrite H in H'. injection H' as <-.
  destruct R as (_ & _ & _ & _ & _ & _ & _ & _ & _ & _ & _ & _ & _ & _ & _ & steps & services & Es & _ & _ & _ & _ & T). destruct T as [_ T]. destruct (T Ni Ne) as (tags & Et & Yes & No).
  rewrite Match_spec. unfold CondSpec.Accepts. rewrite Et. cbn [w_ref c_include c_exclude].
  assert (Tg : Hits doubleStar tags ref <-> (exists x, ref = ("refs/tags/" +++ x)%string) /\ exists c, In (Some c) (pi_steps p) /\ TagStep c).
  { rewrite Es. destruct (Exists_dec (fun c => TagStep c) steps) as [E|E].
    - intro c. unfold TagStep. apply in_dec. exact string_dec.
    - apply Exists_exists in E. rewrite (Yes E), hits_cons. rewrite (below_ref "tags" ref) by (cbn; auto). split.
      + intros [X|(q & [] & _)]. split; [exact X|]. destruct E as (c & I & Tc). exists c. split; [apply in_map; exact I|exact Tc].
      + intros [X _]. left. exact X.
    - rewrite No by (intros c I Tc; apply E; apply Exists_exists; exists c; auto). split; [intros (q & [] & _)|]. intros (_ & c & I & Tc). elim E. apply Exists_exists. apply in_map_iff in I. destruct I as (c' & Ec & I). injection Ec as ->. exists c. auto. }
  rewrite !hits_cons, hits_app, hits_heads, Tg.
  rewrite (below_ref "pull" ref), (below_ref "pull-requests" ref), (below_ref "merge-requests" ref) by (cbn; tauto). unfold Reviewed. split.
  - intros [_ [X|[(x & X)|[(x & X)|[(x & X)|[X|X]]]]]]; [discriminate| | | |left; exact X|right; right; exact X]; right; left; exists x; tauto.
  - intro X. split; [intros (q & [] & _)|right]. destruct X as [X|[(x & [X|[X|X]])|X]]; [tauto|left; exists x; exact X|right; left; exists x; exact X|right; right; left; exists x; exact X|tauto].
Qed.
Theorem converted_only_refs : forall getenv parseURL g remote p, CompleteConfig g -> toPipeline getenv parseURL g remote = Ok p ->
  c_include (lg_branches g) <> [] -> c_exclude (lg_branches g) = [] -> forall glob v c,
  In c [w_action (pi_trigger p); w_cron (pi_trigger p); w_repo (pi_trigger p); w_instance (pi_trigger p); w_target (pi_trigger p); w_event (pi_trigger p); w_branch (pi_trigger p); w_status (pi_trigger p); w_paths (pi_trigger p)] ->
  Match glob c v = true.
Proof.
  intros getenv parseURL g remote p C H Ni Ne glob v c I. destruct (toPipeline_ok getenv parseURL g remote C) as (p' & H' & R). rewrite H in H'. injection H' as <-.
  destruct R as (_ & _ & _ & _ & _ & _ & _ & _ & _ & _ & _ & _ & _ & _ & _ & steps & services & Es & _ & _ & _ & _ & T). destruct T as [_ T]. destruct (T Ni Ne) as (tags & Et & _).
  rewrite Et in I. cbn in I. assert (c = noCond) as -> by (intuition congruence). reflexivity.
Qed.
Theorem converted_listed : forall getenv parseURL g remote p, CompleteConfig g -> toPipeline getenv parseURL g remote = Ok p ->
  c_include (lg_branches g) <> [] -> c_exclude (lg_branches g) = [] -> (forall b, In b (c_include (lg_branches g)) -> exists t, b = utf8Text t /\ PlainText t) ->
  forall w, PlainValue w -> (Match doubleStar (w_ref (pi_trigger p)) ("refs/heads/" +++ utf8Text w) = true <-> In (utf8Text w) (c_include (lg_branches g))).
Proof.
  intros getenv parseURL g remote p C H Ni Ne A w W. rewrite (converted_refs getenv parseURL g remote p C H Ni Ne). split.
  - intros [(x & b & E & I & M)|[(x & [E|[E|E]])|((x & E) & _)]]; try discriminate E. injection E as <-. destruct (A b I) as (t & -> & T). apply (plain_only_itself t w T W) in M. subst t. exact I.
  - intro I. left. exists (utf8Text w), (utf8Text w). split; [reflexivity|]. split; [exact I|]. destruct (A _ I) as (t & E & T).
    assert (w = t) as <- by (apply text_inj; [exact (valid_value w W)|apply valid_value, plain_text_value, T|exact E]). apply plain_only_itself; [exact T|exact W|reflexivity].
Qed.
