(** * Order.v: pipelines and manifests in another order. *)
From Coq Require Import Lia Sorting.Permutation.
From Verif Require Import Model.Go Model.Types Model.RawParse Model.Lint Model.Compiler Model.Main Spec.LintSpec Spec.MainSpec Spec.OrderSpec
  Proofs.GoFacts Proofs.LintFacts Proofs.MainCompile.

Lemma path_trans {A} (R : A -> A -> Prop) a b c : Path R a b -> R b c -> Path R a c.
Proof. induction 1; intro; [eapply Path_step; [eassumption|apply Path_one; assumption]|eapply Path_step; eauto]. Qed.

Lemma path_mono {A} (R R' : A -> A -> Prop) a b : (forall x y, R x y -> R' x y) -> Path R a b -> Path R' a b.
Proof. intro S. induction 1; [apply Path_one; auto|eapply Path_step; eauto]. Qed.

(** Sorting by dependencies. *)
Section Sort.
  Context {A : Type} (name : A -> string) (deps : A -> list string) (base : list string).
  Definition rel (l : list A) (a b : string) : Prop := exists x, In x l /\ name x = a /\ In b (deps x).
  Lemma walk l : (forall x, In x l -> exists d, In d (deps x) /\ In d (map name l)) ->
    forall k, l <> [] -> exists w, length w = S k /\ incl w (map name l) /\ ForallOrdPairs (fun a b => Path (rel l) b a) w.
  Proof.
    intros H. induction k; intros N.
    - destruct l as [|x l']; [contradiction|]. exists [name x]. split; [reflexivity|]. split; [intros y [<-|[]]; left; reflexivity|].
      repeat constructor.
    - destruct (IHk N) as ([|h t] & L & I & P); [discriminate|]. inversion P as [|? ? F P']; subst.
      destruct (proj1 (in_map_iff _ _ _) (I h (or_introl eq_refl))) as (x & <- & X). destruct (H x X) as (d & D1 & D2).
      assert (R : rel l (name x) d) by (exists x; auto).
      exists (d :: name x :: t). split; [cbn in L |- *; rewrite L; reflexivity|]. split; [intros y [<-|Y]; [exact D2|apply I, Y]|].
      constructor; [|exact P]. constructor; [apply Path_one, R|]. eapply Forall_impl; [|exact F]. intros b B. apply (path_trans _ _ _ _ B R).
  Qed.
  Lemma ordered_nodup {R : string -> string -> Prop} w : (forall a, ~ R a a) -> ForallOrdPairs (fun a b => R b a) w -> NoDup w.
  Proof.
    intros I. induction 1 as [|a w F P IH]; constructor; [|exact IH]. intro Q. rewrite Forall_forall in F. exact (I a (F a Q)).
  Qed.
  Lemma ready pre rest : Acyclic (rel (pre ++ rest)) -> rest <> [] ->
    (forall x d, In x rest -> In d (deps x) -> In d base \/ In d (map name (pre ++ rest))) ->
    exists x, In x rest /\ forall d, In d (deps x) -> In d base \/ In d (map name pre).
  Proof.
    intros AC N C.
    destruct (existsb (fun x => forallb (fun d => existsb (String.eqb d) (base ++ map name pre)) (deps x)) rest) eqn:E.
    - apply existsb_exists in E. destruct E as (x & X & E). exists x. split; [exact X|]. intros d D. rewrite forallb_forall in E.
      specialize (E d D). apply existsb_exists in E. destruct E as (y & Y & E). apply String.eqb_eq in E. subst y. apply in_app_or, Y.
    - exfalso. assert (H : forall x, In x rest -> exists d, In d (deps x) /\ In d (map name rest)).
      { intros x X. destruct (forallb (fun d => existsb (String.eqb d) (base ++ map name pre)) (deps x)) eqn:F.
        - enough (K : existsb (fun x => forallb (fun d => existsb (String.eqb d) (base ++ map name pre)) (deps x)) rest = true) by congruence.
          apply existsb_exists. exists x. auto.
        - clear E. assert (G : exists d, In d (deps x) /\ existsb (String.eqb d) (base ++ map name pre) = false).
          { clear -F. induction (deps x) as [|d l IH]; [discriminate|]. cbn [forallb] in F.
            destruct (existsb (String.eqb d) (base ++ map name pre)) eqn:E; [|exists d; split; [left; reflexivity|exact E]].
            destruct (IH F) as (y & Y & Z). exists y. split; [right; exact Y|exact Z]. }
          destruct G as (d & D & G). exists d. split; [exact D|].
          assert (NI : ~ In d (base ++ map name pre)).
          { intro I. enough (K : existsb (String.eqb d) (base ++ map name pre) = true) by congruence. apply existsb_exists. exists d.
            split; [exact I|apply String.eqb_refl]. }
          destruct (C x d X D) as [B|B]; [destruct NI; apply in_or_app; left; exact B|]. rewrite map_app in B. apply in_app_or in B.
          destruct B as [B|B]; [destruct NI; apply in_or_app; right; exact B|exact B]. }
      destruct (walk rest H (length rest) N) as (w & L & I & P).
      assert (ND : NoDup w).
      { apply (ordered_nodup (R := Path (rel rest))); [|exact P]. intros a Q. apply (AC a). revert Q. apply path_mono. intros u v (x & X & Y). exists x.
        split; [apply in_or_app; right; exact X|exact Y]. }
      pose proof (NoDup_incl_length ND I) as Q. rewrite map_length, L in Q. lia.
  Qed.
  Definition Earlier (pre l : list A) : Prop := forall before s after d, l = before ++ s :: after -> In d (deps s) ->
    In d base \/ In d (map name (pre ++ before)).
  Lemma acyclic_perm l l' : (forall x, In x l' -> In x l) -> Acyclic (rel l) -> Acyclic (rel l').
  Proof.
    intros S AC a Q. apply (AC a). revert Q. apply path_mono. intros u v (x & X & Y). exists x. auto.
  Qed.
  Lemma sorted n : forall pre rest, length rest = n -> Acyclic (rel (pre ++ rest)) ->
    (forall x d, In x rest -> In d (deps x) -> In d base \/ In d (map name (pre ++ rest))) ->
    exists rest', Permutation rest rest' /\ Earlier pre rest'.
  Proof.
    induction n as [|n IH]; intros pre rest L AC C.
    - destruct rest; [|discriminate]. exists []. split; [constructor|]. intros [|? ?] s after d E; discriminate.
    - destruct (ready pre rest AC) as (x & X & R); [intros ->; discriminate|exact C|].
      destruct (in_split _ _ X) as (r1 & r2 & ->).
      assert (P : Permutation (pre ++ r1 ++ x :: r2) ((pre ++ [x]) ++ r1 ++ r2)).
      { rewrite <- app_assoc. apply Permutation_app_head. cbn. symmetry. apply Permutation_middle. }
      destruct (IH (pre ++ [x]) (r1 ++ r2)) as (r' & P' & E').
      + rewrite app_length in L |- *. cbn in L. lia.
      + apply (acyclic_perm (pre ++ r1 ++ x :: r2)); [|exact AC]. intros y Y. apply (Permutation_in _ (Permutation_sym P)), Y.
      + intros y d Y D. destruct (C y d) as [B|B]; [|exact D|left; exact B|].
        * apply in_app_or in Y. apply in_or_app. destruct Y; [left|right; right]; assumption.
        * right. apply (Permutation_in _ (Permutation_map name P)), B.
      + exists (x :: r'). split; [rewrite <- P'; symmetry; apply Permutation_middle|].
        intros [|b before] s after d E D; cbn in E; injection E as <- E.
        * rewrite app_nil_r. apply R, D.
        * destruct (E' before s after d E D) as [B|B]; [left; exact B|right]. rewrite <- app_assoc in B. exact B.
  Qed.
  Theorem sortable l : Acyclic (rel l) -> (forall x d, In x l -> In d (deps x) -> In d base \/ In d (map name l)) ->
    exists l', Permutation l l' /\ Earlier [] l'.
  Proof. intros AC C. apply (sorted (length l) [] l eq_refl AC C). Qed.
End Sort.

(** ** Pipelines *)
Lemma perm_some {A} (l : list A) m : Permutation (map Some l) m -> exists l', m = map Some l' /\ Permutation l l'.
Proof. intro P. destruct (Permutation_map_inv _ _ (Permutation_sym P)) as (l' & E & Q). exists l'. auto. Qed.
Lemma reordered_lists p q steps services vols : Reordered p q -> NoNulls p steps services vols ->
  exists steps' services' vols', NoNulls q steps' services' vols' /\ Permutation steps steps' /\ Permutation services services' /\ Permutation vols vols'.
Proof.
  intros (P1 & P2 & P3 & _) (N1 & N2 & N3 & N4). rewrite N1 in P1. rewrite N2 in P2. rewrite N3 in P3.
  destruct (perm_some _ _ P1) as (a & A & PA). destruct (perm_some _ _ P2) as (b & B & PB). destruct (perm_some _ _ P3) as (c & C & PC).
  exists a, b, c. split; [|auto]. split; [exact A|]. split; [exact B|]. split; [exact C|].
  apply (Permutation_Forall (Permutation_app PA PB) N4).
Qed.
Lemma depends_perm l l' : Permutation l l' -> Acyclic (DependsOn l) -> Acyclic (DependsOn l').
Proof. intros P. apply (acyclic_perm ct_name ct_depends l l'). intros x. apply Permutation_in, Permutation_sym, P. Qed.
Lemma earlier_closed base steps : DepsEarlier base steps -> forall s d, In s steps -> In d (ct_depends s) -> In d base \/ In d (map ct_name steps).
Proof.
  intros H s d S D. destruct (in_split _ _ S) as (b & a & E). destruct (H b s a d E D) as [K|K]; [left; exact K|right]. rewrite E, map_app.
  apply in_or_app. left. exact K.
Qed.
Lemma sound_perm trusted p q steps services vols steps' services' vols' : pi_clone p = pi_clone q -> pi_platform p = pi_platform q ->
  Permutation steps steps' -> Permutation services services' -> Permutation vols vols' ->
  Sound trusted p steps services vols -> Sound trusted q steps' services' vols'.
Proof.
  intros C PL P1 P2 P3 (S1 & S2 & S3 & S4 & S5 & S6). unfold Sound, cloneNames in *. rewrite <- C, <- PL.
  split; [exact S1|]. split; [apply (Permutation_Forall P3 S2)|]. split; [apply (Permutation_Forall (Permutation_app P1 P2) S3)|].
  split; [eapply Permutation_NoDup; [|exact S4]; apply Permutation_app_head, Permutation_map, Permutation_app; assumption|].
  split; [|apply (depends_perm steps), S6; exact P1]. intros s d S D.
  destruct (S5 s d (Permutation_in _ (Permutation_sym P1) S) D) as [K|K]; [left; exact K|right]. apply (Permutation_in _ (Permutation_map ct_name P1)), K.
Qed.
Lemma well_formed_sound trusted p steps services vols : NoNulls p steps services vols ->
  (WellFormed trusted p steps services vols <-> Sound trusted p steps services vols /\ DepsEarlier (cloneNames p) steps).
Proof.
  intros N. split.
  - intros W. pose proof (proj2 (checkPipeline_ok trusted p _ _ _ N) W) as L. destruct (step_graph _ _ _ _ _ N L) as (AC & _).
    destruct W as (W1 & W2 & W3 & W4 & W5). split; [|exact W5]. do 4 (split; [assumption|]). split; [apply earlier_closed, W5|exact AC].
  - intros ((S1 & S2 & S3 & S4 & _) & E). repeat (split; [assumption|]). exact E.
Qed.
Theorem order_matters trusted p q steps services vols : NoNulls p steps services vols -> Reordered p q -> Lint (RPipeline p) trusted = Ok tt ->
  forall steps', pi_steps q = map Some steps' -> (Lint (RPipeline q) trusted = Ok tt <-> DepsEarlier (cloneNames p) steps').
Proof.
  intros N R L steps' E. pose proof (proj1 (checkPipeline_ok _ _ _ _ _ N) L) as W. apply (well_formed_sound _ _ _ _ _ N) in W. destruct W as (S & _).
  destruct (reordered_lists _ _ _ _ _ R N) as (s' & v' & o' & N' & P1 & P2 & P3). destruct R as (_ & _ & _ & C & PL).
  assert (s' = steps') as ->.
  { destruct N' as (N' & _). rewrite E in N'. clear -N'. revert s' N'. induction steps' as [|x l IH]; intros [|y s'] H; try discriminate; [reflexivity|].
    injection H as -> H. f_equal. apply IH, H. }
  unfold Lint. rewrite (checkPipeline_ok trusted q _ _ _ N'), (well_formed_sound _ _ _ _ _ N'). unfold cloneNames. rewrite C.
  split; [intros (_ & K); exact K|intros K; split; [|exact K]]. apply (sound_perm trusted p q _ _ _ _ _ _ C PL P1 P2 P3 S).
Qed.
Definition withSteps (p : Pipeline) (l : list Container) : Pipeline :=
  {| pi_version := pi_version p; pi_kind := pi_kind p; pi_type := pi_type p; pi_name := pi_name p; pi_clone := pi_clone p;
     pi_concurrency := pi_concurrency p; pi_depends := pi_depends p; pi_node := pi_node p;
     pi_platform := pi_platform p; pi_pull_secrets := pi_pull_secrets p; pi_services := pi_services p;
     pi_steps := map Some l; pi_trigger := pi_trigger p; pi_volumes := pi_volumes p; pi_workspace := pi_workspace p |}.
Theorem can_be_ordered trusted p steps services vols : NoNulls p steps services vols ->
  ((exists q, Reordered p q /\ Lint (RPipeline q) trusted = Ok tt) <-> Sound trusted p steps services vols).
Proof.
  intros N. split.
  - intros (q & R & L). destruct (reordered_lists _ _ _ _ _ R N) as (s' & v' & o' & N' & P1 & P2 & P3). destruct R as (_ & _ & _ & C & PL).
    apply (checkPipeline_ok trusted q _ _ _ N'), (well_formed_sound _ _ _ _ _ N') in L. destruct L as (L & _).
    apply (sound_perm trusted q p s' v' o'); auto using Permutation_sym.
  - intros S. destruct (sortable ct_name ct_depends (cloneNames p) steps) as (l & P & E); [apply S|apply S|].
    destruct N as (N1 & N2 & N3 & N4).
    assert (R : Reordered p (withSteps p l)).
    { split; [rewrite N1; apply Permutation_map, P|]. do 3 (split; [reflexivity|]). reflexivity. }
    exists (withSteps p l). split; [exact R|].
    assert (N' : NoNulls (withSteps p l) l services vols).
    { split; [reflexivity|]. split; [exact N2|]. split; [exact N3|]. apply (Permutation_Forall (Permutation_app_tail services P) N4). }
    apply (checkPipeline_ok trusted _ _ _ _ N'), (well_formed_sound _ _ _ _ _ N'). split; [|exact E].
    apply (sound_perm trusted p _ steps services vols); auto.
Qed.

(** ** Manifests *)
Lemma pipelines_app a b : pipelinesOf (a ++ b) = pipelinesOf a ++ pipelinesOf b.
Proof. induction a as [|[] a IH]; cbn; rewrite ?IH; reflexivity. Qed.
Lemma pipelines_perm l l' : Permutation l l' -> Permutation (pipelinesOf l) (pipelinesOf l').
Proof. induction 1 as [|x l l' P IH|x y l|l m k]; [constructor|destruct x; cbn; auto|destruct x, y; cbn; auto using perm_swap|etransitivity; eassumption]. Qed.
Lemma pipelines_only ps : pipelinesOf (map RPipeline ps) = ps.
Proof. induction ps; cbn; congruence. Qed.
Fixpoint othersOf (rs : list Resource) : list Resource :=
  match rs with [] => [] | RPipeline _ :: rs' => othersOf rs' | r :: rs' => r :: othersOf rs' end.
Lemma split_perm rs : Permutation rs (othersOf rs ++ map RPipeline (pipelinesOf rs)).
Proof. induction rs as [|[] rs IH]; cbn; auto. apply Permutation_cons_app, IH. Qed.
Lemma others_none rs : pipelinesOf (othersOf rs) = [].
Proof. induction rs as [|[] rs IH]; cbn; auto. Qed.
Theorem manifest_can_be_ordered rs trusted :
  ((exists rs', Permutation rs rs' /\ lintManifest {| mf_resources := rs' |} trusted = Ok tt) <-> SoundManifest (pipelinesOf rs)).
Proof.
  split.
  - intros (rs' & P & L). pose proof (manifest_graph _ _ L) as AC. cbn [mf_resources] in AC. apply lintManifest_ok in L. cbn [mf_resources] in L. destruct L as (L1 & L2 & L3).
    apply pipelines_perm, Permutation_sym in P. split; [apply (Permutation_NoDup (Permutation_map pi_name P) L1)|].
    split; [apply (Permutation_Forall P L3)|]. split.
    + intros p d Q D. apply (Permutation_in _ (Permutation_map pi_name P)). destruct (in_split _ _ (Permutation_in _ (Permutation_sym P) Q)) as (b & a & E).
      rewrite E, map_app. apply in_or_app. left. apply (L2 b p a d E D).
    + apply (acyclic_perm pi_name pi_depends (pipelinesOf rs')); [|exact AC]. intros x. apply Permutation_in, Permutation_sym, P.
  - intros (S1 & S2 & S3 & S4). destruct (sortable pi_name pi_depends [] (pipelinesOf rs)) as (l & P & E); [exact S4|intros; right; eauto|].
    exists (othersOf rs ++ map RPipeline l). split; [etransitivity; [apply split_perm|]; apply Permutation_app_head, Permutation_map, P|].
    apply lintManifest_ok. cbn [mf_resources]. rewrite pipelines_app, others_none, pipelines_only. cbn [app].
    split; [apply (Permutation_NoDup (Permutation_map pi_name P) S1)|]. split; [|apply (Permutation_Forall P S2)].
    intros b p a d H D. destruct (E b p a d H D) as [[]|K]. exact K.
Qed.
(** ** The command *)
Lemma oiter_ok {A} (f : A -> outcome unit) l : oiter f l = Ok tt <-> Forall (fun x => f x = Ok tt) l.
Proof.
  induction l as [|x l IH]; cbn; [split; auto|]. destruct (f x) as [[]| |] eqn:E; cbn.
  - rewrite IH. split; [intro; constructor; auto|intro H; inversion H; auto].
  - split; [discriminate|intro H; inversion H; congruence].
  - split; [discriminate|intro H; inversion H; congruence].
Qed.
Theorem lint_command_order mc trusted f fs fs' s t m m' :
  fs f = Some s -> fs' f = Some t -> parse (mc_decoder mc) s = Ok m -> parse (mc_decoder mc) t = Ok m' ->
  Permutation (mf_resources m) (mf_resources m') ->
  (x_status (run mc (ALint trusted f) fs) = 0%Z <-> x_status (run mc (ALint trusted f) fs') = 0%Z).
Proof.
  intros Hs Ht Pm Pm' P.
  assert (K : forall fs s m, fs f = Some s -> parse (mc_decoder mc) s = Ok m ->
    (x_status (run mc (ALint trusted f) fs) = 0%Z <-> Forall (fun r => Lint r trusted = Ok tt) (mf_resources m))).
  { clear. intros fs s m H Q. rewrite <- oiter_ok. unfold run, main, runLint. cbn [source parseArgs]. rewrite H, Q. cbn [obind lintPriv].
    destruct (oiter _ _) as [[]| |]; cbn; split; intros; try reflexivity; discriminate. }
  rewrite (K _ _ _ Hs Pm), (K _ _ _ Ht Pm'). split; intro F; [apply (Permutation_Forall P F)|apply (Permutation_Forall (Permutation_sym P) F)].
Qed.
Lemma in_pipelines rs p : In p (pipelinesOf rs) <-> In (RPipeline p) rs.
Proof.
  induction rs as [|r rs IH]; [reflexivity|]. destruct r; cbn; rewrite IH; try (split; [right; assumption|intros [E|E]; [discriminate|exact E]]).
  split; (intros [E|E]; [left; congruence|right; exact E]).
Qed.
Lemma selected_order name l l' p : Permutation l l' -> name <> "" -> NoDup (map pi_name (pipelinesOf l)) ->
  MainSpec.Selected name l p -> MainSpec.Selected name l' p.
Proof.
  intros P N D (b & a & E & [K|K] & _); [contradiction|].
  pose proof (Permutation_NoDup (Permutation_map pi_name (pipelines_perm _ _ P)) D) as D'.
  assert (I : In (RPipeline p) l') by (apply (Permutation_in _ P); rewrite E; apply in_elt).
  destruct (in_split _ _ I) as (b' & a' & ->). exists b', a'. split; [reflexivity|]. split; [right; exact K|]. intros q Q. split; [exact N|].
  intro F. rewrite pipelines_app in D'. cbn [pipelinesOf] in D'. rewrite map_app in D'. cbn [map] in D'. apply NoDup_remove_2 in D'.
  apply D', in_or_app. left. rewrite K, <- F. apply in_map, in_pipelines, Q.
Qed.
Lemma find_order name l l' : Permutation l l' -> name <> "" -> NoDup (map pi_name (pipelinesOf l)) -> findPipeline name l = findPipeline name l'.
Proof.
  intros P N D. destruct (findPipeline name l) as [p|] eqn:E.
  - symmetry. apply find_selected, (selected_order name l); auto. apply find_selected, E.
  - destruct (findPipeline name l') as [q|] eqn:E'; [|reflexivity]. apply find_selected in E'.
    apply (selected_order name l' l q (Permutation_sym P) N) in E'; [apply find_selected in E'; congruence|].
    apply (Permutation_NoDup (Permutation_map pi_name (pipelines_perm _ _ P)) D).
Qed.
Theorem compile_command_order mc name clone fl f fs fs' s t m m' :
  fs f = Some s -> fs' f = Some t -> parse (mc_decoder mc) s = Ok m -> parse (mc_decoder mc) t = Ok m' ->
  Permutation (mf_resources m) (mf_resources m') -> name <> "" -> NoDup (map pi_name (pipelinesOf (mf_resources m))) ->
  let x := run mc (ACompile name clone fl f) fs in let y := run mc (ACompile name clone fl f) fs' in
  x_status x = x_status y /\ x_stdout x = x_stdout y /\ x_stderr x = x_stderr y.
Proof.
  intros Hs Ht Pm Pm' P N D. cbv zeta. unfold run, main, runCompile. cbn [source parseArgs]. rewrite Hs, Ht, Pm, Pm'.
  cbn [obind compileName compileFlags cloneFlag]. rewrite (find_order _ _ _ P N D). destruct (findPipeline name _) as [p|]; [|cbn; auto].
  destruct (registryAuths _) as [auths| |]; cbn [obind]; [|cbn; auto..]. destruct (Compiler.Compile _ _ _ _ _ _ _ _ _ _) as [[c n]| |]; cbn; auto.
Qed.
