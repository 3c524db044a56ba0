(** * Rules.v: the linter follows its rules in order. *)
From Verif Require Import Model.Go Model.Types Model.RawParse Model.Lint Model.Main Spec.LintSpec Spec.MainSpec Spec.RuleSpec
  Proofs.ParseFacts Proofs.GoFacts Proofs.LintFacts.
Local Open Scope list_scope.

Definition Decided {A} (l : list Rule) (o : outcome A) : Prop :=
  match o with
  | Ok _ => NoneApplies l
  | Err e => First l (Says e)
  | Panic => First l Crash
  end.
Lemma first_app l l' v : First l v -> First (l ++ l') v.
Proof.
  intros (before & P & after & -> & HP & F). exists before, P, (after ++ l'). rewrite <- app_assoc. auto.
Qed.
Lemma first_skip l l' v : NoneApplies l -> First l' v -> First (l ++ l') v.
Proof.
  intros N (before & P & after & -> & HP & F). exists (l ++ before), P, after. rewrite <- app_assoc. split; [reflexivity|].
  split; [exact HP|]. apply Forall_app. auto.
Qed.
Lemma decided_bind {A B} l l' (m : outcome A) (k : A -> outcome B) :
  Decided l m -> (forall a, m = Ok a -> Decided l' (k a)) -> Decided (l ++ l') (obind m k).
Proof.
  intros H K. destruct m as [a|e|]; cbn [obind Decided] in *; try (apply first_app; exact H).
  specialize (K a eq_refl). destruct (k a) as [b|e|]; cbn [Decided] in *; try (apply first_skip; assumption).
  apply Forall_app. auto.
Qed.
Lemma decided_last {A B} l (m : outcome A) (b : B) : Decided l m -> Decided l (m ;;; Ok b).
Proof. intro H. rewrite <- (app_nil_r l). apply decided_bind; [exact H|]. intros _ _. constructor. Qed.
Lemma obind_assoc {A B C} (m : outcome A) (f : A -> outcome B) (g : B -> outcome C) :
  (x <- (y <- m ;; f y) ;; g x) = (y <- m ;; x <- f y ;; g x).
Proof. destruct m; reflexivity. Qed.
Lemma decided_cons {A B} x l' (m : outcome A) (k : A -> outcome B) :
  Decided [x] m -> (forall a, m = Ok a -> Decided l' (k a)) -> Decided (x :: l') (obind m k).
Proof. exact (decided_bind [x] l' m k). Qed.
Lemma decided_refuse b (P : Prop) e : (b = true <-> P) -> Decided [(P, Says e)] (refuse b e).
Proof.
  intro H. destruct b; cbn.
  - exists [], P, []. split; [reflexivity|]. split; [apply H; reflexivity|constructor].
  - constructor; [|constructor]. cbn. intro K. apply H in K. discriminate.
Qed.
Lemma decided_crash {A} (P : Prop) l : P -> @Decided A ((P, Crash) :: l) Panic.
Proof. intro H. exists [], P, l. split; [reflexivity|]. split; [exact H|constructor]. Qed.
Lemma decided_iter {A} (f : A -> outcome unit) (g : A -> list Rule) l :
  (forall a, Decided (g a) (f a)) -> Decided (flat_map g l) (oiter f l).
Proof.
  intro H. induction l as [|a l IH]; cbn [flat_map oiter]; [constructor|]. apply decided_bind; [apply H|]. intros _ _. exact IH.
Qed.
Lemma first_unique l v v' : First l v -> First l v' -> v = v'.
Proof.
  intros (b & P & a & -> & HP & F) (b' & P' & a' & E & HP' & F'). revert b' E F'. induction b as [|x b IH]; intros b' E F'.
  - destruct b' as [|y b']; [injection E; auto|]. injection E as <- E. inversion F'; subst. contradiction.
  - inversion F; subst. destruct b' as [|y b'].
    + injection E as -> E. contradiction.
    + injection E as <- E. inversion F'; subst. apply (IH H2 b' E). assumption.
Qed.
Lemma first_applies l v : First l v -> ~ NoneApplies l.
Proof.
  intros (b & P & a & -> & HP & _) N. apply Forall_app in N as [_ N]. inversion N; subst. contradiction.
Qed.
Lemma decided_exactly l (o : outcome unit) : Decided l o ->
  (o = Ok tt <-> NoneApplies l) /\ (forall e, o = Err e <-> First l (Says e)) /\ (o = Panic <-> First l Crash).
Proof.
  intro H. destruct o as [[]|e|]; cbn [Decided] in H.
  - split; [split; auto|]. split; [intro e|]; (split; [discriminate|]; intro F; exfalso; exact (first_applies _ _ F H)).
  - split; [split; [discriminate|]; intro N; exfalso; exact (first_applies _ _ H N)|]. split.
    + intro e'. split; [intro E; injection E as <-; exact H|]. intro F. assert (K := first_unique _ _ _ H F). injection K as ->. reflexivity.
    + split; [discriminate|]. intro F. assert (K := first_unique _ _ _ H F). discriminate.
  - split; [split; [discriminate|]; intro N; exfalso; exact (first_applies _ _ H N)|]. split.
    + intro e'. split; [discriminate|]. intro F. assert (K := first_unique _ _ _ H F). discriminate.
    + split; auto.
Qed.

(** ** The checks *)
Lemma untrusted b (P : Prop) trusted : (b = true <-> P) -> (negb trusted && b = true <-> trusted = false /\ P).
Proof. intro H. rewrite andb_true_iff, negb_true_iff, H. tauto. Qed.
Lemma some_length {A} (l : list A) : Nat.ltb 0 (length l) = true <-> l <> [].
Proof. destruct l; cbn; split; congruence. Qed.
Lemma not_empty s : negb (isEmpty s) = true <-> s <> "".
Proof. rewrite negb_true_iff. apply isEmpty_false'. Qed.
Lemma platform_decided p : Decided (platformRules p) (checkPlatform p).
Proof.
  unfold checkPlatform, platformRules. apply decided_cons; [|intros _ _]; apply decided_refuse;
    rewrite andb_true_iff, not_empty, negb_true_iff, <- not_true_iff_false, smem_spec; cbn [In osNames archNames]; split.
  - intros [H K] [E|E]; [congruence|exact (K E)].
  - intro H. split; [|tauto]. intro E. apply H. left. congruence.
  - intros [H K] [E|E]; [congruence|exact (K E)].
  - intro H. split; [|tauto]. intro E. apply H. left. congruence.
Qed.
Lemma port_decided trusted o : Decided (portRules trusted o) (checkPort trusted o).
Proof.
  destruct trusted, o as [p|]; cbn [portRules checkPort deref obind].
  - constructor; [|constructor]. intros [H _]. discriminate.
  - constructor; [|constructor]. intro H. discriminate.
  - apply decided_refuse. rewrite negb_true_iff, Z.eqb_neq. tauto.
  - apply decided_crash. reflexivity.
Qed.
Lemma mount_decided o : Decided (mountRules o) (checkMount o).
Proof.
  destruct o as [m|]; cbn [mountRules checkMount deref obind]; [|apply decided_crash; exact I].
  apply decided_refuse, reserved_spec.
Qed.
Lemma container_decided trusted c : Decided (containerRules trusted c) (checkContainer c trusted).
Proof.
  unfold containerRules, checkContainer. apply decided_bind; [apply decided_iter, port_decided|]. intros _ _. cbn [app].
  apply decided_cons; [apply decided_refuse; destruct (ct_build c); [split; [discriminate|intros [H _]; discriminate]|rewrite isEmpty_spec; tauto]|intros _ _].
  apply decided_cons; [apply decided_refuse; destruct (ct_build c) as [b|];
    [rewrite isEmpty_spec; split; [intro H; exists b; auto|intros (b' & E & H); injection E as <-; exact H]|split; [discriminate|intros (b' & E & _); discriminate]]|intros _ _].
  apply decided_cons; [apply decided_refuse, isEmpty_spec|intros _ _].
  apply decided_cons; [apply decided_refuse, untrusted; tauto|intros _ _].
  do 4 (apply decided_cons; [apply decided_refuse, untrusted, some_length|intros _ _]).
  apply decided_cons; [apply decided_refuse, untrusted, not_empty|intros _ _].
  apply decided_iter, mount_decided.
Qed.
Lemma volume_decided trusted o : Decided (volumeRules trusted o) (checkVolume trusted o).
Proof.
  destruct o as [v|]; cbn [volumeRules checkVolume deref obind]; [|apply decided_crash; exact I].
  apply decided_cons.
  { destruct (vo_empty v) as [e|].
    - apply decided_refuse, untrusted. rewrite String.eqb_eq. split; [intro H; exists e; auto|intros (e' & E & H); injection E as <-; exact H].
    - constructor; [|constructor]. intros (_ & e & E & _). discriminate. }
  intros _ _. apply decided_cons.
  { destruct (vo_host v) as [h|].
    - apply decided_refuse. rewrite negb_true_iff. split; [intro; split; [assumption|discriminate]|tauto].
    - constructor; [|constructor]. intros (_ & H). congruence. }
  intros _ _. apply decided_refuse, reserved_spec.
Qed.
Lemma waits_decided missing self own seen names l : (forall x, In x names <-> x = own \/ In x seen) ->
  Decided (flat_map (waitRules missing self own seen) l)
    (oiter (fun d => refuse (negb (smem d names)) missing ;;; refuse (String.eqb own d) self) l).
Proof.
  intro H. apply decided_iter. intro d. apply decided_cons; [|intros _ _]; apply decided_refuse.
  - rewrite negb_true_iff, <- not_true_iff_false, smem_spec, H. tauto.
  - rewrite String.eqb_eq. split; congruence.
Qed.

Definition Same (names seen : list string) : Prop := forall x, In x names <-> In x seen.
Lemma same_cons n names seen : Same names seen -> Same (n :: names) (seen ++ [n]).
Proof. intros H x. rewrite in_app_iff. cbn [In]. rewrite (H x). tauto. Qed.
Lemma steps_decided trusted l : forall names seen, Same names seen ->
  Decided (stepRules trusted seen l) (ofold (checkStep trusted) l names) /\
  forall names', ofold (checkStep trusted) l names = Ok names' -> Same names' (seen ++ namesOf l).
Proof.
  induction l as [|[c|] l IH]; intros names seen S; cbn [stepRules ofold].
  - split; [constructor|]. intros n E. injection E as <-. cbn. rewrite app_nil_r. exact S.
  - assert (S' := same_cons (ct_name c) _ _ S). destruct (IH _ _ S') as [D N]. split.
    + assert (D1 : Decided ([(In (ct_name c) seen, Says "linter: duplicate step names")] ++ containerRules trusted c ++
          flat_map (waitRules ErrMissingDependency ErrCyclicalDependency (ct_name c) seen) (ct_depends c)) (checkStep trusted names (Some c))).
      { unfold checkStep. cbn [deref obind]. apply decided_bind; [apply decided_refuse; rewrite smem_spec; apply S|intros _ _].
        apply decided_bind; [apply container_decided|intros _ _]. apply decided_last.
        unfold checkDeps. apply waits_decided. intro x. cbn [In]. rewrite (S x). split; intros [H|H]; auto. }
      change ((In (ct_name c) seen, Says "linter: duplicate step names") :: containerRules trusted c ++ ?r) with
        ([(In (ct_name c) seen, Says "linter: duplicate step names")] ++ containerRules trusted c ++ r).
      rewrite !app_assoc. apply decided_bind; [rewrite <- app_assoc; exact D1|]. intros n E.
      assert (En : n = ct_name c :: names).
      { revert E. unfold checkStep. cbn [deref obind]. rewrite !oseq_ok. intros (_ & _ & _ & E). injection E as <-. reflexivity. }
      subst n. exact D.
    + intros n E. apply obind_ok in E as (n1 & E1 & E2).
      assert (En : n1 = ct_name c :: names).
      { revert E1. unfold checkStep. cbn [deref obind]. rewrite !oseq_ok. intros (_ & _ & _ & E1). injection E1 as <-. reflexivity. }
      subst n1. apply N in E2. cbn [namesOf flat_map app]. rewrite <- app_assoc in E2. exact E2.
  - split; [apply decided_crash; exact I|discriminate].
Qed.
Lemma services_decided trusted l : forall names seen, Same names seen ->
  Decided (serviceRules trusted seen l) (ofold (checkService trusted) l names).
Proof.
  induction l as [|[c|] l IH]; intros names seen S; cbn [serviceRules ofold]; [constructor| |apply decided_crash; exact I].
  assert (S' := same_cons (ct_name c) _ _ S).
  assert (D1 : Decided ([(In (ct_name c) seen, Says "linter: duplicate step names")] ++ containerRules trusted c) (checkService trusted names (Some c))).
  { unfold checkService. cbn [deref obind]. apply decided_bind; [apply decided_refuse; rewrite smem_spec; apply S|intros _ _].
    apply decided_last, container_decided. }
  change ((In (ct_name c) seen, Says "linter: duplicate step names") :: containerRules trusted c ++ ?r) with
    ([(In (ct_name c) seen, Says "linter: duplicate step names")] ++ containerRules trusted c ++ r).
  rewrite app_assoc. apply decided_bind; [exact D1|]. intros n E.
  assert (En : n = ct_name c :: names).
  { revert E. unfold checkService. cbn [deref obind]. rewrite !oseq_ok. intros (_ & _ & E). injection E as <-. reflexivity. }
  subst n. apply IH, S'.
Qed.
Lemma forget {A} (m : outcome A) l : Decided l m -> Decided l (x <- m ;; Ok tt).
Proof. intro H. rewrite <- (app_nil_r l). apply decided_bind; [exact H|]. intros _ _. constructor. Qed.
Lemma resource_decided trusted r : Decided (rules trusted r) (Lint r trusted).
Proof.
  destruct r as [c|p|s|s|g]; cbn [rules Lint].
  - apply decided_refuse, isEmpty_spec.
  - unfold checkPipeline. fold (cloneNames p). apply decided_bind; [apply decided_iter, volume_decided|intros _ _].
    apply decided_bind; [apply platform_decided|intros _ _].
    destruct (steps_decided trusted (pi_steps p) (cloneNames p) (cloneNames p)) as [D N]; [intro x; tauto|].
    apply decided_bind; [exact D|]. intros n E. apply forget, services_decided, N, E.
  - apply decided_refuse. rewrite !andb_true_iff, !isEmpty_spec. tauto.
  - apply decided_refuse, isEmpty_spec.
  - apply decided_refuse. rewrite Nat.eqb_eq. destruct (rg_data g); cbn; split; congruence.
Qed.
Theorem lint_rules trusted r :
  (Lint r trusted = Ok tt <-> NoneApplies (rules trusted r)) /\
  (forall e, Lint r trusted = Err e <-> First (rules trusted r) (Says e)) /\
  (Lint r trusted = Panic <-> First (rules trusted r) Crash).
Proof. apply decided_exactly, resource_decided. Qed.

Lemma manifest_decided l : forall names seen, Same names seen -> Decided (manifestRules seen l) (ofold checkManifestResource l names).
Proof.
  induction l as [|r l IH]; intros names seen S; cbn [manifestRules ofold]; [constructor|].
  destruct r as [c|p|s|s|g]; cbn [checkManifestResource obind]; try (apply IH; exact S).
  assert (S' := same_cons (pi_name p) _ _ S).
  rewrite !obind_assoc. apply decided_cons; [apply decided_refuse; rewrite smem_spec; apply S|intros _ _].
  apply decided_bind; [unfold checkPipelineDeps; apply waits_decided; intro x; cbn [In]; rewrite (S x); split; intros [H|H]; auto|intros _ _].
  apply decided_bind; [|intros _ _; cbn [obind]; apply IH, S'].
  assert (K : (String.eqb (pi_kind p) "pipeline" || isEmpty (pi_kind p)) && (isEmpty (pi_type p) || String.eqb (pi_type p) "docker") = true <-> DockerPipeline p).
  { rewrite andb_true_iff, !orb_true_iff, !String.eqb_eq, !isEmpty_spec. unfold DockerPipeline. cbn [In]. intuition congruence. }
  destruct (_ && _) eqn:E.
  - assert (P := platform_decided (pi_platform p)). assert (Dk := proj1 K eq_refl).
    assert (M : forall l v, First l v -> First (map (fun r => (DockerPipeline p /\ fst r, snd r)) l) v).
    { intros l0 v (b & P0 & a & -> & HP & F). rewrite map_app. cbn [map fst snd].
      eexists _, _, _. split; [reflexivity|]. split; [auto|]. apply Forall_map. eapply Forall_impl; [|exact F]. cbn. tauto. }
    destruct (checkPlatform (pi_platform p)) as [u|e|]; cbn [Decided] in *; try (apply M, P).
    apply Forall_map. eapply Forall_impl; [|exact P]. cbn. tauto.
  - apply Forall_map. apply Forall_forall. intros r _ [H _]. apply K in H. discriminate.
Qed.
Theorem manifest_rules m trusted :
  (lintManifest m trusted = Ok tt <-> NoneApplies (manifestRules [] (mf_resources m))) /\
  (forall e, lintManifest m trusted = Err e <-> First (manifestRules [] (mf_resources m)) (Says e)) /\
  lintManifest m trusted <> Panic.
Proof.
  assert (D : Decided (manifestRules [] (mf_resources m)) (lintManifest m trusted)) by (apply forget, manifest_decided; intro x; tauto).
  destruct (decided_exactly _ _ D) as (A & B & C). split; [exact A|]. split; [exact B|]. apply manifest_np.
Qed.

Theorem command_rules mc trusted f fs s m : fs f = Some s -> parse (mc_decoder mc) s = Ok m ->
  let x := run mc (ALint trusted f) fs in let l := flat_map (rules trusted) (mf_resources m) in
  (x_status x = 0%Z <-> NoneApplies l) /\ (x_status x = 1%Z <-> exists e, First l (Says e)) /\ (x_status x = 2%Z <-> First l Crash) /\
  (forall e, First l (Says e) -> x_stderr x = mc_fatal mc e).
Proof.
  intros Es Em. cbv zeta. unfold run, main, runLint. cbn [source parseArgs]. rewrite Es. cbn [lintPriv]. rewrite Em. cbn [obind].
  assert (D : Decided (flat_map (rules trusted) (mf_resources m)) (oiter (fun r => Lint r trusted) (mf_resources m))).
  { apply decided_iter. intro r. apply resource_decided. }
  destruct (decided_exactly _ _ D) as (A & B & C). clear D.
  destruct (oiter (fun r => Lint r trusted) (mf_resources m)) as [[]|e|] eqn:E; cbn [obind x_status x_stderr].
  - split; [rewrite <- A; split; reflexivity|]. split; [split; [discriminate|intros [e F]; apply B in F; discriminate]|].
    split; [rewrite <- C; split; discriminate|]. intros e F. apply B in F. discriminate.
  - split; [rewrite <- A; split; discriminate|]. split; [split; [intros _; exists e; apply B; reflexivity|reflexivity]|].
    split; [rewrite <- C; split; discriminate|]. intros e' F. apply B in F. injection F as ->. reflexivity.
  - split; [rewrite <- A; split; discriminate|]. split; [split; [discriminate|intros [e F]; apply B in F; discriminate]|].
    split; [rewrite <- C; split; reflexivity|]. intros e' F. apply B in F. discriminate.
Qed.
