(** * Ignored.v: what the compiler does not look at. *)
From Verif Require Import Model.Go Model.Types Model.RawParse Model.Path Model.Cond Model.Dind Model.Engine Model.Encode Model.Compiler Model.Main
  Spec.CompileSpec Spec.MainSpec Spec.IgnoredSpec Proofs.GoFacts Proofs.MainCompile.

Lemma bind_ok {A B} (x : A) (k : A -> M B) : mbind (mlift (Ok x)) k = k x.
Proof. reflexivity. Qed.
Section Ignored.
  Variables (rnd : nat -> string) (glob : string -> string -> option bool) (available : string -> bool) (isPrintHigh : N -> bool)
    (formatFloat : float64 -> string) (toJSON : value -> string) (ord : nat -> smap string -> smap string).
  Variable c : Compiler.
  Hypothesis HS : forall f, co_skip c = Some f -> Judges f.
  Hypothesis HP : forall f, co_privileged c = Some f -> Judges f.
  Notation act f := (f rnd glob available isPrintHigh formatFloat toJSON) (only parsing).
  Lemma skipped_same a b : ct_image a = ct_image b -> ct_when a = ct_when b -> ct_command a = ct_command b -> ct_commands a = ct_commands b -> ct_entrypoint a = ct_entrypoint b ->
    isSkipped c a = isSkipped c b /\ isPrivileged c a = isPrivileged c b.
  Proof using HS HP.
    intros. unfold isSkipped, isPrivileged. split; [destruct (co_skip c) as [f|]; [apply (HS f eq_refl); assumption|reflexivity]|].
    destruct (co_privileged c) as [f|]; [apply (HP f eq_refl); assumption|reflexivity].
  Qed.
  Lemma service_same p q isSerial ws spec a b : pi_clone p = pi_clone q -> SameEntry SameService a b ->
    act compileService c p isSerial ws spec a = act compileService c q isSerial ws spec b.
  Proof using HS HP.
    intros C H. destruct a as [a|], b as [b|]; try destruct H; [|reflexivity]. unfold SameEntry, SameService in *.
    unfold compileService. destruct ws as [[base dir] workspace]. cbn [deref]. rewrite !bind_ok, C.
    destruct (skipped_same a b) as [-> ->]; try tauto. destruct a, b. cbn in *. repeat match goal with H : _ /\ _ |- _ => destruct H end. subst. reflexivity.
  Qed.
  Lemma step_same p q isSerial ws spec a b : pi_clone p = pi_clone q -> SameEntry SameStep a b ->
    act compileStep c p isSerial ws spec a = act compileStep c q isSerial ws spec b.
  Proof using HS HP.
    intros C H. destruct a as [a|], b as [b|]; try destruct H; [|reflexivity].
    unfold SameEntry, SameStep in H. unfold compileStep. destruct ws as [[base dir] workspace], spec as [spec rename]. cbn [deref]. rewrite !bind_ok, C.
    destruct (ct_build a) as [ba|] eqn:Ba, (ct_build b) as [bb|] eqn:Bb; try destruct H.
    - unfold SameBuild, SameBuildStep in *. destruct (skipped_same a b) as [-> ->]; try tauto.
      destruct ba, bb, a, b. cbn in *. repeat match goal with H : _ /\ _ |- _ => destruct H end. subst. reflexivity.
    - unfold SameService in *. repeat match goal with H : _ /\ _ |- _ => destruct H end. destruct (skipped_same a b) as [-> ->]; try assumption.
      destruct a, b. cbn in *. subst. reflexivity.
  Qed.
  Lemma mfold_same {A S} (R : A -> A -> Prop) (f g : S -> A -> M S) : (forall s a b, R a b -> f s a = g s b) ->
    forall l l', Forall2 R l l' -> forall s n, mfold f l s n = mfold g l' s n.
  Proof.
    intros H l l' F. induction F as [|a b l l' Hab F IH]; intros s n; [reflexivity|]. cbn [mfold]. unfold mbind. rewrite (H s a b Hab).
    destruct (g s b n) as [[s' n']| |]; [apply IH|reflexivity..].
  Qed.
  Lemma serial_same l l' : Forall2 (SameEntry SameStep) l l' -> computeSerial l = computeSerial l'.
  Proof.
    induction 1 as [|a b l l' H F IH]; [reflexivity|]. destruct a as [a|], b as [b|]; try destruct H; [|reflexivity]. cbn [computeSerial deref obind]. rewrite IH.
    assert (E : ct_depends a = ct_depends b).
    { unfold SameEntry, SameStep, SameService, SameBuildStep in H. destruct (ct_build a), (ct_build b); try destruct H; repeat match goal with H : _ /\ _ |- _ => destruct H end; assumption. }
    rewrite E. reflexivity.
  Qed.
  Theorem compile_same p q : SamePipeline p q -> forall n, act Compile ord c p n = act Compile ord c q n.
  Proof using HS HP.
    intros (H1 & H2 & H3 & H4 & H5 & H6 & H7 & Sv & St) n. unfold Compile. unfold mbind. destruct (fresh rnd n) as [[namespace n1]| |]; [|reflexivity..]. rewrite (serial_same _ _ St).
    destruct (mlift (computeSerial (pi_steps q)) n1) as [[isSerial n2]| |]; [|reflexivity..].
    assert (E1 : initialSpec namespace p = initialSpec namespace q) by (unfold initialSpec; rewrite H1, H2, H3, H5; reflexivity).
    assert (E2 : createWorkspace p = createWorkspace q) by (unfold createWorkspace; rewrite H5, H7; reflexivity).
    assert (E3 : forall ws spec, act compileClone c p ws spec = act compileClone c q ws spec).
    { intros. unfold compileClone, createClone, setupCloneDepth, cloneImage. rewrite H4, H5. reflexivity. }
    rewrite E1, E2, H4, H6. destruct (setupWorkspace _ _ _ _) as [[spec n3]| |]; [|reflexivity..].
    destruct (mfold _ (pi_volumes q) spec n3) as [[spec4 n4]| |]; [|reflexivity..].
    rewrite E3. match goal with |- match ?x with _ => _ end = _ => destruct x as [[spec5 n5]| |] end; [|reflexivity..].
    rewrite (mfold_same _ _ (act compileService c q isSerial (createWorkspace q)) (fun s a b => service_same p q _ _ s a b H4) _ _ Sv).
    destruct (mfold _ (pi_services q) spec5 n5) as [[spec6 n6]| |]; [|reflexivity..].
    rewrite (mfold_same _ _ (act compileStep c q isSerial (createWorkspace q)) (fun s a b => step_same p q _ _ s a b H4) _ _ St). reflexivity.
  Qed.
End Ignored.
Lemma skip_judges glob data : Judges (SkipFunc glob data).
Proof. intros c d _ W _ _ _. unfold SkipFunc. rewrite W. reflexivity. Qed.
Lemma dind_judges available images : Judges (DindFunc available images).
Proof. intros c d I _ A B C. unfold DindFunc. rewrite I, A, B, C. reflexivity. Qed.
Lemma same_disabled p q : SamePipeline p q -> SamePipeline (disableClone p) (disableClone q).
Proof. unfold SamePipeline, disableClone. cbn. intros (H1 & H2 & H3 & H4 & H5 & H6 & H7 & H8 & H9). rewrite H4. repeat (split; [assumption || reflexivity|]). assumption. Qed.
Theorem same_compile_command mc name clone fl f fs fs' s t m m' p q :
  fs f = Some s -> fs' f = Some t -> parse (mc_decoder mc) s = Ok m -> parse (mc_decoder mc) t = Ok m' ->
  MainSpec.Selected name (mf_resources m) p -> MainSpec.Selected name (mf_resources m') q -> SamePipeline p q ->
  let x := run mc (ACompile name clone fl f) fs in let y := run mc (ACompile name clone fl f) fs' in
  x_status x = x_status y /\ x_stdout x = x_stdout y /\ x_stderr x = x_stderr y.
Proof.
  intros Hs Ht Pm Pm' Sp Sq E. cbv zeta. apply find_selected in Sp, Sq. unfold run, main, runCompile. cbn [source parseArgs].
  rewrite Hs, Ht, Pm, Pm'. cbn [obind compileName compileFlags cloneFlag]. rewrite Sp, Sq. destruct (registryAuths _) as [auths| |]; cbn [obind]; [|cbn; auto..].
  rewrite (compile_same _ _ _ _ _ _ _ _) with (p := if clone then p else disableClone p) (q := if clone then q else disableClone q).
  - destruct (Compile _ _ _ _ _ _ _ _ _ _) as [[c n]| |]; cbn; auto.
  - intros g G. injection G as <-. apply skip_judges.
  - intros g G. injection G as <-. apply dind_judges.
  - destruct clone; [exact E|apply same_disabled, E].
Qed.
