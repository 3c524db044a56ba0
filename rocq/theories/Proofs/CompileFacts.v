(** * CompileFacts.v: properties of compiled pipelines. *)
From Coq Require Import Lia Sorting.Permutation.
From Verif Require Import Model.Go Model.Types Model.Cond Model.Lint Model.Engine Model.Image Model.Quote
  Model.Script Model.Path Model.Encode Model.Compiler Spec.LintSpec Spec.CompileSpec
  Proofs.GoFacts Proofs.LintFacts Proofs.CompilePure.

(** ** Compilation needs lists without nulls. *)
Lemma mfold_inv {A S} (f : S -> A -> M S) l : forall s n s' n', mfold f l s n = Ok (s', n') ->
  Forall (fun a => exists t m t' m', f t a m = Ok (t', m')) l.
Proof.
  induction l as [|a l IH]; intros s n s' n' H; [constructor|]. cbn [mfold] in H.
  apply mbind_inv in H as (t & m & H1 & H2). constructor; eauto.
Qed.
Lemma all_some {A} (l : list (option A)) : Forall (fun o => exists a, o = Some a) l -> exists l', l = map Some l'.
Proof.
  induction 1 as [|o l [a ->] _ [l' ->]]; [exists []; reflexivity|]. exists (a :: l'). reflexivity.
Qed.
Lemma mlift_inv {A} (o : outcome A) n a n' : mlift o n = Ok (a, n') -> o = Ok a /\ n' = n.
Proof. unfold mlift. destruct o; intros [= <- <-]; auto. Qed.
Lemma deref_inv {A} (o : option A) a : deref o = Ok a -> o = Some a.
Proof. destruct o; intros [= ->]; reflexivity. Qed.
Lemma otraverse_toPort l r : otraverse toPort l = Ok r -> ~ In None l.
Proof.
  revert r. induction l as [|[q|] l IH]; intros r H; [intros []| |discriminate].
  cbn in H. destruct (otraverse toPort l) eqn:E; try discriminate. intros [X|X]; [discriminate|]. exact (IH _ eq_refl X).
Qed.
Lemma addMounts_inv l : forall dst r, addMounts l dst = Ok r -> ~ In None l.
Proof.
  induction l as [|[v|] l IH]; intros dst r H; [intros []| |discriminate]. cbn in H.
  intros [X|X]; [discriminate|]. destruct (String.eqb (vm_name v) "_docker_socket"); exact (IH _ _ H X).
Qed.

Section Facts.
  Variable w : World.
  Let rnd := w_rnd w.
  Let glob := w_glob w.
  Let available := w_available w.
  Let isPrintHigh := w_isPrintHigh w.
  Let formatFloat := w_formatFloat w.
  Let toJSON := w_toJSON w.
  Let ord := w_ord w.

  Lemma createStep_inv spec src n r n' : createStep rnd glob available isPrintHigh formatFloat toJSON spec src n = Ok (r, n') -> NoNullPart src.
  Proof.
    unfold createStep. intro H. apply mbind_inv in H as (uid & n1 & _ & H). apply mbind_inv in H as (ports & n2 & H1 & H).
    apply mbind_inv in H as (dst & n3 & H2 & _). apply mlift_inv in H1 as [H1 _]. apply mlift_inv in H2 as [H2 _].
    split; [exact (otraverse_toPort _ _ H1)|exact (addMounts_inv _ _ _ H2)].
  Qed.
  Lemma compileService_inv c p ser ws spec o n r n' :
    compileService rnd glob available isPrintHigh formatFloat toJSON c p ser ws spec o n = Ok (r, n') ->
    exists src, o = Some src /\ NoNullPart src.
  Proof.
    unfold compileService. destruct ws as [[base dir] full]. intro H. apply mbind_inv in H as (src & n1 & H1 & H).
    apply mlift_inv in H1 as [H1 _]. apply deref_inv in H1. exists src. split; [exact H1|].
    apply mbind_inv in H as ([spec' step] & n2 & H2 & _). exact (createStep_inv _ _ _ _ _ H2).
  Qed.
  Lemma compileStep_inv c p ser ws acc o n r n' :
    compileStep rnd glob available isPrintHigh formatFloat toJSON c p ser ws acc o n = Ok (r, n') ->
    exists src, o = Some src /\ NoNullStep src.
  Proof.
    unfold compileStep. destruct ws as [[base dir] full], acc as [spec rename]. intro H. apply mbind_inv in H as (src & n1 & H1 & H).
    apply mlift_inv in H1 as [H1 _]. apply deref_inv in H1. exists src. split; [exact H1|].
    apply mbind_inv in H as ([[spec' step] ren] & n2 & H2 & _). unfold NoNullStep. destruct (ct_build src); [discriminate|].
    intros _. apply mbind_inv in H2 as ([spec2 step2] & n3 & H2 & _). exact (createStep_inv _ _ _ _ _ H2).
  Qed.
  Lemma forall_some {A} (P : A -> Prop) l : Forall (fun o => exists a, o = Some a /\ P a) l ->
    exists l', l = map Some l' /\ Forall P l'.
  Proof.
    induction 1 as [|o l (a & -> & Ha) _ (l' & -> & Hl)]; [exists []; auto|]. exists (a :: l'). auto.
  Qed.
  Lemma compile_complete c p n r : compileIn w c p n = Ok r -> exists steps services vols, Complete p steps services vols.
  Proof.
    unfold compileIn, Compile. fold rnd glob available isPrintHigh formatFloat toJSON. intro H. destruct r as [spec n'].
    apply mbind_inv in H as (ns & n1 & _ & H). apply mbind_inv in H as (ser & n2 & _ & H).
    apply mbind_inv in H as (s1 & n3 & _ & H). apply mbind_inv in H as (s2 & n4 & HV & H).
    apply mbind_inv in H as (s3 & n5 & _ & H). apply mbind_inv in H as (s4 & n6 & HS & H).
    apply mbind_inv in H as ([s5 ren] & n7 & HP & _).
    apply mfold_inv in HV. apply mfold_inv in HS. apply mfold_inv in HP.
    assert (V : exists vols, pi_volumes p = map Some vols).
    { apply all_some. eapply Forall_impl; [|exact HV]. intros o (t & m & t' & m' & E). unfold compileVolume in E.
      apply mbind_inv in E as (u & k & _ & E). apply mbind_inv in E as (v & k' & E & _).
      apply mlift_inv in E as [E _]. apply deref_inv in E. eauto. }
    assert (S : exists services, pi_services p = map Some services /\ Forall NoNullPart services).
    { apply forall_some. eapply Forall_impl; [|exact HS]. intros o (t & m & t' & m' & E). exact (compileService_inv _ _ _ _ _ _ _ _ _ E). }
    assert (P : exists steps, pi_steps p = map Some steps /\ Forall NoNullStep steps).
    { apply forall_some. eapply Forall_impl; [|exact HP]. intros o (t & m & t' & m' & E). exact (compileStep_inv _ _ _ _ _ _ _ _ _ E). }
    destruct V as (vols & V), S as (services & S & S'), P as (steps & P & P'). exists steps, services, vols. unfold Complete. auto.
  Qed.

  Lemma Default_Standard c : Default c -> Standard w c None false.
  Proof. intros (H1 & H2 & H3). split; [exact H1|]. split; [exact H2|exact H3]. Qed.

  Definition pure (c : Compiler) hostDir hostMount p steps services vols n : Spec :=
    pureSpec rnd glob available isPrintHigh formatFloat toJSON ord c hostDir hostMount p steps services vols n.

  Lemma compile_pure c hostDir hostMount p steps services vols n :
    Standard w c hostDir hostMount -> Complete p steps services vols ->
    compileIn w c p n = Ok (pure c hostDir hostMount p steps services vols n, nEnd rnd c hostDir p steps services vols n).
  Proof. intros (T & W & Mo) (H1 & H2 & H3 & H4 & H5). apply Compile_ok; assumption. Qed.

  Lemma compiled_pure c hostDir hostMount p n spec :
    Standard w c hostDir hostMount -> Compiled w c p n spec ->
    exists steps services vols, Complete p steps services vols /\ spec = pure c hostDir hostMount p steps services vols n.
  Proof.
    intros HS (n' & H). destruct (compile_complete _ _ _ _ H) as (steps & services & vols & HC).
    exists steps, services, vols. split; [exact HC|]. rewrite (compile_pure _ _ _ _ _ _ _ _ HS HC) in H. congruence.
  Qed.

  (** Compilation succeeds exactly without nulls, and otherwise panics. *)
  Lemma no_err_bind {A B} (m : M A) (k : A -> M B) n e : (forall x, m n <> Err x) -> (forall a n' x, k a n' <> Err x) -> mbind m k n <> Err e.
  Proof. unfold mbind. intros Hm Hk. destruct (m n) as [[a n']| |] eqn:E; [apply Hk|exfalso; exact (Hm _ eq_refl)|discriminate]. Qed.
  Lemma no_err_mlift {A} (o : outcome A) n e : (forall x, o <> Err x) -> mlift o n <> Err e.
  Proof. unfold mlift. destruct o; intros H; try discriminate. exfalso. exact (H _ eq_refl). Qed.
  Lemma no_err_fold {A S} (f : S -> A -> M S) l : (forall s a n e, f s a n <> Err e) -> forall s n e, mfold f l s n <> Err e.
  Proof.
    intro H. induction l as [|a l IH]; intros s n e; cbn [mfold]; [discriminate|]. apply no_err_bind; auto.
  Qed.
  Lemma no_err_deref {A} (o : option A) e : deref o <> Err e.
  Proof. destruct o; discriminate. Qed.
  Lemma no_err_obind {A B} (m : outcome A) (k : A -> outcome B) e : (forall x, m <> Err x) -> (forall a x, k a <> Err x) -> obind m k <> Err e.
  Proof. destruct m; cbn; intros H K; [apply K|exfalso; exact (H _ eq_refl)|discriminate]. Qed.
  Lemma no_err_setEnv k v s e : setEnv k v s <> Err e.
  Proof. unfold setEnv. destruct (st_envs s); discriminate. Qed.
  Lemma no_err_addVolume v s e : addVolume v s <> Err e.
  Proof. unfold addVolume. destruct (sp_docker s); discriminate. Qed.
  Lemma no_err_toPorts src e : toPorts src <> Err e.
  Proof.
    unfold toPorts. induction (ct_ports src) as [|[q|] l IH]; cbn; try discriminate. destruct (otraverse toPort l) eqn:E; try discriminate. exact IH.
  Qed.
  Lemma no_err_addMounts l : forall d e, addMounts l d <> Err e.
  Proof. induction l as [|[v|] l IH]; intros d e; cbn; try discriminate. destruct (String.eqb _ _); apply IH. Qed.
  Lemma no_err_addEnvironment l : forall d e, addEnvironment l d <> Err e.
  Proof.
    induction l as [|[k [v|]] l IH]; intros d e; cbn; try discriminate; [|apply IH]. destruct (negb _); [apply IH|].
    apply no_err_obind; [apply no_err_setEnv|auto].
  Qed.
  Lemma no_err_addSettings l : forall d e, addSettings formatFloat toJSON l d <> Err e.
  Proof.
    induction l as [|[k [v|]] l IH]; intros d e; cbn; try discriminate; [|apply IH]. destruct (negb _); [apply IH|].
    apply no_err_obind; [apply no_err_setEnv|auto].
  Qed.
  Lemma no_err_setupWorkspaceEnv s a b c e : setupWorkspaceEnv s a b c <> Err e.
  Proof. unfold setupWorkspaceEnv. repeat (apply no_err_obind; [intro; apply no_err_setEnv|intros]). apply no_err_setEnv. Qed.
  Lemma no_err_createStep spec src n e : createStep rnd glob available isPrintHigh formatFloat toJSON spec src n <> Err e.
  Proof.
    unfold createStep. apply no_err_bind; [discriminate|intros uid n1 e1].
    apply no_err_bind; [intro; apply no_err_mlift, no_err_toPorts|intros ports n2 e2].
    apply no_err_bind; [intro; apply no_err_mlift, no_err_addMounts|intros d n3 e3].
    apply no_err_bind; [intro; apply no_err_mlift, no_err_addEnvironment|intros d' n4 e4].
    apply no_err_bind; [intro; apply no_err_mlift, no_err_addSettings|intros d'' n5 e5].
    destruct (Nat.ltb _ _); [|discriminate]. destruct (String.eqb _ _); [|discriminate]. unfold setupScriptWin.
    apply no_err_bind; [intro; apply no_err_mlift; intro; apply no_err_setEnv|intros].
    apply no_err_bind; [intro; apply no_err_mlift; intro; apply no_err_setEnv|discriminate].
  Qed.
  Lemma no_err_createBuildStep spec src b n e : createBuildStep rnd glob available spec src b n <> Err e.
  Proof.
    unfold createBuildStep. apply no_err_bind; [discriminate|intros uid n1 e1].
    repeat (apply no_err_bind; [intro; apply no_err_mlift; destruct (_ : bool); intro;
      first [apply no_err_setEnv|discriminate|apply no_err_obind; [apply no_err_setEnv|intros; apply no_err_setEnv]]|intros]).
    discriminate.
  Qed.
  Lemma no_err_mount c hostMount s a b f n e :
    co_mount c = (if hostMount : bool then Some (fun s b q f => mret (MountHostWorkspace s b q f)) else None) ->
    setupWorkspaceMount c s a b f n <> Err e.
  Proof. unfold setupWorkspaceMount. intros ->. destruct hostMount; discriminate. Qed.

  Lemma compile_no_err c hostDir hostMount p n e : Standard w c hostDir hostMount -> compileIn w c p n <> Err e.
  Proof.
    intros (T & W & Mo). unfold compileIn, Compile. fold rnd glob available isPrintHigh formatFloat toJSON.
    apply no_err_bind; [discriminate|intros ns n1 e1].
    apply no_err_bind; [intro; apply no_err_mlift|intros ser n2 e2].
    { induction (pi_steps p) as [|[s|] l IH]; cbn; try discriminate. destruct (negb _); [discriminate|exact IH]. }
    apply no_err_bind; [|intros s1 n3 e3].
    { unfold setupWorkspace. rewrite W. destruct hostDir; intro.
      - unfold CreateHostWorkspace, CreateWorkspace. apply no_err_bind; [intro; apply no_err_bind; [discriminate|intros; apply no_err_mlift; intro; apply no_err_addVolume]|].
        intros. apply no_err_bind; [discriminate|intros; apply no_err_mlift; intro; apply no_err_addVolume].
      - apply no_err_bind; [discriminate|intros; apply no_err_mlift; intro; apply no_err_addVolume]. }
    apply no_err_bind; [intro; apply no_err_fold|intros s2 n4 e4].
    { intros. apply no_err_bind; [discriminate|intros]. apply no_err_bind; [intro; apply no_err_mlift; intro; apply no_err_deref|].
      intros. apply no_err_mlift. intro. apply no_err_addVolume. }
    apply no_err_bind; [|intros s3 n5 e5].
    { intro. destruct (cl_disable _); [discriminate|]. unfold compileClone. destruct (createWorkspace p) as [[base dir] full].
      apply no_err_bind; [intro; apply no_err_createStep|intros [sp d] n6 e6].
      apply no_err_bind; [intro; apply no_err_mlift; intro|intros].
      { unfold setupCloneDepth. apply no_err_obind; [intro; destruct (Z.ltb _ _); [apply no_err_setEnv|discriminate]|intros].
        destruct (cl_skip_verify _); [|discriminate]. apply no_err_obind; [intro; apply no_err_setEnv|intros; apply no_err_setEnv]. }
      apply no_err_bind; [intro; unfold setupCloneCredentials; destruct (isEmpty _); discriminate|intros [] ? ?].
      apply no_err_bind; [intro; apply no_err_mlift; intro; apply no_err_setupWorkspaceEnv|intros].
      apply no_err_bind; [intro; eapply no_err_mount; eassumption|discriminate]. }
    apply no_err_bind; [intro; apply no_err_fold; intros|intros s4 n6 e6].
    { unfold compileService. destruct (createWorkspace p) as [[base dir] full].
      apply no_err_bind; [intro; apply no_err_mlift; intro; apply no_err_deref|intros].
      apply no_err_bind; [intro; apply no_err_createStep|intros [] ? ?].
      apply no_err_bind; [intro; apply no_err_mlift; intro; apply no_err_setupWorkspaceEnv|intros].
      apply no_err_bind; [intro; eapply no_err_mount; eassumption|discriminate]. }
    apply no_err_bind; [intro; apply no_err_fold; intros|intros [s5 ren] n7 e7].
    { unfold compileStep. destruct (createWorkspace p) as [[base dir] full], s as [sp rn].
      apply no_err_bind; [intro; apply no_err_mlift; intro; apply no_err_deref|intros].
      apply no_err_bind; [intro|intros [[] ?] ? ?].
      { destruct (ct_build _); (apply no_err_bind; [intro|]).
        - apply no_err_createBuildStep. - discriminate. - apply no_err_createStep. - intros [] ? ?. discriminate. }
      apply no_err_bind; [intro; apply no_err_mlift; intro; apply no_err_setupWorkspaceEnv|intros].
      apply no_err_bind; [intro; eapply no_err_mount; eassumption|discriminate]. }
    rewrite T. apply no_err_bind; [|discriminate]. intro. unfold compileSocket. destruct (sp_docker s5); [|discriminate].
    destruct (Nat.ltb _ _); [|discriminate]. apply no_err_bind; [discriminate|intros; apply no_err_mlift; intro; apply no_err_addVolume].
  Qed.

  Theorem compile_total c hostDir hostMount p n : Standard w c hostDir hostMount ->
    ((exists steps services vols, Complete p steps services vols) <-> exists spec, Compiled w c p n spec) /\
    (~ (exists steps services vols, Complete p steps services vols) <-> compileIn w c p n = Panic).
  Proof.
    intro HS.
    assert (A : (exists steps services vols, Complete p steps services vols) <-> exists spec, Compiled w c p n spec).
    { split.
      - intros (steps & services & vols & HC). eexists. eexists. exact (compile_pure _ _ _ _ _ _ _ n HS HC).
      - intros (spec & n' & H). exact (compile_complete _ _ _ _ H). }
    split; [exact A|]. rewrite A. split.
    - intro H. destruct (compileIn w c p n) as [[spec n']|e|] eqn:E; [|exfalso; exact (compile_no_err _ _ _ _ _ _ HS E)|reflexivity].
      exfalso. apply H. exists spec, n'. exact E.
    - intros H (spec & n' & E). congruence.
  Qed.

  (** ** One statement per compiled step. *)
  Definition withImage (img : string) (s : Step) : Step := set_docker (set_image img (st_docker s)) s.
  Lemma renameSteps_all (P : Origin -> Step -> Prop) (img : nat -> string -> string) os : forall i rn ss,
    Forall2 (fun o s => forall img, P o (withImage img s)) os ss -> Forall2 P os (renameSteps available ord i rn ss).
  Proof.
    intros i rn ss H. revert i. induction H as [|o s os ss Hs _ IH]; intro i; cbn [renameSteps]; constructor; auto. apply Hs.
  Qed.
  Lemma at_all (P : Origin -> Step -> Prop) (mk : Container -> Origin) f dr cs :
    (forall src uid, In src cs -> P (mk src) (f src uid)) -> forall n,
    Forall2 P (map mk cs) (map (at_ rnd f) (positions dr n cs)).
  Proof.
    induction cs as [|x cs IH]; intros H n; cbn [map positions]; constructor.
    - apply H. left. reflexivity.
    - apply IH. intros src uid Hin. apply H. right. exact Hin.
  Qed.

  Section Steps.
  Variables (c : Compiler) (hostDir : option string) (hostMount : bool) (p : Pipeline)
    (steps services : list Container) (vols : list Volume) (n : nat).
  Hypothesis HC : Complete p steps services vols.
  Definition theClone := cloneStep glob available isPrintHigh formatFloat toJSON (rnd n) p c hostMount (createWorkspace p).
  Definition theService := serviceStep glob available isPrintHigh formatFloat toJSON (rnd n) p c hostMount (createWorkspace p) (serial steps).
  Definition theStep := pipelineStep glob available isPrintHigh formatFloat toJSON (rnd n) p c hostMount (createWorkspace p) (serial steps).

  Lemma origins_complete : origins p =
    (if cl_disable (pi_clone p) then [] else [FromClone]) ++ map FromService services ++ map FromStep steps.
  Proof using HC. destruct HC as (H1 & H2 & _). unfold origins. rewrite H1, H2, !somes_map. reflexivity. Qed.

  Lemma pureSteps_all (P : Origin -> Step -> Prop) :
    (cl_disable (pi_clone p) = false -> forall uid, P FromClone (theClone uid)) ->
    (forall src uid, In src services -> P (FromService src) (theService src uid)) ->
    (forall src uid, In src steps -> P (FromStep src) (theStep src uid)) ->
    Forall2 P (origins p) (pureSteps rnd glob available isPrintHigh formatFloat toJSON c hostDir hostMount p steps services vols n).
  Proof using HC.
    intros Hc Hs Hp. rewrite origins_complete. unfold pureSteps. apply Forall2_app; [|apply Forall2_app].
    - unfold pureCloneSteps. destruct (cl_disable (pi_clone p)) eqn:E; [constructor|]. constructor; [exact (Hc eq_refl _)|constructor].
    - apply at_all. exact Hs.
    - apply at_all. exact Hp.
  Qed.
  Lemma steps_all (P : Origin -> Step -> Prop) :
    (cl_disable (pi_clone p) = false -> forall uid img, P FromClone (withImage img (theClone uid))) ->
    (forall src uid img, In src services -> P (FromService src) (withImage img (theService src uid))) ->
    (forall src uid img, In src steps -> P (FromStep src) (withImage img (theStep src uid))) ->
    Forall2 P (origins p) (sp_steps (pure c hostDir hostMount p steps services vols n)).
  Proof using HC.
    intros Hc Hs Hp. cbn. apply renameSteps_all; [exact (fun _ x => x)|]. apply pureSteps_all; intros; auto.
  Qed.
  End Steps.
End Facts.
