(** * Reorder.v: what is compiled does not depend on the order of maps. *)
From Coq Require Import Lia Sorting.Permutation.
From Verif Require Import Model.Go Model.Types Model.Cond Model.Engine Model.Image Model.Path Model.Script Model.Encode Model.Compiler
  Spec.LintSpec Spec.CompileSpec Spec.PrettySpec Spec.ReorderSpec
  Proofs.GoFacts Proofs.CompilePure Proofs.CompileFacts Proofs.CompileSteps Proofs.CompileWhole Proofs.CompileGraph Proofs.ImageFacts Proofs.PrettyRound.

(** ** Values *)
Lemma scalar_same ff v v' : SameValue v v' -> scalarText ff v = scalarText ff v'.
Proof. intros []; reflexivity. Qed.
Lemma scalars_same ff l l' : Forall2 SameValue l l' -> scalarTexts ff l = scalarTexts ff l'.
Proof. induction 1 as [|v v' l l' H _ IH]; [reflexivity|]. cbn [scalarTexts]. rewrite (scalar_same _ _ _ H), IH. reflexivity. Qed.
Lemma encode_same ff tj v v' : OrderedJSON tj -> SameValue v v' -> encode ff tj v = encode ff tj v'.
Proof.
  intros HJ H. pose proof (HJ _ _ H) as E. destruct H as [v|l l' F|m m' m'' F P]; [reflexivity| |exact E].
  cbn [encode]. unfold encodeSlice. rewrite (scalars_same _ _ _ F), E. reflexivity.
Qed.

(** ** Maps *)
Definition SameEnv (e e' : smap string) : Prop := forall k, mget k e = mget k e'.
Lemma msets_same new new' e e' : NoDup (mkeys new) -> Permutation new new' -> SameEnv e e' -> SameEnv (msets new e) (msets new' e').
Proof.
  intros N P H k. assert (N' : NoDup (mkeys new')) by (eapply Permutation_NoDup; [apply Permutation_map, P|exact N]).
  rewrite (mget_msets _ _ _ N), (mget_msets _ _ _ N'), (mget_perm _ _ _ N P), H. reflexivity.
Qed.
Lemma NoDup_msets_eq new e e' : NoDup (mkeys new) -> SameEnv e e' -> SameEnv (msets new e) (msets new e').
Proof. intros N H. apply msets_same; [exact N|apply Permutation_refl|exact H]. Qed.

Section Settings.
  Variable w : World.
  Hypothesis HJ : OrderedJSON (w_toJSON w).
  Lemma settings_same l l' : Forall2 (fun e f => fst e = fst f /\ SameParameter (snd e) (snd f)) l l' ->
    plainSettings (w_formatFloat w) (w_toJSON w) l = plainSettings (w_formatFloat w) (w_toJSON w) l' /\ secretSettings l = secretSettings l'.
  Proof using HJ.
    induction 1 as [|[k o] [k' o'] l l' [E H] _ [IH1 IH2]]; [split; reflexivity|]. cbn in E, H. subst k'.
    cbn [plainSettings secretSettings flat_map]. fold (plainSettings (w_formatFloat w) (w_toJSON w) l) (plainSettings (w_formatFloat w) (w_toJSON w) l') (secretSettings l) (secretSettings l').
    rewrite IH1, IH2. destruct H as [|q q' Es Ev]; [split; reflexivity|]. rewrite Es, (encode_same _ _ _ _ HJ Ev). split; reflexivity.
  Qed.
End Settings.

(** ** Platforms *)
Section Platform.
  Variables p p' : Pipeline.
  Hypothesis SP : SamePipeline p p'.
  Lemma win_same : String.eqb (pl_os (pi_platform p)) "windows" = String.eqb (pl_os (pi_platform p')) "windows".
  Proof using SP. destruct (same_platform _ _ SP) as [E|[E E']]; [rewrite E; reflexivity|rewrite E, E'; reflexivity]. Qed.
  Lemma cloneImage_same : cloneImage p = cloneImage p'.
  Proof using SP. unfold cloneImage. destruct (same_platform _ _ SP) as [E|[E E']]; [rewrite E; reflexivity|rewrite E, E'; reflexivity]. Qed.
  Lemma workspace_same : createWorkspace p = createWorkspace p'.
  Proof using SP. unfold createWorkspace. rewrite win_same, (same_workspace _ _ SP). reflexivity. Qed.
  Lemma clone_container_same : createClone p = createClone p'.
  Proof using SP. unfold createClone. rewrite cloneImage_same. reflexivity. Qed.
End Platform.

(** ** One step *)
Section Step.
  Variables (w : World) (c : Compiler) (hostMount : bool) (p p' : Pipeline) (ns : string) (ser : bool).
  Hypothesis HJ : OrderedJSON (w_toJSON w).
  Hypothesis HB : OrderBlind c.
  Hypothesis SP : SamePipeline p p'.
  Let ws := createWorkspace p.
  Notation plain q := (plainStep (w_glob w) (w_available w) (w_isPrintHigh w) (w_formatFloat w) (w_toJSON w) ns q).
  Notation service q := (serviceStep (w_glob w) (w_available w) (w_isPrintHigh w) (w_formatFloat w) (w_toJSON w) ns q c hostMount ws ser).
  Notation step q := (pipelineStep (w_glob w) (w_available w) (w_isPrintHigh w) (w_formatFloat w) (w_toJSON w) ns q c hostMount ws ser).

  Definition envPart (x : Container) : smap string :=
    msets (scriptEnv (w_isPrintHigh w) p x) (msets (plainSettings (w_formatFloat w) (w_toJSON w) (ct_settings x)) (msets (plainEnv (ct_environment x)) [])).
  Lemma scriptEnv_same q x y : SamePipeline p q -> ct_commands x = ct_commands y -> scriptEnv (w_isPrintHigh w) p x = scriptEnv (w_isPrintHigh w) q y.
  Proof using. intros SQ E. unfold scriptEnv, hasCommands. rewrite E, (win_same _ _ SQ). reflexivity. Qed.
  Lemma workspace_NoDup : NoDup (mkeys (workspaceEnv ws)).
  Proof using. unfold workspaceEnv. cbn. repeat constructor; cbn; intuition discriminate. Qed.
  Lemma envs_same x y : SameContainer x y -> MapsOk x -> NoCollision x -> SameEnv (envPart x) (envPart y).
  Proof using HJ.
    intros H [M1 M2] N. destruct H as [x build env st st' _ HE HF HP]. unfold envPart.
    change (scriptEnv (w_isPrintHigh w) p (reordered x build env st')) with (scriptEnv (w_isPrintHigh w) p x).
    apply NoDup_msets_eq; [apply NoDup_scriptEnv|]. cbn [reordered ct_settings ct_environment].
    apply msets_same; [apply (NoDup_plainSettings w); exact N| |].
    - destruct (settings_same w HJ _ _ HF) as [-> _]. apply Permutation_flat_map. exact HP.
    - apply msets_same; [apply NoDup_plainEnv; exact M1|apply Permutation_flat_map; exact HE|intro; reflexivity].
  Qed.
  Lemma secrets_same x y : SameContainer x y ->
    Permutation (secretEnv (ct_environment x) ++ secretSettings (ct_settings x)) (secretEnv (ct_environment y) ++ secretSettings (ct_settings y)).
  Proof using HJ.
    intro H. destruct H as [x build env st st' _ HE HF HP]. cbn [reordered ct_settings ct_environment]. apply Permutation_app.
    - apply Permutation_flat_map. exact HE.
    - destruct (settings_same w HJ _ _ HF) as [_ ->]. apply Permutation_flat_map. exact HP.
  Qed.
  Lemma blind_same x y : SameContainer x y -> isPrivileged c x = isPrivileged c y /\ isSkipped c x = isSkipped c y.
  Proof using HB.
    intro H. unfold isPrivileged, isSkipped. split.
    - destruct (co_privileged c) as [f|] eqn:E; [|reflexivity]. apply (HB f); [left; exact E|exact H].
    - destruct (co_skip c) as [f|] eqn:E; [|reflexivity]. apply (HB f); [right; exact E|exact H].
  Qed.

  Lemma service_same x y uid : SameContainer x y -> MapsOk x -> NoCollision x -> SameStep (service p x uid) (service p' y uid).
  Proof using HJ HB SP.
    intros H M N. pose proof (envs_same _ _ H M N) as E. pose proof (secrets_same _ _ H) as S. destruct (blind_same _ _ H) as [B1 B2].
    pose proof (win_same _ _ SP) as W. unfold serviceStep, adjusted. rewrite B1, B2, <- (same_clone _ _ SP).
    assert (PS : forall k, envOf (placed hostMount ws x (set_detach true (plain p x uid))) k = envOf (placed hostMount ws y (set_detach true (plain p' y uid))) k).
    { apply (NoDup_msets_eq _ _ _ workspace_NoDup). rewrite <- (scriptEnv_same p' y y SP eq_refl). exact E. }
    destruct H as [x build env st st' HBu HE HF HP].
    constructor; cbn; try reflexivity; try (unfold argsOf, commandOf, fileMountsOf; rewrite <- W; reflexivity); [exact PS|split; discriminate|exact S].
  Qed.
  Lemma step_same x y uid : SameContainer x y -> MapsOk x -> NoCollision x -> SameStep (step p x uid) (step p' y uid).
  Proof using HJ HB SP.
    intros H M N. pose proof (envs_same _ _ H M N) as E. pose proof (secrets_same _ _ H) as S. destruct (blind_same _ _ H) as [B1 B2].
    pose proof (win_same _ _ SP) as W. unfold pipelineStep, adjusted. rewrite B1, B2, <- (same_clone _ _ SP).
    assert (PS : forall k, envOf (placed hostMount ws x (plain p x uid)) k = envOf (placed hostMount ws y (plain p' y uid)) k).
    { apply (NoDup_msets_eq _ _ _ workspace_NoDup). rewrite <- (scriptEnv_same p' y y SP eq_refl). exact E. }
    destruct H as [x build env st st' HBu HE HF HP]. unfold baseStep. cbn [reordered ct_build ct_depends].
    destruct HBu as [|b b' _ _ C1 C2 C3 C4].
    - constructor; cbn; try reflexivity; try (unfold argsOf, commandOf, fileMountsOf; rewrite <- W; reflexivity); [exact PS|split; discriminate|exact S].
    - assert (BE : buildEnv (w_available w) b uid = buildEnv (w_available w) b' uid) by (unfold buildEnv; rewrite C1, C2, C3, C4; reflexivity).
      unfold buildStep. rewrite <- BE. constructor; reflexivity.
  Qed.
  Lemma clone_same uid : SameStep
    (cloneStep (w_glob w) (w_available w) (w_isPrintHigh w) (w_formatFloat w) (w_toJSON w) ns p c hostMount ws uid)
    (cloneStep (w_glob w) (w_available w) (w_isPrintHigh w) (w_formatFloat w) (w_toJSON w) ns p' c hostMount ws uid).
  Proof using SP.
    unfold cloneStep, cloneBase, cloneEnv. rewrite <- (clone_container_same _ _ SP), <- (same_clone _ _ SP).
    constructor; try reflexivity.
  Qed.
  Lemma files_same x y uid : SameContainer x y ->
    filesOf (w_isPrintHigh w) ns p x uid = filesOf (w_isPrintHigh w) ns p' y uid /\
    stepFiles (w_isPrintHigh w) ns p x uid = stepFiles (w_isPrintHigh w) ns p' y uid /\
    draws p x = draws p' y /\ stepDraws p x = stepDraws p' y.
  Proof using SP.
    intro H. pose proof (win_same _ _ SP) as W. destruct H as [x build env st st' HBu HE HF HP].
    assert (F : filesOf (w_isPrintHigh w) ns p x uid = filesOf (w_isPrintHigh w) ns p' (reordered x build env st') uid) by (unfold filesOf; rewrite <- W; reflexivity).
    assert (D : draws p x = draws p' (reordered x build env st')) by (unfold draws; rewrite <- W; reflexivity).
    split; [exact F|]. unfold stepFiles, stepDraws. cbn [reordered ct_build]. destruct HBu; auto.
  Qed.
End Step.

(** ** Lists of containers *)
Lemma entries_same l : forall l', Forall2 SameEntry (map Some l) l' -> exists m, l' = map Some m /\ Forall2 SameContainer l m.
Proof.
  induction l as [|x l IH]; intros l' F; inversion F as [|a b la lb H F' E1 E2]; subst; [exists []; split; [reflexivity|constructor]|].
  destruct (IH _ F') as (m & -> & G). inversion H as [|u y S E1 E2]; subst. exists (y :: m). split; [reflexivity|constructor; assumption].
Qed.
Lemma part_same x y : SameContainer x y -> (NoNullPart x -> NoNullPart y) /\ (NoNullStep x -> NoNullStep y).
Proof.
  intros [x' build env st st' HBu _ _ _]. split; [exact (fun H => H)|]. unfold NoNullStep. cbn [reordered ct_build].
  intros H E. destruct HBu; [exact (H eq_refl)|discriminate].
Qed.
Lemma Forall_same {A} (P : A -> Prop) (R : A -> A -> Prop) : (forall x y, R x y -> P x -> P y) -> forall l l', Forall2 R l l' -> Forall P l -> Forall P l'.
Proof. intros H l l' F. induction F; intro G; inversion G; subst; constructor; eauto. Qed.
Lemma serial_same l l' : Forall2 SameContainer l l' -> serial l = serial l'.
Proof.
  unfold serial. induction 1 as [|x y l l' H _ IH]; [reflexivity|]. cbn [forallb]. rewrite IH. destruct H. reflexivity.
Qed.
Definition SameAt (a b : nat * Container) : Prop := fst a = fst b /\ SameContainer (snd a) (snd b).
Lemma positions_same d d' l l' : (forall x y, SameContainer x y -> d x = d' y) -> Forall2 SameContainer l l' -> forall n,
  Forall2 SameAt (positions d n l) (positions d' n l') /\ after d n l = after d' n l'.
Proof.
  intros HD F. induction F as [|x y l l' H _ IH]; intro n; [split; [constructor|reflexivity]|]. cbn [positions after].
  rewrite <- (HD _ _ H). destruct (IH (n + d x)) as [I1 I2]. split; [constructor; [split; [reflexivity|exact H]|exact I1]|exact I2].
Qed.
Lemma at_same {B} rnd (f g : Container -> string -> B) (R : B -> B -> Prop) q q' :
  (forall n x y, In (n, x) q -> SameContainer x y -> forall uid, R (f x uid) (g y uid)) -> Forall2 SameAt q q' ->
  Forall2 R (map (at_ rnd f) q) (map (at_ rnd g) q').
Proof.
  intros H F. induction F as [|[n x] [n' y] q q' [E S] _ IH]; cbn [map]; constructor.
  - cbn in E, S. subst n'. unfold at_. cbn [fst snd]. apply (H n); [left; reflexivity|exact S].
  - apply IH. intros m u v Hin. apply (H m). right. exact Hin.
Qed.
Lemma at_next_same {B} rnd (f g : Container -> string -> list B) q q' :
  (forall x y uid, SameContainer x y -> f x uid = g y uid) -> Forall2 SameAt q q' ->
  flat_map (at_next rnd f) q = flat_map (at_next rnd g) q'.
Proof.
  intros H F. induction F as [|[n x] [n' y] q q' [E S] _ IH]; [reflexivity|]. cbn [flat_map]. rewrite IH. cbn in E, S. subst n'.
  unfold at_next. cbn [fst snd]. rewrite (H _ _ _ S). reflexivity.
Qed.
Lemma renames_same rnd q q' : Forall2 SameAt q q' -> forall rn, renamesOf rnd q rn = renamesOf rnd q' rn.
Proof.
  intro F. induction F as [|[n x] [n' y] q q' [E S] _ IH]; intro rn; [reflexivity|]. cbn [renamesOf]. cbn in E, S. subst n'. rewrite IH. f_equal.
  unfold renameOf. cbn [fst snd]. destruct S as [x build env st st' HBu _ _ _]. cbn [reordered ct_build].
  destruct HBu as [|b b' _ _ _ _ _ E]; [reflexivity|rewrite E; reflexivity].
Qed.

(** ** Images *)
Section Images.
  Variable av : string -> bool.
  Variable rn : smap string.
  Hypothesis Inj : forall k v k' v', In (k, v) rn -> In (k', v') rn -> Expand av k = Expand av k' -> v = v'.
  Hypothesis Clash : forall k v k' v', In (k, v) rn -> In (k', v') rn -> MatchTag av (Trim av k +++ ":" +++ v)%string k' = false.
  Lemma rename_any l l' img : Permutation rn l -> Permutation rn l' -> renameImage av l img = renameImage av l' img.
  Proof using Inj Clash.
    intros P P'. destruct (existsb (fun kv => MatchTag av img (fst kv)) rn) eqn:X.
    - apply existsb_exists in X as ([k v] & Hin & HM). cbn [fst] in HM.
      assert (One : forall m, Permutation rn m -> renameImage av m img = Expand av (Trim av img +++ ":" +++ v)%string).
      { intros m Q.
        pose (W := {| w_rnd := fun _ => ""; w_glob := fun _ _ => None; w_available := av; w_isPrintHigh := fun _ => false;
                      w_formatFloat := fun _ => ""; w_toJSON := fun _ => ""; w_ord := fun _ m => m |}).
        apply (renameImage_one W m k v); [eapply Permutation_in; eassumption|exact HM| |].
        - intros k' v' H1 H2. eapply Permutation_in in H1; [|symmetry; exact Q]. symmetry. apply (Inj _ _ _ _ Hin H1).
          unfold MatchTag in HM, H2. apply String.eqb_eq in HM, H2. cbn in H2. congruence.
        - intros k' v' H1. eapply Permutation_in in H1; [|symmetry; exact Q]. pose proof (match_trim W _ _ HM) as T. cbn in T |- *. rewrite T.
          pose proof (Clash _ _ _ _ Hin H1) as C. unfold MatchTag in *. rewrite Expand_idem. exact C. }
      rewrite (One _ P), (One _ P'). reflexivity.
    - assert (Z : forall m, Permutation rn m -> renameImage av m img = img).
      { intros m Q.
        pose (W := {| w_rnd := fun _ => ""; w_glob := fun _ _ => None; w_available := av; w_isPrintHigh := fun _ => false;
                      w_formatFloat := fun _ => ""; w_toJSON := fun _ => ""; w_ord := fun _ m => m |}).
        apply (renameImage_none W). intros k v H. eapply Permutation_in in H; [|symmetry; exact Q]. cbn.
        destruct (MatchTag av img k) eqn:E; [|reflexivity]. rewrite <- not_true_iff_false in X. exfalso. apply X. apply existsb_exists. exists (k, v). split; [exact H|exact E]. }
      rewrite (Z _ P), (Z _ P'). reflexivity.
  Qed.
  Lemma renameSteps_same (ord ord' : nat -> smap string -> smap string) ss ss' :
    (forall i m, Permutation m (ord i m)) -> (forall i m, Permutation m (ord' i m)) -> Forall2 SameStep ss ss' ->
    forall i, Forall2 SameStep (renameSteps av ord i rn ss) (renameSteps av ord' i rn ss').
  Proof using Inj Clash.
    intros O O' F. induction F as [|s s' ss ss' H _ IH]; intro i; cbn [renameSteps]; constructor; [|apply IH].
    destruct H as [H1 H2 H3 H4 H5 H6 H6' H7 H8 H9 H10 H11 H12 H13 H14 H15]. rewrite <- H5, (rename_any _ _ _ (O i rn) (O' i rn)).
    constructor; try assumption; try reflexivity.
  Qed.
End Images.

(** ** The whole compilation *)
Section Whole.
  Variables (w w' : World) (c : Compiler) (hostDir : option string) (hostMount : bool) (p p' : Pipeline) (n m : nat) (spec : Spec).
  Hypothesis O : OrderOk w.
  Hypothesis O' : OrderOk w'.
  Hypothesis SW : SameWorld w w'.
  Hypothesis HJ : OrderedJSON (w_toJSON w).
  Hypothesis HB : OrderBlind c.
  Hypothesis HS : Standard w c hostDir hostMount.
  Hypothesis SP : SamePipeline p p'.
  Hypothesis HM : ClearMaps p.
  Hypothesis DB : DistinctBuilds w p.
  Hypothesis NC : NoAliasClash w p spec.
  Hypothesis HK : compileIn w c p n = Ok (spec, m).

  Lemma complete_same steps services vols : Complete p steps services vols -> exists steps' services',
    Complete p' steps' services' vols /\ Forall2 SameContainer steps steps' /\ Forall2 SameContainer services services'.
  Proof using SP.
    intros (H1 & H2 & H3 & H4 & H5). pose proof (same_steps _ _ SP) as F1. pose proof (same_services _ _ SP) as F2.
    rewrite H1 in F1. rewrite H2 in F2. apply entries_same in F1 as (st & E1 & F1). apply entries_same in F2 as (se & E2 & F2).
    exists st, se. split; [|split; assumption]. split; [exact E1|]. split; [exact E2|]. split; [rewrite <- (same_volumes _ _ SP); exact H3|].
    split; [eapply Forall_same; [|exact F1|exact H4]|eapply Forall_same; [|exact F2|exact H5]]; intros x y S; apply (part_same _ _ S).
  Qed.

  Theorem reordered_compiled : exists spec', compileIn w' c p' n = Ok (spec', m) /\ SameSpec spec spec'.
  Proof using All.
    destruct (compiled_pure w c hostDir hostMount p n spec HS (ex_intro _ m HK)) as (steps & services & vols & HC & E).
    pose proof (compile_pure w c hostDir hostMount p steps services vols n HS HC) as EN. rewrite HK in EN. injection EN as _ EN.
    destruct (complete_same _ _ _ HC) as (steps' & services' & HC' & F1 & F2).
    assert (HS' : Standard w' c hostDir hostMount).
    { destruct HS as (S1 & S2 & S3). split; [exact S1|]. split; [|exact S3]. destruct SW as (<- & _). exact S2. }
    exists (pure w' c hostDir hostMount p' steps' services' vols n).
    assert (M1 : forall x, In x services -> MapsOk x /\ NoCollision x).
    { intros x Hx. unfold ClearMaps in HM. rewrite Forall_forall in HM. apply HM. apply in_or_app. left.
      destruct HC as (_ & H2 & _). rewrite H2, somes_map. exact Hx. }
    assert (M2 : forall x, In x steps -> MapsOk x /\ NoCollision x).
    { intros x Hx. unfold ClearMaps in HM. rewrite Forall_forall in HM. apply HM. apply in_or_app. right.
      destruct HC as (H1 & _). rewrite H1, somes_map. exact Hx. }
    pose proof (serial_same _ _ F1) as Ser. pose proof (workspace_same _ _ SP) as WS. pose proof (same_clone _ _ SP) as SC.
    pose proof (fun x y H => proj1 (proj2 (proj2 (files_same w p p' "" SP x y "" H)))) as D1.
    pose proof (fun x y H => proj2 (proj2 (proj2 (files_same w p p' "" SP x y "" H)))) as D2.
    assert (N1 : nServices c hostDir p vols n = nServices c hostDir p' vols n) by (unfold nServices; rewrite SC; reflexivity).
    destruct (positions_same (draws p) (draws p') _ _ D1 F2 (nServices c hostDir p vols n)) as [P1 A1].
    assert (N2 : nSteps c hostDir p services vols n = nSteps c hostDir p' services' vols n) by (unfold nSteps; rewrite <- N1; exact A1).
    destruct (positions_same (stepDraws p) (stepDraws p') _ _ D2 F1 (nSteps c hostDir p services vols n)) as [P2 A2].
    assert (N3 : nSocket c hostDir p steps services vols n = nSocket c hostDir p' steps' services' vols n) by (unfold nSocket; rewrite <- N2; exact A2).
    assert (RN : pureRename (w_rnd w) c hostDir p steps services vols n = pureRename (w_rnd w) c hostDir p' steps' services' vols n).
    { unfold pureRename. rewrite <- N2. apply renames_same. exact P2. }
    set (q := positions (stepDraws p) (nSteps c hostDir p services vols n) steps) in *.
    set (rn := pureRename (w_rnd w) c hostDir p steps services vols n) in *.
    assert (Sub : forall k v, In (k, v) rn -> In (k, v) (buildsAt w q)).
    { intros k v H. apply renames_sub in H as [[]|H]. exact H. }
    pose proof (builds_q w c hostDir p n _ _ _ HC) as BQ. fold q in BQ.
    assert (Inj : forall k v k' v', In (k, v) rn -> In (k', v') rn -> Expand (w_available w) k = Expand (w_available w) k' -> v = v').
    { intros k v k' v' H1 H2 EE. apply Sub in H1, H2. unfold DistinctBuilds in DB. rewrite BQ in DB.
      assert (NDk : NoDup (mkeys (buildsAt w q))) by (apply NoDup_map_inv in DB; exact DB).
      assert (k = k').
      { clear - DB H1 H2 EE. apply (in_map fst) in H1, H2. cbn in H1, H2. unfold mkeys in DB. revert DB H1 H2. generalize (map fst (buildsAt w q)). intro l.
        induction l as [|x l IH]; cbn; [intros _ []|]. intros ND H1 H2. apply NoDup_cons_iff in ND as [Nx ND].
        destruct H1 as [<-|H1], H2 as [<-|H2]; [reflexivity| | |exact (IH ND H1 H2)].
        - exfalso. apply Nx. rewrite EE. apply in_map. exact H2.
        - exfalso. apply Nx. rewrite <- EE. apply in_map. exact H1. }
      subst k'. apply (mget_NoDup k v _ NDk) in H1. apply (mget_NoDup k v' _ NDk) in H2. congruence. }
    assert (Clash : forall k v k' v', In (k, v) rn -> In (k', v') rn -> MatchTag (w_available w) (Trim (w_available w) k +++ ":" +++ v)%string k' = false).
    { intros k v k' v' H1 H2. apply Sub in H1, H2.
      assert (U : exists s, In s (sp_steps spec) /\ md_uid (st_meta s) = v).
      { unfold buildsAt in H1. apply in_flat_map in H1 as ([pos src] & Hq & Hb). cbn [fst snd] in Hb. destruct (ct_build src) as [b|] eqn:Eb; [|destruct Hb].
        destruct Hb as [[= <- <-]|[]]. subst spec. cbn [pure pureSpec specOf sp_steps].
        assert (I : In (w_rnd w pos) (map (fun s => md_uid (st_meta s)) (sp_steps (pure w c hostDir hostMount p steps services vols n)))).
        { unfold pure, pureSpec. cbn [specOf sp_steps]. rewrite renameSteps_uid. unfold pureSteps. rewrite !map_app, !in_app_iff. right. right.
          unfold purePipelineSteps. fold q. rewrite map_map. apply in_map_iff. exists (pos, src). split; [|exact Hq].
          unfold at_, pipelineStep, baseStep. cbn [fst snd]. rewrite Eb. reflexivity. }
        apply in_map_iff in I as (s & I1 & I2). exists s. split; [exact I2|exact I1]. }
      destruct U as (s & Hs & <-). apply NC; [| |exact Hs]; rewrite BQ; [apply (in_map fst) in H1; exact H1|apply (in_map fst) in H2; exact H2]. }
    destruct SW as (E1 & E2 & E3 & E4 & E5 & E6).
    split.
    { rewrite (compile_pure w' c hostDir hostMount p' steps' services' vols n HS' HC'). f_equal. f_equal. rewrite EN. unfold nEnd. rewrite <- E1, <- RN, <- N3. reflexivity. }
    rewrite E. unfold pure, pureSpec. rewrite <- E1, <- E2, <- E3, <- E4, <- E5, <- E6, <- RN. fold rn.
    constructor; cbn [specOf sp_meta sp_platform sp_docker sp_files sp_secrets sp_steps initialSpec].
    - rewrite (same_name _ _ SP), (same_kind _ _ SP), (same_type _ _ SP). reflexivity.
    - destruct (same_platform _ _ SP) as [X|[X X']]; [left; rewrite X; reflexivity|right; rewrite X, X'; split; reflexivity].
    - unfold pureVolumes. rewrite <- RN, <- N3. reflexivity.
    - unfold pureFiles. rewrite <- N1, <- N2, <- SC. f_equal. f_equal.
      + apply at_next_same; [|exact P1]. intros x y uid H. exact (proj1 (files_same w p p' _ SP x y uid H)).
      + apply at_next_same; [|exact P2]. intros x y uid H. exact (proj1 (proj2 (files_same w p p' _ SP x y uid H))).
    - reflexivity.
    - apply renameSteps_same; [exact Inj|exact Clash|exact O| |].
      { intros i q'. apply O'. }
      unfold pureSteps. apply Forall2_app; [|apply Forall2_app].
      + unfold pureCloneSteps, ws. rewrite <- SC, <- WS. destruct (cl_disable (pi_clone p)); constructor; [|constructor]. apply clone_same. exact SP.
      + unfold pureServiceSteps, ws. rewrite <- N1, <- WS, <- Ser. apply at_same; [|exact P1]. intros pos x y Hin H uid.
        assert (Hx : In x services) by (rewrite <- (positions_snd (draws p) services (nServices c hostDir p vols n)); apply (in_map snd) in Hin; exact Hin).
        destruct (M1 _ Hx). apply service_same; assumption.
      + unfold purePipelineSteps, ws. rewrite <- N2, <- WS, <- Ser. apply at_same; [|exact P2]. intros pos x y Hin H uid.
        assert (Hx : In x steps) by (rewrite <- (positions_snd (stepDraws p) steps (nSteps c hostDir p services vols n)); apply (in_map snd) in Hin; exact Hin).
        destruct (M2 _ Hx). apply step_same; assumption.
  Qed.
End Whole.
