(** * CompileMore.v: files, clone step, volume names and settings of compiled pipelines. *)
From Coq Require Import Lia Sorting.Permutation.
From Coq Require Import Decimal DecimalString DecimalZ DecimalFacts.
From Verif Require Import Model.Go Model.Types Model.Cond Model.Lint Model.Engine Model.Image Model.Quote
  Model.Script Model.Path Model.Encode Model.Compiler Spec.LintSpec Spec.ScriptSpec Spec.CompileSpec Spec.SettingSpec Proofs.CpuFacts
  Proofs.GoFacts Proofs.MapFacts Proofs.LintFacts Proofs.CompilePure Proofs.CompileFacts Proofs.CompileSteps Proofs.ScriptFacts Proofs.CompileWhole.

Lemma cloneImage_ok : forall p, CloneImage p (cloneImage p).
Proof.
  intro p. unfold CloneImage, cloneImage. cbv zeta. cbn [In].
  destruct (String.eqb_spec (pl_os (pi_platform p)) "linux") as [L|L]; destruct (String.eqb_spec (pl_os (pi_platform p)) "windows") as [W|W]; try congruence; cbn [andb].
  - destruct (String.eqb_spec (pl_arch (pi_platform p)) "arm") as [A|A]; [rewrite A; intuition congruence|].
    destruct (String.eqb_spec (pl_arch (pi_platform p)) "arm64") as [B|B]; [rewrite B; intuition congruence|]. intuition congruence.
  - do 4 (match goal with |- context [String.eqb (pl_version (pi_platform p)) ?v] =>
      let V := fresh "V" in destruct (String.eqb_spec (pl_version (pi_platform p)) v) as [V|V]; [rewrite V; intuition congruence|] end). intuition congruence.
  - intuition congruence.
Qed.

Lemma map_flat {A B C} (f : B -> C) (g : A -> list B) l : map f (flat_map g l) = flat_map (fun x => map f (g x)) l.
Proof. induction l as [|x l IH]; [reflexivity|]. cbn. rewrite map_app, IH. reflexivity. Qed.
Lemma flat_map_map {A B C} (f : A -> B) (g : B -> list C) l : flat_map g (map f l) = flat_map (fun x => g (f x)) l.
Proof. induction l as [|x l IH]; [reflexivity|]. cbn. rewrite IH. reflexivity. Qed.
Lemma present_some {A} (l : list A) : CompileSpec.present (map Some l) = l.
Proof. induction l as [|x l IH]; [reflexivity|]. cbn. f_equal. exact IH. Qed.
Lemma flat_snd {A} (f : Container -> list A) q : flat_map (fun x : nat * Container => f (snd x)) q = flat_map f (map snd q).
Proof. rewrite flat_map_map. reflexivity. Qed.

Section More.
  Variable w : World.
  Variables (c : Compiler) (hostDir : option string) (hostMount : bool) (p : Pipeline) (n n' : nat) (spec : Spec).
  Hypothesis HS : Standard w c hostDir hostMount.
  Hypothesis HK : compileIn w c p n = Ok (spec, n').
  Let K : Compiled w c p n spec := ex_intro _ n' HK.

  Lemma scriptFile_ok src uid ns : map (fun f => (md_name (fi_meta f), fi_data f)) (filesOf (w_isPrintHigh w) ns p src uid) = scriptFile w p src.
  Proof using.
    unfold filesOf, scriptFile, hasCommands. rewrite script_text. destruct (ct_commands src) as [|x l]; [reflexivity|].
    destruct (String.eqb (pl_os (pi_platform p)) "windows"); reflexivity.
  Qed.
  Theorem files_wanted : map (fun f => (md_name (fi_meta f), fi_data f)) (sp_files spec) = wantedFiles w c p.
  Proof using HS HK.
    destruct (whole_pure w c hostDir hostMount p n n' spec HS HK) as (steps & services & vols & HC & -> & _).
    destruct HC as (E1 & E2 & _). unfold wantedFiles, origins. rewrite E1, E2, !present_some.
    unfold pure, pureSpec. cbn [specOf sp_files]. unfold pureFiles. rewrite !map_app, !flat_map_app, !map_flat, !flat_map_map.
    f_equal; [|f_equal].
    - destruct (cl_disable (pi_clone p)); [reflexivity|]. unfold gitFiles, gitCredentials, credentials. cbn [flat_map].
      destruct (co_git c) as [[|x d]|]; reflexivity.
    - unfold at_next. etransitivity; [apply flat_map_ext; intro a; apply scriptFile_ok|]. rewrite flat_snd, positions_snd. reflexivity.
    - unfold at_next, stepFiles. etransitivity; [apply flat_map_ext; intro a|].
      { instantiate (1 := fun a => match ct_build (snd a) with Some _ => [] | None => scriptFile w p (snd a) end). cbn beta.
        destruct (ct_build (snd a)); [reflexivity|apply scriptFile_ok]. }
      rewrite (flat_snd (fun src => match ct_build src with Some _ => [] | None => scriptFile w p src end)), positions_snd. reflexivity.
  Qed.
  Theorem clone_files : Forall2 (RightCloneFiles c) (origins p) (sp_steps spec).
  Proof using HS HK.
    apply (by_steps w c hostDir hostMount p n spec HS K). intros steps services vols _. unfold RightCloneFiles. split; [|split; discriminate].
    intros _ uid img _. change (st_files _) with (gitMounts c). unfold gitMounts, gitCredentials, credentials.
    destruct (co_git c) as [[|x d]|]; split; intro; first [discriminate|contradiction|reflexivity].
  Qed.

  Lemma volume_names : volumeNames spec =
    "workspace" :: match hostDir with Some _ => ["host"] | None => [] end ++ declaredNames p ++
    match builds (origins p) with [] => [] | _ => ["_docker_socket"] end.
  Proof using HS HK.
    destruct (volumes_ok w c hostDir hostMount p n n' spec HS HK) as (d & Ed & sock & S1 & S2 & F). unfold volumeNames. rewrite Ed.
    assert (X : forall l vs, Forall2 (RightVolume (md_uid (sp_meta spec))) l vs -> map (fun v => md_name (ev_meta v)) vs =
      map (fun o => match o with VWorkspace => "workspace" | VHostWorkspace _ => "host" | VDeclared d => vo_name d | VSocket => "_docker_socket" end) l).
    { intros l vs H. induction H as [|o v l vs R _ IH]; [reflexivity|]. cbn [map]. rewrite IH. f_equal. destruct o; destruct R as [R _]; apply R. }
    rewrite (X _ _ F). cbn [map]. rewrite !map_app, map_map. unfold declaredNames. f_equal. f_equal; [destruct hostDir; reflexivity|]. f_equal.
    assert (B : HasBuild p <-> builds (origins p) <> []).
    { unfold HasBuild, builds, origins. rewrite !flat_map_app.
      replace (flat_map _ (if cl_disable (pi_clone p) then [] else [FromClone])) with (@nil string) by (destruct (cl_disable (pi_clone p)); reflexivity).
      replace (flat_map _ (map FromService _)) with (@nil string) by (rewrite flat_map_map; induction (CompileSpec.present (pi_services p)); [reflexivity|assumption]).
      cbn [app]. rewrite flat_map_map. induction (CompileSpec.present (pi_steps p)) as [|x l IH]; cbn [flat_map].
      - split; [intros (src & b & [] & _)|intro H; contradiction].
      - destruct (ct_build x) as [b|] eqn:Eb.
        + split; [discriminate|]. intros _. exists x, b. split; [left; reflexivity|exact Eb].
        + cbn [app]. rewrite <- IH. split.
          * intros (src & b & [->|I] & E); [congruence|]. exists src, b. auto.
          * intros (src & b & I & E). exists src, b. split; [right; exact I|exact E]. }
    destruct (builds (origins p)) as [|b l].
    - rewrite S2; [reflexivity|]. rewrite B. auto.
    - rewrite S1; [reflexivity|]. apply B. discriminate.
  Qed.

  Lemma lint_names (trusted : bool) v : Lint (RPipeline p) trusted = Ok tt -> In v (declaredNames p) -> ~ Reserved v.
  Proof using.
    clear. intros H I. apply in_map_iff in I. destruct I as (d & <- & I). unfold CompileSpec.present in I. apply in_flat_map in I.
    destruct I as (o & I & J). destruct o as [d'|]; [destruct J as [->|[]]|destruct J]. cbn [Lint] in H. unfold checkPipeline in H. apply oseq_ok in H. destruct H as [H _]. apply ok_tt in H.
    unfold checkVolumes in H. pose proof (proj1 (oiter_ok _ _) H _ I) as G. apply checkVolume_ok in G. apply G.
  Qed.

  (** Every mount leads to one volume. *)
  Theorem mounts_resolve (trusted : bool) : Lint (RPipeline p) trusted = Ok tt ->
    (hostMount = true -> hostDir <> None) -> NoDup (declaredNames p) -> (hostDir <> None -> ~ In "host" (declaredNames p)) ->
    MountsDeclared p ->
    NoDup (volumeNames spec) /\ Forall (fun s => Forall (fun m => In (mo_name m) (volumeNames spec)) (st_volumes s)) (sp_steps spec).
  Proof using HS HK.
    intros HL HH HD HN HM. rewrite volume_names.
    assert (R : forall v, In v (declaredNames p) -> v <> "workspace" /\ v <> "_docker_socket").
    { intros v I. pose proof (lint_names trusted v HL I) as Q. unfold Reserved in Q. cbn [In] in Q. split; intros ->; apply Q; tauto. }
    split.
    - constructor.
      + intro I. rewrite !in_app_iff in I. destruct I as [I|[I|I]].
        * destruct hostDir; [destruct I as [I|[]]; discriminate|destruct I].
        * apply R in I. tauto.
        * destruct (builds (origins p)); [destruct I|destruct I as [I|[]]; discriminate].
      + assert (N2 : NoDup (declaredNames p ++ match builds (origins p) with [] => [] | _ => ["_docker_socket"] end)).
        { destruct (builds (origins p)); [rewrite app_nil_r; exact HD|]. apply NoDup_app_iff. split; [exact HD|].
          split; [repeat constructor; intros []|]. intros x I [<-|[]]. apply R in I. tauto. }
        destruct hostDir as [d|]; [|exact N2]. cbn [app]. constructor; [|exact N2]. rewrite in_app_iff. intros [I|I].
        * apply HN in I; [exact I|discriminate].
        * destruct (builds (origins p)); [destruct I|destruct I as [I|[]]; discriminate].
    - pose proof (steps_mounts w c hostDir hostMount p n spec HS K) as F. apply Forall_forall. intros s Is. apply Forall_forall. intros m Im.
      assert (X : exists o, In o (origins p) /\ RightMounts p hostMount o s).
      { clear -F Is. induction F as [|o s' os ss R F IH]; [destruct Is|]. destruct Is as [->|Is]; [exists o; split; [left; reflexivity|exact R]|].
        destruct (IH Is) as (o' & I & R'). exists o'. split; [right; exact I|exact R']. }
      destruct X as (o & Io & RM). unfold RightMounts in RM. destruct (createWorkspace p) as [[base dir] full]. rewrite RM in Im. apply in_app_iff in Im.
      cbn [In]. rewrite !in_app_iff. destruct Im as [Im|Im].
      + pose proof Io as Io'. unfold origins in Io. rewrite !in_app_iff in Io. destruct o as [|src|src]; cbn [declaredMounts] in Im; [destruct Im| |].
        * right. right. left. apply in_flat_map in Im. destruct Im as (v & Iv & Im).
          destruct (String.eqb (vm_name v) "_docker_socket"); [destruct Im|]. destruct Im as [<-|[]]. cbn [mo_name]. eapply HM; [|exact Iv]. left.
          destruct Io as [Io|[Io|Io]]; [destruct (cl_disable (pi_clone p)); cbn in Io; intuition discriminate| |apply in_map_iff in Io; destruct Io as (x & X & _); discriminate].
          apply in_map_iff in Io. destruct Io as (x & X & I). congruence.
        * assert (Is' : In src (CompileSpec.present (pi_steps p))).
          { destruct Io as [Io|[Io|Io]]; [destruct (cl_disable (pi_clone p)); cbn in Io; intuition discriminate|apply in_map_iff in Io; destruct Io as (x & X & _); discriminate|].
            apply in_map_iff in Io. destruct Io as (x & X & I). congruence. }
          destruct (ct_build src) as [b|] eqn:Eb.
          -- right. right. right. destruct Im as [<-|[]]. cbn [mo_name].
             assert (Ib : In (b_image b) (builds (origins p))).
             { unfold builds. apply in_flat_map. exists (FromStep src). split; [exact Io'|]. rewrite Eb. left. reflexivity. }
             destruct (builds (origins p)); [destruct Ib|left; reflexivity].
          -- right. right. left. apply in_flat_map in Im. destruct Im as (v & Iv & Im).
             destruct (String.eqb (vm_name v) "_docker_socket"); [destruct Im|]. destruct Im as [<-|[]]. cbn [mo_name]. eapply HM; [|exact Iv]. right. auto.
      + destruct hostMount.
        * destruct Im as [<-|Im]; [|left; destruct dir; [destruct Im|destruct Im as [<-|[]]; reflexivity]].
          right. left. destruct hostDir; [left; reflexivity|]. exfalso. apply HH; reflexivity.
        * destruct Im as [<-|[]]. left. reflexivity.
  Qed.
End More.

(** ** Settings *)
Lemma int_back : forall z, NilZero.int_of_string (itoa z) = Some (Z.to_int z).
Proof.
  intro z. unfold itoa. apply NilZero.isi.
  - intro E. pose proof (DecimalZ.of_to z) as Q. rewrite E in Q. cbn in Q. subst z. discriminate E.
  - intro E. pose proof (DecimalZ.of_to z) as Q. rewrite E in Q. cbn in Q. subst z. discriminate E.
Qed.
Lemma itoa_numeral : forall z, Numeral z (itoa z).
Proof.
  intro z. split; [exists (Z.to_int z); split; [apply int_back|apply DecimalZ.of_to]|].
  assert (N : norm (Z.to_int z) = Z.to_int z) by (rewrite <- (DecimalZ.to_of (Z.to_int z)), DecimalZ.of_to; reflexivity).
  assert (K : forall u v, Decimal.nzhead u <> Decimal.D0 v) by (induction u; cbn; congruence).
  assert (Z0 : forall d, Decimal.unorm d = d -> forall r, NilZero.string_of_uint d = String "0" r -> r = "").
  { intros d U r E. destruct d as [|d|d|d|d|d|d|d|d|d|d]; cbn in E; try discriminate.
    unfold Decimal.unorm in U. cbn [Decimal.nzhead] in U. destruct (Decimal.nzhead d) eqn:H; try discriminate.
    - injection U as <-. injection E as <-. reflexivity.
    - exfalso. eapply K; exact H. }
  unfold itoa, NilZero.string_of_int. split.
  - intros r E. destruct (Z.to_int z) as [d|d]; [|discriminate]. apply (Z0 d); [|exact E]. cbn in N. injection N as N. exact N.
  - intros r E. destruct (Z.to_int z) as [d|d] eqn:Ez.
    + destruct d; discriminate.
    + injection E as E. pose proof (DecimalZ.of_to z) as Q. rewrite Ez in Q. cbn in N. destruct (Decimal.nzhead d) eqn:H; [discriminate| | | | | | | | | |]; injection N as N; subst d;
        cbn in E; try discriminate.
      exfalso. eapply K; eassumption.
Qed.
Lemma scalar_text : forall ff v t, scalarText ff v = Some t -> ScalarText ff v t.
Proof.
  intros ff v t. destruct v as [|[]|z|f|s|l|m]; cbn; intro E; try discriminate; injection E as <-;
    first [apply text_null|apply text_true|apply text_false|apply text_string|apply text_int, itoa_numeral|idtac].
  unfold yamlFloat. destruct (String.eqb_spec (ff f) "+Inf") as [A|A]; [apply text_inf, A|].
  destruct (String.eqb_spec (ff f) "-Inf") as [B|B]; [apply text_neg_inf, B|].
  destruct (String.eqb_spec (ff f) "NaN") as [C|C]; [apply text_nan, C|]. apply text_float; [reflexivity|]. cbn. intuition congruence.
Qed.
Theorem encode_text : forall ff tj v, SettingText ff tj v (encode ff tj v).
Proof.
  intros ff tj v. destruct v as [|[]|z|f|s|l|m]; cbn [encode];
    first [apply set_null|apply set_true|apply set_false|apply set_string|apply set_int, itoa_numeral|apply set_map|apply set_float|idtac].
  unfold encodeSlice.
  assert (S : match scalarTexts ff l with Some ts => Forall2 (ScalarText ff) l ts | None => Exists Nested l end).
  { induction l as [|v l IH]; cbn [scalarTexts]; [constructor|].
    destruct (scalarText ff v) as [t|] eqn:E.
    - destruct (scalarTexts ff l); [constructor; [apply scalar_text, E|exact IH]|apply Exists_cons_tl, IH].
    - apply Exists_cons_hd. destruct v as [|[]|z|f|s|l'|m]; try discriminate; [left|right]; eexists; reflexivity. }
  destruct (scalarTexts ff l); [apply set_list|apply set_nested]; exact S.
Qed.
Lemma encode_list : forall ff tj l, encode ff tj (VList (map VStr l)) = join "," l.
Proof.
  intros ff tj l. cbn [encode]. unfold encodeSlice.
  assert (E : scalarTexts ff (map VStr l) = Some l) by (induction l as [|x l IH]; [reflexivity|]; cbn; rewrite IH; reflexivity).
  rewrite E. reflexivity.
Qed.
Lemma encode_list_back : forall ff tj l, l <> [] -> Forall (fun s => hasChar "," s = false) l ->
  split_on "," (encode ff tj (VList (map VStr l))) = l.
Proof. intros ff tj l N F. rewrite encode_list. apply (split_on_join "," l N F). Qed.

(** ** Resources *)
Lemma thousandths : forall f, Thousandths f (toCPUMillis f).
Proof.
  intro f. split; [intros s ->; destruct s; reflexivity|]. intros m d (-> & B & D).
  destruct (cpu_close m d B D) as [C1 C2]. split; [exact C1|]. split; [exact C2|]. apply (cpu_exact m d B D).
Qed.
Theorem steps_resources : forall w c hostDir hostMount p n spec, Standard w c hostDir hostMount -> Compiled w c p n spec ->
  Forall2 RightResources (origins p) (sp_steps spec).
Proof.
  intros w c hd hm p n spec HS HK. eapply Forall2_weaken; [|exact (steps_fields w c hd hm p n spec HS HK)].
  intros o s F. assert (L : forall x, RightLimit x (toResourceObject x)).
  { intros [x|]; [|exact I]. split; [reflexivity|apply thousandths]. }
  assert (R : forall src, st_resources s = toResources src -> match ct_resources src, st_resources s with
      | None, None => True
      | Some a, Some b => RightLimit (re_limits a) (er_limits b) /\ RightLimit (re_requests a) (er_requests b)
      | _, _ => False end).
  { intros src ->. unfold toResources. destruct (ct_resources src) as [r|]; [|exact I]. split; apply L. }
  destruct o as [|src|src]; cbn [RightFields RightResources] in *; [unfold CarriedClone in F; tauto|apply R; unfold Carried in F; tauto|].
  apply R. destruct (ct_build src); [unfold CarriedBuild in F|unfold Carried in F]; tauto.
Qed.
