(** * LegacyRun.v: compiling a converted 0.8 configuration. *)
From Coq Require Import Lia Sorting.Permutation.
From Verif Require Import Model.Go Model.Types Model.Cond Model.Signer Model.Engine Model.Image Model.Encode Model.Path Model.Script Model.Legacy Model.Compiler
  Spec.LintSpec Spec.CondSpec Spec.ScriptSpec Spec.LegacySpec Spec.ConvertedSpec Spec.CompileSpec Spec.MainSpec Spec.LegacyRunSpec
  Proofs.GoFacts Proofs.CompilePure Proofs.CompileFacts Proofs.CompileSteps Proofs.CompileWhole Proofs.CompileGraph
  Proofs.SignFacts Proofs.LegacyFacts Proofs.LegacyMore Proofs.LegacyLint.

(** ** Lists *)
Lemma Forall2_and {A B} (R S : A -> B -> Prop) l l' : Forall2 R l l' -> Forall2 S l l' -> Forall2 (fun a b => R a b /\ S a b) l l'.
Proof. intro F. induction F; intro G; inversion G; subst; constructor; auto. Qed.
Lemma Forall2_through {A B C} (R : A -> B -> Prop) (S : B -> C -> Prop) l l' l'' :
  Forall2 R l l' -> Forall2 S l' l'' -> Forall2 (fun a c => exists b, In b l' /\ R a b /\ S b c) l l''.
Proof.
  intro F. revert l''. induction F as [|a b l l' H F IH]; intros l'' G; inversion G; subst; constructor.
  - exists b. split; [left; reflexivity|auto].
  - eapply Forall2_weaken; [|apply IH; eassumption]. intros ? ? (b0 & I & P). exists b0. split; [right; exact I|exact P].
Qed.

(** ** The pipeline of a configuration *)
(** A source and the container it becomes. *)
Definition Becomes (src : Source) (o : Origin) : Prop :=
  match src, o with
  | OfClone, FromClone => True
  | OfService l, FromService c => RightContainer l c /\ ct_name c = lc_name l
  | OfStep l, FromStep c => RightContainer l c
  | _, _ => False
  end.
Lemma default_clone_right c : DefaultClone c -> RightContainer addedClone c.
Proof.
  intros [name ->]. unfold RightContainer. cbn. repeat (split; [reflexivity|]).
  split; [discriminate|]. split; [reflexivity|]. split.
  { intros _. split; [constructor|]. intros k v. split; [discriminate|].
    intros [(source & (before & s & after & E & _) & _)|(_ & x & [] & _)]. cbn in E. destruct before; discriminate. }
  split; [constructor|]. split; [constructor|]. split; [repeat split; constructor|]. repeat split.
Qed.
Lemma steps_of getenv g steps : StepsOf getenv g steps ->
  Forall2 RightContainer (inTurn getenv g) steps /\ RightNames (legacyNames getenv g) (map ct_name steps).
Proof.
  intros [A B]. unfold inTurn, legacyNames. destruct (lg_clone g) as [|c cs] eqn:E.
  - destruct (string_dec (getenv "DRONE_CONVERT_YAML_LEGACY_CLONE") "true") as [Y|Y].
    + destruct (B eq_refl Y) as (c & rest & -> & D & F & N). split; [|exact N]. constructor; [apply default_clone_right; exact D|exact F].
    + apply A. right. exact Y.
  - assert (X : c :: cs <> []) by discriminate. destruct (A (or_introl X)) as [F N]. rewrite map_app in N. auto.
Qed.
Lemma become getenv g p q (clone : bool) : RightPipeline getenv g p -> (if clone then q = p else WithoutClone p q) ->
  exists steps services vols, CompileSpec.Complete q steps services vols /\
    Forall2 Becomes (runs clone getenv g) (origins q) /\
    Forall (fun c => ct_build c = None /\ ct_depends c = []) (steps ++ services) /\
    RightNames (legacyNames getenv g) (map ct_name steps) /\ map ct_name services = map lc_name (lg_services g) /\
    pi_platform q = noPlatform /\ LegacySpec.RightVolumes g (pi_volumes q) /\
    newClone clone getenv g = if cl_disable (pi_clone q) then [] else ["clone"].
Proof.
  intros HP Hq.
  destruct HP as (_ & _ & _ & _ & _ & Hd & _ & _ & _ & _ & _ & Pl & _ & _ & HV & steps & services & E1 & E2 & HS & HF & HN & _).
  assert (Q : pi_steps q = pi_steps p /\ pi_services q = pi_services p /\ pi_volumes q = pi_volumes p /\ pi_platform q = pi_platform p /\
    cl_disable (pi_clone q) = if clone then cl_disable (pi_clone p) else true).
  { destruct clone; [subst; repeat split|]. destruct Hq as (? & ? & ? & ? & ? & ? & ? & ? & ? & ? & ? & ? & ? & ? & ? & ? & ?). repeat split; assumption. }
  clear Hq. destruct Q as (Q1 & Q2 & Q3 & Q4 & Q5). rewrite <- Q1 in E1. rewrite <- Q2 in E2. rewrite <- Q3 in HV. rewrite <- Q4 in Pl.
  destruct (steps_of _ _ _ HS) as [F N].
  assert (V : exists vols, pi_volumes q = map Some vols).
  { destruct HV as (srcs & _ & _ & HV). clear - HV. induction HV as [|v s vs ss H F (vols & IH)]; [exists []; reflexivity|].
    destruct H as (v0 & -> & _). exists (v0 :: vols). cbn. congruence. }
  assert (K : newClone clone getenv g = if cl_disable (pi_clone q) then [] else ["clone"]).
  { rewrite Q5. unfold newClone. destruct clone; [|reflexivity]. unfold takenName. destruct (cl_disable (pi_clone p)) eqn:D.
    - destruct (proj1 Hd eq_refl) as [X|X]; destruct (lg_clone g); try congruence; try reflexivity.
      destruct (string_dec _ _); [reflexivity|contradiction].
    - destruct (lg_clone g) as [|x y] eqn:G; [|exfalso; assert (false = true) by (apply Hd; left; discriminate); discriminate].
      destruct (string_dec _ _) as [Y|Y]; [exfalso; assert (false = true) by (apply Hd; right; exact Y); discriminate|reflexivity]. }
  destruct V as (vols & E3). exists steps, services, vols. split.
  { split; [exact E1|]. split; [exact E2|]. split; [exact E3|]. split.
    - eapply Forall_impl; [|exact (no_null_parts _ _ F)]. intros c H _. exact H.
    - exact (no_null_parts _ _ HF). }
  split.
  { unfold runs, origins. rewrite E1, E2. rewrite !somes_map.
    assert (D : Forall2 Becomes (map (fun _ => OfClone) (newClone clone getenv g)) (if cl_disable (pi_clone q) then [] else [FromClone])).
    { rewrite K. destruct (cl_disable (pi_clone q)); repeat constructor. }
    apply Forall2_app; [exact D|]. apply Forall2_app.
    - clear - HF HN. revert HN. induction HF as [|l c ls cs H F IH]; cbn; [constructor|]. intro E. injection E as E E'.
      constructor; [split; assumption|]. auto.
    - clear - F. induction F; constructor; auto. }
  split; [|split; [exact N|split; [exact HN|split; [exact Pl|split; [exact HV|exact K]]]]].
  assert (W : forall l l', Forall2 RightContainer l l' -> Forall (fun c => ct_build c = None /\ ct_depends c = []) l').
  { clear. intros l l' F. induction F as [|l c ls cs H F IH]; constructor; [|exact IH].
    destruct H as (_ & _ & _ & _ & _ & _ & _ & _ & _ & _ & _ & _ & _ & _ & _ & Eb & Ed & _). split; assumption. }
  apply Forall_app. split; eapply W; eassumption.
Qed.

(** ** Environment *)
Lemma own_variable l ct k v : RightContainer l ct -> NoDup (mkeys (lc_environment l)) -> (PlainVar ct k v <-> OwnVariable l k v).
Proof.
  intros (_ & _ & _ & _ & _ & _ & _ & _ & _ & _ & _ & RE & _) N. destruct (RE N) as [N' RV]. unfold PlainVar, OwnVariable. split.
  - intros (x & I & S & V). apply (mget_NoDup _ _ _ N') in I. apply RV in I. destruct I as [(source & SF & E)|(NS & y & I & E)].
    + injection E as ->. cbn in S, V. subst. left. auto.
    + injection E as ->. cbn in V. subst. right. auto.
  - intros [[SF ->]|[I NS]].
    + exists {| v_value := ""; v_secret := "" |}. split; [|auto]. apply mget_In. apply RV. left. exists "". auto.
    + exists {| v_value := v; v_secret := "" |}. split; [|auto]. apply mget_In. apply RV. right. split; [exact NS|]. exists v. auto.
Qed.
Lemma setting_from w l ct k v : RightContainer l ct -> (PlainSetting w ct k v <-> Setting w l k v).
Proof.
  intros (_ & _ & _ & _ & _ & _ & _ & _ & _ & _ & _ & _ & RS & _). unfold PlainSetting, Setting. split.
  - intros (name & x & I & S & K & V). apply (Permutation_in _ RS) in I. apply in_map_iff in I as ([a b] & E & I). cbn in E. injection E as -> <-.
    exists name, b. auto.
  - intros (name & x & I & K & V). exists name, {| p_value := x; p_secret := "" |}. split; [|auto].
    apply (Permutation_in _ (Permutation_sym RS)). apply in_map_iff. exists (name, x). auto.
Qed.
Lemma secret_from l ct s : RightContainer l ct -> NoDup (mkeys (lc_environment l)) -> RightSecrets ct s ->
  forall name k, In {| sv_name := name; sv_env := k |} (st_secrets s) <-> name <> "" /\ SecretFor l k name.
Proof.
  intros (_ & _ & _ & _ & _ & _ & _ & _ & _ & _ & _ & RE & RS & _) N H name k. destruct (RE N) as [N' RV]. rewrite (H name k). split.
  - intros [(Ne & x & I & S)|(Ne & key & x & I & S & _)].
    + split; [exact Ne|]. apply (mget_NoDup _ _ _ N') in I. apply RV in I. destruct I as [(source & SF & E)|(_ & y & _ & E)]; injection E as ->; cbn in S; subst; [exact SF|congruence].
    + apply (Permutation_in _ RS) in I. apply in_map_iff in I as ([a b] & E & I). cbn in E. injection E as _ <-. cbn in S. congruence.
  - intros (Ne & SF). left. split; [exact Ne|]. exists {| v_value := ""; v_secret := name |}. split; [|reflexivity]. apply mget_In. apply RV. left. exists name. auto.
Qed.
Lemma clear_maps l ct : RightContainer l ct -> ClearLegacy l -> MapsOk ct /\ NoCollision ct.
Proof.
  intros (_ & _ & _ & _ & _ & _ & _ & _ & _ & _ & _ & RE & RS & _) (N1 & N2 & N3). destruct (RE N1) as [N' _].
  assert (K : Permutation (mkeys (ct_settings ct)) (mkeys (lc_vargs l))).
  { unfold mkeys. eapply Permutation_trans; [apply Permutation_map; exact RS|]. rewrite map_map. apply Permutation_refl. }
  split; [split; [exact N'|]|].
  - exact (Permutation_NoDup (Permutation_sym K) N2).
  - apply (Permutation_NoDup (Permutation_sym (Permutation_map toUpper K)) N3).
Qed.

(** ** Volumes *)
Lemma hex_letters s c : In c (list_ascii_of_string (hexEncode s)) -> c <> "w"%char /\ c <> "h"%char.
Proof.
  intro I. pose proof (hexEncode_IsHex s c I) as H. split; intros ->; vm_compute in H; repeat (destruct H as [H|H]; [discriminate|]); destruct H.
Qed.
Lemma hex_not_workspace s : hexEncode s <> "workspace" /\ hexEncode s <> "host".
Proof.
  split; intro E.
  - destruct (hex_letters s "w"%char) as [X _]; [rewrite E; left; reflexivity|congruence].
  - destruct (hex_letters s "h"%char) as [_ X]; [rewrite E; left; reflexivity|congruence].
Qed.
Lemma from_host g p hostDir spec d v m :
  LegacySpec.RightVolumes g (pi_volumes p) -> ~ HasBuild p -> sp_docker spec = Some d ->
  CompileSpec.RightVolumes p hostDir (md_uid (sp_meta spec)) (dc_volumes d) ->
  mo_path m = lv_dest v -> mo_name m = hexEncode (lv_source v) -> FromHost g spec m v.
Proof.
  intros (srcs & ND & HI & HV) NB Ed (sock & _ & S2 & F) Ep En. split; [exact Ep|]. exists d. split; [exact Ed|]. rewrite En.
  rewrite (S2 NB), app_nil_r in F. clear S2. destruct (hex_not_workspace (lv_source v)) as [N1 N2].
  inversion F as [|? ev0 ? evs F0 F1]; subst. apply Forall2_app_inv_l in F1 as (hosts & decl & FH & FD & ->).
  assert (HH : forall ev, In ev hosts -> md_name (ev_meta ev) = "host").
  { intros ev I. destruct hostDir; inversion FH as [|? ? ? ? X Y]; subst; [|destruct I].
    inversion Y; subst. destruct I as [<-|[]]. exact (proj1 (proj1 X)). }
  assert (P : Forall2 (fun s ev => md_name (ev_meta ev) = hexEncode s /\ ev_host ev = Some s /\ ev_empty ev = None) srcs decl).
  { clear - HV FD. revert decl FD. induction HV as [|o s vs ss H HV IH]; intros decl FD; cbn in FD.
    - inversion FD; subst. constructor.
    - destruct H as (v0 & -> & A & B & C). cbn in FD. inversion FD as [|? ev ? decl' X Y]; subst. constructor; [|apply IH; exact Y].
      destruct X as [[X1 X2] _]. rewrite A in X1. rewrite B, C in X2. cbn in X2. destruct X2 as [X2 X3]. auto. }
  split.
  - intro I. apply HI in I. apply In_nth_error in I as (i & Ei).
    assert (X : exists ev, In ev decl /\ md_name (ev_meta ev) = hexEncode (lv_source v)).
    { clear - P Ei. revert i Ei. induction P as [|s ev ss evs H P IH]; intros i Ei; [destruct i; discriminate|].
      destruct i as [|i]; [injection Ei as ->; exists ev; split; [left; reflexivity|exact (proj1 H)]|].
      destruct (IH i Ei) as (x & I & E). exists x. split; [right; exact I|exact E]. }
    destruct X as (ev & I & E). exists ev. split; [right; apply in_or_app; right; exact I|exact E].
  - intros ev [<-|I] E.
    { destruct F0 as [[X _] _]. congruence. }
    apply in_app_or in I as [I|I]; [rewrite (HH ev I) in E; congruence|].
    assert (X : exists s, In s srcs /\ md_name (ev_meta ev) = hexEncode s /\ ev_host ev = Some s /\ ev_empty ev = None).
    { clear - P I. induction P as [|s e ss evs H P IH]; [destruct I|]. destruct I as [->|I]; [exists s; split; [left; reflexivity|exact H]|].
      destruct (IH I) as (x & J & K). exists x. split; [right; exact J|exact K]. }
    destruct X as (s & J & A & B & C). assert (s = lv_source v) by (apply hexEncode_inj; congruence). subst s.
    split; [apply HI; exact J|auto].
Qed.

(** ** One step *)
Definition envRight (w : World) (p : Pipeline) (o : Origin) (s : Step) : Prop :=
  match o with
  | FromClone => RightCloneEnv p s
  | FromService src => RightSecrets src s /\ (MapsOk src -> NoCollision src -> RightEnv w p src s)
  | FromStep src =>
      match ct_build src with
      | Some b => RightBuildEnv w p b s
      | None => RightSecrets src s /\ (MapsOk src -> NoCollision src -> RightEnv w p src s)
      end
  end.
Record AllRight (w : World) (c : Compiler) (p : Pipeline) (hostMount : bool) (spec : Spec) (o : Origin) (s : Step) : Prop := {
  all_name : RightName o s; all_depends : RightDepends p o s; all_privileged : RightPrivileged c o s;
  all_mounts : RightMounts p hostMount o s; all_fields : RightFields o s; all_policy : RightPolicy w c o s;
  all_dir : RightWorkingDir p o s; all_env : envRight w p o s; all_script : RightScript w p o s (sp_files spec);
  all_image : ds_image (st_docker s) = asked w p o }.
Lemma container_runs w c g p hostDir hostMount spec d service l ct s :
  LegacySpec.RightVolumes g (pi_volumes p) -> ~ HasBuild p -> ~ Parallel p -> pi_platform p = noPlatform -> sp_docker spec = Some d ->
  CompileSpec.RightVolumes p hostDir (md_uid (sp_meta spec)) (dc_volumes d) ->
  RightContainer l ct ->
  AllRight w c p hostMount spec (if service : bool then FromService ct else FromStep ct) s ->
  Runs w c g p hostMount spec service l s.
Proof.
  intros HV NB NP Pl Ed HVol HR [An Ad Ap Am Af Apo Adir Aenv Asc Aim].
  assert (NW : ~ Windows p) by (unfold Windows; rewrite Pl; discriminate).
  pose proof HR as (Ei & Edet & Ecmd & Ecms & Edns & Eds & Een & Eex & Epr & Epu1 & Epu2 & _ & _ & Ev & Ew & Eb & Edep & _ & Ef & Enet & Epo & _ & Ers & _ & Eus & Ewd).
  assert (Af' : Carried ct s) by (destruct service; cbn [RightFields] in Af; [exact Af|rewrite Eb in Af; exact Af]).
  destruct Af' as (F1 & F2 & F3 & F4 & _ & F6 & F7 & F8 & F9 & F10 & F11 & _).
  assert (Nm : stepName s = ct_name ct) by (destruct service; exact (proj1 (proj1 An))).
  assert (Asc' : (ct_commands ct = [] ->
           ds_command (st_docker s) = ct_entrypoint ct /\ ds_args (st_docker s) = ct_command ct /\ st_files s = []) /\
        (ct_commands ct <> [] -> ~ Windows p ->
           ds_command (st_docker s) = ["/bin/sh"] /\ ds_args (st_docker s) = [scriptPath] /\
           st_files s = [{| fm_name := ct_name ct; fm_path := scriptPath; fm_mode := 511 |}] /\
           exists f, In f (sp_files spec) /\ md_name (fi_meta f) = ct_name ct /\
             fi_data f = scriptText posixHead (posixLines (escaped (w_isPrintHigh w))) (ct_commands ct))).
  { destruct service; cbn [RightScript] in Asc; [|rewrite Eb in Asc]; destruct Asc as (A & B & _); auto. }
  assert (Aenv' : RightSecrets ct s /\ (MapsOk ct -> NoCollision ct -> RightEnv w p ct s)).
  { destruct service; cbn [envRight] in Aenv; [exact Aenv|rewrite Eb in Aenv; exact Aenv]. }
  constructor.
  - rewrite (proj2 Ad (or_introl NP)). destruct service; exact Edep.
  - destruct service; cbn; [exact (proj2 (proj1 An))|rewrite <- Edet; exact (proj2 (proj1 An))].
  - rewrite Aim. destruct service; cbn [asked]; [congruence|rewrite Eb; congruence].
  - rewrite <- Ecms, <- Een, <- Ecmd. exact (proj1 Asc').
  - rewrite <- Ecms, Nm. intro H. exact (proj2 Asc' H NW).
  - intros HC k v. destruct (clear_maps _ _ HR HC) as [M1 M2]. rewrite (proj2 Aenv' M1 M2 k v).
    assert (NoS : forall x, ~ ScriptVar w p ct k x) by (intros x (X & _); exact (NW X)).
    assert (S : forall x, PlainSetting w ct k x <-> Setting w l k x) by (intro; apply setting_from; exact HR).
    rewrite (own_variable _ _ _ _ HR (proj1 HC)), S.
    assert (S' : (forall x, ~ PlainSetting w ct k x) <-> (forall x, ~ Setting w l k x)) by (split; intros H x; specialize (H x); specialize (S x); tauto).
    rewrite S'. specialize (NoS v) as NoSv. clear - NoS NoSv. split; (intros [H|[H [X|X]]]; [left; exact H|right; split; [exact H|]|right; split; [exact H|]]); try tauto.
  - intros N. exact (secret_from _ _ _ HR N (proj1 Aenv')).
  - destruct F8 as (P1 & P2 & _). destruct (lc_pull l); [apply P1; rewrite (Epu1 eq_refl); reflexivity|apply P2; rewrite (Epu2 eq_refl); reflexivity].
  - rewrite F1, F2, F3, F4, F6, Epo. auto.
  - rewrite F7, F10, F11. split; [exact Eus|]. split; [|reflexivity]. unfold toResources. rewrite Ers. reflexivity.
  - rewrite F9, Ef. reflexivity.
  - unfold RightMounts in Am. destruct (createWorkspace p) as [[base dir] full]. exists (declaredMounts (if service then FromService ct else FromStep ct)).
    split; [exact Am|]. assert (D : declaredMounts (if service then FromService ct else FromStep ct) =
      flat_map (fun v => if String.eqb (vm_name v) "_docker_socket" then [] else [{| mo_name := vm_name v; mo_path := vm_path v |}]) (present (ct_volumes ct))).
    { destruct service; cbn [declaredMounts]; [reflexivity|rewrite Eb; reflexivity]. }
    rewrite D. clear - Ev HV NB Ed HVol. induction Ev as [|v m vs ms (v0 & m0 & -> & -> & A & B) F IH]; [constructor|].
    cbn [present flat_map]. change (flat_map _ ms) with (present ms). cbn [app flat_map].
    destruct (String.eqb_spec (vm_name m0) "_docker_socket") as [X|X].
    { exfalso. apply (hex_not_reserved (lv_source v0)). rewrite <- B, X. cbn. auto. }
    constructor; [|exact IH]. exists v0. split; [reflexivity|]. eapply from_host; eassumption.
  - unfold RightWorkingDir in Adir. rewrite <- Ecms, <- Edet. destruct service; cbn [orb].
    + rewrite Adir, Ewd. destruct (ct_commands ct); [|reflexivity]. destruct (ct_detach ct); reflexivity.
    + rewrite Eb in Adir. rewrite Adir, Ewd. destruct (ct_detach ct), (ct_commands ct); reflexivity.
  - destruct Ew as (_ & _ & _ & _ & _ & Es & _). rewrite <- Es, <- Epr. exists ct. split; [exact HR|]. split; [symmetry; exact Nm|]. cbv zeta.
    unfold RightPrivileged in Ap. destruct service; cbn [RightPolicy] in Apo; destruct Apo as [A B].
    + split; [exact Ap|]. split; [exact A|exact B].
    + split; [|split; [exact A|exact B]]. rewrite Ap. rewrite Eb. split; (intros [X|X]; [left|right; exact X]); [exact (proj1 X)|auto].
Qed.

(** ** The whole *)
Section Whole.
  Variables (w : World) (c : Compiler) (hostDir : option string) (hostMount : bool).
  Hypotheses (HO : OrderOk w) (HS : Standard w c hostDir hostMount).
  Lemma all_right p n n' spec : ~ HasBuild p -> compileIn w c p n = Ok (spec, n') ->
    Forall2 (AllRight w c p hostMount spec) (origins p) (sp_steps spec).
  Proof using HO HS.
    intros NB HK. assert (HC : Compiled w c p n spec) by (exists n'; exact HK).
    pose proof (Forall2_and _ _ _ _ (steps_named w c hostDir hostMount p n spec HS HC)
      (Forall2_and _ _ _ _ (steps_depend w c hostDir hostMount p n spec HS HC)
      (Forall2_and _ _ _ _ (steps_privileged w c hostDir hostMount p n spec HS HC)
      (Forall2_and _ _ _ _ (steps_mounts w c hostDir hostMount p n spec HS HC)
      (Forall2_and _ _ _ _ (steps_fields w c hostDir hostMount p n spec HS HC)
      (Forall2_and _ _ _ _ (steps_policy w c hostDir hostMount p n spec HS HC)
      (Forall2_and _ _ _ _ (steps_working_dir w c hostDir hostMount p n spec HS HC)
      (Forall2_and _ _ _ _ (steps_env w c hostDir hostMount p n spec HS HC)
      (Forall2_and _ _ _ _ (scripts_ok w c hostDir hostMount p n n' spec HS HK)
        (images_asked w HO c hostDir hostMount p n spec HS HC)))))))))) as F.
    eapply Forall2_weaken; [|exact F]. intros o s (H1 & H2 & H3 & H4 & H5 & H6 & H7 & H8 & H9 & H10).
    constructor; try assumption. apply H10. intros k I. exfalso. apply NB. unfold builds in I. apply in_flat_map in I as (o' & I & J).
    destruct o' as [|src|src]; try destruct J. destruct (ct_build src) as [b|] eqn:E; [|destruct J]. exists src, b. split; [|exact E].
    unfold origins in I. apply in_app_or in I as [I|I]; [destruct (cl_disable _); [destruct I|destruct I as [I|[]]; discriminate]|].
    apply in_app_or in I as [I|I]; apply in_map_iff in I as (x & X & I); [discriminate|]. injection X as ->. exact I.
  Qed.
  Theorem legacy_runs getenv parseURL g remote n : CompleteConfig g ->
    exists p, toPipeline getenv parseURL g remote = Ok p /\
    forall (clone : bool) q, (if clone then q = p else WithoutClone p q) ->
    exists spec, Compiled w c q n spec /\ RightRunNames clone getenv g spec /\
      Forall2 (RunsAs w c g q hostMount spec) (runs clone getenv g) (sp_steps spec).
  Proof using HO HS.
    intro HC. destruct (toPipeline_ok getenv parseURL g remote HC) as (p & E & HP). exists p. split; [exact E|].
    intros clone q Hq. destruct (become getenv g p q clone HP Hq) as (steps & services & vols & CQ & FB & NBD & RN & SN & Pl & HV & K).
    destruct (proj1 (proj1 (compile_total w c hostDir hostMount q n HS)) (ex_intro _ steps (ex_intro _ services (ex_intro _ vols CQ)))) as (spec & n' & HK).
    assert (NB : ~ HasBuild q).
    { intros (src & b & I & Eb). destruct CQ as (C1 & _). rewrite C1, somes_map in I. rewrite Forall_forall in NBD.
      destruct (NBD src) as [X _]; [apply in_or_app; left; exact I|congruence]. }
    assert (NP : ~ Parallel q).
    { intros (src & I & Eb). destruct CQ as (C1 & _). rewrite C1, somes_map in I. rewrite Forall_forall in NBD.
      destruct (NBD src) as [_ X]; [apply in_or_app; left; exact I|congruence]. }
    pose proof (all_right q n n' spec NB HK) as FA.
    destruct (CompileWhole.volumes_ok w c hostDir hostMount q n n' spec HS HK) as (d & Ed & HVol).
    exists spec. split; [exists n'; exact HK|]. split.
    - exists (map ct_name steps). split; [exact RN|]. rewrite <- SN.
      assert (X : map stepName (sp_steps spec) = map originName (origins q)).
      { clear - FA. induction FA as [|o s os ss H F IH]; [reflexivity|]. cbn [map]. rewrite IH. f_equal.
        destruct H as [[H _] _ _ _ _ _ _ _ _ _]. destruct o; exact (proj1 H). }
      rewrite X. destruct CQ as (C1 & C2 & _). unfold origins. rewrite C1, C2, !somes_map, !map_app, !map_map.
      f_equal. rewrite K. destruct (cl_disable (pi_clone q)); reflexivity.
    - pose proof (Forall2_through _ _ _ _ _ FB FA) as FT. eapply Forall2_weaken; [|exact FT].
      intros src s (o & I & B & A). destruct src as [|l|l], o as [|ct|ct]; try contradiction.
      + pose proof A as [[An _] Ad Ap _ _ Apo _ _ _ Aim]. cbn [RunsAs]. destruct An as [N1 N2].
        split; [exact N1|]. split; [exact N2|]. split; [exact (proj2 Ad (or_introl NP))|].
        split; [rewrite Aim; cbn [asked]; unfold cloneImage; rewrite Pl; reflexivity|].
        split; [|exact Apo]. unfold RightPrivileged in Ap. destruct (ds_privileged _); [destruct (proj1 Ap eq_refl)|reflexivity].
      + destruct B as [B N]. cbn [RunsAs]. split; [destruct A as [[[An _] _] _ _ _ _ _ _ _ _ _]; congruence|].
        eapply (container_runs w c g q hostDir hostMount spec d true l ct s); eassumption.
      + cbn [RunsAs]. eapply (container_runs w c g q hostDir hostMount spec d false l ct s); eassumption.
  Qed.
End Whole.
