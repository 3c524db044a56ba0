(** * LegacyMore.v: the workspace and the manifest of a converted 0.8 configuration. *)
From Coq Require Import Lia Sorting.Permutation.
From Verif Require Import Model.Go Model.Types Model.Decode Model.Path Model.Matrix Model.Legacy
  Spec.DecodeSpec Spec.MatrixSpec Spec.LegacySpec Proofs.GoFacts Proofs.PathFacts Proofs.LegacyFacts.

Lemma trimPrefix_cases : forall s p, (exists r, s = (p +++ r)%string /\ trimPrefix s p = r) \/
  ((forall r, s <> (p +++ r)%string) /\ trimPrefix s p = s).
Proof.
  intros s p. unfold trimPrefix, hasPrefix. destruct (String.prefix p s) eqn:E.
  - left. apply prefix_spec in E. destruct E as (r & ->). exists r. split; [reflexivity|]. apply sdrop_app.
  - right. split; [apply prefix_false; exact E|reflexivity].
Qed.
Lemma trimSuffix_cases : forall s p, (exists r, s = (r +++ p)%string /\ trimSuffix s p = r) \/
  ((forall r, s <> (r +++ p)%string) /\ trimSuffix s p = s).
Proof.
  intros s p. unfold trimSuffix. destruct (hasSuffix s p) eqn:E.
  - left. apply hasSuffix_spec in E. destruct E as (r & ->). exists r. split; [reflexivity|].
    rewrite slength_app, Nat.add_sub. apply stake_app.
  - right. split; [|reflexivity]. intros r X. assert (hasSuffix s p = true) by (apply hasSuffix_spec; exists r; exact X). congruence.
Qed.
Section Work.
  Variable getenv : string -> string.
  Variable parseURL : string -> option (string * string).

  Lemma repoPath_ok : forall remote, RepoPath parseURL remote (toWorkspacePath parseURL remote).
  Proof.
    intro remote. unfold RepoPath, toWorkspacePath. destruct (parseURL remote) as [[host path]|]; [|reflexivity].
    destruct (isEmpty host) eqn:E.
    - apply isEmpty_true in E. split; [reflexivity|intro X; contradiction].
    - apply isEmpty_false in E. split; [intro X; contradiction|]. intros _. eexists. split; [reflexivity|].
      destruct (trimPrefix_cases path "/") as [(r & E1 & ->)|[E1 ->]].
      + destruct (trimSuffix_cases r "/") as [(r' & E2 & ->)|[E2 ->]].
        * exists "/", "/". subst. repeat split; auto; discriminate.
        * exists "/", "". subst. rewrite sapp_nil_r. repeat split; auto; discriminate.
      + destruct (trimSuffix_cases path "/") as [(r' & E2 & ->)|[E2 ->]].
        * exists "", "/". repeat split; auto; discriminate.
        * exists "", "". rewrite sapp_nil_r. repeat split; auto.
  Qed.
  Lemma joined : forall b p, b <> "" -> Joined b p (pathJoin b p).
  Proof.
    intros b p N. exists (split_on "/" b), (split_on "/" p). split; [apply components_split|]. split; [apply components_split|].
    unfold pathJoin. rewrite (proj2 (isEmpty_false b) N). cbn [negb].
    rewrite (clean_written _ _ (components_join _ _ _ _ (components_split b) (components_split p))), rooted_app by exact N. reflexivity.
  Qed.
  Lemma workspace_ok : forall base path remote,
    RightWorkspace parseURL (kubernetes getenv) base path remote (toWorkspace getenv parseURL base path remote).
  Proof.
    intros base path remote. unfold RightWorkspace, toWorkspace. destruct (kubernetes getenv); split; try discriminate; intros _.
    - cbn [ws_base ws_path]. split; [reflexivity|].
      destruct (isEmpty base) eqn:Eb; destruct (isEmpty path) eqn:Ep; cbn [negb andb];
        rewrite ?isEmpty_true, ?isEmpty_false in Eb; rewrite ?isEmpty_true, ?isEmpty_false in Ep.
      + eexists _, _. split; [apply joined; assumption || discriminate|]. repeat split; try contradiction; auto. intros _. apply repoPath_ok.
      + eexists _, _. split; [apply joined; assumption || discriminate|]. repeat split; try contradiction; auto.
      + eexists _, _. split; [apply joined; assumption || discriminate|]. repeat split; try contradiction; auto. intros _. apply repoPath_ok.
      + eexists _, _. split; [apply joined; assumption || discriminate|]. repeat split; try contradiction; auto.
    - assert (G : isEmpty (if String.eqb path "." then "" else path) = true <-> ~ given path).
      { unfold given. destruct (String.eqb_spec path ".") as [->|N]; [cbn; tauto|]. rewrite isEmpty_true. split; [tauto|].
        intro H. destruct (string_dec path "") as [E|E]; [exact E|]. exfalso. apply H. auto. }
      assert (G' : given path -> (if String.eqb path "." then "" else path) = path).
      { intros [_ H]. apply String.eqb_neq in H. rewrite H. reflexivity. }
      destruct (isEmpty remote) eqn:Er; [apply isEmpty_true in Er|apply isEmpty_false in Er]; cbn [ws_base ws_path].
      + repeat split; auto; try contradiction. intros H _. apply isEmpty_true, G, H.
      + destruct (isEmpty base) eqn:Eb; [apply isEmpty_true in Eb|apply isEmpty_false in Eb];
        repeat split; auto; try contradiction.
        * intro H. destruct (isEmpty (if String.eqb path "." then "" else path)) eqn:E; [|apply G'; exact H].
          exfalso. apply (proj1 G eq_refl). exact H.
        * intros H _. rewrite (proj2 G H). apply repoPath_ok.
        * intro H. destruct (isEmpty (if String.eqb path "." then "" else path)) eqn:E; [|apply G'; exact H].
          exfalso. apply (proj1 G eq_refl). exact H.
        * intros H _. rewrite (proj2 G H). apply repoPath_ok.
  Qed.
  Lemma pipeline_workspace : forall g remote p, toPipeline getenv parseURL g remote = Ok p ->
    RightWorkspace parseURL (kubernetes getenv) (lg_base g) (lg_path g) remote (pi_workspace p).
  Proof.
    intros g remote p E. unfold toPipeline in E.
    repeat (apply obind_ok in E; destruct E as (? & _ & E)). injection E as <-. apply workspace_ok.
  Qed.

  (** ** The manifest *)
  Variable isPrintHigh : N -> bool.
  Variable marshal : Pipeline -> string.
  Variable unmarshal : Pipeline -> string -> option Pipeline.
  Variable ordM : smap (list string) -> smap (list string).
  Variable ordA : nat -> smap string -> smap string.

  Definition AxisResult (p : Pipeline) (i : nat) (a : smap string) (q : Pipeline) : Prop :=
    exists cur, AxisPipeline p i a cur /\
      unmarshal cur (substitute isPrintHigh (ordA i a) (marshal cur)) = Some q.
  Lemma expandAxes_ok : forall p axes i qs, Forall (fun a => NoDup (mkeys a)) axes ->
    expandAxes isPrintHigh marshal unmarshal ordA p i axes = Ok qs ->
    length qs = length axes /\
    forall j a q, nth_error axes j = Some a -> nth_error qs j = Some q -> AxisResult p (i + j) a q.
  Proof.
    intros p axes. induction axes as [|a axes IH]; intros i qs D E; cbn [expandAxes] in E.
    - injection E as <-. split; [reflexivity|]. intros [|j] a q H; discriminate.
    - inversion D as [|? ? Da Dl]; subst. apply obind_ok in E. destruct E as (q & Eq & E).
      apply obind_ok in E. destruct E as (qs' & Es & E). injection E as <-.
      destruct (IH _ _ Dl Es) as [L H]. split; [cbn; congruence|]. intros [|j] a' q' Ha Hq.
      + cbn in Ha, Hq. injection Ha as <-. injection Hq as <-. rewrite Nat.add_0_r.
        unfold expandAxis in Eq. exists (forAxis p i a). split; [apply forAxis_ok; exact Da|].
        destruct (unmarshal _ _) as [q0|]; [injection Eq as ->; reflexivity|discriminate].
      + rewrite Nat.add_succ_r. apply (H j); assumption.
  Qed.
  Lemma manifest_plain : forall n g remote, CompleteConfig g -> lg_matrix g = VNull ->
    exists p, RightPipeline getenv g p /\
      toManifest getenv parseURL isPrintHigh marshal unmarshal ordM ordA n g remote =
        Ok {| mf_resources := RPipeline p :: map RSecret (toSecrets g) |}.
  Proof.
    intros n g remote C E. destruct (toPipeline_ok getenv parseURL g remote C) as (p & Ep & R). exists p. split; [exact R|].
    unfold toManifest. rewrite Ep. cbn [obind]. rewrite E. reflexivity.
  Qed.
  Lemma manifest_matrix : forall n g remote axes m, CompleteConfig g -> lg_matrix g <> VNull ->
    parseMatrix ordM n = Ok axes -> Forall (fun a => NoDup (mkeys a)) axes ->
    toManifest getenv parseURL isPrintHigh marshal unmarshal ordM ordA n g remote = Ok m ->
    exists p qs, RightPipeline getenv g p /\ mf_resources m = map RPipeline qs ++ map RSecret (toSecrets g) /\
      length qs = length axes /\
      forall i a q, nth_error axes i = Some a -> nth_error qs i = Some q -> AxisResult p i a q.
  Proof.
    intros n g remote axes m C N Em D E. destruct (toPipeline_ok getenv parseURL g remote C) as (p & Ep & R).
    unfold toManifest in E. rewrite Ep in E. cbn [obind] in E. apply obind_ok in E. destruct E as (qs & Es & E). injection E as <-.
    exists p, qs. split; [exact R|]. split; [reflexivity|].
    assert (X : expandAxes isPrintHigh marshal unmarshal ordA p 0 axes = Ok qs).
    { destruct (lg_matrix g); [contradiction| | | | | |]; rewrite Em in Es; exact Es. }
    apply expandAxes_ok in X; [|exact D]. exact X.
  Qed.
End Work.
