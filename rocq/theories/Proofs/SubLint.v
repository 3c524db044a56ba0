(** * SubLint.v: what is left of an accepted pipeline. *)
From Verif Require Import Model.Go Model.Types Model.Lint Spec.LintSpec Spec.SubSpec Proofs.LintFacts.

Lemma Sub_In {A} (l m : list A) : Sub l m -> forall x, In x l -> In x m.
Proof. induction 1; intros y H0; cbn in *; [exact H0|destruct H0; auto|auto]. Qed.
Lemma Sub_Forall {A} (P : A -> Prop) l m : Sub l m -> Forall P m -> Forall P l.
Proof. intros S F. apply Forall_forall. intros x Hx. rewrite Forall_forall in F. apply F, (Sub_In _ _ S _ Hx). Qed.
Lemma Sub_refl {A} (l : list A) : Sub l l.
Proof. induction l; constructor; auto. Qed.
Lemma Sub_app {A} (l m l' m' : list A) : Sub l m -> Sub l' m' -> Sub (l ++ l') (m ++ m').
Proof. induction 1; intro H'; cbn; [exact H'|constructor; auto|constructor; auto]. Qed.
Lemma Sub_map {A B} (f : A -> B) l m : Sub l m -> Sub (map f l) (map f m).
Proof. induction 1; cbn; constructor; auto. Qed.
Lemma Sub_NoDup {A} (l m : list A) : Sub l m -> NoDup m -> NoDup l.
Proof.
  induction 1 as [|x l m S IH|x l m S IH]; intro H; [constructor| |]; apply NoDup_cons_iff in H as [H1 H2]; auto.
  constructor; auto. intro Hx. apply H1, (Sub_In _ _ S _ Hx).
Qed.
(** A map of [Some] has only such parts. *)
Lemma Sub_somes {A} (l m : list A) : Sub (map Some l) (map Some m) -> Sub l m.
Proof.
  intro S. remember (map Some l) as l' eqn:E. remember (map Some m) as m' eqn:F. revert l m E F.
  induction S as [|x l' m' S IH|x l' m' S IH]; intros [|a l] [|b m] E F; try discriminate; cbn in *; [constructor| | |].
  - injection E as -> E. injection F as -> F. constructor. auto.
  - injection F as -> F. apply Sub_drop, (IH []); auto.
  - injection F as -> F. apply Sub_drop, (IH (a :: l)); auto.
Qed.
(** Where an element of the part stands in the whole. *)
Lemma Sub_split {A} (l m : list A) : Sub l m -> forall b x a, l = b ++ x :: a -> exists b' a', m = b' ++ x :: a' /\ Sub b b' /\ Sub a a'.
Proof.
  induction 1 as [|y l m S IH|y l m S IH]; intros b x a E.
  - destruct b; discriminate.
  - destruct b as [|z b]; cbn in E; injection E as <- E.
    + exists [], m. subst. repeat split; [constructor|exact S].
    + destruct (IH _ _ _ E) as (b' & a' & -> & S1 & S2). exists (y :: b'), a'. repeat split; [constructor; exact S1|exact S2].
  - destruct (IH _ _ _ E) as (b' & a' & -> & S1 & S2). exists (y :: b'), a'. repeat split; [constructor; exact S1|exact S2].
Qed.

Section Part.
  Variables (trusted : bool) (p q : Pipeline) (ps pv qs qv : list Container) (pvol qvol : list Volume).
  Hypothesis Np : NoNulls p ps pv pvol.
  Hypothesis Nq : NoNulls q qs qv qvol.
  Hypothesis H : Part p q.
  Hypothesis Wp : WellFormed trusted p ps pv pvol.

  Lemma parts : pi_platform q = pi_platform p /\ cloneNames q = cloneNames p /\ Sub qs ps /\ Sub qv pv /\ Sub qvol pvol.
  Proof using Np Nq H.
    destruct H as (H1 & H2 & H3 & H4 & H5), Np as (A1 & A2 & A3 & _), Nq as (B1 & B2 & B3 & _).
    rewrite A1, B1 in H3. rewrite A2, B2 in H4. rewrite A3, B3 in H5. unfold cloneNames. rewrite H2. repeat split; auto using Sub_somes.
  Qed.
  Lemma sub_names : Sub (cloneNames q ++ map ct_name (qs ++ qv)) (cloneNames p ++ map ct_name (ps ++ pv)).
  Proof using Np Nq H.
    destruct parts as (_ & -> & S1 & S2 & _). apply Sub_app; [apply Sub_refl|]. apply Sub_map, Sub_app; assumption.
  Qed.

  Lemma closed_earlier : Closed q qs <-> DepsEarlier (cloneNames q) qs.
  Proof using Np Nq H Wp.
    destruct Wp as (_ & _ & _ & ND & DE). destruct parts as (_ & EC & S1 & _ & _). split.
    - intros C b s a d E Hd. destruct (C s d) as [X|X]; auto; [rewrite E; apply in_elt|]. right.
      destruct (Sub_split _ _ S1 _ _ _ E) as (b' & a' & E' & Sb & Sa).
      rewrite E, map_app, in_app_iff in X. destruct X as [X|X]; [exact X|]. exfalso.
      (* the name would occur twice in p *)
      rewrite E', <- app_assoc, <- app_comm_cons, map_app in ND. cbn [map] in ND.
      assert (X' : In d (ct_name s :: map ct_name (a' ++ pv))).
      { cbn [map] in X. destruct X as [X|X]; [left; exact X|right]. rewrite map_app. apply in_or_app. left.
        apply (Sub_In _ _ (Sub_map ct_name _ _ Sa) _ X). }
      rewrite app_assoc in ND.
      assert (Y : In d (cloneNames p ++ map ct_name b')) by (apply in_or_app; exact (DE _ _ _ _ E' Hd)).
      clear - ND X' Y. revert Y ND. generalize (cloneNames p ++ map ct_name b'). intro l. induction l as [|z l IH]; intros Y ND; [destruct Y|].
      cbn in ND. apply NoDup_cons_iff in ND as [N1 N2]. destruct Y as [Y|Y]; [|auto]. subst z. apply N1, in_or_app. right. exact X'.
    - intros D s d Hs Hd. apply in_split in Hs as (b & a & E). destruct (D _ _ _ _ E Hd) as [X|X]; [left; exact X|right].
      rewrite E, map_app. apply in_or_app. left. exact X.
  Qed.
  Lemma part_well_formed : WellFormed trusted q qs qv qvol <-> Closed q qs.
  Proof using Np Nq H Wp.
    rewrite closed_earlier. split; [intros (_ & _ & _ & _ & X); exact X|]. intro D.
    destruct Wp as (W1 & W2 & W3 & W4 & _). destruct parts as (EP & _ & S1 & S2 & S3). unfold WellFormed. rewrite EP.
    split; [exact W1|]. split; [exact (Sub_Forall _ _ _ S3 W2)|]. split; [exact (Sub_Forall _ _ _ (Sub_app _ _ _ _ S1 S2) W3)|].
    split; [exact (Sub_NoDup _ _ sub_names W4)|exact D].
  Qed.
End Part.

Lemma part_accepted trusted p q ps pv qs qv pvol qvol : NoNulls p ps pv pvol -> NoNulls q qs qv qvol -> Part p q ->
  Lint (RPipeline p) trusted = Ok tt -> (Lint (RPipeline q) trusted = Ok tt <-> Closed q qs).
Proof.
  intros Np Nq H L. change (Lint (RPipeline q) trusted) with (checkPipeline q trusted). rewrite (checkPipeline_ok _ _ _ _ _ Nq). apply (checkPipeline_ok _ _ _ _ _ Np) in L.
  exact (part_well_formed trusted p q ps pv qs qv pvol qvol Np Nq H L).
Qed.
Lemma part_refused trusted p q ps pv qs qv pvol qvol : NoNulls p ps pv pvol -> NoNulls q qs qv qvol -> Part p q ->
  Lint (RPipeline p) trusted = Ok tt -> (Lint (RPipeline q) trusted = Err "linter: invalid or unknown step dependency" <-> ~ Closed q qs).
Proof.
  intros Np Nq H L. pose proof (part_accepted trusted _ _ _ _ _ _ _ _ Np Nq H L) as A. split; [intros E C; apply A in C; congruence|]. intro NC.
  destruct (Lint (RPipeline q) trusted) as [[]|e|] eqn:E.
  - exfalso. apply NC, A. reflexivity.
  - f_equal. pose proof (checkPipeline_err _ _ _ _ _ _ Nq E) as P. apply (checkPipeline_ok _ _ _ _ _ Np) in L.
    destruct (parts _ _ _ _ _ _ _ _ Np Nq H) as (EP & EC & S1 & S2 & S3).
    assert (B : forall e, Problem trusted p ps pv pvol e -> False) by (intros x X; exact (Problem_bad _ _ _ _ _ _ X L)).
    destruct P as [c e Hc X|X|X|v ed Hv T V X|v h Hv T V|v Hv X|X|b s a d Eq Hd N1 N2 N3|s Hs Hd]; try reflexivity; exfalso.
    + refine (B _ (P_container _ _ _ _ _ c e (Sub_In _ _ (Sub_app _ _ _ _ S1 S2) _ Hc) X)).
    + rewrite EP in X. exact (B _ (P_os _ _ _ _ _ X)).
    + rewrite EP in X. exact (B _ (P_arch _ _ _ _ _ X)).
    + exact (B _ (P_memory _ _ _ _ _ v ed (Sub_In _ _ S3 _ Hv) T V X)).
    + exact (B _ (P_host _ _ _ _ _ v h (Sub_In _ _ S3 _ Hv) T V)).
    + exact (B _ (P_volume _ _ _ _ _ v (Sub_In _ _ S3 _ Hv) X)).
    + apply X. destruct L as (_ & _ & _ & ND & _). exact (Sub_NoDup _ _ (sub_names _ _ _ _ _ _ _ _ Np Nq H) ND).
    + exact (B _ (P_cycle _ _ _ _ _ s (Sub_In _ _ S1 _ Hs) Hd)).
  - exfalso. refine (lint_np (RPipeline q) trusted _ E). intros x X. injection X as <-. eauto.
Qed.

(** ** Manifests *)
Lemma Sub_pipelines l m : Sub l m -> Sub (pipelinesOf l) (pipelinesOf m).
Proof. induction 1 as [|x l m _ IH|x l m _ IH]; cbn; [constructor|destruct x|destruct x]; try constructor; auto. Qed.
Lemma not_twice {A} (d : A) l r : In d l -> In d r -> ~ NoDup (l ++ r).
Proof.
  induction l as [|z l IH]; intros Y X ND; [destruct Y|]. cbn in ND. apply NoDup_cons_iff in ND as [N1 N2].
  destruct Y as [Y|Y]; [subst z; apply N1, in_or_app; auto|exact (IH Y X N2)].
Qed.
Lemma part_manifest m m' trusted : Sub (mf_resources m') (mf_resources m) -> lintManifest m trusted = Ok tt ->
  (lintManifest m' trusted = Ok tt <-> ClosedManifest (pipelinesOf (mf_resources m'))).
Proof.
  intros S L. apply lintManifest_ok in L as (ND & De & Pl). rewrite lintManifest_ok. apply Sub_pipelines in S. revert S ND De Pl.
  generalize (pipelinesOf (mf_resources m')) (pipelinesOf (mf_resources m)). intros qs ps S ND De Pl. split.
  - intros (_ & D & _) p d Hp Hd. apply in_split in Hp as (b & a & E). specialize (D _ _ _ _ E Hd). rewrite E, map_app. apply in_or_app. auto.
  - intro C. split; [exact (Sub_NoDup _ _ (Sub_map pi_name _ _ S) ND)|]. split; [|exact (Sub_Forall _ _ _ S Pl)].
    intros b p a d E Hd. assert (X : In d (map pi_name qs)) by (apply (C p d); [rewrite E; apply in_elt|exact Hd]).
    destruct (Sub_split _ _ S _ _ _ E) as (b' & a' & E' & Sb & Sa). rewrite E, map_app, in_app_iff in X. destruct X as [X|X]; [exact X|].
    exfalso. specialize (De _ _ _ _ E' Hd). rewrite E', map_app in ND. refine (not_twice d _ _ De _ ND).
    exact (Sub_In _ _ (Sub_map pi_name _ _ (Sub_keep p _ _ Sa)) _ X).
Qed.
Lemma part_manifest_refused m m' trusted : Sub (mf_resources m') (mf_resources m) -> lintManifest m trusted = Ok tt ->
  (lintManifest m' trusted = Err "linter: invalid or unknown pipeline dependency" <-> ~ ClosedManifest (pipelinesOf (mf_resources m'))).
Proof.
  intros S L. pose proof (part_manifest _ _ _ S L) as A. split; [intros E C; apply A in C; congruence|]. intro NC.
  destruct (lintManifest m' trusted) as [[]|e|] eqn:E; [exfalso; apply NC, A; reflexivity| |exfalso; exact (manifest_np _ _ E)].
  f_equal. apply lintManifest_err in E. apply lintManifest_ok in L. apply Sub_pipelines in S.
  assert (B : forall e, ManifestProblem (pipelinesOf (mf_resources m)) e -> False) by (intros x X; exact (ManifestProblem_bad _ _ X L)).
  destruct E as [X|b p a d Eq Hd N1 N2|p Hp X|p Hp D X|p Hp D X]; try reflexivity; exfalso.
  - apply X. exact (Sub_NoDup _ _ (Sub_map pi_name _ _ S) (proj1 L)).
  - exact (B _ (MP_self _ p (Sub_In _ _ S _ Hp) X)).
  - exact (B _ (MP_os _ p (Sub_In _ _ S _ Hp) D X)).
  - exact (B _ (MP_arch _ p (Sub_In _ _ S _ Hp) D X)).
Qed.
