(** * Titled.v: the linter and the compiler under other names of pipelines. *)
From Verif Require Import Model.Go Model.Types Model.Engine Model.Compiler Model.Lint
  Spec.CompileSpec Spec.MainSpec Spec.TitleSpec Proofs.GoFacts Proofs.CompilePure Proofs.CompileFacts.

Lemma lint_titled r p trusted : Lint (RPipeline (titlePipeline r p)) trusted = Lint (RPipeline p) trusted.
Proof. reflexivity. Qed.

Section Manifest.
  Variable r : string -> string.
  Hypothesis Hr : Distinct r.
  Lemma title_eqb a b : String.eqb (r a) (r b) = String.eqb a b.
  Proof using Hr.
    destruct (String.eqb_spec a b) as [->|N]; [apply String.eqb_refl|]. apply String.eqb_neq. intro X. now apply N, Hr.
  Qed.
  Lemma title_mem a l : smem (r a) (map r l) = smem a l.
  Proof using Hr. unfold smem. induction l as [|b l IH]; [reflexivity|]. cbn [map existsb]. rewrite title_eqb, IH. reflexivity. Qed.
  Lemma title_deps p names : checkPipelineDeps (titlePipeline r p) (map r names) = checkPipelineDeps p names.
  Proof using Hr.
    unfold checkPipelineDeps. cbn [titlePipeline pi_depends pi_name]. induction (pi_depends p) as [|d l IH]; [reflexivity|]. cbn [map oiter].
    rewrite title_mem, title_eqb, IH. reflexivity.
  Qed.
  Definition titled (x : outcome (list string)) : outcome (list string) :=
    match x with Ok l => Ok (map r l) | Err e => Err e | Panic => Panic end.
  Lemma title_resource names x : checkManifestResource (map r names) (titleResource r x) = titled (checkManifestResource names x).
  Proof using Hr.
    destruct x as [c|p|s|g|s]; try reflexivity. cbn [titleResource checkManifestResource].
    change (pi_name (titlePipeline r p)) with (r (pi_name p)). rewrite title_mem.
    destruct (refuse (smem (pi_name p) names) ErrDuplicatePipelineName); cbn [obind]; try reflexivity. cbv zeta.
    change (r (pi_name p) :: map r names) with (map r (pi_name p :: names)). rewrite title_deps.
    destruct (checkPipelineDeps p (pi_name p :: names)); cbn [obind]; try reflexivity.
    cbn [titlePipeline pi_kind pi_type pi_platform].
    match goal with |- obind ?x _ = _ => destruct x end; reflexivity.
  Qed.
  Theorem manifest_titled m trusted : lintManifest (titleManifest r m) trusted = lintManifest m trusted.
  Proof using Hr.
    unfold lintManifest. cbn [titleManifest mf_resources].
    assert (E : forall l names, ofold checkManifestResource (map (titleResource r) l) (map r names) = titled (ofold checkManifestResource l names)).
    { induction l as [|x l IH]; intro names; [reflexivity|]. cbn [map ofold]. rewrite title_resource.
      destruct (checkManifestResource names x); cbn [titled obind]; [apply IH|reflexivity|reflexivity]. }
    specialize (E (mf_resources m) []). cbn [map] in E. rewrite E. destruct (ofold checkManifestResource (mf_resources m) []); reflexivity.
  Qed.
  (** The compile command's choice. *)
  Theorem selected_titled name l p : r "" = "" -> Selected name l p -> Selected (r name) (map (titleResource r) l) (titlePipeline r p).
  Proof using Hr.
    intros Z (before & after & -> & N & B). exists (map (titleResource r) before), (map (titleResource r) after).
    split; [rewrite map_app; reflexivity|]. split.
    - destruct N as [->|<-]; [left; exact Z|right; reflexivity].
    - intros q Hq. apply in_map_iff in Hq. destruct Hq as (x & E & Hx). destruct x as [c|x|s|g|s]; cbn [titleResource] in E; try discriminate.
      injection E as <-. destruct (B x Hx) as (B1 & B2). split; [intro X; apply B1, Hr; congruence|].
      cbn [titlePipeline pi_name]. intro X. now apply B2, Hr.
  Qed.
  Theorem selected_back name l q : r "" = "" -> Selected (r name) (map (titleResource r) l) q -> exists p, q = titlePipeline r p /\ Selected name l p.
  Proof using Hr.
    intros Z (before & after & E & N & B). apply map_eq_app in E. destruct E as (l1 & l2 & -> & <- & E).
    destruct l2 as [|x l2]; cbn [map] in E; [discriminate|].
    assert (E1 : titleResource r x = RPipeline q) by congruence. destruct x as [c|p|s|g|s]; cbn [titleResource] in E1; try discriminate.
    injection E1 as <-. exists p. split; [reflexivity|]. exists l1, l2. split; [reflexivity|]. split.
    - destruct N as [N|N]; [left; apply Hr; congruence|right; now apply Hr].
    - intros x Hx. destruct (B (titlePipeline r x)) as (B1 & B2); [apply in_map_iff; exists (RPipeline x); split; [reflexivity|exact Hx]|].
      split; [intros ->; exact (B1 Z)|]. intros <-. apply B2. reflexivity.
  Qed.
  Theorem selected_iff name l q : r "" = "" ->
    (Selected (r name) (map (titleResource r) l) q <-> exists p, q = titlePipeline r p /\ Selected name l p).
  Proof using Hr. intro Z. split; [apply (selected_back _ _ _ Z)|]. intros (p & -> & H). now apply selected_titled. Qed.
End Manifest.

Section Compile.
  Variable w : World.
  Variable c : Compiler.
  Variables (hostDir : option string) (hostMount : bool).
  Hypothesis HS : Standard w c hostDir hostMount.
  Variable r : string -> string.
  Lemma pure_titled p steps services vols n :
    pure w c hostDir hostMount (titlePipeline r p) steps services vols n = titleSpec r (pure w c hostDir hostMount p steps services vols n) /\
    nEnd (w_rnd w) c hostDir (titlePipeline r p) steps services vols n = nEnd (w_rnd w) c hostDir p steps services vols n.
  Proof using. split; reflexivity. Qed.
  Theorem compile_titled p n : compileIn w c (titlePipeline r p) n =
    match compileIn w c p n with Ok (s, m) => Ok (titleSpec r s, m) | Err e => Err e | Panic => Panic end.
  Proof using HS.
    destruct (compile_total w c hostDir hostMount p n HS) as (T1 & T2), (compile_total w c hostDir hostMount (titlePipeline r p) n HS) as (T1' & T2').
    destruct (compileIn w c p n) as [[s m]|e|] eqn:E.
    - assert (X : exists steps services vols, Complete p steps services vols) by (apply T1; exists s; now exists m).
      destruct X as (steps & services & vols & X). pose proof (compile_pure w c _ _ _ _ _ _ n HS X) as Y. rewrite E in Y. injection Y as -> ->.
      rewrite (compile_pure w c hostDir hostMount (titlePipeline r p) steps services vols n HS X).
      destruct (pure_titled p steps services vols n) as (-> & ->). reflexivity.
    - exfalso. exact (compile_no_err _ _ _ _ _ _ _ HS E).
    - apply T2'. intros (st & se & vo & X). apply (proj2 T2 eq_refl). now exists st, se, vo.
  Qed.
End Compile.
