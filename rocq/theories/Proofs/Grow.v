(** * Grow.v: steps at the end leave the others alone. *)
From Coq Require Import Lia.
From Verif Require Import Model.Go Model.Types Model.Cond Model.Engine Model.Image Model.Quote
  Model.Script Model.Path Model.Encode Model.Compiler Spec.CompileSpec Spec.GrowSpec Proofs.GoFacts Proofs.CompilePure Proofs.CompileFacts.

Lemma unread w c p q n : SameButSteps p q -> pi_steps q = pi_steps p -> compileIn w c q n = compileIn w c p n.
Proof.
  destruct p, q. unfold SameButSteps. cbn. intros (-> & -> & -> & -> & -> & -> & -> & ->) ->. reflexivity.
Qed.

Lemma positions_app dr a b : forall n, positions dr n (a ++ b) = positions dr n a ++ positions dr (after dr n a) b.
Proof. induction a as [|x a IH]; intro n; cbn; [reflexivity|]. now rewrite IH. Qed.
Lemma after_app dr a b : forall n, after dr n (a ++ b) = after dr (after dr n a) b.
Proof. induction a as [|x a IH]; intro n; cbn; auto. Qed.
Lemma positions_length dr a : forall n, length (positions dr n a) = length a.
Proof. induction a as [|x a IH]; intro n; cbn; auto. Qed.
Lemma renamesOf_app rnd a b : forall r, renamesOf rnd (a ++ b) r = renamesOf rnd b (renamesOf rnd a r).
Proof. induction a as [|x a IH]; intro r; cbn; auto. Qed.
Lemma renamesOf_plain rnd dr b : Forall (fun x => ct_build x = None) b -> forall n r, renamesOf rnd (positions dr n b) r = r.
Proof.
  induction 1 as [|x b Hx _ IH]; intros n r; cbn; [reflexivity|]. rewrite IH. unfold renameOf. now rewrite Hx.
Qed.
Lemma renameSteps_app av ord r a b : forall i,
  renameSteps av ord i r (a ++ b) = renameSteps av ord i r a ++ renameSteps av ord (i + length a) r b.
Proof.
  induction a as [|x a IH]; intro i; cbn [app renameSteps length]; [now rewrite Nat.add_0_r|].
  rewrite IH. now rewrite Nat.add_succ_r.
Qed.
Lemma renameSteps_length av ord r a : forall i, length (renameSteps av ord i r a) = length a.
Proof. induction a as [|x a IH]; intro i; cbn; auto. Qed.

Lemma serial_Parallel p steps : pi_steps p = map Some steps -> serial steps = false <-> Parallel p.
Proof.
  intro H. unfold Parallel. rewrite H, somes_map. unfold serial. split.
  - intro E. induction steps as [|x l IH] in E |- *; cbn in E; [discriminate|]. destruct (ct_depends x) eqn:D; cbn in E.
    + destruct (IH E) as (s & Hs & Ds). exists s. split; [right; exact Hs|exact Ds].
    + exists x. split; [left; reflexivity|]. congruence.
  - intros (s & Hs & Ds). apply not_true_is_false. intro E. rewrite forallb_forall in E. specialize (E _ Hs).
    destruct (ct_depends s); [congruence|discriminate].
Qed.
Lemma serial_iff p q ps qs : pi_steps p = map Some ps -> pi_steps q = map Some qs -> (Parallel p <-> Parallel q) -> serial qs = serial ps.
Proof.
  intros Hp Hq I. pose proof (serial_Parallel _ _ Hp) as A. pose proof (serial_Parallel _ _ Hq) as B.
  destruct (serial ps), (serial qs); try reflexivity; exfalso.
  - assert (X : true = false) by tauto. discriminate.
  - assert (X : true = false) by tauto. discriminate.
Qed.
Lemma map_some_inj {A} (a b : list A) : map Some a = map Some b -> a = b.
Proof. revert b. induction a as [|x a IH]; intros [|y b] H; try discriminate; [reflexivity|]. injection H as -> H. f_equal. auto. Qed.
Lemma map_some_app {A} (l : list A) : forall a b, map Some l = a ++ b -> exists x y, a = map Some x /\ b = map Some y /\ l = x ++ y.
Proof.
  induction l as [|z l IH]; intros [|o a] b H; cbn in H; try discriminate.
  - exists [], []. subst b. auto.
  - exists [], (z :: l). subst b. auto.
  - injection H as <- H. destruct (IH _ _ H) as (x & y & -> & -> & ->). exists (z :: x), y. auto.
Qed.
Lemma length_files {A B} (f : A -> list B) l : (forall x, length (f x) <= 1) -> length (flat_map f l) <= length l.
Proof. intro H. induction l as [|x l IH]; cbn; [auto|]. rewrite app_length. specialize (H x). lia. Qed.

Section Grow.
  Variables (w : World) (c : Compiler) (hostDir : option string) (hostMount : bool).
  Hypothesis HS : Standard w c hostDir hostMount.

  Lemma complete_grown p q more steps services vols : Grown p more q -> Complete q steps services vols ->
    exists old new, steps = old ++ new /\ more = map Some new /\ Complete p old services vols.
  Proof using.
    intros ((_ & _ & _ & _ & _ & H6 & H7 & _) & H9) (E1 & E2 & E3 & E4 & E5). rewrite H9 in E1. symmetry in E1.
    destruct (map_some_app _ _ _ E1) as (x & y & Hx & Hy & ->). exists x, y. split; [reflexivity|]. split; [exact Hy|].
    apply Forall_app in E4 as [E4 _]. unfold Complete. rewrite <- H6, <- H7. auto.
  Qed.

  Lemma compiles_grown p q more : Grown p more q -> forall n,
    (exists b, Compiled w c q n b) <-> (exists a, Compiled w c p n a) /\ exists new, more = map Some new /\ Forall NoNullStep new.
  Proof using HS.
    intros G n. split.
    - intros (b & n' & H). destruct (compile_complete _ _ _ _ _ H) as (steps & services & vols & HC).
      destruct (complete_grown _ _ _ _ _ _ G HC) as (old & new & -> & Hm & HP). split.
      + eexists. eexists. exact (compile_pure _ _ _ _ _ _ _ _ n HS HP).
      + exists new. split; [exact Hm|]. destruct HC as (_ & _ & _ & X & _). apply Forall_app in X as [_ X]. exact X.
    - intros ((a & n' & H) & new & -> & X). destruct (compile_complete _ _ _ _ _ H) as (steps & services & vols & HC).
      assert (HQ : Complete q (steps ++ new) services vols).
      { destruct G as ((_ & _ & _ & _ & _ & H6 & H7 & _) & H9), HC as (E1 & E2 & E3 & E4 & E5). unfold Complete.
        rewrite H9, H6, H7, E1, map_app. repeat split; auto. apply Forall_app. auto. }
      eexists. eexists. exact (compile_pure _ _ _ _ _ _ _ _ n HS HQ).
  Qed.

  Lemma pure_same p q steps services vols n : SameButSteps p q ->
    pure w c hostDir hostMount q steps services vols n = pure w c hostDir hostMount p steps services vols n.
  Proof using.
    destruct p, q. unfold SameButSteps. cbn. intros (-> & -> & -> & -> & -> & -> & -> & ->). reflexivity.
  Qed.

  Lemma grown_pure p old new services vols n : serial (old ++ new) = serial old -> Forall (fun x => ct_build x = None) new ->
    let a := pure w c hostDir hostMount p old services vols n in
    let b := pure w c hostDir hostMount p (old ++ new) services vols n in
    Extends (length new) a b /\ SameVolumes a b /\
    ((forall x, In x old -> ct_build x = None) -> sp_docker b = sp_docker a).
  Proof using.
    intros Hserial Hb. cbv zeta.
    assert (HR : pureRename (w_rnd w) c hostDir p (old ++ new) services vols n = pureRename (w_rnd w) c hostDir p old services vols n).
    { unfold pureRename. rewrite positions_app, renamesOf_app. apply renamesOf_plain, Hb. }
    split; [|split].
    - unfold Extends, pure, pureSpec. rewrite HR. cbn [sp_meta sp_platform sp_secrets sp_steps sp_files specOf].
      split; [reflexivity|]. split; [reflexivity|]. split; [reflexivity|]. split.
      + unfold pureSteps, pureServiceSteps, purePipelineSteps. rewrite Hserial, positions_app, map_app, !app_assoc, renameSteps_app.
        eexists. split; [reflexivity|]. rewrite renameSteps_length, map_length, positions_length. reflexivity.
      + unfold pureFiles. rewrite positions_app, flat_map_app, !app_assoc. eexists. split; [reflexivity|].
        erewrite <- (positions_length _ new). apply length_files. intros [k x]. unfold at_next, stepFiles, filesOf. cbn [fst snd].
        destruct (ct_build x); [cbn; auto|]. destruct (_ && _); cbn; auto.
    - unfold SameVolumes, pure, pureSpec, pureVolumes. rewrite HR. cbn [sp_docker specOf option_map dc_auths dc_volumes].
      rewrite !map_app. destruct (Nat.ltb 0 _); reflexivity.
    - intro HN. unfold pure, pureSpec, pureVolumes. rewrite HR. cbn [sp_docker specOf].
      replace (pureRename (w_rnd w) c hostDir p old services vols n) with (@nil (string * string)); [reflexivity|].
      unfold pureRename. symmetry. apply renamesOf_plain, Forall_forall, HN.
  Qed.

  Lemma grown p q more n a b : Grown p more q -> Compiled w c p n a -> Compiled w c q n b ->
    (forall x, In (Some x) more -> ct_build x = None) -> (Parallel p <-> Parallel q) ->
    Extends (length more) a b /\ SameVolumes a b /\ (~ HasBuild p -> sp_docker b = sp_docker a).
  Proof using HS.
    intros G (na & Ha) (nb & Hb) HN HP. destruct (compile_complete _ _ _ _ _ Hb) as (steps & services & vols & HC).
    destruct (complete_grown _ _ _ _ _ _ G HC) as (old & new & -> & -> & HCp).
    rewrite (compile_pure _ _ _ _ _ _ _ _ _ HS HC) in Hb. rewrite (compile_pure _ _ _ _ _ _ _ _ _ HS HCp) in Ha.
    injection Ha as <- _. injection Hb as <- _. destruct G as [G _]. rewrite (pure_same _ _ _ _ _ _ G), map_length.
    assert (B : Forall (fun x => ct_build x = None) new) by (apply Forall_forall; intros x Hx; apply HN, in_map, Hx).
    assert (S : serial (old ++ new) = serial old) by (apply (serial_iff p q); [apply HCp|apply HC|exact HP]).
    destruct (grown_pure p old new services vols n S B) as (E & V & D). split; [exact E|]. split; [exact V|].
    intro NB. apply D. intros x Hx. destruct (ct_build x) as [bb|] eqn:EB; [|reflexivity]. exfalso. apply NB.
    exists x, bb. destruct HCp as (H1 & _). rewrite H1, somes_map. auto.
  Qed.
End Grow.
