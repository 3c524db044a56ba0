(** * MainCompile.v: lemmas about the compile command. *)
From Coq Require Import Sorting.Permutation.
From Verif Require Import Model.Go Model.Types Model.RawParse Model.Cond Model.Engine Model.Image Model.Dind
  Model.Compiler Model.Transform Model.Convert Model.Main
  Spec.LintSpec Spec.CompileSpec Spec.TransformSpec Spec.MainSpec
  Proofs.GoFacts Proofs.MapFacts Proofs.ParseFacts Proofs.TransformFacts Proofs.CompileFacts Proofs.MainFacts.

Lemma find_selected name l p : findPipeline name l = Some p <-> Selected name l p.
Proof.
  induction l as [|r l IH]; cbn.
  - split; [discriminate|]. intros ([|] & a & H & _); discriminate.
  - assert (Hother : (forall q, r <> RPipeline q) -> (findPipeline name l = Some p <-> Selected name (r :: l) p)).
    { intro Hr. rewrite IH. split; intros (b & a & H & Hn & Hb).
      - exists (r :: b), a. rewrite H. split; [reflexivity|]. split; [exact Hn|]. intros q [Hq|Hq]; [now elim (Hr q)|auto].
      - destruct b as [|r' b]; injection H as Hp H; [now elim (Hr p)|subst r']. exists b, a. split; [exact H|]. split; [exact Hn|].
        intros q Hq. apply Hb. now right. }
    destruct r; try (apply Hother; intros q; discriminate).
    destruct (isEmpty name || String.eqb name (pi_name p0)) eqn:E.
    + apply Bool.orb_true_iff in E. assert (E' : name = "" \/ pi_name p0 = name).
      { destruct E as [E|E]; [left; now destruct name|right; now apply String.eqb_eq in E]. }
      split.
      * injection 1 as <-. exists [], l. split; [reflexivity|]. split; [exact E'|]. intros q [].
      * intros ([|r' b] & a & H & Hn & Hb).
        -- now injection H as -> _.
        -- injection H as <- H. destruct (Hb p0 (or_introl eq_refl)) as (H1 & H2). destruct E'; contradiction.
    + apply Bool.orb_false_iff in E. destruct E as (E1 & E2). apply String.eqb_neq in E2.
      assert (E3 : name <> "") by (intros ->; discriminate).
      rewrite IH. split; intros (b & a & H & Hn & Hb).
      * exists (RPipeline p0 :: b), a. rewrite H. split; [reflexivity|]. split; [exact Hn|].
        intros q [Hq|Hq]; [injection Hq as <-; split; congruence|auto].
      * destruct b as [|r' b]; injection H as H0 H; [exfalso; subst p0; destruct Hn; congruence|].
        exists b, a. split; [exact H|]. split; [exact Hn|]. intros q Hq. apply Hb. now right.
Qed.
Lemma disable_spec p : WithoutClone p (disableClone p).
Proof. repeat split. Qed.
Lemma auths_of l : match registryAuths l with
  | Ok auths => Forall2 RegistryOf l auths
  | Err _ => ~ exists auths, Forall2 RegistryOf l auths
  | Panic => False
  end.
Proof.
  induction l as [|u l IH]; cbn; [constructor|].
  destruct (u_user u) as [[name [pw|]]|] eqn:E.
  - destruct (registryAuths l) as [r|e|]; cbn; [| |exact IH].
    + constructor; [split; [exact E|reflexivity]|exact IH].
    + intros (auths & H). inversion H; subst. apply IH. eexists. eassumption.
  - intros (auths & H). inversion H; subst. destruct H2 as (H2 & _). congruence.
  - intros (auths & H). inversion H; subst. destruct H2 as (H2 & _). congruence.
Qed.
Lemma auths_unique l : forall a b, Forall2 RegistryOf l a -> Forall2 RegistryOf l b -> a = b.
Proof.
  induction l; intros x y Hx Hy; inversion Hx; inversion Hy; subst; [reflexivity|].
  f_equal; [|eauto]. destruct H1 as (Ha & Hb), H6 as (Hc & Hd). destruct y0, y1. cbn in *. congruence.
Qed.

(** ** The variables *)
Lemma commit_vars f : NoDup (mkeys (defaultEnvs f)) /\ forall k v, In (k, v) (defaultEnvs f) <-> CommitVar f k v.
Proof.
  unfold defaultEnvs. destruct (hasPrefix (cf_ref f) "refs/tags/") eqn:E.
  - apply prefix_spec in E. destruct E as (t & E).
    assert (Et : trimPrefix (cf_ref f) "refs/tags/" = t) by (rewrite E; destruct t; reflexivity).
    rewrite Et. cbn. split; [repeat constructor; cbn; intuition discriminate|].
    intros k v. unfold CommitVar. rewrite E. split.
    + intros H. repeat (destruct H as [H|H]; [injection H as <- <-; tauto|]). contradiction.
    + intros [(-> & ->)|[(-> & ->)|[(-> & ->)|[(-> & ->)|[(-> & ->)|(-> & H)]]]]]; try tauto.
      injection H as <-. tauto.
  - cbn. split; [repeat constructor; cbn; intuition discriminate|].
    intros k v. unfold CommitVar. split.
    + intros H. repeat (destruct H as [H|H]; [injection H as <- <-; tauto|]). contradiction.
    + intros [(-> & ->)|[(-> & ->)|[(-> & ->)|[(-> & ->)|[(-> & ->)|(-> & H)]]]]]; try tauto.
      rewrite H in E. unfold hasPrefix in E. rewrite prefix_app in E. discriminate E.
Qed.

Lemma Forall2_comp {A} (R Q S : A -> A -> Prop) l1 : forall l2 l3, Forall2 R l1 l2 -> Forall2 Q l2 l3 ->
  (forall a b c, R a b -> Q b c -> S a c) -> Forall2 S l1 l3.
Proof.
  intros l2 l3 H. revert l3. induction H; intros l3 H3 HS; inversion H3; subst; constructor; eauto.
Qed.

Lemma Forall2_weak {A} (R S : A -> A -> Prop) l l' : (forall a b, R a b -> S a b) -> Forall2 R l l' -> Forall2 S l l'.
Proof. intros H F. induction F; constructor; auto. Qed.
Definition Then {A} (R Q : A -> A -> Prop) (a c : A) : Prop := exists b, R a b /\ Q b c.
Lemma Forall2_then {A} (R Q : A -> A -> Prop) l1 l2 l3 : Forall2 R l1 l2 -> Forall2 Q l2 l3 -> Forall2 (Then R Q) l1 l3.
Proof. intros H1 H2. apply (Forall2_comp R Q _ l1 l2 l3 H1 H2). intros a b c Ha Hb. now exists b. Qed.

Lemma over_iff (n n' o o' : string -> string -> Prop) :
  (forall k v, n k v <-> n' k v) -> (forall k v, o k v <-> o' k v) -> forall k v, Over n o k v <-> Over n' o' k v.
Proof. intros Hn Ho k v. unfold Over. rewrite Hn, Ho. setoid_rewrite Hn. reflexivity. Qed.
Lemma over_none (n o : string -> string -> Prop) : (forall k v, ~ n k v) -> forall k v, Over n o k v <-> o k v.
Proof. intros Hn k v. unfold Over. split; [intros [H|(_ & H)]; [now elim (Hn k v)|exact H]|]. intro H. right. split; [apply Hn|exact H]. Qed.
Lemma written_over new s t : Written new (st_envs s) (st_envs t) -> forall k v,
  envOf t k = Some v <-> Over (fun k v => In (k, v) new) (fun k v => envOf s k = Some v) k v.
Proof.
  intros H k v. unfold envOf, Over. unfold Written in H. destruct (st_envs t) as [m|].
  - rewrite H. split.
    + intros [G|(G1 & b & -> & G2)]; [now left|]. right. split; [|exact G2]. intros x Hx. apply G1. unfold mkeys. apply in_map_iff. now exists (k, x).
    + intros [G|(G1 & G2)]; [now left|]. right. split.
      * unfold mkeys. intro I. apply in_map_iff in I. destruct I as ([k' x] & E & I). cbn in E. subst k'. now apply (G1 x).
      * destruct (st_envs s) as [b|]; [|discriminate]. now exists b.
  - destruct H as (-> & ->). split; [discriminate|]. intros [[]|(_ & G)]. exact G.
Qed.
Lemma written_kept new s t : Written new (st_envs s) (st_envs t) -> st_envs s <> None -> st_envs t <> None.
Proof. unfold Written. destruct (st_envs t); [discriminate|]. intros (-> & _) H. now elim H. Qed.
Lemma envs_kept {R : Step -> Step -> Prop} l1 l2 : Forall2 R l1 l2 -> (forall s t, R s t -> st_envs s <> None -> st_envs t <> None) ->
  Forall (fun s => st_envs s <> None) l1 -> Forall (fun s => st_envs s <> None) l2.
Proof. intros H HR. induction H; intro F; inversion F; subst; constructor; eauto. Qed.
Lemma labels_kept {R : Step -> Step -> Prop} l1 l2 : Forall2 R l1 l2 -> (forall s t, R s t -> SameMetaBut "" (st_meta s) (st_meta t)) ->
  Forall (fun s => md_labels (st_meta s) <> None) l1 -> Forall (fun s => md_labels (st_meta s) <> None) l2.
Proof.
  intros H HR. induction H; intro F; inversion F; subst; constructor; eauto.
  destruct (HR _ _ H) as (_ & _ & _ & E). rewrite E; [assumption|discriminate].
Qed.
Section Command.
  Variable mc : Machine.
  Variable f : CompileFlags.
  Hypothesis orders : Orders mc.
  Hypothesis nd_env : NoDup (mkeys (cf_env f)).
  Hypothesis nd_label : NoDup (mkeys (cf_label f)).
  Let transforms (auths : list Auth) : list (Spec -> M Spec) :=
         [fun s => mlift (WithAuths auths s);
          fun s => mlift (WithEnviron (cf_env f) s);
          fun s => mlift (WithEnviron (mc_envOrd mc (defaultEnvs f)) s);
          fun s => mlift (WithLables (mc_labelOrd mc) (cf_label f) s);
          fun s => mret (WithLimits (cf_memlimit f) 0 s);
          fun s => mlift (WithNetrc (cf_machine f) (cf_username f) (cf_password f) s);
          fun s => mret (WithNetworks (cf_network f) s);
          fun s => mlift (WithProxy (mc_env mc) (mc_proxyOrd mc) s);
          fun s => WithSecrets (w_rnd (mc_world mc)) (cf_secret f) s;
          fun s => WithVolumes (w_rnd (mc_world mc)) (cf_volume f) s].
  Lemma transforms_finish auths base n : (exists d, sp_docker base = Some d) ->
    Forall (fun s => st_envs s <> None) (sp_steps base) -> Labelled base ->
    exists final n', Combine (transforms auths) base n = Ok (final, n') /\ Finished mc f auths base final.
  Proof.
    intros (d & Hd) He (Lm & Lv & Ls). rewrite Hd in Lv. destruct orders as (Oe & Op & Ol).
    unfold transforms.
    destruct (auths_spec auths base d Hd) as (s1 & E1 & (A1 & B1 & _ & C1 & D1 & F1) & K1).
    assert (F1' : sp_steps s1 = sp_steps base).
    { clear -F1. induction F1; congruence. }
    clear F1. specialize (A1 ltac:(cbn; intuition discriminate)). specialize (D1 ltac:(cbn; intuition discriminate)).
    destruct (proj1 (environ_spec (cf_env f) s1 nd_env)) as (s2 & E2 & (A2 & B2 & K2 & C2 & D2 & F2)); [right; now rewrite F1'|].
    specialize (A2 ltac:(cbn; intuition discriminate)). specialize (K2 ltac:(cbn; intuition discriminate)). specialize (D2 ltac:(cbn; intuition discriminate)).
    rewrite F1' in F2.
    assert (He2 : Forall (fun s => st_envs s <> None) (sp_steps s2)).
    { apply (envs_kept _ _ F2); [|exact He]. intros s t (_ & W). exact (written_kept _ _ _ W). }
    destruct (commit_vars f) as (NDc & Ic).
    assert (NDc' : NoDup (mkeys (mc_envOrd mc (defaultEnvs f)))) by (eapply Permutation_NoDup; [apply Permutation_map, Oe|exact NDc]).
    assert (Ic' : forall k v, In (k, v) (mc_envOrd mc (defaultEnvs f)) <-> CommitVar f k v).
    { intros k v. rewrite <- Ic. split; apply Permutation_in; [apply Permutation_sym, Oe|apply Oe]. }
    destruct (proj1 (environ_spec (mc_envOrd mc (defaultEnvs f)) s2 NDc')) as (s3 & E3 & (A3 & B3 & K3 & C3 & D3 & F3)); [now right|].
    specialize (A3 ltac:(cbn; intuition discriminate)). specialize (K3 ltac:(cbn; intuition discriminate)). specialize (D3 ltac:(cbn; intuition discriminate)).
    assert (He3 : Forall (fun s => st_envs s <> None) (sp_steps s3)).
    { apply (envs_kept _ _ F3); [|exact He2]. intros s t (_ & W). exact (written_kept _ _ _ W). }
    assert (Hd3 : sp_docker s3 = Some {| dc_auths := dc_auths d ++ auths; dc_volumes := dc_volumes d |}) by congruence.
    assert (Lab3 : Labelled s3).
    { split; [congruence|]. split; [rewrite Hd3; exact Lv|].
      apply (labels_kept _ _ F3). { intros s t ((X & _) & _). destruct X as (X1 & X2 & X3 & X4). repeat split; auto. intros _. apply X4. discriminate. }
      apply (labels_kept _ _ F2). { intros s t ((X & _) & _). destruct X as (X1 & X2 & X3 & X4). repeat split; auto. intros _. apply X4. discriminate. }
      exact Ls. }
    destruct (proj1 (labels_spec (mc_labelOrd mc) (cf_label f) s3 Ol nd_label) _ Hd3 (or_intror Lab3))
      as (s4 & vols & E4 & (_ & B4 & _ & C4 & D4 & F4) & M4 & W4 & K4 & V4).
    specialize (D4 ltac:(cbn; intuition discriminate)). cbn [dc_auths dc_volumes] in K4, V4.
    set (s5 := WithLimits (cf_memlimit f) 0 s4).
    assert (H5 : SameSpecBut [] (fun s t => SameStepBut "resources" s t /\
        (cf_memlimit f = 0%Z -> st_resources t = st_resources s) /\
        (cf_memlimit f <> 0%Z -> exists r, st_resources t = Some r /\
          er_limits r = Some {| eo_cpu := 0; eo_memory := cf_memlimit f |} /\
          er_requests r = match st_resources s with Some b => er_requests b | None => None end)) s4 s5).
    { unfold s5. destruct (Z.eq_dec (cf_memlimit f) 0) as [Z0|Z0].
      - rewrite (proj1 (limits_spec (cf_memlimit f) 0 s4) Z0 eq_refl). rewrite <- (sp_steps_eta s4) at 2. apply only_steps, Forall2_refl.
        intros a _. split; [apply SameStep_refl|]. split; [reflexivity|]. intro X. contradiction.
      - destruct (proj2 (limits_spec (cf_memlimit f) 0 s4) (or_introl Z0)) as (X1 & X2 & X3 & X4 & X5 & X6).
        repeat split; auto. revert X6. apply Forall2_weak.
        intros s t (Y1 & Y2). split; [exact Y1|]. split; [contradiction|]. intros _. exact Y2. }
    destruct H5 as (A5 & B5 & K5 & C5 & D5 & F5).
    specialize (A5 ltac:(cbn; intuition discriminate)). specialize (K5 ltac:(cbn; intuition discriminate)). specialize (D5 ltac:(cbn; intuition discriminate)).
    destruct (netrc_spec (cf_machine f) (cf_username f) (cf_password f) s5) as (s6 & E6 & G6 & G6').
    assert (H6 : SameSpecBut [] (fun s t => SameStepBut "envs" s t /\ (st_envs s <> None -> st_envs t <> None) /\
        forall k v, envOf t k = Some v <-> Over (NetrcVar f) (fun k v => envOf s k = Some v) k v) s5 s6).
    { destruct (string_dec (cf_username f) "") as [U|U]; [|destruct (string_dec (cf_password f) "") as [P|P]].
      - rewrite (G6 (or_introl U)). rewrite <- (sp_steps_eta s5) at 2. apply only_steps, Forall2_refl.
        intros a _. split; [apply SameStep_refl|]. split; [auto|]. intros k v. rewrite over_none; [reflexivity|]. intros k' v' (X & _). contradiction.
      - rewrite (G6 (or_intror P)). rewrite <- (sp_steps_eta s5) at 2. apply only_steps, Forall2_refl.
        intros a _. split; [apply SameStep_refl|]. split; [auto|]. intros k v. rewrite over_none; [reflexivity|]. intros k' v' (_ & X & _). contradiction.
      - destruct (G6' U P) as (X1 & X2 & X3 & X4 & X5 & X6). repeat split; auto.
        revert X6. apply Forall2_weak.
        intros s t (Y1 & Y2). split; [exact Y1|]. split; [exact (written_kept _ _ _ Y2)|]. intros k v. rewrite (written_over _ _ _ Y2).
        apply over_iff; [|reflexivity]. intros k' v'. unfold NetrcVar. tauto. }
    destruct H6 as (A6 & B6 & K6 & C6 & D6 & F6).
    specialize (A6 ltac:(cbn; intuition discriminate)). specialize (K6 ltac:(cbn; intuition discriminate)). specialize (D6 ltac:(cbn; intuition discriminate)).
    destruct (networks_spec (cf_network f) s6) as (A7 & B7 & K7 & C7 & D7 & F7).
    specialize (A7 ltac:(cbn; intuition discriminate)). specialize (K7 ltac:(cbn; intuition discriminate)). specialize (D7 ltac:(cbn; intuition discriminate)).
    set (s7 := WithNetworks (cf_network f) s6) in *.
    assert (He7 : Forall (fun s => st_envs s <> None) (sp_steps s7)).
    { apply (envs_kept _ _ F7). { intros s t ((_ & _ & _ & _ & _ & X & _) & _). now rewrite X by discriminate. }
      apply (envs_kept _ _ F6). { intros s t (_ & X & _). exact X. }
      apply (envs_kept _ _ F5). { intros s t ((_ & _ & _ & _ & _ & X & _) & _). now rewrite X by discriminate. }
      apply (envs_kept _ _ F4). { intros s t ((_ & _ & _ & _ & _ & X & _) & _). now rewrite X by discriminate. }
      exact He3. }
    destruct (proxy_spec (mc_env mc) (mc_proxyOrd mc) s7 Op He7) as (s8 & E8 & (A8 & B8 & K8 & C8 & D8 & F8)).
    specialize (A8 ltac:(cbn; intuition discriminate)). specialize (K8 ltac:(cbn; intuition discriminate)). specialize (D8 ltac:(cbn; intuition discriminate)).
    destruct (secrets_spec (w_rnd (mc_world mc)) (cf_secret f) n s8) as (secrets & E9 & M9 & _ & _).
    set (s9 := sp_set_secrets (sp_secrets s8 ++ secrets) s8) in *.
    assert (Hd9 : sp_docker s9 = Some {| dc_auths := dc_auths d ++ auths; dc_volumes := vols |}) by (unfold s9; cbn; congruence).
    destruct (volumes_spec (w_rnd (mc_world mc)) (cf_volume f) (n + List.length (cf_secret f)) s9 _ Hd9) as (s10 & added & E10 & (A10 & B10 & _ & C10 & D10 & F10) & K10 & V10 & _).
    specialize (A10 ltac:(cbn; intuition discriminate)). specialize (D10 ltac:(cbn; intuition discriminate)). cbn [dc_auths dc_volumes] in K10.
    exists s10. eexists. split.
    { rewrite !combine_cons. unfold mlift, mret. rewrite E1. rewrite combine_cons, E2. rewrite combine_cons, E3. rewrite combine_cons, E4.
      rewrite combine_cons. fold s5. rewrite combine_cons, E6. rewrite combine_cons. fold s7. rewrite combine_cons, E8. rewrite combine_cons, E9.
      rewrite combine_cons, E10. reflexivity. }
    assert (N9 : sp_meta s9 = sp_meta s4) by (unfold s9; cbn; congruence).
    assert (M3 : sp_meta s3 = sp_meta base) by congruence.
    rewrite M3 in M4, W4.
    exists d, vols, added, secrets.
    split; [rewrite A10, N9; exact M4|]. split; [rewrite A10, N9; exact W4|].
    split; [rewrite B10; unfold s9; cbn; congruence|]. split; [rewrite C10; unfold s9; cbn; congruence|].
    split; [rewrite D10; unfold s9; cbn; congruence|]. split; [exact M9|]. split; [exact Hd|]. split; [exact K10|].
    split; [exact V4|].
    split. { destruct M4 as (_ & _ & M4 & _). rewrite N9, M4 in V10. exact V10. }
    unfold s9 in F10. cbn [sp_steps sp_set_secrets] in F10.
    pose proof (Forall2_then _ _ _ _ _ F2 F3) as G. pose proof (Forall2_then _ _ _ _ _ G F4) as G4. clear G.
    pose proof (Forall2_then _ _ _ _ _ G4 F5) as G. clear G4. pose proof (Forall2_then _ _ _ _ _ G F6) as G4. clear G.
    pose proof (Forall2_then _ _ _ _ _ G4 F7) as G. clear G4. pose proof (Forall2_then _ _ _ _ _ G F8) as G4. clear G.
    pose proof (Forall2_then _ _ _ _ _ G4 F10) as G. clear G4. revert G. apply Forall2_weak.
    intros a i (h & (g & (e & (c & (b & (a4 & (a3 & (R2 & W2) & R3 & W3) & R4 & W4') & R5 & L5 & L5') & R6 & _ & V6) & R7 & N7) & R8 & V8) & R10 & N10).
    unfold SameStepBut in *.
    destruct R2 as (m2 & p2 & q2 & r2 & t2 & _ & v2 & w2 & x2 & y2 & z2 & aa2 & bb2 & cc2 & dd2).
    destruct R3 as (m3 & p3 & q3 & r3 & t3 & _ & v3 & w3 & x3 & y3 & z3 & aa3 & bb3 & cc3 & dd3).
    destruct R4 as (m4 & p4 & q4 & r4 & t4 & u4 & v4 & w4 & x4 & y4 & z4 & aa4 & bb4 & cc4 & dd4).
    destruct R5 as (m5 & p5 & q5 & r5 & t5 & u5 & v5 & w5 & x5 & y5 & z5 & aa5 & bb5 & cc5 & dd5).
    destruct R6 as (m6 & p6 & q6 & r6 & t6 & _ & v6 & w6 & x6 & y6 & z6 & aa6 & bb6 & cc6 & dd6).
    destruct R7 as (m7 & p7 & q7 & r7 & t7 & u7 & v7 & w7 & x7 & y7 & z7 & aa7 & bb7 & cc7 & dd7).
    destruct R8 as (m8 & p8 & q8 & r8 & t8 & _ & v8 & w8 & x8 & y8 & z8 & aa8 & bb8 & cc8 & dd8).
    destruct R10 as (m10 & p10 & q10 & r10 & t10 & u10 & v10 & w10 & x10 & y10 & z10 & aa10 & bb10 & cc10 & dd10).
    assert (Meta : forall k x y, k <> "labels" -> SameMetaBut k x y -> y = x).
    { intros k x y Hk (X1 & X2 & X3 & X4). specialize (X4 Hk). destruct x, y. cbn in *. congruence. }
    apply Meta in m2; [|discriminate]. apply Meta in m3; [|discriminate]. apply Meta in m5; [|discriminate]. apply Meta in m6; [|discriminate].
    apply Meta in m7; [|discriminate]. apply Meta in m8; [|discriminate]. apply Meta in m10; [|discriminate].
    assert (Dock : forall k x y, k <> "networks" -> SameDockerBut k x y -> y = x).
    { intros k x y Hk (X1 & X2 & X3 & X4 & X5 & X6 & X7 & X8 & X9 & X10 & X11 & X12). specialize (X8 Hk). destruct x, y. cbn in *. congruence. }
    apply Dock in t2; [|discriminate]. apply Dock in t3; [|discriminate]. apply Dock in t4; [|discriminate]. apply Dock in t5; [|discriminate].
    apply Dock in t6; [|discriminate]. apply Dock in t8; [|discriminate]. apply Dock in t10; [|discriminate].
    specialize (z2 ltac:(discriminate)). specialize (z3 ltac:(discriminate)). specialize (z4 ltac:(discriminate)).
    specialize (z6 ltac:(discriminate)). specialize (z7 ltac:(discriminate)). specialize (z8 ltac:(discriminate)). specialize (z10 ltac:(discriminate)).
    specialize (aa2 ltac:(discriminate)). specialize (aa3 ltac:(discriminate)). specialize (aa4 ltac:(discriminate)). specialize (aa5 ltac:(discriminate)).
    specialize (aa6 ltac:(discriminate)). specialize (aa7 ltac:(discriminate)). specialize (aa8 ltac:(discriminate)). specialize (aa10 ltac:(discriminate)).
    specialize (cc2 ltac:(discriminate)). specialize (cc3 ltac:(discriminate)). specialize (cc4 ltac:(discriminate)). specialize (cc5 ltac:(discriminate)).
    specialize (cc6 ltac:(discriminate)). specialize (cc7 ltac:(discriminate)). specialize (cc8 ltac:(discriminate)).
    specialize (u4 ltac:(discriminate)). specialize (u5 ltac:(discriminate)). specialize (u7 ltac:(discriminate)). specialize (u10 ltac:(discriminate)).
    unfold FinishedStep.
    assert (Mf : st_meta i = st_meta b) by congruence. assert (Ms : st_meta a4 = st_meta a) by congruence.
    split; [rewrite Mf, <- Ms; exact m4|]. split; [rewrite Mf, <- Ms; exact W4'|].
    split; [congruence|]. split; [congruence|]. split; [congruence|].
    assert (Df : st_docker i = st_docker g) by congruence. assert (Ds : st_docker e = st_docker a) by congruence.
    split; [rewrite Df, <- Ds; exact t7|]. split; [rewrite Df, <- Ds; exact N7|].
    split.
    { intros k v. assert (X : envOf i k = envOf h k) by (unfold envOf; now rewrite u10). rewrite X. rewrite V8.
      change (Over (ProxyVar (mc_env mc)) (fun k v => envOf g k = Some v) k v <-> Over (ProxyVar (mc_env mc)) (Over (NetrcVar f)
          (Over (CommitVar f) (Over (fun k v => In (k, v) (cf_env f)) (fun k v => envOf a k = Some v)))) k v).
      apply over_iff; [reflexivity|]. intros k' v'. assert (Y : envOf g k' = envOf e k') by (unfold envOf; now rewrite u7). rewrite Y, V6.
      apply over_iff; [reflexivity|]. intros k2 v2'. assert (Z' : envOf c k2 = envOf b k2) by (unfold envOf; now rewrite u5).
      assert (Z'' : envOf b k2 = envOf a4 k2) by (unfold envOf; now rewrite u4). rewrite Z', Z''.
      rewrite (written_over _ _ _ W3). apply over_iff; [exact Ic'|]. intros k3 v3'. apply (written_over _ _ _ W2). }
    split; [congruence|]. split; [congruence|]. split; [congruence|]. split; [congruence|]. split; [congruence|]. split; [congruence|].
    split; [congruence|]. split; [congruence|].
    assert (Rf : st_resources i = st_resources c) by congruence. assert (Rs : st_resources b = st_resources a) by congruence.
    rewrite Rf, <- Rs. split; assumption.
  Qed.
End Command.

Lemma selected_fun name l p q : Selected name l p -> Selected name l q -> p = q.
Proof. rewrite <- !find_selected. congruence. Qed.
Lemma complete_clone p q steps services vols : WithoutClone p q -> (Complete p steps services vols <-> Complete q steps services vols).
Proof.
  intros (_ & _ & _ & _ & _ & _ & _ & _ & _ & _ & _ & _ & Hs & Ht & _ & Hv & _). unfold Complete. rewrite Hs, Ht, Hv. reflexivity.
Qed.
Theorem compile_result mc name clone fl f fs content m :
  Orders mc -> NoDup (mkeys (cf_env fl)) -> NoDup (mkeys (cf_label fl)) ->
  fs f = Some content -> parse (mc_decoder mc) content = Ok m ->
  let x := run mc (ACompile name clone fl f) fs in
  let Asked p auths := Selected name (mf_resources m) p /\ Forall2 RegistryOf (cf_registry fl) auths in
  Untouched fs x /\
  (x_status x = 0%Z <-> exists p auths, Asked p auths /\ exists steps services vols, Complete p steps services vols) /\
  (x_status x = 1%Z <-> ~ exists p auths, Asked p auths) /\
  (x_status x = 2%Z <-> exists p auths, Asked p auths /\ ~ exists steps services vols, Complete p steps services vols) /\
  (forall p auths, Asked p auths -> x_status x = 0%Z ->
   exists q c base spec, (if clone then q = p else WithoutClone p q) /\ CommandCompiler mc fl c /\
     Compiled (mc_world mc) c q 0 base /\ Finished mc fl auths base spec /\ x_stdout x = mc_specJSON mc spec).
Proof.
  intros Ho N1 N2 Hf Hm. cbv zeta. unfold run, main, runCompile, Untouched. cbn [source parseArgs]. rewrite Hf, Hm. cbn [obind compileName cloneFlag compileFlags].
  destruct (findPipeline name (mf_resources m)) as [p|] eqn:Ep.
  2:{ cbn [x_files x_status x_stdout]. assert (Hno : forall p, ~ Selected name (mf_resources m) p) by (intros p H; apply find_selected in H; congruence).
      split; [reflexivity|]. split; [|split; [|split]].
      - split; [discriminate|]. intros (p & auths & (H & _) & _). now elim (Hno p).
      - split; [|reflexivity]. intros _ (p & auths & H & _). now elim (Hno p).
      - split; [discriminate|]. intros (p & auths & (H & _) & _). now elim (Hno p).
      - intros p auths (H & _). now elim (Hno p). }
  apply find_selected in Ep.
  pose proof (auths_of (cf_registry fl)) as Ha. destruct (registryAuths (cf_registry fl)) as [auths|e|]; [| |contradiction]; cbn [obind].
  2:{ cbn [x_files x_status x_stdout]. split; [reflexivity|]. split; [|split; [|split]].
      - split; [discriminate|]. intros (q & auths & (_ & H) & _). elim Ha. now exists auths.
      - split; [|reflexivity]. intros _ (q & auths & _ & H). elim Ha. now exists auths.
      - split; [discriminate|]. intros (q & auths & (_ & H) & _). elim Ha. now exists auths.
      - intros q auths (_ & H). elim Ha. now exists auths. }
  set (q := if clone then p else disableClone p).
  assert (Hq : if clone then q = p else WithoutClone p q) by (unfold q; destruct clone; [reflexivity|apply disable_spec]).
  assert (Hc : (exists steps services vols, Complete p steps services vols) <-> exists steps services vols, Complete q steps services vols).
  { destruct clone; [rewrite Hq; reflexivity|]. setoid_rewrite (complete_clone p q); [reflexivity|exact Hq]. }
  set (c := commandCompiler _ _ _ _ _ _ _ _ _).
  change (Compile _ _ _ _ _ _ _ c q 0) with (compileIn (mc_world mc) c q 0).
  rewrite (compile_transform (mc_world mc) c q 0).
  assert (Hs : Standard (mc_world mc) (noTransform c) None false) by (repeat split).
  destruct (compile_total (mc_world mc) (noTransform c) None false q 0 Hs) as (T1 & T2).
  assert (Hfun : forall p' auths', Selected name (mf_resources m) p' /\ Forall2 RegistryOf (cf_registry fl) auths' -> p' = p /\ auths' = auths).
  { intros p' auths' (X & Y). split; [now apply (selected_fun name (mf_resources m))|now apply (auths_unique (cf_registry fl))]. }
  destruct (compileIn (mc_world mc) (noTransform c) q 0) as [[base n]|e|] eqn:Eb.
  - assert (Cb : Compiled (mc_world mc) (noTransform c) q 0 base) by (now exists n).
    destruct (compiled_prepared _ _ _ _ _ _ Hs Cb) as (P1 & P2 & P3).
    destruct (transforms_finish mc fl Ho N1 N2 auths base n P1 P2 P3) as (final & n' & Ec & Fin).
    cbn [c commandCompiler co_transform]. rewrite Ec. cbn [x_files x_status x_stdout d_files d_stdout obind].
    assert (Cp : exists steps services vols, Complete p steps services vols) by (apply Hc, T1; now exists base).
    split; [reflexivity|]. split; [|split; [|split]].
    + split; [|reflexivity]. intros _. exists p, auths. auto.
    + split; [discriminate|]. intro H. elim H. exists p, auths. auto.
    + split; [discriminate|]. intros (p' & auths' & H & H'). apply Hfun in H. destruct H as (-> & ->). contradiction.
    + intros p' auths' H _. apply Hfun in H. destruct H as (-> & ->). exists q, (noTransform c), base, final.
      split; [exact Hq|]. split; [|split; [exact Cb|split; [exact Fin|reflexivity]]].
      split; [exact Hs|]. split; [now eexists|]. split; [eexists; split; reflexivity|]. eexists; split; reflexivity.
  - exfalso. exact (compile_no_err _ _ _ _ _ _ _ Hs Eb).
  - cbn [obind x_files x_status x_stdout]. assert (Np : ~ exists steps services vols, Complete p steps services vols) by (rewrite Hc; now apply T2).
    split; [reflexivity|]. split; [|split; [|split]].
    + split; [discriminate|]. intros (p' & auths' & H & H'). apply Hfun in H. destruct H as (-> & ->). contradiction.
    + split; [discriminate|]. intro H. elim H. exists p, auths. auto.
    + split; [|reflexivity]. intros _. exists p, auths. auto.
    + intros p' auths' _ H. discriminate.
Qed.

(** ** Variables of finished steps *)
Lemma commit_not_proxy mc f k v x : CommitVar f k v -> ~ ProxyVar (mc_env mc) k x.
Proof.
  intros H P. assert (K : In k ["no_proxy"; "NO_PROXY"; "http_proxy"; "HTTP_PROXY"; "https_proxy"; "HTTPS_PROXY"]).
  { destruct P as [(P & _)|[(P & _)|(P & _)]]; cbn in *; tauto. }
  destruct H as [(-> & _)|[(-> & _)|[(-> & _)|[(-> & _)|[(-> & _)|(-> & _)]]]]]; cbn in K; intuition discriminate.
Qed.
Lemma commit_not_netrc f k v x : CommitVar f k v -> ~ NetrcVar f k x.
Proof.
  intros H (_ & _ & P). unfold netrcVars in P. cbn in P.
  destruct H as [(-> & _)|[(-> & _)|[(-> & _)|[(-> & _)|[(-> & _)|(-> & _)]]]]];
    repeat (destruct P as [P|P]; [discriminate P|]); contradiction.
Qed.
Theorem commit_variables mc f auths a b t k v : Finished mc f auths a b -> In t (sp_steps b) -> CommitVar f k v -> envOf t k = Some v.
Proof.
  intros (d & vols & added & secrets & _ & _ & _ & _ & _ & _ & _ & _ & _ & _ & F) Ht Hc.
  assert (X : exists s, FinishedStep mc f (map (fun vc => {| mo_name := md_name (ev_meta (fst vc)); mo_path := snd (snd vc) |}) (combine added (cf_volume f))) s t).
  { clear -F Ht. induction F; [contradiction|]. destruct Ht as [->|Ht]; [now exists x|auto]. }
  destruct X as (s & _ & _ & _ & _ & _ & _ & _ & E & _). apply E.
  right. split; [intro x; now apply (commit_not_proxy mc f k v)|]. right. split; [intro x; now apply (commit_not_netrc f k v)|]. now left.
Qed.
Theorem given_variables mc f auths a b t k v : Finished mc f auths a b -> In t (sp_steps b) -> In (k, v) (cf_env f) ->
  (forall x, ~ ProxyVar (mc_env mc) k x) -> (forall x, ~ NetrcVar f k x) -> (forall x, ~ CommitVar f k x) -> envOf t k = Some v.
Proof.
  intros (d & vols & added & secrets & _ & _ & _ & _ & _ & _ & _ & _ & _ & _ & F) Ht Hc N1 N2 N3.
  assert (X : exists s, FinishedStep mc f (map (fun vc => {| mo_name := md_name (ev_meta (fst vc)); mo_path := snd (snd vc) |}) (combine added (cf_volume f))) s t).
  { clear -F Ht. induction F; [contradiction|]. destruct Ht as [->|Ht]; [now exists x|auto]. }
  destruct X as (s & _ & _ & _ & _ & _ & _ & _ & E & _). apply E.
  right. split; [exact N1|]. right. split; [exact N2|]. right. split; [exact N3|]. now left.
Qed.
