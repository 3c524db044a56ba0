(** * ConverterFacts.v: the GitLab, Bitbucket and dispatching converters. *)
From Coq Require Import Lia Sorting.Permutation.
From Verif Require Import Model.Go Model.Types Model.Image Model.Gitlab Model.Bitbucket Model.Convert
  Spec.ConverterSpec Proofs.GoFacts Proofs.LegacyMore.
From Verif Require Proofs.MapFacts.

Lemma bare_step : forall n i cmd e cs f, Bare (stepWith n i cmd e cs f).
Proof. intros. unfold Bare. cbn. repeat split. Qed.
Lemma bare_pipeline : forall n d ds st se, BarePipeline (pipelineWith n d ds st se).
Proof. intros. unfold BarePipeline. cbn. repeat split. Qed.

(** ** replaceAll of one byte *)
Lemma replace_slash : forall s, replaceAll s "/" "__" = join "__" (split_on "/" s).
Proof.
  unfold replaceAll. induction s as [|c s IH]; [reflexivity|].
  cbn [replace_skip split_on]. pose proof (split_on_nonempty "/" s) as N.
  destruct (Ascii.eqb c "/") eqn:E.
  - apply Ascii.eqb_eq in E. subst c. assert (P : String.prefix "/" (String "/" s) = true) by (destruct s; reflexivity). rewrite P.
    cbn. rewrite IH. destruct (split_on "/" s) as [|h t]; [contradiction|]. reflexivity.
  - assert (P : String.prefix "/" (String c s) = false).
    { cbn [String.prefix]. destruct (ascii_dec "/" c) as [X|X]; [subst; rewrite Ascii.eqb_refl in E; discriminate|reflexivity]. }
    rewrite P, IH. destruct (split_on "/" s) as [|h t]; [contradiction|]. destruct t; reflexivity.
Qed.

(** ** GitLab *)
Section Gitlab.
  Variable available : string -> bool.
  Variable ord : nat -> smap (option GJob) -> smap (option GJob).
  Hypothesis O : forall i m, Permutation m (ord i m).

  Lemma jobStep_ok : forall g n j, RightStep g n j (jobStep g n j).
  Proof.
    intros g n j. unfold RightStep, jobStep. cbn [ct_name ct_image ct_command ct_entrypoint ct_commands ct_failure stepWith].
    split; [reflexivity|]. destruct (isEmpty (gi_name (gj_image j))) eqn:E; [apply isEmpty_true in E|apply isEmpty_false in E];
    (split; [intro; try contradiction; reflexivity|]; split; [intro; try contradiction; reflexivity|];
     do 3 (split; [reflexivity|]); split; [intros ->; reflexivity|]; split; [intros ->; reflexivity|apply bare_step]).
  Qed.
  Lemma serviceStep_ok : forall i, RightService available i (serviceStep available i).
  Proof.
    intro i. unfold RightService, serviceStep. cbn [ct_name ct_image ct_command ct_entrypoint ct_commands ct_failure stepWith].
    destruct (isEmpty (gi_alias i)) eqn:E; [apply isEmpty_true in E|apply isEmpty_false in E];
    (split; [intro; try contradiction; reflexivity|]; split; [intro; try contradiction; unfold serviceSlug; apply replace_slash|];
     do 5 (split; [reflexivity|]); apply bare_step).
  Qed.
  Lemma services_ok : forall images, exists cs, stageServices available (map Some images) = Ok cs /\ Forall2 (RightService available) images cs.
  Proof.
    induction images as [|i images (cs & E & F)]; [exists []; split; [reflexivity|constructor]|].
    exists (serviceStep available i :: cs). unfold stageServices in *. cbn [map otraverse deref obind]. rewrite E.
    split; [reflexivity|]. constructor; [apply serviceStep_ok|exact F].
  Qed.
  Lemma steps_acc : forall g stage js acc, ofold (fun steps (kv : string * option GJob) =>
      j <- deref (snd kv) ;;
      Ok (if String.eqb (gj_stage j) stage then steps ++ [jobStep g (fst kv) j] else steps)) (present js) acc =
    Ok (acc ++ map (fun kv => jobStep g (fst kv) (snd kv)) (inStage stage js)).
  Proof.
    intros g stage js. induction js as [|[n j] js IH]; intro acc; cbn [present map ofold fst snd deref obind inStage filter].
    - rewrite app_nil_r. reflexivity.
    - fold (present js) (inStage stage js). destruct (String.eqb (gj_stage j) stage); rewrite IH; [|reflexivity].
      cbn [map fst snd]. rewrite <- app_assoc. reflexivity.
  Qed.
  Lemma steps_ok : forall g stage js, stageSteps g stage (present js) = Ok (map (fun kv => jobStep g (fst kv) (snd kv)) (inStage stage js)).
  Proof. intros. unfold stageSteps. rewrite steps_acc. reflexivity. Qed.
  Lemma present_perm : forall js m, Permutation (present js) m -> exists js', m = present js' /\ Permutation js js'.
  Proof.
    intros js m P. apply Permutation_sym in P. apply Permutation_map_inv in P. destruct P as (js' & -> & P).
    exists js'. split; [reflexivity|exact P].
  Qed.
  Lemma filter_perm : forall A (f : A -> bool) l l', Permutation l l' -> Permutation (filter f l) (filter f l').
  Proof.
    intros A f l l' P. induction P as [|x l l' P IH|x y l|l1 l2 l3 P1 IH1 P2 IH2]; cbn.
    - constructor.
    - destruct (f x); [constructor|]; exact IH.
    - destruct (f x), (f y); try apply Permutation_refl. apply perm_swap.
    - exact (Permutation_trans IH1 IH2).
  Qed.
  Lemma map_ok : forall g sel, Forall2 (fun kv c => RightStep g (fst kv) (snd kv) c) sel (map (fun kv => jobStep g (fst kv) (snd kv)) sel).
  Proof. intros g sel. induction sel as [|kv sel IH]; cbn; constructor; [apply jobStep_ok|exact IH]. Qed.

  Lemma depends_ok : forall prev stage steps services,
    RightDependsOn prev (pipelineWith stage 0 (match prev with Some s => if isEmpty s then [] else [s] | None => [] end) steps services).
  Proof.
    intros prev stage steps services. unfold RightDependsOn. cbn [pi_depends pipelineWith]. split.
    - intros s -> N. apply isEmpty_false in N. rewrite N. reflexivity.
    - intros [->| ->]; reflexivity.
  Qed.
  Lemma stages_ok : forall g images js, gc_services g = map Some images ->
    forall stages i prev, exists ps,
      stagePipelines available ord g (present js) i (match prev with Some s => s | None => "" end) stages = Ok ps /\
      length ps = length stages /\
      forall k stage p, nth_error stages k = Some stage -> nth_error ps k = Some p ->
        StagePipeline available g images js (match k with 0 => prev | S k' => nth_error stages k' end) stage p.
  Proof.
    intros g images js G. induction stages as [|stage stages IH]; intros i prev.
    - exists []. split; [reflexivity|]. split; [reflexivity|]. intros [|k] s p H; discriminate.
    - destruct (IH (S i) (Some stage)) as (ps & E & L & H). cbn [stagePipelines].
      destruct (present_perm js _ (O i (present js))) as (js' & Ej & P). rewrite Ej, steps_ok. cbn [obind].
      destruct (services_ok images) as (cs & Es & Fs). rewrite G, Es. cbn [obind]. rewrite E. cbn [obind].
      eexists. split; [reflexivity|]. split; [cbn; rewrite L; reflexivity|].
      intros [|k] s p Hs Hp; cbn in Hs, Hp.
      + injection Hs as <-. injection Hp as <-. unfold StagePipeline. split; [reflexivity|]. split.
        * replace (if isEmpty match prev with Some s => s | None => "" end then [] else [match prev with Some s => s | None => "" end])
            with (match prev with Some s => if isEmpty s then [] else [s] | None => [] end) by (destruct prev; reflexivity).
          apply depends_ok.
        * split; [apply bare_pipeline|]. split; [reflexivity|]. eexists (inStage stage js'), _, _.
          split; [apply filter_perm, Permutation_sym, P|]. split; [reflexivity|]. split; [apply map_ok|]. split; [reflexivity|exact Fs].
      + specialize (H k s p Hs Hp). destruct k as [|k]; exact H.
  Qed.
  Lemma gitlab_stages : forall g images js stages, gc_services g = map Some images -> gc_jobs g = present js ->
    gc_stages g = stages -> stages <> [] ->
    exists ps, gitlabManifest available ord g = Ok {| mf_resources := map RPipeline ps |} /\ length ps = length stages /\
      forall i stage p, nth_error stages i = Some stage -> nth_error ps i = Some p ->
        StagePipeline available g images js (previous stages i) stage p.
  Proof.
    intros g images js stages G J S N. destruct (stages_ok g images js G stages 1 None) as (ps & E & L & H).
    exists ps. split; [|split; [exact L|]].
    - unfold gitlabManifest. rewrite S, J. destruct stages as [|s0 st]; [contradiction|]. rewrite E. reflexivity.
    - intros i stage p Hs Hp. specialize (H i stage p Hs Hp). destruct i; exact H.
  Qed.

  Lemma ownStages_ok : forall js, ownStages (present js) = Ok (present (map (fun kv => (fst kv, setStage (fst kv) (snd kv))) js)).
  Proof.
    unfold ownStages. induction js as [|[n j] js IH]; [reflexivity|]. cbn [present map otraverse fst snd deref obind].
    fold (present js). rewrite IH. reflexivity.
  Qed.
  Lemma mkeys_present : forall js, mkeys (present js) = mkeys js.
  Proof. intro js. unfold mkeys, present. rewrite map_map. reflexivity. Qed.
  Lemma own_stage : forall js n j, NoDup (mkeys js) -> In (n, j) js ->
    inStage n (map (fun kv => (fst kv, setStage (fst kv) (snd kv))) js) = [(n, setStage n j)].
  Proof.
    unfold inStage. induction js as [|[n' j'] js IH]; intros n j D I; [destruct I|].
    inversion D as [|? ? Nn D']; subst. cbn [map filter fst snd gj_stage setStage]. destruct I as [I|I].
    - injection I as -> ->. rewrite String.eqb_refl. f_equal. clear -Nn. induction js as [|[m k] js IH]; [reflexivity|].
      cbn [map filter fst snd gj_stage setStage]. destruct (String.eqb_spec m n) as [->|_]; [exfalso; apply Nn; left; reflexivity|].
      apply IH. intro I. apply Nn. right. exact I.
    - destruct (String.eqb_spec n' n) as [->|_]; [exfalso; apply Nn; apply (in_map fst) in I; exact I|]. apply IH; assumption.
  Qed.
  Lemma nth_keys : forall (js : smap GJob) i n, nth_error (mkeys js) i = Some n -> exists j, nth_error js i = Some (n, j).
  Proof.
    intros js i n H. unfold mkeys in H. rewrite nth_error_map in H. destruct (nth_error js i) as [[m j]|]; [|discriminate].
    injection H as <-. exists j. reflexivity.
  Qed.
  Lemma gitlab_no_stages : forall g images js, gc_services g = map Some images -> gc_jobs g = present js ->
    NoDup (mkeys js) -> gc_stages g = [] ->
    exists order ps, Permutation order js /\ gitlabManifest available ord g = Ok {| mf_resources := map RPipeline ps |} /\
      length ps = length order /\
      forall i kv p, nth_error order i = Some kv -> nth_error ps i = Some p ->
        JobPipeline available g images (previous (mkeys order) i) kv p.
  Proof.
    intros g images js G J D S. destruct (present_perm js _ (O 0 (present js))) as (order & Eo & P).
    set (js' := map (fun kv => (fst kv, setStage (fst kv) (snd kv))) js).
    destruct (stages_ok g images js' G (mkeys order) 1 None) as (ps & E & L & H).
    exists order, ps. split; [apply Permutation_sym, P|]. split.
    - unfold gitlabManifest. rewrite S, J, ownStages_ok. cbn [obind]. rewrite Eo, mkeys_present. fold js'. rewrite E. reflexivity.
    - split; [rewrite L; unfold mkeys; apply map_length|]. intros i [n j] p Ho Hp.
      assert (Hk : nth_error (mkeys order) i = Some n) by (unfold mkeys; rewrite nth_error_map, Ho; reflexivity).
      specialize (H i n p Hk Hp). destruct H as (E1 & E2 & E3 & E4 & sel & steps & services & Ps & Es & Fs & Ev & Fv).
      assert (I : In (n, j) js) by (eapply Permutation_in; [apply Permutation_sym, P|]; apply nth_error_In in Ho; exact Ho).
      unfold js' in Ps. rewrite (own_stage js n j D I) in Ps. apply Permutation_sym, Permutation_length_1_inv in Ps. subst sel.
      unfold JobPipeline. cbn [fst snd]. split; [exact E1|]. split; [destruct i; exact E2|]. split; [exact E3|]. split; [exact E4|].
      clear E1 E2 E3 E4. inversion Fs as [|? c ? rest R Fr Ea Eb]. inversion Fr. subst.
      exists c, services. split; [exact Es|]. split; [|split; assumption].
      cbn [fst snd] in R. exact R.
  Qed.

  (** Null jobs and services. *)
  Lemma null_step_panics : forall g stage jobs, In None (map snd jobs) -> stageSteps g stage jobs = Panic.
  Proof.
    intros g stage jobs I. unfold stageSteps.
    enough (X : forall acc, ofold (fun steps (kv : string * option GJob) =>
      j <- deref (snd kv) ;;
      Ok (if String.eqb (gj_stage j) stage then steps ++ [jobStep g (fst kv) j] else steps)) jobs acc = Panic) by apply X.
    induction jobs as [|[n [j|]] jobs IH]; intro acc; cbn [map snd] in I.
    - destruct I.
    - destruct I as [I|I]; [discriminate|]. cbn [ofold snd deref obind fst]. apply IH. exact I.
    - reflexivity.
  Qed.
  Lemma null_own_panics : forall jobs, In None (map snd jobs) -> ownStages jobs = Panic.
  Proof.
    unfold ownStages. induction jobs as [|[n [j|]] jobs IH]; intro I; cbn [map snd] in I.
    - destruct I.
    - destruct I as [I|I]; [discriminate|]. cbn [otraverse snd fst deref obind]. rewrite IH by exact I. reflexivity.
    - reflexivity.
  Qed.
  Lemma gitlab_null_job : forall g, In None (map snd (gc_jobs g)) -> gitlabManifest available ord g = Panic.
  Proof.
    intros g I. unfold gitlabManifest. destruct (gc_stages g) as [|s st].
    - rewrite null_own_panics by exact I. reflexivity.
    - cbn [stagePipelines]. rewrite null_step_panics; [reflexivity|].
      eapply Permutation_in; [apply Permutation_map, O|exact I].
  Qed.
  Lemma null_service_panics : forall services, In None services -> stageServices available services = Panic.
  Proof.
    unfold stageServices. induction services as [|[i|] services IH]; intro I.
    - destruct I.
    - destruct I as [I|I]; [discriminate|]. cbn [otraverse deref obind]. rewrite IH by exact I. reflexivity.
    - reflexivity.
  Qed.
  Lemma gitlab_null_service : forall g js, gc_jobs g = present js -> gc_stages g <> [] \/ js <> [] ->
    In None (gc_services g) -> gitlabManifest available ord g = Panic.
  Proof.
    intros g js J N I. unfold gitlabManifest. rewrite J.
    assert (X : forall js s st, stagePipelines available ord g (present js) 1 "" (s :: st) = Panic).
    { intros js0 s st. cbn [stagePipelines]. destruct (present_perm js0 _ (O 1 (present js0))) as (js' & -> & _).
      rewrite steps_ok. cbn [obind]. rewrite null_service_panics by exact I. reflexivity. }
    destruct (gc_stages g) as [|s st].
    - destruct N as [N|N]; [contradiction|]. rewrite ownStages_ok. cbn [obind].
      destruct (present_perm js _ (O 0 (present js))) as (js' & -> & P). rewrite mkeys_present.
      destruct js' as [|[n j] js']; [apply Permutation_sym, Permutation_nil in P; contradiction|]. cbn [mkeys map fst]. rewrite X. reflexivity.
    - rewrite X. reflexivity.
  Qed.
End Gitlab.

(** ** Bitbucket *)
Section Bitbucket.
  Variable pathMatch : string -> string -> option bool.

  Lemma firstMatch_some : forall name m s, firstMatch pathMatch name m = Some s -> Matches pathMatch name m s.
  Proof.
    intros name m s. induction m as [|[p t] m IH]; cbn [firstMatch]; [discriminate|].
    destruct (pathMatch p name) as [[]|] eqn:E; intro H.
    - injection H as ->. exists p. split; [left; reflexivity|exact E].
    - destruct (IH H) as (q & I & Q). exists q. split; [right; exact I|exact Q].
    - destruct (IH H) as (q & I & Q). exists q. split; [right; exact I|exact Q].
  Qed.
  Lemma firstMatch_none : forall name m, firstMatch pathMatch name m = None -> forall s, ~ Matches pathMatch name m s.
  Proof.
    intros name m. induction m as [|[p t] m IH]; cbn [firstMatch]; intros H s (q & I & Q); [destruct I|].
    destruct (pathMatch p name) as [[]|] eqn:E; [discriminate| |];
    (destruct I as [I|I]; [injection I as -> ->; congruence|apply (IH H s); exists q; auto]).
  Qed.
  Lemma matches_perm : forall name m m' s, Permutation m m' -> Matches pathMatch name m s -> Matches pathMatch name m' s.
  Proof. intros name m m' s P (q & I & Q). exists q. split; [eapply Permutation_in; eassumption|exact Q]. Qed.
  Lemma stripped_trim : forall prefix ref, Stripped prefix ref (trimPrefix ref prefix).
  Proof.
    intros prefix ref. destruct (trimPrefix_cases ref prefix) as [(r & -> & ->)|[N ->]]; [left; reflexivity|right; split; [exact N|reflexivity]].
  Qed.
  Lemma stripped_unique : forall prefix ref a b, Stripped prefix ref a -> Stripped prefix ref b -> a = b.
  Proof.
    intros prefix ref a b [E|[N ->]] [F|[M ->]]; [|exfalso; eapply M; exact E|exfalso; eapply N; exact F|reflexivity].
    rewrite E in F. apply sapp_inv_head in F. exact F.
  Qed.
  Lemma selected_ok : forall ordT ordB c ref, (forall m, Permutation m (ordT m)) -> (forall m, Permutation m (ordB m)) ->
    Selected pathMatch c ref (pipelineFor pathMatch ordT ordB c ref).
  Proof.
    intros ordT ordB c ref PT PB. unfold pipelineFor.
    exists (trimPrefix ref "refs/tags/"), (trimPrefix ref "refs/heads/").
    split; [apply stripped_trim|]. split; [apply stripped_trim|].
    destruct (firstMatch pathMatch _ (ordT _)) as [s|] eqn:E.
    - left. eapply matches_perm; [apply Permutation_sym, PT|apply firstMatch_some; exact E].
    - right. split; [intros t M; eapply firstMatch_none; [exact E|]; eapply matches_perm; [apply PT|exact M]|].
      destruct (firstMatch pathMatch _ (ordB _)) as [s|] eqn:F.
      + left. eapply matches_perm; [apply Permutation_sym, PB|apply firstMatch_some; exact F].
      + right. split; [|reflexivity]. intros t M; eapply firstMatch_none; [exact F|]; eapply matches_perm; [apply PB|exact M].
  Qed.
  Lemma selected_unique : forall c ref s t tag branch, Stripped "refs/tags/" ref tag -> Stripped "refs/heads/" ref branch ->
    Unambiguous pathMatch tag (bc_tags c) -> Unambiguous pathMatch branch (bc_branches c) ->
    Selected pathMatch c ref s -> Selected pathMatch c ref t -> s = t.
  Proof.
    intros c ref s t tag branch St Sb Ut Ub (t1 & b1 & St1 & Sb1 & H1) (t2 & b2 & St2 & Sb2 & H2).
    rewrite <- (stripped_unique _ _ _ _ St St1) in H1. rewrite <- (stripped_unique _ _ _ _ St St2) in H2.
    rewrite <- (stripped_unique _ _ _ _ Sb Sb1) in H1. rewrite <- (stripped_unique _ _ _ _ Sb Sb2) in H2.
    destruct H1 as [(p & Ip & Mp)|[N1 [(p & Ip & Mp)|[N1' ->]]]], H2 as [(q & Iq & Mq)|[N2 [(q & Iq & Mq)|[N2' ->]]]].
    - eapply Ut; eassumption.
    - exfalso. apply (N2 s). exists p. auto.
    - exfalso. apply (N2 s). exists p. auto.
    - exfalso. apply (N1 t). exists q. auto.
    - eapply Ub; eassumption.
    - exfalso. apply (N2' s). exists p. auto.
    - exfalso. apply (N1 t). exists q. auto.
    - exfalso. apply (N1' t). exists q. auto.
    - reflexivity.
  Qed.
  Lemma any_order : forall ordT ordB ordT' ordB' c ref tag branch,
    (forall m, Permutation m (ordT m)) -> (forall m, Permutation m (ordB m)) ->
    (forall m, Permutation m (ordT' m)) -> (forall m, Permutation m (ordB' m)) ->
    Stripped "refs/tags/" ref tag -> Stripped "refs/heads/" ref branch ->
    Unambiguous pathMatch tag (bc_tags c) -> Unambiguous pathMatch branch (bc_branches c) ->
    pipelineFor pathMatch ordT ordB c ref = pipelineFor pathMatch ordT' ordB' c ref.
  Proof.
    intros. eapply selected_unique; [| |eassumption|eassumption|apply selected_ok; assumption|apply selected_ok; assumption]; assumption.
  Qed.

  Lemma bSteps_ok : forall image l i, exists cs, bSteps image i (map Some l) = Ok cs /\ length cs = length l /\
    forall k s c, nth_error l k = Some s -> nth_error cs k = Some c -> RightBStep image (i + k) s c.
  Proof.
    intros image. induction l as [|s l IH]; intro i.
    - exists []. split; [reflexivity|]. split; [reflexivity|]. intros [|k] s c H; discriminate.
    - destruct (IH (S i)) as (cs & E & L & H). cbn [map bSteps bToContainer deref obind]. rewrite E. cbn [obind].
      eexists. split; [reflexivity|]. split; [cbn; rewrite L; reflexivity|]. intros [|k] s' c Hs Hc; cbn in Hs, Hc.
      + injection Hs as <-. injection Hc as <-. rewrite Nat.add_0_r. unfold RightBStep.
        cbn [ct_name ct_image ct_commands ct_command ct_entrypoint ct_failure stepWith].
        destruct (isEmpty (bs_name s)) eqn:En; [apply isEmpty_true in En|apply isEmpty_false in En];
        destruct (isEmpty (bs_image s)) eqn:Ei; [apply isEmpty_true in Ei|apply isEmpty_false in Ei|apply isEmpty_true in Ei|apply isEmpty_false in Ei];
        (do 4 (split; [intro; try contradiction; reflexivity|]); do 4 (split; [reflexivity|]); apply bare_step).
      + rewrite Nat.add_succ_r. apply (H k s' c Hs Hc).
  Qed.
  Lemma bSteps_panic : forall image l i, In None l -> bSteps image i l = Panic.
  Proof.
    intros image. induction l as [|[s|] l IH]; intros i I; [destruct I| |reflexivity].
    destruct I as [I|I]; [discriminate|]. cbn [bSteps bToContainer deref obind]. rewrite IH by exact I. reflexivity.
  Qed.
  Lemma bServices_ok : forall m, exists cs, bServices (map (fun kv => (fst kv, Some (snd kv))) m) = Ok cs /\ Forall2 RightBService m cs.
  Proof.
    unfold bServices. induction m as [|[n s] m (cs & E & F)]; [exists []; split; [reflexivity|constructor]|].
    cbn [map otraverse fst snd bToContainer deref obind]. rewrite E. eexists. split; [reflexivity|]. constructor; [|exact F].
    unfold RightBService. cbn. repeat split.
  Qed.
  Lemma bitbucket_ok : forall ordT ordB ordS c ref l services,
    (forall m, Permutation m (ordT m)) -> (forall m, Permutation m (ordB m)) -> (forall m, Permutation m (ordS m)) ->
    bc_services c = map (fun kv => (fst kv, Some (snd kv))) services ->
    pipelineFor pathMatch ordT ordB c ref = map Some l ->
    exists p steps svs sel, bitbucketManifest pathMatch ordT ordB ordS c ref = Ok {| mf_resources := [RPipeline p] |} /\
      Selected pathMatch c ref (map Some l) /\
      pi_name p = "default" /\ BarePipeline p /\ pi_depends p = [] /\ cl_depth (pi_clone p) = bc_depth c /\
      pi_steps p = map Some steps /\ length steps = length l /\
      (forall i s st, nth_error l i = Some s -> nth_error steps i = Some st -> RightBStep (bc_image c) i s st) /\
      pi_services p = map Some svs /\ Permutation sel services /\ Forall2 RightBService sel svs.
  Proof.
    intros ordT ordB ordS c ref l services PT PB PS S E. unfold bitbucketManifest. rewrite E.
    destruct (bSteps_ok (bc_image c) l 0) as (steps & Es & L & H). rewrite Es. cbn [obind].
    pose proof (PS (bc_services c)) as P. rewrite S in *. apply Permutation_sym, Permutation_map_inv in P. destruct P as (sel & Eq & P).
    rewrite Eq. destruct (bServices_ok sel) as (svs & Ev & F). rewrite Ev. cbn [obind].
    eexists _, steps, svs, sel. split; [reflexivity|]. split; [rewrite <- E; apply selected_ok; assumption|].
    split; [reflexivity|]. split; [apply bare_pipeline|]. split; [reflexivity|]. split; [reflexivity|].
    split; [reflexivity|]. split; [exact L|]. split; [exact H|]. split; [reflexivity|]. split; [apply Permutation_sym, P|exact F].
  Qed.
  Lemma bitbucket_panic : forall ordT ordB ordS c ref, In None (pipelineFor pathMatch ordT ordB c ref) ->
    bitbucketManifest pathMatch ordT ordB ordS c ref = Panic.
  Proof. intros. unfold bitbucketManifest. rewrite bSteps_panic by assumption. reflexivity. Qed.
End Bitbucket.

(** ** Legacy files *)
Lemma isSpaceRE_spec : forall c, isSpaceRE c = true <-> SpaceChar c.
Proof.
  intro c. unfold isSpaceRE, SpaceChar. cbv zeta. rewrite !orb_true_iff, !N.eqb_eq. cbn [In].
  split; [intros [[[[H|H]|H]|H]|H]; rewrite H; tauto|intros [H|[H|[H|[H|[H|[]]]]]]; rewrite <- H; tauto].
Qed.
Lemma spaceToEnd_spec : forall s, spaceToEnd s = true <-> exists ws post, s = (ws +++ post)%string /\ AllSpace ws /\ LineEnd post.
Proof.
  induction s as [|c s IH]; cbn [spaceToEnd].
  - split; [intros _; exists "", ""; repeat split; [intros c []|left; reflexivity]|reflexivity].
  - rewrite orb_true_iff, andb_true_iff, IH, Ascii.eqb_eq, isSpaceRE_spec. split.
    + intros [->|[S (ws & post & -> & A & L)]].
      * exists "", (String NL s). repeat split; [intros c []|right; exists s; reflexivity].
      * exists (String c ws), post. repeat split; [|exact L]. intros x [<-|I]; [exact S|apply A; exact I].
    + intros (ws & post & E & A & L). destruct ws as [|w ws].
      * cbn in E. subst post. destruct L as [L|(p & L)]; [discriminate|]. injection L as -> _. left. reflexivity.
      * cbn in E. injection E as -> ->. right. split; [apply A; left; reflexivity|]. exists ws, post.
        repeat split; [|exact L]. intros x I. apply A. right. exact I.
Qed.
Definition MatchHere (s : string) : Prop :=
  exists ws post, s = ("pipeline:" +++ ws +++ post)%string /\ AllSpace ws /\ LineEnd post.
Lemma matchAt_spec : forall s, matchAt s = true <-> MatchHere s.
Proof.
  intro s. unfold matchAt, MatchHere. rewrite andb_true_iff, spaceToEnd_spec. unfold hasPrefix. rewrite prefix_spec. split.
  - intros [(r & ->) (ws & post & E & A & L)]. exists ws, post. split; [|split; assumption]. f_equal. rewrite <- E.
    destruct (trimPrefix_cases ("pipeline:" +++ r) "pipeline:") as [(r' & E1 & ->)|[N _]]; [|exfalso; eapply N; reflexivity].
    apply sapp_inv_head in E1. exact E1.
  - intros (ws & post & -> & A & L). split; [exists (ws +++ post)%string; reflexivity|]. exists ws, post.
    destruct (trimPrefix_cases ("pipeline:" +++ (ws +++ post)) "pipeline:") as [(r' & E1 & ->)|[N _]]; [|exfalso; eapply N; reflexivity].
    apply sapp_inv_head in E1. subst. repeat split; assumption.
Qed.
Lemma matchAfterNL_spec : forall s, matchAfterNL s = true <-> exists p r, s = (p +++ String NL r)%string /\ MatchHere r.
Proof.
  induction s as [|c s IH]; cbn [matchAfterNL].
  - split; [discriminate|]. intros (p & r & E & _). destruct p; discriminate.
  - rewrite orb_true_iff, andb_true_iff, IH, Ascii.eqb_eq, matchAt_spec. split.
    + intros [[-> M]|(p & r & -> & M)]; [exists "", s; split; [reflexivity|exact M]|exists (String c p), r; split; [reflexivity|exact M]].
    + intros (p & r & E & M). destruct p as [|x p]; cbn in E; injection E as -> ->; [left; auto|right; exists p, r; auto].
Qed.
Lemma legacyMatch_spec : forall s, legacyMatch s = true <-> HasMatch s.
Proof.
  intro s. unfold legacyMatch, HasMatch. rewrite orb_true_iff, matchAt_spec, matchAfterNL_spec. split.
  - intros [(ws & post & -> & A & L)|(p & r & -> & ws & post & -> & A & L)].
    + exists "", ws, post. repeat split; try assumption. left. reflexivity.
    + exists (p +++ String NL "")%string, ws, post. split; [rewrite sapp_assoc; reflexivity|]. repeat split; try assumption. right. exists p. reflexivity.
  - intros (pre & ws & post & -> & [->|(p & ->)] & A & L).
    + left. exists ws, post. auto.
    + right. exists p, ("pipeline:" +++ ws +++ post)%string. split; [rewrite sapp_assoc; reflexivity|]. exists ws, post. auto.
Qed.
(** White space that runs over a line end can be cut there. *)
Lemma cut_space : forall ws post, AllSpace ws -> LineEnd post ->
  exists ws' post', (ws +++ post)%string = (ws' +++ post')%string /\ AllSpace ws' /\ LineEnd post' /\ hasChar NL ws' = false.
Proof.
  induction ws as [|c ws IH]; intros post A L.
  - exists "", post. repeat split; auto; intros c [].
  - destruct (Ascii.eqb_spec c NL) as [->|N].
    + exists "", (String NL (ws +++ post)). repeat split; [intros c []|right; eexists; reflexivity].
    + destruct (IH post) as (ws' & post' & E & A' & L' & H); [intros x I; apply A; right; exact I|exact L|].
      exists (String c ws'), post'. split; [cbn; rewrite E; reflexivity|]. repeat split; [|exact L'|].
      * intros x [<-|I]; [apply A; left; reflexivity|apply A'; exact I].
      * apply hasChar_false. apply hasChar_false in H. intros [X|I]; [exact (N X)|exact (H I)].
Qed.
Lemma split_on_mid : forall sep p r, split_on sep (p +++ String sep r) = split_on sep p ++ split_on sep r.
Proof.
  intros sep p r. induction p as [|c p IH]; cbn [String.append split_on].
  - rewrite Ascii.eqb_refl. reflexivity.
  - rewrite IH. pose proof (split_on_nonempty sep p) as N. destruct (Ascii.eqb c sep); [reflexivity|].
    destruct (split_on sep p) as [|h t]; [contradiction|]. reflexivity.
Qed.
Lemma line_iff : forall s l, In l (split_on NL s) <->
  hasChar NL l = false /\ exists pre post, s = (pre +++ l +++ post)%string /\ LineStart pre /\ LineEnd post.
Proof.
  intros s l. split.
  - intro I. split; [pose proof (split_on_pieces NL s) as F; rewrite Forall_forall in F; apply F; exact I|].
    revert s I. assert (X : forall ls s, split_on NL s = ls -> In l ls -> exists pre post, s = (pre +++ l +++ post)%string /\ LineStart pre /\ LineEnd post).
    { induction ls as [|h t IH]; intros s E I; [destruct I|].
      pose proof (join_split_on NL s) as J. pose proof (split_on_pieces NL s) as F. rewrite E in J, F. inversion F as [|? ? Hh Ft]; subst.
      destruct t as [|h' t].
      - destruct I as [<-|[]]. cbn [join] in *. exists "", "". cbn. rewrite sapp_nil_r. repeat split; left; reflexivity.
      - change (join (String NL "") (h :: h' :: t)) with (h +++ String NL (join (String NL "") (h' :: t)))%string in *.
        destruct I as [<-|I].
        + exists "", (String NL (join (String NL "") (h' :: t))). repeat split; [left; reflexivity|right; eexists; reflexivity].
        + destruct (IH (join (String NL "") (h' :: t))) as (pre & post & E' & LS & LE); [apply split_on_join; [discriminate|exact Ft]|exact I|].
          exists (h +++ String NL pre)%string, post. split; [rewrite E', sapp_assoc; reflexivity|]. split; [|exact LE].
          right. destruct LS as [->|(p & ->)]; [exists h; reflexivity|exists (h +++ String NL p)%string; rewrite sapp_assoc; reflexivity]. }
    intros s I. eapply X; [reflexivity|exact I].
  - intros (H & pre & post & -> & LS & LE).
    assert (Y : In l (split_on NL (l +++ post))).
    { destruct LE as [->|(p & ->)]; [rewrite sapp_nil_r, split_on_none by exact H; left; reflexivity|rewrite split_on_app by exact H; left; reflexivity]. }
    destruct LS as [->|(p & ->)]; [exact Y|]. rewrite sapp_assoc. cbn [String.append]. rewrite split_on_mid.
    apply in_or_app. right. exact Y.
Qed.
Lemma legacy_lines : forall s, HasMatch s <-> HasPipelineLine s.
Proof.
  intro s. unfold HasMatch, HasPipelineLine. split.
  - intros (pre & ws & post & -> & LS & A & LE). destruct (cut_space ws post A LE) as (ws' & post' & E & A' & L' & H).
    exists ws'. split; [|exact A']. apply line_iff. split; [exact H|]. exists pre, post'. split; [|split; assumption].
    rewrite E, !sapp_assoc. reflexivity.
  - intros (ws & I & A). apply line_iff in I. destruct I as (_ & pre & post & -> & LS & LE). exists pre, ws, post.
    split; [rewrite sapp_assoc; reflexivity|]. auto.
Qed.
Lemma legacyMatch_lines : forall s, legacyMatch s = true <-> HasPipelineLine s.
Proof. intro s. rewrite legacyMatch_spec. apply legacy_lines. Qed.

Section Choice.
  Variable bitbucket : string -> string -> outcome string.
  Variable gitlab : string -> outcome string.
  Variable legacy : string -> string -> outcome string.
  Lemma convert_chosen : forall d m,
    (me_filename m = "bitbucket-pipelines.yml" -> ConvertFile bitbucket gitlab legacy d m = bitbucket d (me_ref m)) /\
    (me_filename m = ".gitlab-ci.yml" -> ConvertFile bitbucket gitlab legacy d m = gitlab d) /\
    (me_filename m <> "bitbucket-pipelines.yml" -> me_filename m <> ".gitlab-ci.yml" -> HasPipelineLine d ->
       ConvertFile bitbucket gitlab legacy d m = legacy d (me_url m)).
  Proof.
    intros d m. unfold ConvertFile. split; [intros ->; reflexivity|]. split; [intros ->; reflexivity|].
    intros A B H. apply String.eqb_neq in A, B. rewrite A, B. apply legacyMatch_lines in H. rewrite H. reflexivity.
  Qed.
  Lemma convert_unchanged : forall d m, me_filename m <> "bitbucket-pipelines.yml" -> me_filename m <> ".gitlab-ci.yml" ->
    ~ HasPipelineLine d -> ConvertFile bitbucket gitlab legacy d m = Ok d.
  Proof.
    intros d m A B H. unfold ConvertFile. apply String.eqb_neq in A, B. rewrite A, B. rewrite <- legacyMatch_lines in H.
    apply not_true_is_false in H. rewrite H. reflexivity.
  Qed.
End Choice.
