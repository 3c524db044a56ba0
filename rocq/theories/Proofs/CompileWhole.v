(** * CompileWhole.v: the compiled spec as a whole: volumes, files, identifiers, images, graph. *)
From Coq Require Import Lia Sorting.Permutation.
From Verif Require Import Model.Go Model.Types Model.Cond Model.Lint Model.Engine Model.Image Model.Quote
  Model.Script Model.Path Model.Encode Model.Compiler Spec.LintSpec Spec.ImageSpec Spec.CompileSpec
  Proofs.GoFacts Proofs.MapFacts Proofs.LintFacts Proofs.ImageFacts Proofs.CompilePure Proofs.CompileFacts Proofs.CompileSteps Proofs.ScriptFacts.

Lemma positions_In dr cs src : In src cs -> forall n, exists pos, In (pos, src) (positions dr n cs).
Proof.
  induction cs as [|x cs IH]; intros H n; [destruct H|]. cbn [positions]. destruct H as [->|H].
  - exists n. left. reflexivity.
  - destruct (IH H (n + dr x)) as (pos & Hp). exists pos. right. exact Hp.
Qed.
Lemma positions_snd dr cs : forall n, map snd (positions dr n cs) = cs.
Proof. induction cs as [|x cs IH]; intro n; cbn; [reflexivity|]. rewrite IH. reflexivity. Qed.
Lemma flat_map_cons_perm {A B} (a : A -> B) (b : A -> list B) l :
  Permutation (flat_map (fun x => a x :: b x) l) (map a l ++ flat_map b l).
Proof.
  induction l as [|x l IH]; [constructor|]. cbn. constructor. rewrite IH.
  rewrite !app_assoc. apply Permutation_app_tail. apply Permutation_app_comm.
Qed.
Lemma Forall2_split_r {A B} (P : A -> B -> Prop) l r1 b r2 : Forall2 P l (r1 ++ b :: r2) ->
  exists l1 a l2, l = l1 ++ a :: l2 /\ Forall2 P l1 r1 /\ P a b /\ Forall2 P l2 r2.
Proof.
  intro H. apply Forall2_app_inv_r in H as (l1 & l' & H1 & H2 & ->). inversion H2 as [|a b' l2 r2' Ha H2' E1 E2]; subst.
  exists l1, a, l2. auto.
Qed.
Lemma Forall2_map_eq {A B C} (f : A -> C) (g : B -> C) l l' : Forall2 (fun a b => f a = g b) l l' -> map f l = map g l'.
Proof. induction 1; cbn; congruence. Qed.
Lemma Forall2_right {A B} (P : A -> B -> Prop) (Q : B -> Prop) l l' : (forall a b, In a l -> P a b -> Q b) -> Forall2 P l l' -> Forall Q l'.
Proof.
  intros H F. induction F as [|a b l l' Hab _ IH]; constructor.
  - apply (H a b); [left; reflexivity|exact Hab].
  - apply IH. intros x y Hx. apply H. right. exact Hx.
Qed.

Section Whole.
  Variable w : World.
  Variables (c : Compiler) (hostDir : option string) (hostMount : bool) (p : Pipeline) (n n' : nat) (spec : Spec).
  Hypothesis HS : Standard w c hostDir hostMount.
  Hypothesis HK : compileIn w c p n = Ok (spec, n').
  Let K : Compiled w c p n spec := ex_intro _ n' HK.

  Lemma whole_pure : exists steps services vols, Complete p steps services vols /\
    spec = pure w c hostDir hostMount p steps services vols n /\ n' = nEnd (w_rnd w) c hostDir p steps services vols n.
  Proof using HS HK.
    destruct (compile_complete _ _ _ _ _ HK) as (steps & services & vols & HC). exists steps, services, vols.
    split; [exact HC|]. pose proof (compile_pure _ _ _ _ _ _ _ _ n HS HC) as E. assert (X := HK). rewrite E in X. injection X as <- <-. auto.
  Qed.

  Theorem header : RightHeader p spec.
  Proof using HS HK.
    destruct whole_pure as (steps & services & vols & HC & -> & _). unfold RightHeader. cbn. split; [reflexivity|].
    split; [destruct (pi_platform p); reflexivity|]. split; [reflexivity|]. eexists. split; reflexivity.
  Qed.

  (** ** Volumes *)
  Lemma rename_empty q : forall rn : smap string, length (renamesOf (w_rnd w) q rn) = 0 <-> rn = [] /\ forall pos src, In (pos, src) q -> ct_build src = None.
  Proof using.
    induction q as [|[pos src] q IH]; intro rn; cbn [renamesOf].
    - split; [intro H; split; [destruct rn; [reflexivity|discriminate]|intros ? ? []]|]. intros [-> _]. reflexivity.
    - rewrite IH. unfold renameOf. cbn [fst snd]. split.
      + intros [H1 H2]. destruct (ct_build src) eqn:E.
        * exfalso. destruct rn as [|[k v] rn]; [discriminate|]. cbn in H1. destruct (String.eqb _ _); discriminate.
        * split; [exact H1|]. intros pos' src' [[= <- <-]|H]; [exact E|eauto].
      + intros [-> H]. rewrite (H pos src) by (left; reflexivity). split; [reflexivity|]. intros pos' src' Hin. apply (H pos'). right. exact Hin.
  Qed.
  Lemma rename_build steps pos : Nat.ltb 0 (length (renamesOf (w_rnd w) (positions (stepDraws p) pos steps) [])) = true <->
    exists src b, In src steps /\ ct_build src = Some b.
  Proof using.
    rewrite Nat.ltb_lt. split.
    - intro H.
      assert (D : (exists src b, In src steps /\ ct_build src = Some b) \/ forall src, In src steps -> ct_build src = None).
      { clear H. induction steps as [|s ss IH]; [right; intros ? []|]. destruct (ct_build s) eqn:E; [left; exists s, b; split; [left; reflexivity|exact E]|].
        destruct IH as [(src & b & Hin & Hb)|N]; [left; exists src, b; split; [right; exact Hin|exact Hb]|]. right. intros src [<-|Hin]; auto. }
      destruct D as [D|D]; [exact D|]. exfalso.
      assert (Z : length (renamesOf (w_rnd w) (positions (stepDraws p) pos steps) []) = 0).
      { apply rename_empty. split; [reflexivity|]. intros q src Hin. apply D. apply (in_map snd) in Hin. rewrite positions_snd in Hin. exact Hin. }
      lia.
    - intros (src & b & Hin & Hb). destruct (Nat.eq_0_gt_0_cases (length (renamesOf (w_rnd w) (positions (stepDraws p) pos steps) []))) as [Z|Z]; [|exact Z].
      apply rename_empty in Z as [_ Z]. destruct (positions_In (stepDraws p) steps src Hin pos) as (q & Hq). specialize (Z _ _ Hq). congruence.
  Qed.

  Lemma volumesOf_right ns vs : forall m, Forall2 (RightVolume ns) (map VDeclared vs) (volumesOf (w_rnd w) ns vs m).
  Proof using.
    induction vs as [|v vs IH]; intro m; cbn; constructor; auto.
    unfold RightVolume, volumeOf. cbn. split; [|split; reflexivity]. split; [reflexivity|]. destruct (vo_empty v), (vo_host v); split; reflexivity.
  Qed.
  Theorem volumes_ok : exists d, sp_docker spec = Some d /\ RightVolumes p hostDir (md_uid (sp_meta spec)) (dc_volumes d).
  Proof using HS HK.
    destruct whole_pure as (steps & services & vols & HC & -> & _). eexists. split; [reflexivity|]. cbn [dc_volumes].
    unfold RightVolumes. change (md_uid (sp_meta _)) with (w_rnd w n).
    exists (if Nat.ltb 0 (length (pureRename (w_rnd w) c hostDir p steps services vols n)) then [VSocket] else []).
    destruct HC as (H1 & H2 & H3 & _). unfold HasBuild. rewrite H1, H3, !somes_map.
    pose proof (rename_build steps (nSteps c hostDir p services vols n)) as RB. fold (pureRename (w_rnd w) c hostDir p steps services vols n) in RB.
    split; [intro HB; apply RB in HB; rewrite HB; reflexivity|].
    split; [intro HB; rewrite <- RB in HB; apply not_true_is_false in HB; rewrite HB; reflexivity|].
    unfold pureVolumes, workspaceVolumes. rewrite <- app_comm_cons. constructor; [repeat split|].
    apply Forall2_app; [destruct hostDir; repeat constructor|]. apply Forall2_app.
    - apply volumesOf_right.
    - destruct (Nat.ltb _ _); repeat constructor.
  Qed.

  (** ** Identifiers *)
  Lemma volumesOf_uids ns vs : forall m, map (fun v => md_uid (ev_meta v)) (volumesOf (w_rnd w) ns vs m) = map (w_rnd w) (seq m (length vs)).
  Proof using. induction vs as [|v vs IH]; intro m; cbn; [reflexivity|]. rewrite IH. reflexivity. Qed.
  Lemma after_le dr cs : forall m, m <= after dr m cs.
  Proof using. induction cs as [|x cs IH]; intro m; cbn; [lia|]. specialize (IH (m + dr x)). lia. Qed.
  Lemma positions_seq dr cs : forall m, flat_map (fun q => seq (fst q) (dr (snd q))) (positions dr m cs) = seq m (after dr m cs - m).
  Proof using.
    induction cs as [|x cs IH]; intro m; cbn; [rewrite Nat.sub_diag; reflexivity|]. rewrite IH, <- seq_app. f_equal.
    pose proof (after_le dr cs (m + dr x)). lia.
  Qed.
  Lemma block_uids dr (f : Container -> string -> Step) (g : Container -> string -> list File) cs :
    (forall src uid, md_uid (st_meta (f src uid)) = uid) ->
    (forall src m, m :: map (fun _ => S m) (g src (w_rnd w (S m))) = seq m (dr src)) ->
    (forall src uid, Forall (fun x => md_uid (fi_meta x) = uid) (g src uid)) -> forall m,
    Permutation (map (fun s => md_uid (st_meta s)) (map (at_ (w_rnd w) f) (positions dr m cs)) ++
                 map (fun x => md_uid (fi_meta x)) (flat_map (at_next (w_rnd w) g) (positions dr m cs)))
                (map (w_rnd w) (seq m (after dr m cs - m))).
  Proof using.
    intros H1 H2 H3 m. rewrite <- positions_seq. rewrite map_map.
    transitivity (flat_map (fun q : nat * Container => w_rnd w (fst q) :: map (fun x => md_uid (fi_meta x)) (at_next (w_rnd w) g q)) (positions dr m cs)).
    - symmetry. etransitivity; [apply flat_map_cons_perm|]. apply Permutation_app.
      + erewrite map_ext; [reflexivity|]. intros [pos src]. unfold at_. cbn. symmetry. apply H1.
      + replace (flat_map (fun x => map (fun x0 => md_uid (fi_meta x0)) (at_next (w_rnd w) g x)) (positions dr m cs))
          with (map (fun x => md_uid (fi_meta x)) (flat_map (at_next (w_rnd w) g) (positions dr m cs))); [reflexivity|].
        generalize (positions dr m cs). intro l. induction l as [|q l IH]; [reflexivity|]. cbn. rewrite map_app, IH. reflexivity.
    - generalize (positions dr m cs). intro l. replace (map (w_rnd w) (flat_map (fun q => seq (fst q) (dr (snd q))) l))
        with (flat_map (fun q => map (w_rnd w) (seq (fst q) (dr (snd q)))) l).
      2:{ induction l as [|q l IH]; [reflexivity|]. cbn. rewrite map_app, IH. reflexivity. }
      induction l as [|[pos src] l IH]; [constructor|]. cbn [flat_map]. apply Permutation_app; [|exact IH]. cbn [fst snd].
      rewrite <- H2. cbn [map]. constructor. unfold at_next. cbn [fst snd]. rewrite map_map.
      erewrite map_ext_in; [reflexivity|]. intros x Hx. specialize (H3 src (w_rnd w (S pos))). rewrite Forall_forall in H3. apply H3, Hx.
  Qed.
  Lemma renameSteps_uid rn ss : forall i, map (fun s => md_uid (st_meta s)) (renameSteps (w_available w) (w_ord w) i rn ss) = map (fun s => md_uid (st_meta s)) ss.
  Proof using. induction ss as [|s ss IH]; intro i; cbn; [reflexivity|]. rewrite IH. reflexivity. Qed.

  Theorem uids_ok : Permutation (uidsOf spec) (map (w_rnd w) (seq n (n' - n))).
  Proof using HS HK.
    destruct whole_pure as (steps & services & vols & HC & -> & ->). unfold uidsOf, pure, pureSpec.
    cbn [specOf sp_meta sp_docker sp_steps sp_files dc_volumes initialSpec md_uid].
    set (rnd := w_rnd w). rewrite renameSteps_uid. unfold pureVolumes, pureSteps, pureFiles, nEnd. fold rnd.
    set (ren := Nat.ltb 0 (length (pureRename rnd c hostDir p steps services vols n))).
    set (a := nServices c hostDir p vols n). set (b := nSteps c hostDir p services vols n). set (e := nSocket c hostDir p steps services vols n).
    rewrite !map_app, volumesOf_uids. fold rnd.
    assert (L1 : a <= b) by apply after_le. assert (L2 : b <= e) by apply after_le.
    set (glob := w_glob w). set (av := w_available w). set (ph := w_isPrintHigh w). set (ff := w_formatFloat w). set (tj := w_toJSON w).
    set (ver := serial steps).
    assert (BS : Permutation (map (fun s => md_uid (st_meta s)) (pureServiceSteps rnd glob av ph ff tj c hostDir hostMount p steps services vols n) ++
       map (fun x => md_uid (fi_meta x)) (flat_map (at_next rnd (filesOf ph (rnd n) p)) (positions (draws p) a services))) (map rnd (seq a (b - a)))).
    { apply block_uids; [reflexivity| |].
      - intros src m. unfold filesOf, draws. destruct (_ && _); reflexivity.
      - intros src uid. unfold filesOf. destruct (_ && _); repeat constructor. }
    assert (BP : Permutation (map (fun s => md_uid (st_meta s)) (purePipelineSteps rnd glob av ph ff tj c hostDir hostMount p steps services vols n) ++
       map (fun x => md_uid (fi_meta x)) (flat_map (at_next rnd (stepFiles ph (rnd n) p)) (positions (stepDraws p) b steps))) (map rnd (seq b (e - b)))).
    { apply block_uids.
      - intros src uid. unfold pipelineStep, baseStep. destruct (ct_build src); reflexivity.
      - intros src m. unfold stepFiles, stepDraws, filesOf, draws. destruct (ct_build src); [reflexivity|]. destruct (_ && _); reflexivity.
      - intros src uid. unfold stepFiles, filesOf. destruct (ct_build src); [constructor|]. destruct (_ && _); repeat constructor. }
    assert (BC : Permutation (map (fun s => md_uid (st_meta s)) (pureCloneSteps rnd glob av ph ff tj c hostDir hostMount p vols n) ++
       map (fun x => md_uid (fi_meta x)) (if cl_disable (pi_clone p) then [] else gitFiles (rnd n) c (rnd (S (nClone hostDir vols n)))))
       (map rnd (seq (nClone hostDir vols n) (a - nClone hostDir vols n)))).
    { unfold pureCloneSteps, a, nServices. destruct (cl_disable (pi_clone p)).
      - rewrite Nat.sub_diag. constructor.
      - unfold gitFiles, gitDraws. destruct (isEmpty (gitCredentials c)).
        + replace (S (nClone hostDir vols n) + 0 - nClone hostDir vols n) with 1 by lia. reflexivity.
        + replace (S (nClone hostDir vols n) + 1 - nClone hostDir vols n) with 2 by lia. reflexivity. }
    assert (LC : nClone hostDir vols n <= a) by (unfold a, nServices; destruct (cl_disable _); lia).
    assert (BW : map (fun v => md_uid (ev_meta v)) (workspaceVolumes rnd hostDir (rnd n) (S n)) = map rnd (seq (S n) (workspaceDraws hostDir))).
    { unfold workspaceVolumes, workspaceDraws. destruct hostDir; reflexivity. }
    rewrite BW.
    set (nv := nVolumes hostDir n) in *. set (nc := nClone hostDir vols n) in *.
    assert (Enc : nc = nv + length vols) by reflexivity. assert (Env : nv = S n + workspaceDraws hostDir) by reflexivity.
    replace (seq n ((if ren then S e else e) - n)) with
      (n :: seq (S n) (workspaceDraws hostDir) ++ seq nv (length vols) ++ seq nc (a - nc) ++ seq a (b - a) ++ seq b (e - b) ++ seq e (if ren then 1 else 0)).
    2:{ replace ((if ren then S e else e) - n) with (S (workspaceDraws hostDir + (length vols + ((a - nc) + ((b - a) + ((e - b) + (if ren then 1 else 0))))))) by (destruct ren; lia).
        cbn [seq]. f_equal. rewrite !seq_app.
        replace (S n + workspaceDraws hostDir) with nv by lia. replace (nv + length vols) with nc by lia.
        replace (nc + (a - nc)) with a by lia. replace (a + (b - a)) with b by lia. replace (b + (e - b)) with e by lia. reflexivity. }
    cbn [map]. constructor. rewrite !map_app.
    assert (BK : map (fun v => md_uid (ev_meta v)) (if ren then [socketVolume (rnd n) (rnd e)] else []) = map rnd (seq e (if ren then 1 else 0))) by (destruct ren; reflexivity).
    rewrite BK. rewrite <- BC, <- BS, <- BP, <- !app_assoc. do 2 apply Permutation_app_head.
    match goal with |- Permutation (?s ++ ?c1 ++ ?s1 ++ ?p1 ++ ?c2 ++ ?s2 ++ ?p2) _ =>
      generalize s c1 s1 p1 c2 s2 p2 end. clear.
    intros s c1 s1 p1 c2 s2 p2.
    etransitivity; [apply Permutation_app_comm|]. rewrite <- !app_assoc. apply Permutation_app_head.
    transitivity (c2 ++ (s1 ++ p1) ++ (s2 ++ p2 ++ s)).
    { rewrite <- !app_assoc. rewrite (app_assoc s1 p1), (app_assoc s1 p1). apply Permutation_app_swap_app. }
    apply Permutation_app_head. rewrite <- !app_assoc. apply Permutation_app_head. apply Permutation_app_swap_app.
  Qed.

  Theorem uids_distinct : (forall i j, w_rnd w i = w_rnd w j -> i = j) -> NoDup (uidsOf spec).
  Proof using HS HK.
    intro H. eapply Permutation_NoDup; [symmetry; apply uids_ok|]. apply FinFun.Injective_map_NoDup; [exact H|apply seq_NoDup].
  Qed.

  Theorem namespaces : forall ns, ns = md_uid (sp_meta spec) ->
    Forall (fun s => md_namespace (st_meta s) = ns) (sp_steps spec) /\ Forall (fun f => md_namespace (fi_meta f) = ns) (sp_files spec) /\
    (hostDir = None -> exists d, sp_docker spec = Some d /\ Forall (fun v => md_namespace (ev_meta v) = ns) (dc_volumes d)).
  Proof using HS HK K.
    intros ns ->. split; [|split].
    - eapply Forall2_right; [|eapply (by_steps w c hostDir hostMount p n spec HS K (fun _ s => md_namespace (st_meta s) = md_uid (sp_meta spec)))].
      + cbn. auto.
      + intros steps services vols HC. destruct (compiled_pure _ _ _ _ _ _ _ HS K) as (st & se & vo & _ & E).
        rewrite E. split; [|split]; intros; try reflexivity. unfold theStep, pipelineStep, baseStep. destruct (ct_build src); reflexivity.
    - destruct whole_pure as (steps & services & vols & HC & -> & _). cbn [pure pureSpec specOf sp_files]. unfold pure, pureSpec. cbn [specOf sp_files].
      unfold pureFiles. rewrite !Forall_app. split; [|split].
      + unfold gitFiles. destruct (cl_disable _); [constructor|]. destruct (isEmpty _); repeat constructor.
      + apply Forall_forall. intros f Hf. apply in_flat_map in Hf as ([pos src] & _ & Hf). unfold at_next, filesOf in Hf.
        destruct (_ && _); [|destruct Hf]. destruct Hf as [<-|[]]. reflexivity.
      + apply Forall_forall. intros f Hf. apply in_flat_map in Hf as ([pos src] & _ & Hf). unfold at_next, stepFiles, filesOf in Hf. cbn [snd] in Hf.
        destruct (ct_build src); [destruct Hf|]. destruct (_ && _); [|destruct Hf]. destruct Hf as [<-|[]]. reflexivity.
    - intro EH. destruct volumes_ok as (d & E & sock & Hs1 & Hs2 & F). exists d. split; [exact E|]. rewrite EH in F.
      eapply Forall2_right; [|exact F]. intros a v Ha [_ H]. destruct a; try (destruct H; assumption).
      exfalso. destruct Ha as [Ha|Ha]; [discriminate|]. cbn in Ha. apply in_app_iff in Ha as [Ha|Ha].
      + apply in_map_iff in Ha as (x & Ha & _). discriminate.
      + assert (S : sock = [] \/ sock = [VSocket]).
        { destruct whole_pure as (steps & services & vols & (H1 & _) & _).
          destruct (Nat.ltb 0 (length (renamesOf (w_rnd w) (positions (stepDraws p) 0 steps) []))) eqn:R.
          - right. apply Hs1. apply rename_build in R. unfold HasBuild. rewrite H1, somes_map. exact R.
          - left. apply Hs2. unfold HasBuild. rewrite H1, somes_map, <- rename_build. rewrite R. discriminate. }
        destruct S as [->| ->]; cbn in Ha; [destruct Ha|destruct Ha as [Ha|[]]; discriminate].
  Qed.

  (** ** Files *)
  Lemma files_of_service steps services vols src :
    hasCommands src && negb (String.eqb (pl_os (pi_platform p)) "windows") = true -> In src services ->
    exists f, In f (pureFiles (w_rnd w) (w_isPrintHigh w) c hostDir p steps services vols n) /\ md_name (fi_meta f) = ct_name src /\
      fi_data f = script (w_isPrintHigh w) (ct_commands src).
  Proof using.
    intros H Hin. destruct (positions_In (draws p) services src Hin (nServices c hostDir p vols n)) as (pos & Hp).
    eexists. split.
    - unfold pureFiles. apply in_or_app. right. apply in_or_app. left. apply in_flat_map. exists (pos, src). split; [exact Hp|].
      unfold at_next, filesOf. cbn [snd fst]. rewrite H. left. reflexivity.
    - split; reflexivity.
  Qed.
  Lemma files_of_step steps services vols src : ct_build src = None ->
    hasCommands src && negb (String.eqb (pl_os (pi_platform p)) "windows") = true -> In src steps ->
    exists f, In f (pureFiles (w_rnd w) (w_isPrintHigh w) c hostDir p steps services vols n) /\ md_name (fi_meta f) = ct_name src /\
      fi_data f = script (w_isPrintHigh w) (ct_commands src).
  Proof using.
    intros HB H Hin. destruct (positions_In (stepDraws p) steps src Hin (nSteps c hostDir p services vols n)) as (pos & Hp).
    eexists. split.
    - unfold pureFiles. apply in_or_app. right. apply in_or_app. right. apply in_flat_map. exists (pos, src). split; [exact Hp|].
      unfold at_next, stepFiles, filesOf. cbn [snd fst]. rewrite HB, H. left. reflexivity.
    - split; reflexivity.
  Qed.

  Theorem scripts_ok : Forall2 (fun o s => RightScript w p o s (sp_files spec)) (origins p) (sp_steps spec).
  Proof using HS HK.
    destruct whole_pure as (steps & services & vols & HC & -> & _).
    apply steps_all; [exact HC| | |].
    - intros _ uid img. split; [|]; [unfold theClone, cloneStep|]; reflexivity.
    - intros src uid img Hin. cbn [RightScript]. split; [|split].
      + intro E. cbn. unfold commandOf, argsOf, fileMountsOf. apply hasCommands_false in E. rewrite E. repeat split.
      + intros E NW. cbn. unfold commandOf, argsOf, fileMountsOf, Windows in *. apply hasCommands_iff in E. rewrite E.
        destruct (String.eqb_spec (pl_os (pi_platform p)) "windows") as [X|X]; [contradiction|]. cbn [andb negb].
        split; [reflexivity|]. split; [reflexivity|]. split; [reflexivity|].
        destruct (files_of_service steps services vols src) as (f & Hf & Nf & Df); [rewrite E; apply String.eqb_neq in X; rewrite X; reflexivity|exact Hin|].
        exists f. split; [exact Hf|]. split; [exact Nf|]. rewrite Df. apply script_text.
      + intros E W. cbn. unfold commandOf, argsOf, fileMountsOf, Windows in *. apply hasCommands_iff in E. rewrite E, W. repeat split.
    - intros src uid img Hin. cbn [RightScript]. unfold theStep, pipelineStep, baseStep. destruct (ct_build src) eqn:EB.
      + repeat split.
      + split; [|split].
      * intro E. cbn. unfold commandOf, argsOf, fileMountsOf. apply hasCommands_false in E. rewrite E. repeat split.
      * intros E NW. cbn. unfold commandOf, argsOf, fileMountsOf, Windows in *. apply hasCommands_iff in E. rewrite E.
        destruct (String.eqb_spec (pl_os (pi_platform p)) "windows") as [X|X]; [contradiction|]. cbn [andb negb].
        split; [reflexivity|]. split; [reflexivity|]. split; [reflexivity|].
        destruct (files_of_step steps services vols src) as (f & Hf & Nf & Df); [exact EB|rewrite E; apply String.eqb_neq in X; rewrite X; reflexivity|exact Hin|].
        exists f. split; [exact Hf|]. split; [exact Nf|]. rewrite Df. apply script_text.
      * intros E W. cbn. unfold commandOf, argsOf, fileMountsOf, Windows in *. apply hasCommands_iff in E. rewrite E, W. repeat split.
  Qed.

  (** The clone step mounts the credentials, when there are any. *)
  Theorem clone_credentials :
    Forall2 (fun o s => o = FromClone ->
      (forall data, co_git c = Some data -> data <> "" ->
         st_files s = [{| fm_name := ".git-credentials"; fm_path := "/root/.git-credentials"; fm_mode := 0 |}] /\
         exists f, In f (sp_files spec) /\ md_name (fi_meta f) = ".git-credentials" /\ fi_data f = data) /\
      (co_git c = None \/ co_git c = Some "" -> st_files s = [])) (origins p) (sp_steps spec).
  Proof using HS HK.
    destruct whole_pure as (steps & services & vols & HC & -> & _).
    apply steps_all; [exact HC| | |]; try discriminate. intros D uid img _. split.
    - intros data E Ne. change (st_files _) with (gitMounts c). unfold gitMounts, gitCredentials. rewrite E. apply isEmpty_false in Ne. rewrite Ne.
      split; [reflexivity|]. eexists. split.
      + unfold pure, pureSpec. cbn [specOf sp_files]. unfold pureFiles. rewrite D. apply in_or_app. left. unfold gitFiles, gitCredentials. rewrite E, Ne. left. reflexivity.
      + split; reflexivity.
    - intro E. change (st_files _) with (gitMounts c). unfold gitMounts, gitCredentials. destruct E as [-> | ->]; reflexivity.
  Qed.

  Theorem file_mounts : forall s m, In s (sp_steps spec) -> In m (st_files s) ->
    exists f, In f (sp_files spec) /\ fileNamed (fm_name m) f.
  Proof using HS HK.
    assert (F : Forall2 (fun _ s => forall m, In m (st_files s) -> exists f, In f (sp_files spec) /\ fileNamed (fm_name m) f) (origins p) (sp_steps spec)).
    { destruct whole_pure as (steps & services & vols & HC & -> & _). apply steps_all; [exact HC| | |].
      - intros D uid img m Hm. change (st_files _) with (gitMounts c) in Hm. unfold pure, pureSpec. cbn [specOf sp_files]. unfold pureFiles.
        rewrite D. unfold gitMounts, gitFiles in *. destruct (isEmpty (gitCredentials c)); [destruct Hm|]. destruct Hm as [<-|[]].
        eexists. split; [left; reflexivity|reflexivity].
      - intros src uid img Hin m Hm. change (st_files _) with (fileMountsOf p src) in Hm. unfold fileMountsOf in Hm.
        destruct (_ && _) eqn:E; [|destruct Hm]. destruct Hm as [<-|[]].
        destruct (files_of_service steps services vols src E Hin) as (f & Hf & Nf & _). exists f. split; [exact Hf|exact Nf].
      - intros src uid img Hin m Hm. unfold theStep, pipelineStep, baseStep in Hm. destruct (ct_build src) eqn:EB; [destruct Hm|].
        change (st_files _) with (fileMountsOf p src) in Hm. unfold fileMountsOf in Hm.
        destruct (_ && _) eqn:E; [|destruct Hm]. destruct Hm as [<-|[]].
        destruct (files_of_step steps services vols src EB E Hin) as (f & Hf & Nf & _). exists f. split; [exact Hf|exact Nf]. }
    intros s m Hs. apply (Forall2_right _ (fun s => forall m, In m (st_files s) -> exists f, In f (sp_files spec) /\ fileNamed (fm_name m) f)) in F; [|auto].
    rewrite Forall_forall in F. exact (F s Hs m).
  Qed.

  Lemma file_names_sub (g : Container -> string -> list File) q :
    (forall src uid, map (fun f => md_name (fi_meta f)) (g src uid) = [] \/ map (fun f => md_name (fi_meta f)) (g src uid) = [ct_name src]) ->
    NoDup (map ct_name (map snd q)) ->
    NoDup (map (fun f => md_name (fi_meta f)) (flat_map (at_next (w_rnd w) g) q)) /\
    incl (map (fun f => md_name (fi_meta f)) (flat_map (at_next (w_rnd w) g) q)) (map ct_name (map snd q)).
  Proof using.
    intros H. induction q as [|[pos src] q IH]; cbn [map flat_map]; [intro; split; [constructor|intros ? []]|]. intro ND.
    apply NoDup_cons_iff in ND as [Nx ND]. destruct (IH ND) as [I1 I2]. rewrite map_app. unfold at_next at 1 3. cbn [fst snd].
    destruct (H src (w_rnd w (S pos))) as [E|E]; rewrite E; cbn [app].
    - split; [exact I1|]. intros x Hx. right. exact (I2 x Hx).
    - split; [constructor; [|exact I1]; intro Hx; exact (Nx (I2 _ Hx))|]. intros x [<-|Hx]; [left; reflexivity|right; exact (I2 x Hx)].
  Qed.
  Theorem file_mounts_unique trusted steps services vols : NoNulls p steps services vols -> Lint (RPipeline p) trusted = Ok tt ->
    ~ In ".git-credentials" (map ct_name (steps ++ services)) -> NoDup (map (fun f => md_name (fi_meta f)) (sp_files spec)).
  Proof using HS HK.
    intros HN HL NG. destruct whole_pure as (steps' & services' & vols' & HC & E & _).
    destruct HN as (N1 & N2 & N3 & N4). pose proof HC as (C1 & C2 & C3 & _).
    assert (steps' = steps) as -> by (rewrite C1 in N1; apply (f_equal present) in N1; rewrite !somes_map in N1; exact N1).
    assert (services' = services) as -> by (rewrite C2 in N2; apply (f_equal present) in N2; rewrite !somes_map in N2; exact N2).
    apply (checkPipeline_ok trusted p steps services vols) in HL; [|split; [|split; [|split]]; assumption].
    destruct HL as (_ & _ & _ & ND & _). apply NoDup_app_r in ND. rewrite map_app in ND.
    apply (Permutation_NoDup (Permutation_app_comm _ _)) in ND. apply NoDup_app_iff in ND as (D1 & D2 & D3).
    rewrite E. unfold pure, pureSpec. cbn [specOf sp_files]. unfold pureFiles. rewrite !map_app.
    destruct (file_names_sub (filesOf (w_isPrintHigh w) (w_rnd w n) p) (positions (draws p) (nServices c hostDir p vols' n) services)) as [A1 A2].
    { intros src uid. unfold filesOf. destruct (_ && _); auto. }
    { rewrite positions_snd. exact D1. }
    destruct (file_names_sub (stepFiles (w_isPrintHigh w) (w_rnd w n) p) (positions (stepDraws p) (nSteps c hostDir p services vols' n) steps)) as [B1 B2].
    { intros src uid. unfold stepFiles, filesOf. destruct (ct_build src); [auto|]. destruct (_ && _); auto. }
    { rewrite positions_snd. exact D2. }
    rewrite positions_snd in A2, B2.
    assert (AB : NoDup (map (fun f => md_name (fi_meta f)) (flat_map (at_next (w_rnd w) (filesOf (w_isPrintHigh w) (w_rnd w n) p)) (positions (draws p) (nServices c hostDir p vols' n) services)) ++
      map (fun f => md_name (fi_meta f)) (flat_map (at_next (w_rnd w) (stepFiles (w_isPrintHigh w) (w_rnd w n) p)) (positions (stepDraws p) (nSteps c hostDir p services vols' n) steps)))).
    { apply NoDup_app_iff. split; [exact A1|]. split; [exact B1|]. intros x Hx Hy. exact (D3 x (A2 x Hx) (B2 x Hy)). }
    assert (GI : forall x, In x (map (fun f => md_name (fi_meta f)) (flat_map (at_next (w_rnd w) (filesOf (w_isPrintHigh w) (w_rnd w n) p)) (positions (draws p) (nServices c hostDir p vols' n) services)) ++
      map (fun f => md_name (fi_meta f)) (flat_map (at_next (w_rnd w) (stepFiles (w_isPrintHigh w) (w_rnd w n) p)) (positions (stepDraws p) (nSteps c hostDir p services vols' n) steps))) -> x <> ".git-credentials").
    { intros x Hx ->. apply NG. rewrite map_app. apply in_app_iff in Hx as [Hx|Hx]; apply in_or_app; [right; exact (A2 _ Hx)|left; exact (B2 _ Hx)]. }
    destruct (cl_disable (pi_clone p)); [exact AB|]. unfold gitFiles. destruct (isEmpty (gitCredentials c)); [exact AB|].
    cbn [map app fi_meta md_name]. constructor; [|exact AB]. intro Hx. exact (GI _ Hx eq_refl).
  Qed.
End Whole.
