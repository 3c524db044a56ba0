(** * Filter.v: filters among other transforms. *)
From Coq Require Import Sorting.Permutation.
From Verif Require Import Model.Go Model.Types Model.Cond Model.Engine Model.Compiler Model.Transform
  Spec.CompileSpec Spec.TransformSpec Spec.FilterSpec Proofs.GoFacts.

(** Steps switched off by a mask. *)
Fixpoint offs (m : list bool) (l : list Step) : list Step :=
  match m, l with
  | b :: m', s :: l' => (if b then set_policy RunNever s else s) :: offs m' l'
  | _, _ => l
  end.
Definition offSpec (m : list bool) (spec : Spec) : Spec := sp_set_steps (offs m (sp_steps spec)) spec.
Definition namesIn (spec : Spec) : list string := map stepName (sp_steps spec).
Fixpoint resumeMask (name : string) (names : list string) : list bool :=
  match names with
  | [] => []
  | x :: names' => if String.eqb x name then [] else negb (String.eqb x "clone") :: resumeMask name names'
  end.
Definition mask (f : Filter) (names : list string) : list bool :=
  match f with
  | Including ns => map (fun x => negb (String.eqb x "clone") && negb (Nat.eqb (length ns) 0) && negb (smem x ns)) names
  | Excluding ns => map (fun x => negb (String.eqb x "clone") && negb (Nat.eqb (length ns) 0) && smem x ns) names
  | Resuming n => if isEmpty n then [] else resumeMask n names
  end.
Lemma set_same spec : sp_set_steps (sp_steps spec) spec = spec.
Proof. destruct spec. reflexivity. Qed.
Lemma offs_map p l : offs (map (fun x => p (stepName x)) l) l = map (fun s => if p (stepName s) then set_policy RunNever s else s) l.
Proof. induction l; cbn; congruence. Qed.
Lemma offs_none {A} (l : list A) l' : offs (map (fun _ => false) l) l' = l'.
Proof. revert l'. induction l as [|a l IH]; intros [|s l']; cbn; rewrite ?IH; reflexivity. Qed.
Lemma filtered_mask f spec : filtered f spec = offSpec (mask f (namesIn spec)) spec.
Proof.
  unfold offSpec, namesIn. destruct f as [ns|ns|n]; cbn [filtered mask].
  - unfold Include. rewrite map_map, (offs_map (fun x => negb (String.eqb x "clone") && negb (Nat.eqb (length ns) 0) && negb (smem x ns))).
    destruct (Nat.eqb (length ns) 0); cbn [negb].
    + rewrite <- (set_same spec) at 1. f_equal. rewrite <- (map_id (sp_steps spec)) at 1. apply map_ext. intros s. rewrite andb_false_r. reflexivity.
    + f_equal. apply map_ext. intros s. unfold includeStep, stepName. destruct (String.eqb _ "clone"); cbn; [reflexivity|]. destruct (smem _ _); reflexivity.
  - unfold Exclude. rewrite map_map, (offs_map (fun x => negb (String.eqb x "clone") && negb (Nat.eqb (length ns) 0) && smem x ns)).
    destruct (Nat.eqb (length ns) 0); cbn [negb].
    + rewrite <- (set_same spec) at 1. f_equal. rewrite <- (map_id (sp_steps spec)) at 1. apply map_ext. intros s. rewrite andb_false_r. reflexivity.
    + f_equal. apply map_ext. intros s. unfold excludeStep, stepName. destruct (String.eqb _ "clone"); cbn; reflexivity.
  - unfold ResumeAt. destruct (isEmpty n); [symmetry; apply set_same|]. f_equal.
    induction (sp_steps spec) as [|s l IH]; [reflexivity|]. cbn. change (md_name (st_meta s)) with (stepName s). destruct (String.eqb (stepName s) n); [reflexivity|].
    rewrite IH. destruct (String.eqb (stepName s) "clone"); reflexivity.
Qed.
Lemma offs_names m l : map stepName (offs m l) = map stepName l.
Proof. revert l. induction m as [|b m IH]; intros [|s l]; cbn; try reflexivity. rewrite IH. destruct b; reflexivity. Qed.
Lemma off_names m spec : namesIn (offSpec m spec) = namesIn spec.
Proof. unfold namesIn, offSpec. apply offs_names. Qed.
Lemma offs_swap m m' l : offs m (offs m' l) = offs m' (offs m l).
Proof.
  revert m' l. induction m as [|b m IH]; intros [|b' m'] [|s l]; cbn; try reflexivity. rewrite IH. destruct b, b'; reflexivity.
Qed.
Lemma offs_twice m l : offs m (offs m l) = offs m l.
Proof. revert l. induction m as [|b m IH]; intros [|s l]; cbn; try reflexivity. rewrite IH. destruct b; reflexivity. Qed.
Lemma off_swap m m' spec : offSpec m (offSpec m' spec) = offSpec m' (offSpec m spec).
Proof. unfold offSpec. cbn. rewrite offs_swap. reflexivity. Qed.
Lemma off_twice m spec : offSpec m (offSpec m spec) = offSpec m spec.
Proof. unfold offSpec. cbn. rewrite offs_twice. reflexivity. Qed.
Lemma filtered_swap f g spec : filtered f (filtered g spec) = filtered g (filtered f spec).
Proof. rewrite !filtered_mask, !off_names. apply off_swap. Qed.
Lemma filtered_twice f spec : filtered f (filtered f spec) = filtered f spec.
Proof. rewrite !filtered_mask, !off_names. apply off_twice. Qed.

(** ** Transforms that do not look at the policies *)
Definition Blind (T : Spec -> M Spec) : Prop := forall spec n,
  match T spec n with
  | Ok (s, k) => namesIn s = namesIn spec /\ forall m, T (offSpec m spec) n = Ok (offSpec m s, k)
  | Err e => forall m, T (offSpec m spec) n = Err e
  | Panic => forall m, T (offSpec m spec) n = Panic
  end.
Lemma blind_ret T : (forall spec, namesIn (T spec) = namesIn spec /\ forall m, T (offSpec m spec) = offSpec m (T spec)) -> Blind (fun spec => mret (T spec)).
Proof. intros H spec n. destruct (H spec) as (A & B). cbn. split; [exact A|]. intro m. unfold mret. rewrite B. reflexivity. Qed.
Lemma blind_bind T U : Blind T -> Blind U -> Blind (fun spec => mbind (T spec) U).
Proof.
  intros HT HU spec n. specialize (HT spec n). unfold mbind. destruct (T spec n) as [[s k]|e|].
  - destruct HT as (A & B). specialize (HU s k). destruct (U s k) as [[s' k']|e|].
    + destruct HU as (C & D). split; [congruence|]. intro m. rewrite B. apply D.
    + intro m. rewrite B. apply HU.
    + intro m. rewrite B. apply HU.
  - intro m. rewrite HT. reflexivity.
  - intro m. rewrite HT. reflexivity.
Qed.
Lemma blind_ext T U : (forall spec n, T spec n = U spec n) -> Blind T -> Blind U.
Proof. intros E H spec n. specialize (H spec n). rewrite E in H. destruct (U spec n) as [[s k]| |]; [destruct H as (A & B); split; [exact A|]; intro m; rewrite <- E; apply B|intro m; rewrite <- E; apply H..]. Qed.
(** Functions on steps that do not look at the policy. *)
Definition BlindStep (g : Step -> outcome Step) : Prop := forall s,
  match g s with
  | Ok t => stepName t = stepName s /\ g (set_policy RunNever s) = Ok (set_policy RunNever t)
  | Err e => g (set_policy RunNever s) = Err e
  | Panic => g (set_policy RunNever s) = Panic
  end.
Lemma blind_steps g : BlindStep g -> forall l,
  match otraverse g l with
  | Ok l' => map stepName l' = map stepName l /\ forall m, otraverse g (offs m l) = Ok (offs m l')
  | Err e => forall m, otraverse g (offs m l) = Err e
  | Panic => forall m, otraverse g (offs m l) = Panic
  end.
Proof.
  intros H. induction l as [|s l IH]; [split; [reflexivity|intros []; reflexivity]|].
  cbn [otraverse]. pose proof (H s) as Hs.
  assert (K : forall b : bool, match g s with Ok t => g (if b then set_policy RunNever s else s) = Ok (if b then set_policy RunNever t else t)
    | Err e => g (if b then set_policy RunNever s else s) = Err e | Panic => g (if b then set_policy RunNever s else s) = Panic end).
  { intros []; destruct (g s); try apply Hs; reflexivity. }
  destruct (g s) as [t|e|] eqn:G; cbn [obind].
  - destruct Hs as (N & _). destruct (otraverse g l) as [l'|e|] eqn:E; cbn [obind].
    + destruct IH as (A & B). split; [cbn; congruence|]. intros [|b m]; [cbn; rewrite G; cbn; rewrite E; reflexivity|].
      cbn [offs otraverse]. rewrite K. cbn [obind]. rewrite B. reflexivity.
    + intros [|b m]; [cbn; rewrite G; cbn; rewrite E; reflexivity|]. cbn [offs otraverse]. rewrite K. cbn [obind]. rewrite IH. reflexivity.
    + intros [|b m]; [cbn; rewrite G; cbn; rewrite E; reflexivity|]. cbn [offs otraverse]. rewrite K. cbn [obind]. rewrite IH. reflexivity.
  - intros [|b m]; [cbn; rewrite G; reflexivity|]. cbn [offs otraverse]. rewrite K. reflexivity.
  - intros [|b m]; [cbn; rewrite G; reflexivity|]. cbn [offs otraverse]. rewrite K. reflexivity.
Qed.
Lemma blind_each g : BlindStep g -> Blind (fun spec => mlift (eachStep g spec)).
Proof.
  intros H spec n. pose proof (blind_steps g H (sp_steps spec)) as K. unfold mlift, eachStep.
  assert (S : forall m, sp_steps (offSpec m spec) = offs m (sp_steps spec)) by reflexivity.
  destruct (otraverse g (sp_steps spec)) as [l| |]; cbn [obind].
  - destruct K as (A & B). split; [exact A|]. intro m. rewrite S, B. reflexivity.
  - intro m. rewrite S, K. reflexivity.
  - intro m. rewrite S, K. reflexivity.
Qed.
Lemma blind_map g : (forall s, stepName (g s) = stepName s /\ g (set_policy RunNever s) = set_policy RunNever (g s)) ->
  forall spec, namesIn (sp_set_steps (map g (sp_steps spec)) spec) = namesIn spec /\
  forall m, sp_set_steps (map g (sp_steps (offSpec m spec))) (offSpec m spec) = offSpec m (sp_set_steps (map g (sp_steps spec)) spec).
Proof.
  intros H spec. split.
  - unfold namesIn. cbn. rewrite map_map. apply map_ext. intro s. apply H.
  - intro m. unfold offSpec, sp_set_steps. cbn. f_equal. generalize (sp_steps spec). clear -H. induction m as [|b m IH]; intros [|s l]; cbn; try reflexivity.
    rewrite IH. f_equal. destruct b; [apply H|reflexivity].
Qed.
Lemma blind_compose g h : BlindStep g -> BlindStep h -> BlindStep (fun s => obind (g s) h).
Proof.
  intros G H s. specialize (G s). destruct (g s) as [t|e|]; cbn [obind]; [|rewrite G; reflexivity..].
  destruct G as (A & B). specialize (H t). rewrite B. cbn [obind]. destruct (h t); [destruct H; split; congruence|exact H..].
Qed.
Lemma setEnv_blind k v : BlindStep (setEnv k v).
Proof. intros s. unfold setEnv. cbn. destruct (st_envs s); cbn; [split; reflexivity|reflexivity]. Qed.
Lemma environ_blind envs : Blind (fun spec => mlift (WithEnviron envs spec)).
Proof.
  induction envs as [|[k v] envs IH]; [apply (blind_ret (fun spec => spec)); intro; split; reflexivity|].
  eapply blind_ext; [|apply (blind_bind _ _ (blind_each _ (setEnv_blind k v)) IH)].
  intros spec n. cbn [WithEnviron]. unfold mbind, mlift. destruct (eachStep _ spec); reflexivity.
Qed.
Lemma netrc_blind m u p : Blind (fun spec => mlift (WithNetrc m u p spec)).
Proof.
  unfold WithNetrc. destruct (isEmpty u || isEmpty p); [apply (blind_ret (fun spec => spec)); intro; split; reflexivity|].
  apply blind_each. intros [? ? ? ? ? [e|] ? ? ? ? ? ? ? ? ?]; split; reflexivity.
Qed.
Lemma labels_meta labels m : match addLabels labels m with Ok m' => md_name m' = md_name m | _ => True end.
Proof.
  revert m. induction labels as [|[k v] labels IH]; intro m; cbn; [reflexivity|]. destruct (md_labels m); cbn; [|exact I].
  specialize (IH {| md_uid := md_uid m; md_namespace := md_namespace m; md_name := md_name m; md_labels := Some (mset k v s) |}).
  destruct (addLabels labels _); auto.
Qed.
Lemma label_steps ord labels l : forall i,
  match labelSteps ord labels i l with
  | Ok l' => map stepName l' = map stepName l /\ forall m, labelSteps ord labels i (offs m l) = Ok (offs m l')
  | Err e => forall m, labelSteps ord labels i (offs m l) = Err e
  | Panic => forall m, labelSteps ord labels i (offs m l) = Panic
  end.
Proof.
  induction l as [|s l IH]; intro i; [split; [reflexivity|intros []; reflexivity]|]. cbn [labelSteps]. specialize (IH (S i)).
  pose proof (labels_meta (ord i labels) (st_meta s)) as N. destruct (addLabels (ord i labels) (st_meta s)) as [me|e|] eqn:E; cbn [obind].
  - destruct (labelSteps ord labels (S i) l) as [l'|e|] eqn:F; cbn [obind].
    + destruct IH as (A & B). split; [cbn; unfold stepName at 1; cbn; rewrite N, A; reflexivity|].
      intros [|b m]; [cbn; rewrite E; cbn; rewrite F; reflexivity|]. cbn [offs labelSteps].
      assert (M : st_meta (if b then set_policy RunNever s else s) = st_meta s) by (destruct b; reflexivity). rewrite M, E. cbn [obind]. rewrite B. cbn [obind].
      destruct b; reflexivity.
    + intros [|b m]; [cbn; rewrite E; cbn; rewrite F; reflexivity|]. cbn [offs labelSteps].
      assert (M : st_meta (if b then set_policy RunNever s else s) = st_meta s) by (destruct b; reflexivity). rewrite M, E. cbn [obind]. rewrite IH. reflexivity.
    + intros [|b m]; [cbn; rewrite E; cbn; rewrite F; reflexivity|]. cbn [offs labelSteps].
      assert (M : st_meta (if b then set_policy RunNever s else s) = st_meta s) by (destruct b; reflexivity). rewrite M, E. cbn [obind]. rewrite IH. reflexivity.
  - intros [|b m]; [cbn; rewrite E; reflexivity|]. cbn [offs labelSteps].
    assert (M : st_meta (if b then set_policy RunNever s else s) = st_meta s) by (destruct b; reflexivity). rewrite M, E. reflexivity.
  - intros [|b m]; [cbn; rewrite E; reflexivity|]. cbn [offs labelSteps].
    assert (M : st_meta (if b then set_policy RunNever s else s) = st_meta s) by (destruct b; reflexivity). rewrite M, E. reflexivity.
Qed.
Lemma labels_blind ord labels : Blind (fun spec => mlift (WithLables ord labels spec)).
Proof.
  intros spec n. unfold mlift, WithLables.
  assert (M : forall m, sp_meta (offSpec m spec) = sp_meta spec) by reflexivity.
  assert (D : forall me m, sp_docker (sp_set_meta me (offSpec m spec)) = sp_docker spec) by reflexivity.
  destruct (addLabels (ord 0%nat labels) (sp_meta spec)) as [me| |] eqn:E; cbn [obind]; [|intro; rewrite M, E; reflexivity..].
  change (sp_docker (sp_set_meta me spec)) with (sp_docker spec).
  destruct (sp_docker spec) as [d|] eqn:F; cbn [deref obind]; [|intro; rewrite M, E; cbn [obind]; rewrite D; reflexivity].
  destruct (labelVolumes ord labels 1 (dc_volumes d)) as [vs| |] eqn:G; cbn [obind]; [|intro; rewrite M, E; cbn [obind]; rewrite D; cbn [deref obind]; rewrite G; reflexivity..].
  pose proof (label_steps ord labels (sp_steps spec) (S (length vs))) as K.
  change (sp_steps (sp_set_docker (Some {| dc_auths := dc_auths d; dc_volumes := vs |}) (sp_set_meta me spec))) with (sp_steps spec).
  assert (SS : forall x m, sp_steps (sp_set_docker x (sp_set_meta me (offSpec m spec))) = offs m (sp_steps spec)) by reflexivity.
  destruct (labelSteps ord labels (S (length vs)) (sp_steps spec)) as [l| |]; cbn [obind].
  - destruct K as (A & B). split; [exact A|]. intro m. rewrite M, E. cbn [obind]. rewrite D. cbn [deref obind]. rewrite G. cbn [obind]. rewrite SS, B. reflexivity.
  - intro m. rewrite M, E. cbn [obind]. rewrite D. cbn [deref obind]. rewrite G. cbn [obind]. rewrite SS, K. reflexivity.
  - intro m. rewrite M, E. cbn [obind]. rewrite D. cbn [deref obind]. rewrite G. cbn [obind]. rewrite SS, K. reflexivity.
Qed.
Lemma volumes_blind rnd volumes : Blind (WithVolumes rnd volumes).
Proof.
  induction volumes as [|[k v] volumes IH]; [apply (blind_ret (fun spec => spec)); intro; split; reflexivity|].
  intros spec n. cbn [WithVolumes]. unfold mbind, fresh, mlift, addVolume. cbn [sp_meta sp_docker offSpec sp_set_steps].
  destruct (sp_docker spec) as [d|]; cbn [deref obind]; [|intro; reflexivity].
  set (d' := {| dc_auths := _; dc_volumes := _ |}). set (name := rnd (S n)).
  pose proof (blind_map (mountStep name v) (fun s => conj eq_refl eq_refl) (sp_set_docker (Some d') spec)) as (A & B).
  specialize (IH (sp_set_steps (map (mountStep name v) (sp_steps (sp_set_docker (Some d') spec))) (sp_set_docker (Some d') spec)) (S (S n))).
  destruct (WithVolumes rnd volumes (sp_set_steps (map (mountStep name v) (sp_steps (sp_set_docker (Some d') spec))) (sp_set_docker (Some d') spec)) (S (S n))) as [[s k']| |].
  - destruct IH as (C & D). split; [rewrite C; exact A|]. intro m. rewrite <- D, <- B. reflexivity.
  - intro m. rewrite <- (IH m), <- B. reflexivity.
  - intro m. rewrite <- (IH m), <- B. reflexivity.
Qed.
Lemma secrets_blind rnd secrets : Blind (WithSecrets rnd secrets).
Proof.
  induction secrets as [|[k v] secrets IH]; [apply (blind_ret (fun spec => spec)); intro; split; reflexivity|].
  intros spec n. cbn [WithSecrets]. unfold mbind, fresh. cbn [sp_meta sp_secrets offSpec sp_set_steps].
  set (new := _ ++ _). specialize (IH (sp_set_secrets new spec) (S n)).
  destruct (WithSecrets rnd secrets (sp_set_secrets new spec) (S n)) as [[s k']| |].
  - destruct IH as (C & D). split; [exact C|]. intro m. rewrite <- D. reflexivity.
  - intro m. rewrite <- (IH m). reflexivity.
  - intro m. rewrite <- (IH m). reflexivity.
Qed.
Lemma auths_blind auths : Blind (fun spec => mlift (WithAuths auths spec)).
Proof. intros spec n. unfold mlift, WithAuths. cbn [sp_docker offSpec sp_set_steps]. destruct (sp_docker spec); cbn; [split; [reflexivity|]|]; intro; reflexivity. Qed.
Theorem added_blind rnd a : Blind (added rnd a).
Proof.
  destruct a; unfold added; cbn beta iota.
  - apply auths_blind.
  - unfold WithAuthsFunc. destruct (negb (Nat.eqb (length auths) 0)); [apply auths_blind|apply (blind_ret (fun spec => spec)); intro; split; reflexivity].
  - apply environ_blind.
  - apply labels_blind.
  - apply blind_ret. unfold WithLimits. destruct (Z.eqb memory 0 && Z.eqb cpu 0); [intro; split; reflexivity|]. apply blind_map. intro s. split; reflexivity.
  - apply netrc_blind.
  - apply blind_ret. apply blind_map. intro s. split; reflexivity.
  - apply environ_blind.
  - apply secrets_blind.
  - apply volumes_blind.
  - apply volumes_blind.
Qed.

(** ** Sequences *)
Definition filters (l : list Filter) (spec : Spec) : Spec := fold_left (fun s f => filtered f s) l spec.
Lemma filters_out l f spec : filters l (filtered f spec) = filtered f (filters l spec).
Proof. revert spec. induction l as [|g l IH]; intro spec; [reflexivity|]. cbn. rewrite filtered_swap. apply IH. Qed.
Lemma filters_names l spec : namesIn (filters l spec) = namesIn spec.
Proof. revert spec. induction l as [|g l IH]; intro spec; [reflexivity|]. cbn. rewrite IH, filtered_mask. apply off_names. Qed.
Lemma filters_in l f spec : In f l -> filtered f (filters l spec) = filters l spec.
Proof.
  revert spec. induction l as [|g l IH]; intros spec; [intros []|]; intros [E|I]; cbn [filters fold_left].
  - subst g. rewrite <- filters_out. change (filters l (filtered f (filtered f spec)) = filters l (filtered f spec)). rewrite filtered_twice. reflexivity.
  - apply IH, I.
Qed.
Lemma filters_incl l l' spec : incl l l' -> filters l (filters l' spec) = filters l' spec.
Proof.
  induction l as [|f l IH]; intros I; [reflexivity|]. cbn. rewrite filters_in; [|apply I; left; reflexivity]. apply IH. intros x X. apply I. right. exact X.
Qed.
Lemma filters_app l l' spec : filters (l ++ l') spec = filters l' (filters l spec).
Proof. apply fold_left_app. Qed.
Lemma filters_swap l l' spec : filters l (filters l' spec) = filters l' (filters l spec).
Proof. revert spec. induction l as [|f l IH]; intro spec; [reflexivity|]. cbn. rewrite <- filters_out. apply IH. Qed.
Theorem filters_set l l' spec : incl l l' -> incl l' l -> filters l spec = filters l' spec.
Proof. intros A B. rewrite <- (filters_incl l' l spec B), filters_swap. apply filters_incl, A. Qed.
Lemma filters_off l spec : exists ms, filters l spec = fold_left (fun s m => offSpec m s) ms spec /\ ms = map (fun f => mask f (namesIn spec)) l.
Proof.
  eexists. split; [|reflexivity]. assert (E : forall n s, namesIn s = n -> filters l s = fold_left (fun s m => offSpec m s) (map (fun f => mask f n) l) s).
  { induction l as [|f l IH]; intros n s N; [reflexivity|]. cbn. rewrite filtered_mask, N. apply IH. rewrite off_names. exact N. }
  apply E. reflexivity.
Qed.
Lemma blind_offs T : Blind T -> forall ms spec n,
  T (fold_left (fun s m => offSpec m s) ms spec) n =
  match T spec n with Ok (s, k) => Ok (fold_left (fun s m => offSpec m s) ms s, k) | Err e => Err e | Panic => Panic end.
Proof.
  intros H. induction ms as [|m ms IH]; intros spec n; cbn; [destruct (T spec n) as [[]| |]; reflexivity|]. rewrite IH. specialize (H spec n).
  destruct (T spec n) as [[s k]| |]; [destruct H as (_ & H)|..]; rewrite H; reflexivity.
Qed.
Lemma blind_filters T : Blind T -> forall l spec n,
  T (filters l spec) n = match T spec n with Ok (s, k) => Ok (filters l s, k) | Err e => Err e | Panic => Panic end.
Proof.
  intros H l spec n. destruct (filters_off l spec) as (ms & E & M). rewrite E, (blind_offs T H). pose proof (H spec n) as K.
  destruct (T spec n) as [[s k]| |]; try reflexivity. destruct K as (N & _). destruct (filters_off l s) as (ms' & E' & M'). rewrite E', M', M, N. reflexivity.
Qed.
Section Sequences.
  Variable rnd : nat -> string.
  Definition sequence (l : list Transform) : Spec -> M Spec := Combine (map (transformed rnd) l).
  Lemma sequence_normal l : forall spec n, sequence l spec n =
    match Combine (map (added rnd) (additionsOf l)) spec n with Ok (s, k) => Ok (filters (filtersOf l) s, k) | Err e => Err e | Panic => Panic end.
  Proof.
    induction l as [|[f|a] l IH]; intros spec n; [reflexivity|..]; unfold sequence in *; cbn [map Combine transformed additionsOf filtersOf].
    - unfold mbind, mret. rewrite IH. change (filtered f spec) with (filters [f] spec).
      assert (B : Blind (Combine (map (added rnd) (additionsOf l)))).
      { generalize (additionsOf l). intro as_. induction as_ as [|a as_ IHa]; [apply (blind_ret (fun spec => spec)); intro; split; reflexivity|].
        apply (blind_bind _ _ (added_blind rnd a) IHa). }
      rewrite (blind_filters _ B). destruct (Combine _ spec n) as [[s k]| |]; reflexivity.
    - unfold mbind. destruct (added rnd a spec n) as [[s k]| |]; [apply IH|reflexivity..].
  Qed.
  Theorem any_order l l' spec n : additionsOf l = additionsOf l' -> incl (filtersOf l) (filtersOf l') -> incl (filtersOf l') (filtersOf l) ->
    Combine (map (transformed rnd) l) spec n = Combine (map (transformed rnd) l') spec n.
  Proof.
    intros A I J. change (sequence l spec n = sequence l' spec n). rewrite !sequence_normal, A. destruct (Combine _ spec n) as [[s k]| |]; try reflexivity. rewrite (filters_set _ _ s I J). reflexivity.
  Qed.
End Sequences.

(** ** Which steps are off in the end *)
Lemma offs_nth m l i : nth_error (offs m l) i = option_map (fun s => if nth i m false then set_policy RunNever s else s) (nth_error l i).
Proof.
  revert l i. induction m as [|b m IH]; intros [|s l] [|i]; cbn [offs nth nth_error option_map]; try reflexivity.
  - destruct (nth_error l i); reflexivity.
  - apply IH.
Qed.
Lemma off_all_nth ms i : forall spec, nth_error (sp_steps (fold_left (fun s m => offSpec m s) ms spec)) i =
  option_map (fun s => if existsb (fun m => nth i m false) ms then set_policy RunNever s else s) (nth_error (sp_steps spec) i).
Proof.
  induction ms as [|m ms IH]; intro spec; cbn [fold_left existsb]; [destruct (nth_error _ i); reflexivity|].
  rewrite IH. cbn [offSpec sp_steps sp_set_steps]. rewrite offs_nth. destruct (nth_error (sp_steps spec) i); [cbn|reflexivity].
  destruct (nth i m false), (existsb _ ms); reflexivity.
Qed.
Lemma resume_nth n before x after : nth (length before) (resumeMask n (before ++ x :: after)) false = true <-> x <> "clone" /\ x <> n /\ ~ In n before.
Proof.
  induction before as [|y before IH]; cbn [app length resumeMask nth].
  - destruct (String.eqb x n) eqn:E; cbn; [apply String.eqb_eq in E; split; [discriminate|intros (_ & K & _); contradiction]|].
    apply String.eqb_neq in E. rewrite negb_true_iff, String.eqb_neq. split; [auto|intros (K & _); exact K].
  - destruct (String.eqb y n) eqn:E; cbn [nth]; [apply String.eqb_eq in E; split; [discriminate|intros (_ & _ & K); destruct K; left; exact E]|].
    apply String.eqb_neq in E. rewrite IH. split; intros (A & B & C); repeat (split; [assumption|]); [intros [K|K]; contradiction|intro K; apply C; right; exact K].
Qed.
Lemma nth_mapped (p : string -> bool) before x after : nth (length before) (map p (before ++ x :: after)) false = p x.
Proof. induction before; cbn; auto. Qed.
Lemma length_zero {A} (l : list A) : Nat.eqb (length l) 0 = false <-> l <> [].
Proof. destruct l; cbn; split; intros; try discriminate; try reflexivity. contradiction. Qed.
Lemma mask_stops f before x after : nth (length before) (mask f (before ++ x :: after)) false = true <-> Stops f before x.
Proof.
  unfold Stops. destruct f as [ns|ns|n]; cbn [mask].
  - rewrite nth_mapped, !andb_true_iff, !negb_true_iff, String.eqb_neq, length_zero. rewrite <- not_true_iff_false, smem_In. tauto.
  - rewrite nth_mapped, !andb_true_iff, !negb_true_iff, String.eqb_neq, length_zero, smem_In. split; [tauto|]. intros (A & B).
    repeat split; try assumption. intros ->. exact B.
  - destruct n as [|c n]; cbn [isEmpty]; [destruct (length before); split; try discriminate; intros (_ & K & _); contradiction|].
    rewrite resume_nth. split; [intros (A & B & C); repeat split; try assumption; discriminate|intros (A & _ & B & C); auto].
Qed.
Theorem filters_exactly l spec before s after : sp_steps spec = before ++ s :: after ->
  exists t, nth_error (sp_steps (filters l spec)) (length before) = Some t /\
    OffIff (fun _ => exists f, In f l /\ Stops f (map stepName before) (stepName s)) s t.
Proof.
  intros E. destruct (filters_off l spec) as (ms & F & M). rewrite F, off_all_nth, E, nth_error_app2, PeanoNat.Nat.sub_diag by apply le_n.
  cbn [nth_error option_map]. eexists. split; [reflexivity|].
  assert (K : existsb (fun m => nth (length before) m false) ms = true <-> exists f, In f l /\ Stops f (map stepName before) (stepName s)).
  { rewrite existsb_exists, M. unfold namesIn. rewrite E, map_app. cbn [map]. rewrite <- (map_length stepName before). split.
    - intros (m & I & H). apply in_map_iff in I. destruct I as (f & <- & I). exists f. split; [exact I|]. apply mask_stops in H. exact H.
    - intros (f & I & H). eexists. split; [apply in_map, I|]. apply mask_stops, H. }
  destruct (existsb _ ms).
  - split; [repeat split; intro Z; try reflexivity; destruct Z; reflexivity|]. split; [reflexivity|]. intro N. destruct N. apply K. reflexivity.
  - split; [repeat split|]. split; [|reflexivity]. intro N. apply K in N. discriminate.
Qed.
Theorem filters_rest l spec : sp_meta (filters l spec) = sp_meta spec /\ sp_platform (filters l spec) = sp_platform spec /\ sp_docker (filters l spec) = sp_docker spec /\
  sp_files (filters l spec) = sp_files spec /\ sp_secrets (filters l spec) = sp_secrets spec /\ length (sp_steps (filters l spec)) = length (sp_steps spec).
Proof.
  revert spec. induction l as [|f l IH]; intro spec; [repeat split|]. change (filters (f :: l) spec) with (filters l (filtered f spec)). destruct (IH (filtered f spec)) as (-> & -> & -> & -> & -> & ->).
  rewrite <- (map_length stepName), <- (map_length stepName (sp_steps spec)). change (map stepName (sp_steps (filtered f spec))) with (namesIn (filtered f spec)).
  rewrite filtered_mask, off_names. repeat split.
Qed.
Lemma used_offs m spec name : Used (offSpec m spec) name -> Used spec name.
Proof.
  intros (s & v & I & P & V). cbn in I. apply In_nth_error in I. destruct I as (i & I). rewrite offs_nth in I.
  destruct (nth_error (sp_steps spec) i) as [t|] eqn:E; [|discriminate]. cbn in I. injection I as <-. apply nth_error_In in E.
  destruct (nth i m false); [contradiction P; reflexivity|]. exists t, v. auto.
Qed.
Theorem used_filters l spec name : Used (filters l spec) name -> Used spec name.
Proof.
  destruct (filters_off l spec) as (ms & -> & _). revert spec. induction ms as [|m ms IH]; intro spec; [auto|]. cbn. intro U. apply IH, used_offs in U. exact U.
Qed.
Theorem limits_last memory cpu memory' cpu' spec : memory <> 0%Z \/ cpu <> 0%Z ->
  WithLimits memory cpu (WithLimits memory' cpu' spec) = WithLimits memory cpu spec.
Proof.
  intros H. unfold WithLimits. assert (E : (Z.eqb memory 0 && Z.eqb cpu 0)%bool = false) by (apply andb_false_iff; rewrite !Z.eqb_neq; exact H). rewrite E.
  destruct (Z.eqb memory' 0 && Z.eqb cpu' 0)%bool; [reflexivity|]. cbn. unfold sp_set_steps. cbn. f_equal. rewrite map_map. apply map_ext. intros s. reflexivity.
Qed.
