(** * LegacyFacts.v: converting a 0.8 configuration. *)
From Coq Require Import Lia Sorting.Sorted Sorting.Permutation DecimalNat DecimalString.
From Verif Require Import Model.Go Model.Types Model.Decode Model.Signer Model.Matrix Model.Legacy
  Spec.LegacySpec Proofs.GoFacts Proofs.SignFacts.
From Verif Require Proofs.MapFacts.

(** ** One container *)
Lemma environment_ok : forall l acc, ~ In None l ->
  exists m, ofold (fun envs (val : option LSecret) =>
    s <- deref val ;;
    Ok (mset (toUpper (ls_target s)) (Some {| v_value := ""; v_secret := ls_source s |}) envs)) l acc = Ok m /\
  (NoDup (mkeys acc) -> NoDup (mkeys m)) /\
  forall k v, mget k m = Some v <->
    (exists before s after, l = before ++ Some s :: after /\ toUpper (ls_target s) = k /\
       (forall s', In (Some s') after -> toUpper (ls_target s') <> k) /\
       v = Some {| v_value := ""; v_secret := ls_source s |}) \/
    ((forall s, In (Some s) l -> toUpper (ls_target s) <> k) /\ mget k acc = Some v).
Proof.
  induction l as [|o l IH]; intros acc N.
  - exists acc. split; [reflexivity|]. split; [tauto|]. intros k v. split.
    + intro E. right. split; [intros s []|exact E].
    + intros [(b & s & a & E & _)|[_ E]]; [destruct b; discriminate|exact E].
  - destruct o as [s|]; [|exfalso; apply N; left; reflexivity].
    cbn [ofold deref obind].
    destruct (IH (mset (toUpper (ls_target s)) (Some {| v_value := ""; v_secret := ls_source s |}) acc)) as (m & E & D & H).
    { intro I. apply N. right. exact I. }
    exists m. split; [exact E|]. split; [intro; apply D, MapFacts.NoDup_mset; assumption|].
    intros k v. rewrite H, MapFacts.mget_mset. split.
    + intros [(b & s' & a & -> & T & A & ->)|[A G]].
      * left. exists (Some s :: b), s', a. auto.
      * destruct (String.eqb_spec k (toUpper (ls_target s))) as [->|Nk].
        -- injection G as <-. left. exists [], s, l. auto.
        -- right. split; [|exact G]. intros s' [X|X]; [injection X as <-; congruence|apply A; exact X].
    + intros [(b & s' & a & X & T & A & ->)|[A G]].
      * destruct b as [|y b]; cbn in X.
        -- injection X as <- ->. right. split; [exact A|]. rewrite <- T, String.eqb_refl. reflexivity.
        -- injection X as <- ->. left. exists b, s', a. auto.
      * right. split; [intros s' I; apply A; right; exact I|].
        destruct (String.eqb_spec k (toUpper (ls_target s))) as [->|Nk]; [|exact G].
        exfalso. apply (A s (or_introl eq_refl)). reflexivity.
Qed.
Lemma literals_mget : forall (env : smap string) k v,
  mget k (map (fun kv => (fst kv, Some {| v_value := snd kv; v_secret := "" |})) env) = Some v <->
  exists x, mget k env = Some x /\ v = Some {| v_value := x; v_secret := "" |}.
Proof.
  intros env k v. induction env as [|[k1 x1] env IH]; cbn [map mget fst snd].
  - split; [discriminate|]. intros (x & E & _). discriminate.
  - destruct (String.eqb k k1); [|exact IH]. split.
    + intro E. injection E as <-. exists x1. auto.
    + intros (x & E & ->). congruence.
Qed.
Lemma toEnvironment_ok : forall c, ~ In None (lc_secrets c) ->
  exists m, toEnvironment c = Ok m /\ RightEnvironment c m.
Proof.
  intros c N. unfold toEnvironment.
  destruct (environment_ok (lc_secrets c) (map (fun kv => (fst kv, Some {| v_value := snd kv; v_secret := "" |})) (lc_environment c)) N)
    as (m & E & D & H).
  exists m. split; [exact E|]. intro U. split.
  - apply D. unfold mkeys. rewrite map_map. exact U.
  - intros k v. rewrite H. unfold RightVariable, SecretFor. rewrite literals_mget. split.
    + intros [(b & s & a & E' & T & A & ->)|[A (x & G & ->)]].
      * left. exists (ls_source s). split; [|reflexivity]. exists b, s, a. auto.
      * right. split; [exact A|]. exists x. split; [apply mget_In; exact G|reflexivity].
    + intros [(src & (b & s & a & E' & T & <- & A) & ->)|[A (x & I & ->)]].
      * left. exists b, s, a. auto.
      * right. split; [exact A|]. exists x. split; [apply MapFacts.mget_unique; assumption|reflexivity].
Qed.
Lemma environment_panic : forall l acc, In None l ->
  ofold (fun envs (val : option LSecret) =>
    s <- deref val ;;
    Ok (mset (toUpper (ls_target s)) (Some {| v_value := ""; v_secret := ls_source s |}) envs)) l acc = Panic.
Proof.
  induction l as [|[s|] l IH]; intros acc I; [destruct I| |reflexivity].
  cbn [ofold deref obind]. apply IH. destruct I as [I|I]; [discriminate|exact I].
Qed.
Lemma mounts_ok : forall l, ~ In None l -> exists ms, toVolumeMounts l = Ok ms /\ Forall2 RightMount l ms.
Proof.
  induction l as [|[v|] l IH]; intro N.
  - exists []. split; [reflexivity|constructor].
  - destruct IH as (ms & E & F); [intro I; apply N; right; exact I|].
    exists (Some {| vm_name := hexEncode (lv_source v); vm_path := lv_dest v |} :: ms).
    unfold toVolumeMounts in *. cbn [otraverse deref obind]. rewrite E. split; [reflexivity|].
    constructor; [|exact F]. unfold RightMount. eexists _, _. repeat split.
  - exfalso. apply N. left. reflexivity.
Qed.
Lemma mounts_panic : forall l, In None l -> toVolumeMounts l = Panic.
Proof.
  induction l as [|[v|] l IH]; intro I; [destruct I| |reflexivity].
  unfold toVolumeMounts in *. cbn [otraverse deref obind]. rewrite IH; [reflexivity|]. destruct I as [I|I]; [discriminate|exact I].
Qed.
Lemma promote_ok : forall l, Forall2 Promoted l (toPromote l).
Proof.
  induction l as [|s l IH]; cbn [toPromote map]; constructor; [|exact IH].
  unfold Promoted, promoteEvent. destruct (String.eqb_spec s "deploy") as [->|A]; [auto|].
  destruct (String.eqb_spec s "deployment") as [->|B]; [auto|]. right. auto.
Qed.
Lemma when_ok : forall w, RightWhen w (toConditions w).
Proof. intro w. unfold RightWhen. repeat (split; [first [reflexivity|apply promote_ok]|]). reflexivity. Qed.

Lemma toContainer_ok : forall c, Complete c -> exists c', toContainer c = Ok c' /\ RightContainer c c' /\ ct_name c' = lc_name c.
Proof.
  intros c [Nv Ns]. unfold toContainer.
  destruct (toEnvironment_ok c Ns) as (m & -> & R). destruct (mounts_ok _ Nv) as (ms & -> & F).
  cbn [obind]. eexists. split; [reflexivity|]. split; [|reflexivity]. unfold RightContainer. cbn.
  do 9 (split; [reflexivity|]).
  split; [intros ->; reflexivity|]. split; [intros ->; reflexivity|].
  split; [exact R|]. split; [apply Permutation_refl|].
  split; [exact F|]. split; [apply when_ok|]. repeat split.
Qed.
Lemma toContainer_panic : forall c, ~ Complete c -> toContainer c = Panic.
Proof.
  intros c N. unfold toContainer, Complete in *.
  destruct (in_dec (fun a b : option LSecret => ltac:(decide equality; decide equality; apply string_dec)) None (lc_secrets c)) as [I|I].
  - unfold toEnvironment. rewrite environment_panic by exact I. reflexivity.
  - destruct (toEnvironment_ok c I) as (m & -> & _). cbn [obind].
    rewrite mounts_panic; [reflexivity|].
    destruct (in_dec (fun a b : option LVolume => ltac:(decide equality; decide equality; first [apply string_dec|apply bool_dec])) None (lc_volumes c)) as [J|J]; [exact J|].
    exfalso. apply N. split; assumption.
Qed.
Lemma containers_ok : forall l, Forall Complete l ->
  exists l', otraverse toContainer l = Ok l' /\ Forall2 RightContainer l l' /\ map ct_name l' = map lc_name l.
Proof.
  induction l as [|c l IH]; intro H.
  - exists []. repeat split; constructor.
  - inversion H as [|? ? C Cl]; subst. destruct (toContainer_ok c C) as (c' & E & R & Nm).
    destruct (IH Cl) as (l' & E' & F & Ns). exists (c' :: l'). cbn [otraverse]. rewrite E. cbn [obind]. rewrite E'.
    split; [reflexivity|]. split; [constructor; assumption|]. cbn. congruence.
Qed.
Lemma containers_panic : forall l, ~ Forall Complete l -> otraverse toContainer l = Panic.
Proof.
  induction l as [|c l IH]; intro H; [exfalso; apply H; constructor|]. cbn [otraverse].
  destruct (toContainer c) as [c'|e|] eqn:E; cbn [obind].
  - rewrite IH; [reflexivity|]. intro F. apply H. constructor; [|exact F].
    unfold Complete. split; intro I.
    + assert (P : toContainer c = Panic); [|congruence]. apply toContainer_panic. intros [A _]. contradiction.
    + assert (P : toContainer c = Panic); [|congruence]. apply toContainer_panic. intros [_ A]. contradiction.
  - exfalso. unfold toContainer in E. apply obind_err in E.
    assert (X : forall l acc e, ofold (fun envs (val : option LSecret) => s <- deref val ;;
      Ok (mset (toUpper (ls_target s)) (Some {| v_value := ""; v_secret := ls_source s |}) envs)) l acc <> Err e).
    { clear. induction l as [|[s|] l IH]; intros acc e; cbn; [discriminate|apply IH|discriminate]. }
    destruct E as [E|(m & _ & E)]; [exact (X _ _ _ E)|]. apply obind_err in E. destruct E as [E|(ms & _ & E)]; [|discriminate].
    clear -E. revert E. generalize (lc_volumes c). induction l as [|[v|] l IH]; unfold toVolumeMounts in *; cbn; [discriminate| |discriminate].
    rewrite obind_err. intros [E|(x & _ & E)]; [apply IH; exact E|discriminate].
  - reflexivity.
Qed.

(** ** Names *)
Lemma setName_right : forall c c' n, RightContainer c c' -> RightContainer c (setName n c').
Proof. intros c c' n H. exact H. Qed.
Lemma setName_name : forall c n, ct_name (setName n c) = n.
Proof. reflexivity. Qed.
Lemma dedupe_right : forall l steps names i, Forall2 RightContainer l steps -> Forall2 RightContainer l (dedupe names i steps).
Proof.
  intros l steps names i F. revert names i. induction F as [|c c' l steps R F IH]; intros names i; cbn [dedupe]; constructor; auto.
Qed.
Lemma dedupe_length : forall steps names i, length (dedupe names i steps) = length steps.
Proof. induction steps as [|c steps IH]; intros; cbn; [reflexivity|]. f_equal. apply IH. Qed.
Lemma dedupe_names : forall steps names i j o f,
  nth_error (map ct_name steps) j = Some o -> nth_error (map ct_name (dedupe names i steps)) j = Some f ->
  let before := rev names ++ firstn j (map ct_name (dedupe names i steps)) in
  (~ In o before /\ f = o) \/ (In o before /\ f = (o +++ "_" +++ itoa_nat (i + j))%string).
Proof.
  induction steps as [|c steps IH]; intros names i j o f Ho Hf.
  - destruct j; discriminate.
  - destruct j as [|j].
    + cbn in Ho, Hf. injection Ho as <-. injection Hf as <-. cbn [firstn]. rewrite app_nil_r, Nat.add_0_r.
      destruct (smem (ct_name c) names) eqn:E.
      * right. apply smem_In in E. split; [apply -> in_rev; exact E|reflexivity].
      * left. apply smem_false in E. split; [intro I; apply E; apply in_rev; exact I|reflexivity].
    + cbn [map nth_error] in Ho. cbn [dedupe map nth_error] in Hf. cbn [dedupe map firstn].
      set (n := if smem (ct_name c) names then (ct_name c +++ "_" +++ itoa_nat i)%string else ct_name c) in *.
      specialize (IH (n :: names) (S i) j o f Ho Hf). cbn [rev] in IH. rewrite <- app_assoc in IH. cbn [app] in IH.
      rewrite setName_name. rewrite Nat.add_succ_r. exact IH.
Qed.
Lemma dedupe_RightNames : forall steps, RightNames (map ct_name steps) (map ct_name (dedupe [] 0 steps)).
Proof.
  intro steps. split; [rewrite !map_length; apply dedupe_length|].
  intros i o f Ho Hf. exact (dedupe_names steps [] 0 i o f Ho Hf).
Qed.

(** ** Volumes *)
Lemma volumes_ok : forall l set to srcs, ~ In None l -> NoDup srcs ->
  (forall s, In (hexEncode s) set <-> In s srcs) -> Forall2 HostVolume to srcs ->
  exists set' to' srcs', ofold addVolume l (set, to) = Ok (set', to') /\ NoDup srcs' /\ Forall2 HostVolume to' srcs' /\
    forall s, In s srcs' <-> In s srcs \/ exists v, In (Some v) l /\ lv_source v = s.
Proof.
  induction l as [|[v|] l IH]; intros set to srcs N D H F.
  - exists set, to, srcs. repeat split; auto. intros [X|(v & [] & _)]. exact X.
  - cbn [ofold addVolume deref obind]. destruct (smem (hexEncode (lv_source v)) set) eqn:E; cbn [obind].
    + apply smem_In, H in E. destruct (IH set to srcs) as (set' & to' & srcs' & E' & D' & F' & H'); auto.
      { intro I. apply N. right. exact I. }
      exists set', to', srcs'. repeat split; auto; intro X.
      * apply H' in X. destruct X as [X|(v' & I & <-)]; [auto|right; exists v'; split; [right; exact I|reflexivity]].
      * apply H'. destruct X as [X|(v' & [I|I] & <-)]; [auto|injection I as <-; auto|right; exists v'; auto].
    + apply smem_false in E. assert (E0 : ~ In (lv_source v) srcs) by (intro I; apply E, H; exact I).
      destruct (IH (hexEncode (lv_source v) :: set)
        (to ++ [Some {| vo_name := hexEncode (lv_source v); vo_empty := None; vo_host := Some {| vh_path := lv_source v |} |}])
        (srcs ++ [lv_source v])) as (set' & to' & srcs' & E' & D' & F' & H'); auto.
      * intro I. apply N. right. exact I.
      * apply Permutation_NoDup with (l := lv_source v :: srcs); [apply Permutation_cons_append|constructor; assumption].
      * intro s. rewrite in_app_iff. cbn. rewrite H. split.
        -- intros [X|X]; [apply hexEncode_inj in X; auto|auto].
        -- intros [X|[<-|[]]]; auto.
      * apply Forall2_app; [exact F|]. constructor; [|constructor]. eexists. repeat split.
      * exists set', to', srcs'. repeat split; auto; intro X.
        -- apply H' in X. rewrite in_app_iff in X. destruct X as [[X|[<-|[]]]|(v' & I & <-)]; auto.
           ++ right. exists v. split; [left; reflexivity|reflexivity].
           ++ right. exists v'. split; [right; exact I|reflexivity].
        -- apply H'. rewrite in_app_iff. destruct X as [X|(v' & [I|I] & <-)]; [auto|injection I as <-; left; right; left; reflexivity|right; exists v'; auto].
  - exfalso. apply N. left. reflexivity.
Qed.
Lemma in_sources : forall g s, In s (sources g) <-> exists v, In (Some v) (flat_map lc_volumes (lg_pipeline g ++ lg_services g)) /\ lv_source v = s.
Proof.
  intros g s. unfold sources. rewrite in_flat_map. split.
  - intros ([v|] & I & J); [|destruct J]. destruct J as [<-|[]]. exists v. auto.
  - intros (v & I & <-). exists (Some v). split; [exact I|left; reflexivity].
Qed.
Lemma toVolumes_ok : forall g, CompleteConfig g -> exists vs, toVolumes g = Ok vs /\ RightVolumes g vs.
Proof.
  intros g C. unfold toVolumes.
  destruct (volumes_ok (flat_map lc_volumes (lg_pipeline g ++ lg_services g)) [] [] []) as (set & to & srcs & E & D & F & H).
  - intro I. apply in_flat_map in I. destruct I as (c & I & J). apply in_app_iff in I. destruct (C c) as [A _]; [tauto|contradiction].
  - constructor.
  - intro s. cbn. tauto.
  - constructor.
  - rewrite E. cbn [obind snd]. exists to. split; [reflexivity|]. exists srcs. split; [exact D|]. split; [|exact F].
    intro s. rewrite H, in_sources. cbn. tauto.
Qed.
Lemma RightVolumes_nodup : forall g vs, RightVolumes g vs -> NoDup (map (fun v => match v with Some v => vo_name v | None => "" end) vs).
Proof.
  intros g vs (srcs & D & _ & F).
  assert (E : map (fun v => match v with Some v => vo_name v | None => "" end) vs = map hexEncode srcs).
  { clear -F. induction F as [|v s vs srcs (v0 & -> & E & _) F IH]; [reflexivity|]. cbn. rewrite E. f_equal. exact IH. }
  rewrite E. clear -D. induction D as [|s l N D IH]; cbn; constructor; [|exact IH].
  intro I. apply in_map_iff in I. destruct I as (x & E & I). apply hexEncode_inj in E. subst. contradiction.
Qed.
(** Each mount of a step or service has exactly one volume, with the path that was mounted. *)
Lemma mounted_once : forall g vs c v, RightVolumes g vs -> In c (lg_pipeline g ++ lg_services g) -> In (Some v) (lc_volumes c) ->
  exists vol, In (Some vol) vs /\ vo_name vol = hexEncode (lv_source v) /\ vo_host vol = Some {| vh_path := lv_source v |} /\
    forall vol', In (Some vol') vs -> vo_name vol' = vo_name vol -> vol' = vol.
Proof.
  intros g vs c v (srcs & D & H & F) Ic Iv.
  assert (I : In (lv_source v) srcs).
  { apply H, in_sources. exists v. split; [|reflexivity]. apply in_flat_map. exists c. auto. }
  apply in_split in I. destruct I as (l1 & l2 & ->). apply Forall2_app_inv_r in F. destruct F as (v1 & v2 & F1 & F2 & ->).
  inversion F2 as [|vol0 s2 v2' l2' (vol & -> & En & Ee & Eh) F2' E1 E2]. subst. exists vol.
  split; [apply in_app_iff; right; left; reflexivity|]. split; [exact En|]. split; [exact Eh|].
  intros vol' I' E'. rewrite En in E'.
  assert (X : forall a b, Forall2 HostVolume a b -> In (Some vol') a -> In (lv_source v) b).
  { clear -E'. intros a b F I. induction F as [|y s a b (y0 & -> & En & _) F IH]; [destruct I|].
    destruct I as [I|I]; [|right; auto]. injection I as ->. left. apply hexEncode_inj. congruence. }
  apply NoDup_remove_2 in D. rewrite in_app_iff in D, I'. destruct I' as [I'|[I'|I']].
  - exfalso. apply D. left. exact (X _ _ F1 I').
  - injection I' as ->. reflexivity.
  - exfalso. apply D. right. exact (X _ _ F2' I').
Qed.

(** ** Branches *)
Lemma trigger_ok : forall b steps, RightTrigger b steps (branchTrigger b steps).
Proof.
  intros b steps. unfold RightTrigger, branchTrigger. split.
  - intros [E|E].
    + rewrite E. reflexivity.
    + destruct (c_include b); [reflexivity|]. destruct (c_exclude b); [contradiction|reflexivity].
  - intros I E. rewrite E. destruct (c_include b) as [|x l] eqn:Ei; [contradiction|].
    exists (if existsb (fun c => smem "tag" (c_include (w_event (ct_when c)))) steps then ["refs/tags/**"] else []).
    split; [reflexivity|]. split.
    + intros (c & Ic & T). assert (X : existsb (fun c => smem "tag" (c_include (w_event (ct_when c)))) steps = true); [|rewrite X; reflexivity].
      apply existsb_exists. exists c. split; [exact Ic|]. apply smem_In. exact T.
    + intro H. destruct (existsb _ steps) eqn:X; [|reflexivity]. apply existsb_exists in X. destruct X as (c & Ic & T).
      apply smem_In in T. exfalso. exact (H c Ic T).
Qed.

(** ** Secrets *)
Lemma sleb_total : forall a b, sleb a b = false -> sleb b a = true.
Proof. intros a b. unfold sleb. rewrite (String.compare_antisym a b). destruct (String.compare b a); cbn; congruence. Qed.
Lemma insert_perm : forall s l, Permutation (s :: l) (insertSorted s l).
Proof.
  induction l as [|t l IH]; cbn; [reflexivity|]. destruct (sleb s t); [reflexivity|].
  rewrite perm_swap. constructor. exact IH.
Qed.
Lemma sort_perm : forall l, Permutation l (sortStrings l).
Proof. induction l as [|s l IH]; cbn; [constructor|]. rewrite <- insert_perm. constructor. exact IH. Qed.
Lemma insert_sorted : forall s l, Sorted (fun a b => sleb a b = true) l -> Sorted (fun a b => sleb a b = true) (insertSorted s l).
Proof.
  intros s l H. induction H as [|t l S IH Hd]; cbn; [repeat constructor|].
  destruct (sleb s t) eqn:E; [repeat constructor; assumption|].
  constructor; [exact IH|]. apply sleb_total in E. destruct l as [|u l]; cbn; [constructor; exact E|].
  destruct (sleb s u); constructor; [exact E|]. inversion Hd. assumption.
Qed.
Lemma sort_sorted : forall l, Sorted (fun a b => sleb a b = true) (sortStrings l).
Proof. induction l as [|s l IH]; cbn; [constructor|]. apply insert_sorted. exact IH. Qed.
Lemma sort_before : forall l, NoDup l -> Sorted Before (sortStrings l).
Proof.
  intros l D. assert (D' : NoDup (sortStrings l)) by (eapply Permutation_NoDup; [apply sort_perm|exact D]).
  pose proof (sort_sorted l) as S. revert S D'. generalize (sortStrings l). intros m S D'.
  induction S as [|a m S IH Hd]; constructor; inversion D' as [|? ? N D'']; subst; [apply IH; exact D''|].
  destruct Hd as [|b m E]; constructor. unfold Before. unfold sleb in E.
  destruct (String.compare a b) eqn:C; [|reflexivity|discriminate].
  apply String.compare_eq_iff in C. subst. exfalso. apply N. left. reflexivity.
Qed.
Lemma toSecret_right : forall g k d, NoDup (mkeys (ld_opts d)) -> In (k, d) (lg_secrets g) -> RightSecret g (toSecret k d).
Proof.
  intros g k d U I. exists d.
  assert (E : se_name (toSecret k d) = k) by (unfold toSecret; destruct (String.eqb _ _); [reflexivity|]; destruct (isEmpty (ld_path d)); reflexivity).
  rewrite E. split; [exact I|].
  unfold toSecret. destruct (String.eqb_spec (ld_driver d) "vault") as [V|V].
  - do 5 (split; [reflexivity|]). split; [|intro X; contradiction]. intros _. cbn.
    repeat split; intros x.
    + intro J. apply (MapFacts.mget_unique _ _ _ U) in J. rewrite J. reflexivity.
    + apply MapFacts.mget_none in x. rewrite x. reflexivity.
    + intro J. apply (MapFacts.mget_unique _ _ _ U) in J. rewrite J. reflexivity.
    + apply MapFacts.mget_none in x. rewrite x. reflexivity.
  - destruct (isEmpty (ld_path d)) eqn:P; cbn [negb].
    + apply isEmpty_true in P. do 5 (split; [reflexivity|]). split; [intro X; contradiction|]. intros _.
      split; [reflexivity|]. split; [intro X; contradiction|reflexivity].
    + apply isEmpty_false in P. do 5 (split; [reflexivity|]). split; [intro X; contradiction|]. intros _.
      split; [reflexivity|]. split; [reflexivity|intro X; contradiction].
Qed.
Lemma toSecrets_ok : forall g, NoDup (mkeys (lg_secrets g)) -> (forall k d, In (k, d) (lg_secrets g) -> NoDup (mkeys (ld_opts d))) ->
  Permutation (mkeys (lg_secrets g)) (map se_name (toSecrets g)) /\ Sorted Before (map se_name (toSecrets g)) /\
  Forall (RightSecret g) (toSecrets g).
Proof.
  intros g D U.
  assert (X : forall ks, (forall k, In k ks -> In k (mkeys (lg_secrets g))) ->
    let l := flat_map (fun key => match mget key (lg_secrets g) with Some val => [toSecret key val] | None => [] end) ks in
    map se_name l = ks /\ Forall (RightSecret g) l).
  { induction ks as [|k ks IH]; intro H; cbn [flat_map map]; [split; [reflexivity|constructor]|].
    destruct IH as [E F]; [intros; apply H; right; assumption|].
    destruct (mget k (lg_secrets g)) as [d|] eqn:G.
    - cbn [app map]. split.
      + rewrite E. f_equal. unfold toSecret. destruct (String.eqb _ _); [reflexivity|]. destruct (isEmpty (ld_path d)); reflexivity.
      + constructor; [|exact F]. apply mget_In in G. apply toSecret_right; [exact (U _ _ G)|exact G].
    - apply MapFacts.mget_none in G. exfalso. apply G, H. left. reflexivity. }
  destruct (X (sortStrings (mkeys (lg_secrets g)))) as [E F].
  { intros k I. eapply Permutation_in; [apply Permutation_sym, sort_perm|exact I]. }
  unfold toSecrets. rewrite E. split; [apply sort_perm|]. split; [apply sort_before; exact D|exact F].
Qed.
(** Sorted permutations are unique: the map order does not matter. *)
Lemma Before_trans : forall a b c, Before a b -> Before b c -> Before a c.
Proof.
  unfold Before. induction a as [|x a IH]; intros [|y b] [|z c]; cbn; try discriminate; try reflexivity.
  destruct (Ascii.compare x y) eqn:E1; destruct (Ascii.compare y z) eqn:E2; intros H1 H2; try discriminate.
  - apply Ascii.compare_eq_iff in E1, E2. subst. replace (Ascii.compare z z) with Eq; [eapply IH; eassumption|].
    unfold Ascii.compare. symmetry. apply N.compare_refl.
  - apply Ascii.compare_eq_iff in E1. subst. rewrite E2. reflexivity.
  - apply Ascii.compare_eq_iff in E2. subst. rewrite E1. reflexivity.
  - unfold Ascii.compare in *. apply N.compare_lt_iff in E1, E2.
    replace (N.compare (N_of_ascii x) (N_of_ascii z)) with Lt; [reflexivity|]. symmetry. apply N.compare_lt_iff. eapply N.lt_trans; eassumption.
Qed.
Lemma Before_irrefl : forall a, ~ Before a a.
Proof.
  intros a H. unfold Before in H. pose proof (String.compare_antisym a a) as E. rewrite H in E. discriminate.
Qed.
Lemma sorted_unique : forall l l', StronglySorted Before l -> StronglySorted Before l' -> Permutation l l' -> l = l'.
Proof.
  induction l as [|a l IH]; intros l' S S' P.
  - apply Permutation_nil in P. symmetry. exact P.
  - destruct l' as [|b l']; [apply Permutation_sym, Permutation_nil in P; discriminate|].
    inversion S as [|? ? Sl Fa]; subst. inversion S' as [|? ? Sl' Fb]; subst.
    assert (E : a = b).
    { assert (Ia : In a (b :: l')) by (eapply Permutation_in; [exact P|left; reflexivity]).
      assert (Ib : In b (a :: l)) by (eapply Permutation_in; [apply Permutation_sym; exact P|left; reflexivity]).
      destruct Ia as [->|Ia]; [reflexivity|]. destruct Ib as [->|Ib]; [reflexivity|].
      rewrite Forall_forall in Fa, Fb. exfalso. exact (Before_irrefl a (Before_trans _ _ _ (Fa _ Ib) (Fb _ Ia))). }
    subst. f_equal. apply IH; auto. apply Permutation_cons_inv in P. exact P.
Qed.
Lemma toSecrets_order : forall g g', Permutation (lg_secrets g) (lg_secrets g') -> NoDup (mkeys (lg_secrets g)) ->
  toSecrets g = toSecrets g'.
Proof.
  intros g g' P D. assert (Pk : Permutation (mkeys (lg_secrets g)) (mkeys (lg_secrets g'))) by (apply Permutation_map; exact P).
  unfold toSecrets. replace (sortStrings (mkeys (lg_secrets g'))) with (sortStrings (mkeys (lg_secrets g))).
  - apply flat_map_ext. intro k. rewrite (MapFacts.mget_perm k _ _ D P). reflexivity.
  - assert (Tr : Relations_1.Transitive Before) by (intros a b c; apply Before_trans).
    apply sorted_unique.
    + apply Sorted_StronglySorted; [exact Tr|]. apply sort_before. exact D.
    + apply Sorted_StronglySorted; [exact Tr|]. apply sort_before. eapply Permutation_NoDup; eassumption.
    + rewrite <- sort_perm, <- sort_perm. exact Pk.
Qed.

(** ** Matrix copies *)
Lemma inner_copies : forall (c : Container) k v environ, NoDup (mkeys environ) ->
  flat_map (fun ev => if String.eqb k (fst ev) && String.eqb v (snd ev) then [c] else []) environ =
  if (match mget k environ with Some x => String.eqb x v | None => false end) then [c] else [].
Proof.
  intros c k v environ D. induction environ as [|[k1 v1] environ IH]; [reflexivity|].
  cbn in D. inversion D as [|? ? N D']; subst. cbn [flat_map fst snd mget].
  destruct (String.eqb_spec k k1) as [->|Nk]; cbn [andb].
  - rewrite IH by exact D'. assert (G : mget k1 environ = None) by (apply MapFacts.mget_none; exact N).
    rewrite G, app_nil_r, String.eqb_sym. reflexivity.
  - apply IH. exact D'.
Qed.
Lemma copies_ok : forall environ c, NoDup (mkeys environ) -> CopiesOf environ c (copies environ c).
Proof.
  intros environ c D. unfold CopiesOf, copies. destruct (w_matrix (ct_when c)) as [|e w] eqn:E; [split; [reflexivity|contradiction]|].
  split; [discriminate|]. intros _.
  assert (X : forall w : smap string, flat_map (fun kv => flat_map (fun ev =>
    if String.eqb (fst kv) (fst ev) && String.eqb (snd kv) (snd ev) then [c] else []) environ) w =
    repeat c (length (matching w environ))).
  { clear -D. induction w as [|[k v] w IH]; [reflexivity|]. cbn [flat_map fst snd]. rewrite inner_copies by exact D. rewrite IH.
    unfold matching. cbn [filter fst snd]. destruct (mget k environ) as [x|]; [|reflexivity]. destruct (String.eqb x v); reflexivity. }
  apply X.
Qed.
Lemma keep_ok : forall environ l, NoDup (mkeys environ) -> exists ls, Forall2 (CopiesOf environ) l ls /\
  flat_map (fun o => match o with Some c => map Some (copies environ c) | None => [] end) (map Some l) = map Some (concat ls).
Proof.
  intros environ l D. induction l as [|c l (ls & F & E)]; [exists []; split; [constructor|reflexivity]|].
  exists (copies environ c :: ls). split; [constructor; [apply copies_ok; exact D|exact F]|].
  cbn [map flat_map concat]. rewrite E, map_app. reflexivity.
Qed.
Lemma forAxis_ok : forall p i environ, NoDup (mkeys environ) -> AxisPipeline p i environ (forAxis p i environ).
Proof.
  intros p i environ D. unfold AxisPipeline, forAxis. cbn. repeat (split; [reflexivity|]). split.
  - intros steps ->. apply keep_ok. exact D.
  - intros services ->. apply keep_ok. exact D.
Qed.
Lemma copies_none : forall environ c l, CopiesOf environ c l -> w_matrix (ct_when c) <> [] ->
  (l = [] <-> forall k v, In (k, v) (w_matrix (ct_when c)) -> mget k environ <> Some v).
Proof.
  intros environ c l [_ H] N. rewrite (H N). clear H N. unfold matching. generalize (w_matrix (ct_when c)) as w.
  induction w as [|[k v] w IH]; cbn [filter fst snd].
  - split; [intros _ k v []|reflexivity].
  - destruct (mget k environ) as [x|] eqn:G; [destruct (String.eqb_spec x v) as [->|Nx]|].
    + cbn. split; [discriminate|]. intro H. exfalso. apply (H k v (or_introl eq_refl)). exact G.
    + rewrite IH. split; intros H k' v' I; [|apply H; right; exact I]. destruct I as [I|I]; [injection I as <- <-; congruence|apply H; exact I].
    + rewrite IH. split; intros H k' v' I; [|apply H; right; exact I]. destruct I as [I|I]; [injection I as <- <-; congruence|apply H; exact I].
Qed.

(** ** Distinct names *)
Lemma digits_uint : forall u, sforallb isDigit (DecimalString.NilZero.string_of_uint u) = true.
Proof.
  assert (X : forall u, sforallb isDigit (DecimalString.NilEmpty.string_of_uint u) = true)
    by (induction u; cbn; auto).
  intros [| | | | | | | | | |]; cbn; auto.
Qed.
Lemma itoa_digits : forall n, sforallb isDigit (itoa_nat n) = true.
Proof. intro n. apply digits_uint. Qed.
Lemma itoa_inj : forall a b, itoa_nat a = itoa_nat b -> a = b.
Proof.
  intros a b E. unfold itoa_nat in E. apply (f_equal DecimalString.NilZero.uint_of_string) in E.
  rewrite !DecimalString.NilZero.usu in E.
  - injection E as E. apply (f_equal Nat.of_uint) in E. rewrite !DecimalNat.Unsigned.of_to in E. exact E.
  - intro X. pose proof (f_equal Nat.of_uint X) as Y. rewrite DecimalNat.Unsigned.of_to in Y. cbn in Y. subst. discriminate.
  - intro X. pose proof (f_equal Nat.of_uint X) as Y. rewrite DecimalNat.Unsigned.of_to in Y. cbn in Y. subst. discriminate.
Qed.
Lemma last_sep : forall a b x y, hasChar "_" x = false -> hasChar "_" y = false ->
  (a +++ "_" +++ x)%string = (b +++ "_" +++ y)%string -> a = b /\ x = y.
Proof.
  induction a as [|c a IH]; intros [|d b] x y X Y E.
  - cbn in E. injection E as ->. auto.
  - cbn in E. injection E as <- ->. rewrite hasChar_app in X. cbn in X. rewrite orb_true_r in X. discriminate.
  - cbn in E. injection E as -> <-. rewrite hasChar_app in Y. cbn in Y. rewrite orb_true_r in Y. discriminate.
  - cbn in E. injection E as -> E. destruct (IH _ _ _ X Y E) as [-> ->]. auto.
Qed.
Lemma digits_no_sep : forall s, sforallb isDigit s = true -> hasChar "_" s = false.
Proof.
  induction s as [|c s IH]; [reflexivity|]. cbn. rewrite andb_true_iff. intros [D H].
  change (Ascii.eqb "_" c || hasChar "_" s = false). rewrite (IH H), orb_false_r.
  destruct (Ascii.eqb_spec "_" c) as [<-|_]; [discriminate|reflexivity].
Qed.
Lemma names_distinct : forall orig final, RightNames orig final ->
  (forall o x n, In o orig -> o <> (x +++ "_" +++ itoa_nat n)%string) -> NoDup final.
Proof.
  intros orig final [L H] U.
  assert (X : forall i j f, nth_error final i = Some f -> nth_error final j = Some f -> i < j -> False).
  { intros i j f Hi Hj Lt.
    assert (Oi : exists o, nth_error orig i = Some o).
    { destruct (nth_error orig i) as [o|] eqn:E; [exists o; reflexivity|]. apply nth_error_None in E.
      assert (nth_error final i <> None) by congruence. apply nth_error_Some in H0. lia. }
    assert (Oj : exists o, nth_error orig j = Some o).
    { destruct (nth_error orig j) as [o|] eqn:E; [exists o; reflexivity|]. apply nth_error_None in E.
      assert (nth_error final j <> None) by congruence. apply nth_error_Some in H0. lia. }
    destruct Oi as (oi & Oi). destruct Oj as (oj & Oj).
    assert (Before : In f (firstn j final)).
    { apply nth_error_In with (n := i). rewrite <- Hi. clear -Lt. revert i j Lt. induction final as [|y l IH]; intros i j Lt.
      - destruct j, i; reflexivity.
      - destruct j as [|j]; [lia|]. destruct i as [|i]; [reflexivity|]. cbn. apply IH. lia. }
    destruct (H j oj f Oj Hj) as [[A E]|[A E]].
    - subst oj. contradiction.
    - destruct (H i oi f Oi Hi) as [[A' E']|[A' E']].
      + apply (U oi oj j); [apply nth_error_In in Oi; exact Oi|congruence].
      + rewrite E in E'. apply last_sep in E'; [|apply digits_no_sep, itoa_digits|apply digits_no_sep, itoa_digits].
        destruct E' as [_ E']. apply itoa_inj in E'. lia. }
  clear -X. induction final as [|f l IH]; constructor.
  - intro I. apply In_nth_error in I. destruct I as (n & I). apply (X 0 (S n) f); [reflexivity|exact I|lia].
  - apply IH. intros i j g Hi Hj Lt. apply (X (S i) (S j) g Hi Hj). lia.
Qed.

(** ** The whole pipeline *)
Section Whole.
  Variable getenv : string -> string.
  Variable parseURL : string -> option (string * string).

  Lemma isSet_true : forall v, isSet getenv v = true <-> getenv v = "true".
  Proof. intro v. apply String.eqb_eq. Qed.
  Lemma toPipeline_ok : forall g remote, CompleteConfig g -> exists p, toPipeline getenv parseURL g remote = Ok p /\ RightPipeline getenv g p.
  Proof.
    intros g remote C. unfold toPipeline.
    assert (Cc : Forall Complete (lg_clone g)) by (apply Forall_forall; intros c I; apply C; auto).
    assert (Cp : Forall Complete (lg_pipeline g)) by (apply Forall_forall; intros c I; apply C; auto).
    assert (Cs : Forall Complete (lg_services g)) by (apply Forall_forall; intros c I; apply C; auto).
    destruct (containers_ok _ Cc) as (clone & -> & Fc & Nc). destruct (containers_ok _ Cp) as (steps & Ep & Fp & Np).
    destruct (containers_ok _ Cs) as (services & Es & Fs & Ns). cbn [obind].
    rewrite Es. cbn [obind]. rewrite Ep. cbn [obind].
    destruct (toVolumes_ok g C) as (vs & -> & Rv). cbn [obind]. eexists. split; [reflexivity|].
    unfold RightPipeline. cbn [pi_kind pi_name pi_version pi_type pi_clone cl_disable cl_depth cl_skip_verify pi_concurrency
      pi_depends pi_node pi_platform pi_pull_secrets pi_volumes pi_steps pi_services pi_trigger].
    do 3 (split; [reflexivity|]).
    split; [intro E; unfold kubernetes, isSet; rewrite E; reflexivity|].
    split; [intro E; unfold kubernetes, isSet; apply String.eqb_neq in E; rewrite E; reflexivity|].
    assert (Lc : length clone = length (lg_clone g)) by (clear -Fc; induction Fc; cbn; congruence).
    split.
    { destruct clone as [|c0 clone].
      - destruct (lg_clone g) as [|? ?]; [|discriminate]. unfold isSet.
        destruct (String.eqb_spec (getenv "DRONE_CONVERT_YAML_LEGACY_CLONE") "true") as [E|E]; split; auto; try discriminate.
        intros [X|X]; contradiction.
      - split; [|reflexivity]. intros _. left. destruct (lg_clone g); [discriminate|discriminate]. }
    do 6 (split; [reflexivity|]).
    split; [intro E; unfold isSet; rewrite E; reflexivity|].
    split; [intro E; unfold isSet; apply String.eqb_neq in E; rewrite E; reflexivity|].
    split; [exact Rv|].
    eexists _, services. split; [reflexivity|]. split; [reflexivity|]. split; [|split; [exact Fs|split; [exact Ns|apply trigger_ok]]].
    unfold StepsOf. split.
    - intro H.
      assert (E : (match clone with [] => if isSet getenv "DRONE_CONVERT_YAML_LEGACY_CLONE" then [cloneStep] else [] | _ :: _ => clone end) = clone).
      { destruct clone as [|c0 clone]; [|reflexivity]. unfold isSet. destruct H as [H|H].
        - destruct (lg_clone g); [contradiction|discriminate].
        - apply String.eqb_neq in H. rewrite H. reflexivity. }
      rewrite E. split.
      + apply dedupe_right. apply Forall2_app; assumption.
      + rewrite map_app, <- Nc, <- Np, <- map_app. apply dedupe_RightNames.
    - intros E G. rewrite E in Lc. destruct clone as [|? ?]; [|discriminate]. unfold isSet. rewrite G. change (String.eqb "true" "true") with true. cbn [app].
      eexists _, _. split; [reflexivity|]. split; [|split].
      + exists "clone". reflexivity.
      + apply dedupe_right. exact Fp.
      + rewrite <- Np. exact (dedupe_RightNames (cloneStep :: steps)).
  Qed.
  Lemma toPipeline_panic : forall g remote, ~ CompleteConfig g -> toPipeline getenv parseURL g remote = Panic.
  Proof.
    intros g remote N. unfold toPipeline.
    assert (X : forall l, Forall Complete l \/ ~ Forall Complete l).
    { intro l. destruct (otraverse toContainer l) as [r|e|] eqn:E.
      - left. clear -E. revert r E. induction l as [|c l IH]; intros r E; constructor.
        + cbn [otraverse] in E. apply obind_ok in E. destruct E as (c' & E & _). unfold Complete. split; intro I.
          * assert (P : toContainer c = Panic); [|congruence]. apply toContainer_panic. intros [A _]. contradiction.
          * assert (P : toContainer c = Panic); [|congruence]. apply toContainer_panic. intros [_ A]. contradiction.
        + cbn [otraverse] in E. apply obind_ok in E. destruct E as (c' & _ & E). apply obind_ok in E. destruct E as (r' & E & _). eapply IH; exact E.
      - right. intro F. destruct (containers_ok l F) as (l' & E' & _). congruence.
      - right. intro F. destruct (containers_ok l F) as (l' & E' & _). congruence. }
    destruct (X (lg_clone g)) as [Fc|Fc]; [|rewrite containers_panic by exact Fc; reflexivity].
    destruct (containers_ok _ Fc) as (? & -> & _). cbn [obind].
    destruct (X (lg_services g)) as [Fs|Fs]; [|rewrite (containers_panic _ Fs); reflexivity].
    destruct (containers_ok _ Fs) as (? & -> & _). cbn [obind].
    destruct (X (lg_pipeline g)) as [Fp|Fp]; [|rewrite (containers_panic _ Fp); reflexivity].
    exfalso. apply N. intros c [I|[I|I]]; [revert c I; apply Forall_forall; assumption|revert c I; apply Forall_forall; assumption|revert c I; apply Forall_forall; assumption].
  Qed.
End Whole.
