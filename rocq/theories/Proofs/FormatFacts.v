(** * FormatFacts.v: the formatter writes the text [FormatSpec] says. *)
From Coq Require Import Lia Sorting.Permutation Floats.SpecFloat.
From Verif Require Import Model.Go Model.Types Model.Encode Model.Quote Model.Pretty.
From Verif Require Import Spec.DecodeSpec Spec.PrettySpec.
From Verif Require Import Proofs.GoFacts Proofs.MapFacts Proofs.PrettyTree Proofs.PrettyLayout Proofs.PrettyItems Proofs.PrettyRound Proofs.PrettySame.
From Verif Require Import Spec.FormatSpec.
From Verif Require Model.Legacy.

Section Format.
  Variable iph : N -> bool.
  Variables formatFloat sprintFloat : float64 -> string.
  Variable bytesSize : Z -> string.
  Notation actual f := (f iph formatFloat sprintFloat bytesSize) (only parsing).
  Notation enc := (encodeString iph).
  Notation tag := (actual tagItems).

  (** ** Entries *)
  Lemma tag_word : forall k s, tag k (AString s) = Some (word enc (enc k) s).
  Proof. intros k [|c s]; reflexivity. Qed.
  Lemma tag_flag : forall k b, tag k (ABool b) = Some (FormatSpec.flag (enc k) b).
  Proof. intros k [|]; reflexivity. Qed.
  Lemma fits_int : forall z, Fits z -> isInt z = true.
  Proof. intros z [A B]. unfold isInt. apply andb_true_intro. split; [apply Z.leb_le|apply Z.ltb_lt]; assumption. Qed.
  Lemma tag_number : forall k z, Fits z -> tag k (AInt z) = Some (number (enc k) z).
  Proof.
    intros k z F. unfold tagItems, number. cbn [isZero AInt PrettyTree.anyTree below]. rewrite (fits_int z F). cbn [andb].
    destruct (Z.eqb z 0); reflexivity.
  Qed.
  Lemma tag_size : forall k z, tag k (ASize z) = Some (size enc bytesSize (enc k) z).
  Proof. intros k z. unfold tagItems, size. cbn [isZero]. destruct (Z.eqb z 0); reflexivity. Qed.
  Lemma tag_float : forall k f, tag k (AFloat f) = Some (float formatFloat (enc k) f).
  Proof. intros k [s|s| |s m e]; reflexivity. Qed.
  Lemma tag_words : forall k l, tag k (AStrings l) = Some (words enc (enc k) l).
  Proof. intros k [|s l]; reflexivity. Qed.
  Lemma tag_table : forall k m, NoDup (map fst m) -> tag k (AMap m) = Some (table enc (enc k) m).
  Proof.
    intros k m D. destruct m as [|e m]; [reflexivity|]. unfold tagItems. cbn [isZero emptyList PrettyTree.anyTree]. unfold table, entry. do 5 f_equal.
    unfold stringMapTree. f_equal.
    pose (f := fun k (o : option string) => Some (enc k, stringTree iph (match o with Some v => v | None => "" end))).
    exact (sorted_get f _ D).
  Qed.

  (** ** Values *)
  Lemma order_sort : forall ks, inOrder ks = Legacy.sortStrings ks.
  Proof. intro ks. unfold inOrder. rewrite byKey_keys. f_equal. unfold mkeys. rewrite map_map. apply map_id. Qed.
  Lemma key_text : forall v, sprint sprintFloat v = keyText sprintFloat v.
  Proof. intros [| | | | | |]; reflexivity. Qed.
  Lemma beside_under : forall v t, underKey v t = beside v t.
  Proof. reflexivity. Qed.
  Lemma found_tree : forall k (m : list (value * value)) (f : value -> tree),
    match find (fun e => match fst e with VStr k' => String.eqb k' k | _ => false end) (map (fun kv => (fst kv, f (snd kv))) m) with
    | Some (_, t) => t | None => TScalar "~" end =
    match lookup k m with Some v => f v | None => TScalar "~" end.
  Proof.
    intros k m f. induction m as [|[[| | | |s| |] v] m IH]; try exact IH; [reflexivity|]. cbn. rewrite String.eqb_sym. destruct (String.eqb k s); [reflexivity|exact IH].
  Qed.
  Lemma value_shown : forall v, valueTree iph formatFloat sprintFloat v = shown enc formatFloat sprintFloat v.
  Proof.
    apply value_induction.
    - intros [|b|i|f|s|[|x l]|[|x m]] H; try destruct H; reflexivity.
    - intros [|x l] _ F; [reflexivity|]. change (TSeq (map (fun x => Some (valueTree iph formatFloat sprintFloat x)) (x :: l)) = TSeq (map (fun x => Some (shown enc formatFloat sprintFloat x)) (x :: l))).
      f_equal. apply map_ext_in. intros y I. rewrite Forall_forall in F. rewrite (F y I). reflexivity.
    - intros [|x m] _ F; [reflexivity|]. rewrite (PrettyTree.valueTree_map iph formatFloat sprintFloat x m).
      change (shown enc formatFloat sprintFloat (VMap (x :: m))) with
        (TMap (map (fun k => Some (enc k,
                match find (fun e => match fst e with VStr k' => String.eqb k' k | _ => false end)
                  (map (fun kv => (fst kv, beside (snd kv) (shown enc formatFloat sprintFloat (snd kv)))) (x :: m)) with
                | Some (_, t) => t
                | None => TScalar "~"
                end)) (inOrder (map (fun kv => keyText sprintFloat (fst kv)) (x :: m))))).
      f_equal. rewrite order_sort. rewrite (map_ext _ _ (fun kv => key_text (fst kv))). apply map_ext. intro k. do 2 f_equal.
      rewrite (found_tree k (x :: m) (fun v => beside v (shown enc formatFloat sprintFloat v))). unfold found.
      destruct (lookup k (x :: m)) as [v|] eqn:L; [|reflexivity]. apply lookup_In in L. rewrite Forall_forall in F. specialize (F _ L). cbn [snd] in F. rewrite F. reflexivity.
  Qed.
  Lemma below_setting : forall v, below iph formatFloat sprintFloat v = setting enc formatFloat sprintFloat v.
  Proof.
    intro v. pose proof (value_shown v) as E. destruct v as [|b|i|f|s|[|x l]|[|x m]]; try reflexivity; try exact E.
    cbn [below setting beside shown scalar]. change (small i) with (isInt i). destruct (isInt i); reflexivity.
  Qed.

  (** ** Steps *)
  Lemma none_present : forall {A B} (l : list (option A)) (f : A -> option (list B)) (g : A -> B),
    ~ In None l -> (forall a, In (Some a) l -> f a = Some [g a]) -> optConcat (map (fun o => needs o f) l) = Some (map g (present l)).
  Proof.
    intros A B l f g N H. induction l as [|[a|] l IH]; [reflexivity| |exfalso; apply N; left; reflexivity]. cbn [map optConcat needs present flat_map app].
    rewrite (H a (or_introl eq_refl)), IH; [reflexivity|intro I; apply N; right; exact I|intros b I; apply H; right; exact I].
  Qed.
  Lemma present_nil : forall {A} (l : list (option A)), ~ In None l -> emptyList (present l) = emptyList l.
  Proof. intros A [|[a|] l] N; [reflexivity|reflexivity|exfalso; apply N; left; reflexivity]. Qed.
  Lemma items_ordered : forall {A} (m : smap (option A)) (f : string -> A -> option (list (option (string * tree)))) (g : string * A -> list (option (string * tree))),
    NoDup (map fst m) -> ~ In None (map snd m) -> (forall e, f (fst e) (snd e) = Some (g e)) ->
    optConcat (map (fun k => needs (match mget k m with Some v => v | None => None end) (f k)) (Legacy.sortStrings (mkeys m))) = Some (flat_map g (ordered m)).
  Proof.
    intros A m f g D N H. pose (h := fun k (o : option (option A)) => needs (match o with Some v => v | None => None end) (f k)).
    change (optConcat (map (fun k => h k (mget k m)) (Legacy.sortStrings (mkeys m))) = Some (flat_map g (ordered m))). rewrite (sorted_get h m D). unfold ordered.
    assert (N' : ~ In None (map snd (byKey m))).
    { intro I. apply N. apply in_map_iff in I. destruct I as (e & E & I). apply in_map_iff. exists e. split; [exact E|]. apply byKey_In, I. }
    revert N'. generalize (byKey m). clear - H. induction s as [|[k [a|]] m IH]; intro N; [reflexivity| |exfalso; apply N; left; reflexivity].
    cbn [map optConcat flat_map fst snd]. unfold h at 1. cbn [needs]. specialize (H (k, a)). cbn [fst snd] in H. rewrite H. rewrite IH by (intro I; apply N; right; exact I). reflexivity.
  Qed.
  Lemma filled_empty : forall s, filled s = negb (isEmpty s).
  Proof. intros [|c s]; reflexivity. Qed.
  Ltac tags := rewrite ?tag_word, ?tag_flag, ?tag_size, ?tag_float, ?tag_words.
  Lemma build_items : forall b, NoDup (map fst (b_args b)) -> NoDup (map fst (b_labels b)) -> actual buildItems b = Some (build enc b).
  Proof.
    intros [args cache context file image labels] D1 D2. cbn [b_args b_labels] in *. unfold buildItems, build, shortBuild. cbn [b_args b_cache_from b_context b_dockerfile b_image b_labels].
    rewrite (tag_table _ _ D1), (tag_table _ _ D2). tags.
    destruct args, cache, context, file, labels; reflexivity.
  Qed.
  Lemma port_items : forall p, Fits (po_port p) -> Fits (po_host p) -> actual portElems p = Some [Some (port enc p)].
  Proof.
    intros [p host protocol] F1 F2. cbn [po_port po_host] in *. unfold portElems, port, shortPort. cbn [po_port po_host po_protocol].
    rewrite (tag_number _ _ F1), (tag_number _ _ F2), tag_word. destruct host as [|h|h], protocol; reflexivity.
  Qed.
  Lemma resource_items : forall r, actual resourcesItems r = Some (resources enc formatFloat bytesSize r).
  Proof.
    intros [[l|] [q|]]; unfold resourcesItems, resources, resourceObjectItems, amounts; cbn [re_limits re_requests isSet optional]; tags; reflexivity.
  Qed.
  Lemma condition_items : forall k c, only (negb (isConditionEmpty c)) (under iph k (actual conditionTree c)) = Some (condition enc (enc k) c).
  Proof.
    intros k [exc inc]. unfold conditionTree, condition, isConditionEmpty. cbn [c_include c_exclude]. rewrite !tag_words.
    destruct inc, exc; reflexivity.
  Qed.
  Lemma condition_empty : forall k c, emptyList (condition enc k c) = isConditionEmpty c.
  Proof. intros k [exc inc]. unfold condition, isConditionEmpty. cbn [c_include c_exclude]. destruct inc, exc; reflexivity. Qed.
  Lemma emptyList_app : forall {A} (a b : list A), emptyList (a ++ b) = (emptyList a && emptyList b)%bool.
  Proof. intros A [|x a] b; reflexivity. Qed.
  Lemma conditions_items : forall k w, only (negb (isConditionsEmpty w)) (actual conditionsItems k w) = Some (conditions enc (enc k) w).
  Proof.
    intros k w. unfold conditionsItems, conditions. rewrite !condition_items. cbv zeta. cbn [optApp].
    match goal with |- _ = Some (match ?l with [] => _ | _ => _ end) => assert (E : emptyList l = isConditionsEmpty w) end.
    { unfold isConditionsEmpty. rewrite !emptyList_app, !condition_empty, !Bool.andb_assoc. reflexivity. }
    rewrite <- E. match goal with |- context [emptyList ?l] => destruct l eqn:L end; cbn [emptyList negb only]; [reflexivity|].
    rewrite <- L. reflexivity.
  Qed.
  Lemma sequence_items : forall k {A} (l : list (option A)) f g, ~ In None l -> (forall a, In (Some a) l -> f a = Some [Some (g a)]) ->
    only (negb (emptyList l)) (inSeq iph k (optConcat (map (fun o => needs o f) l))) = Some (sequence (enc k) (map (fun a => Some (g a)) (present l))).
  Proof.
    intros k A l f g N H. rewrite (none_present l f (fun a => Some (g a)) N H). destruct l as [|[a|] l]; [reflexivity|reflexivity|exfalso; apply N; left; reflexivity].
  Qed.
  Lemma step_items : forall c, GoStep c -> ~ StepNull c -> asItem (actual containerItems c) = Some [Some (FormatSpec.step enc formatFloat sprintFloat bytesSize c)].
  Proof.
    intros c (G1 & G2 & G3 & G4) N. unfold containerItems, FormatSpec.step.
    assert (B : isSet (ct_build c) (actual buildItems) = Some (optional (ct_build c) (build enc))).
    { destruct (ct_build c) as [b|]; [|reflexivity]. destruct (G3 b eq_refl). apply build_items; assumption. }
    assert (P : isSet (ct_push c) (fun p => tag "push" (AString (pu_image p))) = Some (optional (ct_push c) (fun p => word enc "push" (pu_image p)))).
    { destruct (ct_push c); [|reflexivity]. cbn [isSet optional]. rewrite tag_word. reflexivity. }
    assert (R : isSet (ct_resources c) (actual resourcesItems) = Some (optional (ct_resources c) (resources enc formatFloat bytesSize))).
    { destruct (ct_resources c); [|reflexivity]. apply resource_items. }
    assert (St : only (negb (emptyList (ct_settings c))) (actual settingItems (ct_settings c)) =
      Some (iff_ (match ct_settings c with [] => false | _ => true end) (section "settings"
        (flat_map (fun e => secretOr enc (fst e) (p_secret (snd e)) (entry (enc (fst e)) (setting enc formatFloat sprintFloat (p_value (snd e))))) (ordered (ct_settings c)))))).
    { unfold settingItems. rewrite (items_ordered _ (actual parameterItems) (fun e => secretOr enc (fst e) (p_secret (snd e)) (entry (enc (fst e)) (setting enc formatFloat sprintFloat (p_value (snd e))))) G2).
      - destruct (ct_settings c); reflexivity.
      - intro I. apply N. unfold StepNull. tauto.
      - intros [k [v s]]. unfold parameterItems, secretOr. cbn [fst snd p_secret p_value]. rewrite filled_empty, tag_word. cbn [PrettyTree.anyTree]. rewrite below_setting. destruct (isEmpty s); reflexivity. }
    assert (En : only (negb (emptyList (ct_environment c))) (actual environItems (ct_environment c)) =
      Some (iff_ (match ct_environment c with [] => false | _ => true end) (section "environment"
        (flat_map (fun e => secretOr enc (fst e) (v_secret (snd e)) (word enc (enc (fst e)) (v_value (snd e)))) (ordered (ct_environment c)))))).
    { unfold environItems. rewrite (items_ordered _ (actual variableItems) (fun e => secretOr enc (fst e) (v_secret (snd e)) (word enc (enc (fst e)) (v_value (snd e)))) G1).
      - destruct (ct_environment c); reflexivity.
      - intro I. apply N. unfold StepNull. tauto.
      - intros [k [v s]]. unfold variableItems, secretOr. cbn [fst snd v_secret v_value]. rewrite filled_empty, !tag_word. destruct (isEmpty s); reflexivity. }
    assert (De : only (negb (emptyList (ct_devices c))) (actual deviceItems (ct_devices c)) =
      Some (sequence "devices" (map (fun d => Some (TMap (word enc "name" (vd_name d) ++ word enc "path" (vd_path d)))) (present (ct_devices c))))).
    { unfold deviceItems. rewrite <- (sequence_items "devices" (ct_devices c) (fun d => asItem (tag "name" (AString (vd_name d)) +? tag "path" (AString (vd_path d))))).
      - do 3 f_equal. apply map_ext. intros [d|]; reflexivity.
      - intro I. apply N. unfold StepNull. tauto.
      - intros d _. rewrite !tag_word. reflexivity. }
    assert (Vo : only (negb (emptyList (ct_volumes c))) (actual mountItems (ct_volumes c)) =
      Some (sequence "volumes" (map (fun d => Some (TMap (word enc "name" (vm_name d) ++ word enc "path" (vm_path d)))) (present (ct_volumes c))))).
    { unfold mountItems. rewrite <- (sequence_items "volumes" (ct_volumes c) (fun d => asItem (tag "name" (AString (vm_name d)) +? tag "path" (AString (vm_path d))))).
      - do 3 f_equal. apply map_ext. intros [d|]; reflexivity.
      - intro I. apply N. unfold StepNull. tauto.
      - intros d _. rewrite !tag_word. reflexivity. }
    assert (Po : only (negb (emptyList (ct_ports c))) (actual portItems (ct_ports c)) =
      Some (sequence "ports" (map (fun p => Some (port enc p)) (present (ct_ports c))))).
    { unfold portItems. rewrite (sequence_items "ports" (ct_ports c) (actual portElems) (port enc)); [reflexivity| |].
      - intro I. apply N. unfold StepNull. tauto.
      - intros p I. destruct (G4 p I). apply port_items; assumption. }
    assert (Dp : only (negb (emptyList (ct_depends c))) (tag "depends_on" (AStrings (ct_depends c))) = Some (words enc "depends_on" (ct_depends c))).
    { rewrite tag_words. destruct (ct_depends c); reflexivity. }
    rewrite B, P, R, St, En, De, Vo, Po, Dp, conditions_items. tags. unfold blank. cbn [optApp asItem option_map]. reflexivity.
  Qed.
  Lemma steps_items : forall k l, (forall c, In (Some c) l -> GoStep c /\ ~ StepNull c) ->
    actual containersItems k l = Some (steps enc formatFloat sprintFloat bytesSize (enc k) l).
  Proof.
    intros k l H. unfold containersItems, steps.
    assert (E : optConcat (map (fun s => isSet s (fun c => asItem (actual containerItems c))) l) =
                Some (map (fun c => Some (FormatSpec.step enc formatFloat sprintFloat bytesSize c)) (present l))).
    { induction l as [|[c|] l IH]; [reflexivity| |].
      - cbn [map optConcat isSet]. destruct (H c (or_introl eq_refl)) as [G N]. rewrite (step_items c G N), IH by (intros d I; apply H; right; exact I). reflexivity.
      - cbn [map optConcat isSet]. rewrite IH by (intros d I; apply H; right; exact I). reflexivity. }
    rewrite E. destruct l; reflexivity.
  Qed.

  (** ** Resources *)
  Lemma volume_items : forall v,
    asItem (tag "name" (AString (vo_name v)) +? isSet (vo_empty v) (actual emptyDirItems) +? isSet (vo_host v) (actual hostPathItems)) =
    Some [Some (volume enc bytesSize v)].
  Proof.
    intros [name [[m z]|] [[h]|]]; unfold volume, emptyDirItems, hostPathItems; cbn [vo_name vo_empty vo_host isSet optional ve_medium ve_size vh_path]; rewrite ?tag_word, ?tag_size;
      unfold isEmptyDirEmpty; cbn [ve_medium ve_size]; try destruct m, z; reflexivity.
  Qed.
  Lemma only_group : forall {A} (x : list A) its o, o = Some its -> emptyList its = emptyList x -> only (negb (emptyList x)) (o +? blank) = Some (group its).
  Proof.
    intros A x its o -> E. rewrite <- E. unfold group, blank. destruct its; reflexivity.
  Qed.
  Lemma pipeline_items : forall p, GoResource (RPipeline p) -> ~ HasNull (RPipeline p) ->
    actual pipelineItems p = Some (pipeline enc formatFloat sprintFloat bytesSize p).
  Proof.
    intros p (F1 & F2 & D & G) N. unfold pipelineItems, pipeline.
    rewrite !tag_word.
    assert (S1 : actual containersItems "steps" (pi_steps p) = Some (steps enc formatFloat sprintFloat bytesSize "steps" (pi_steps p))).
    { apply steps_items. intros c I. split; [apply G, in_or_app; left; exact I|]. intro S. apply N. left. exists c. split; [apply in_or_app; left; exact I|exact S]. }
    assert (S2 : actual containersItems "services" (pi_services p) = Some (steps enc formatFloat sprintFloat bytesSize "services" (pi_services p))).
    { apply steps_items. intros c I. split; [apply G, in_or_app; right; exact I|]. intro S. apply N. left. exists c. split; [apply in_or_app; right; exact I|exact S]. }
    assert (NV : ~ In None (pi_volumes p)) by (intro I; apply N; right; exact I).
    assert (V : only (negb (emptyList (pi_volumes p))) (actual volumeItems (pi_volumes p) +? blank) =
      Some (group (sequence "volumes" (map (fun v => Some (volume enc bytesSize v)) (present (pi_volumes p)))))).
    { assert (E : actual volumeItems (pi_volumes p) = Some [Some ("volumes", TSeq (map (fun v => Some (volume enc bytesSize v)) (present (pi_volumes p))))]).
      { pose proof (none_present (pi_volumes p) (fun v => asItem (tag "name" (AString (vo_name v)) +? isSet (vo_empty v) (actual emptyDirItems) +? isSet (vo_host v) (actual hostPathItems)))
          (fun v => Some (volume enc bytesSize v)) NV (fun v _ => volume_items v)) as E.
        unfold volumeItems. match type of E with optConcat ?a = _ => match goal with |- context [optConcat ?b] => replace b with a end end; [rewrite E; reflexivity|].
        apply map_ext. intros [v|]; reflexivity. }
      rewrite E. destruct (pi_volumes p) as [|[v|] l]; [reflexivity|reflexivity|exfalso; apply NV; left; reflexivity]. }
    assert (PS : only (negb (emptyList (pi_pull_secrets p))) (tag "image_pull_secrets" (AStrings (pi_pull_secrets p)) +? blank) = Some (group (words enc "image_pull_secrets" (pi_pull_secrets p)))).
    { apply only_group; [apply tag_words|destruct (pi_pull_secrets p); reflexivity]. }
    assert (Nd : only (negb (emptyList (pi_node p))) (tag "node" (AMap (pi_node p)) +? blank) = Some (group (table enc "node" (pi_node p)))).
    { apply only_group; [exact (tag_table "node" _ D)|destruct (pi_node p); reflexivity]. }
    assert (Dp : only (negb (emptyList (pi_depends p))) (tag "depends_on" (AStrings (pi_depends p)) +? blank) = Some (group (words enc "depends_on" (pi_depends p)))).
    { apply only_group; [apply tag_words|destruct (pi_depends p); reflexivity]. }
    assert (Tr : only (negb (isConditionsEmpty (pi_trigger p))) (actual conditionsItems "trigger" (pi_trigger p) +? blank) = Some (group (conditions enc "trigger" (pi_trigger p)))).
    { pose proof (conditions_items "trigger" (pi_trigger p)) as C. destruct (isConditionsEmpty (pi_trigger p)) eqn:E; cbn [negb only] in *.
      - change (enc "trigger") with "trigger" in C. injection C as C. rewrite <- C. reflexivity.
      - rewrite C. change (enc "trigger") with "trigger". unfold conditions. cbv zeta. unfold conditions in C. cbv zeta in C.
        match goal with |- context [match ?l with [] => [] | _ => _ end] => destruct l eqn:L end; [|reflexivity].
        exfalso. unfold conditionsItems, inMap in C. match type of C with context [option_map _ ?o] => destruct o; discriminate C end. }
    assert (Pl : (if isPlatformEmpty (pi_platform p) then actual defaultItems else actual platformItems (pi_platform p)) = Some (platform enc (pi_platform p))).
    { unfold defaultItems, platformItems, platform. rewrite !tag_word. destruct (pi_platform p) as [os arch variant version]. unfold isPlatformEmpty. cbn [pl_os pl_arch pl_variant pl_version].
      destruct os, arch, variant, version; reflexivity. }
    assert (Cl : only (negb (isCloneEmpty (pi_clone p))) (actual cloneItems (pi_clone p)) =
      Some (match number "depth" (cl_depth (pi_clone p)) ++ FormatSpec.flag "disable" (cl_disable (pi_clone p)) ++ FormatSpec.flag "skip_verify" (cl_skip_verify (pi_clone p)) with
            | [] => [] | es => section "clone" (es ++ blankLine) end)).
    { unfold cloneItems. rewrite (tag_number _ _ F1), !tag_flag. unfold isCloneEmpty. destruct (pi_clone p) as [disable depth skip]. cbn [cl_depth cl_disable cl_skip_verify].
      unfold number. destruct (Z.eqb depth 0), disable, skip; reflexivity. }
    assert (Cc : only (negb (Z.eqb (pi_concurrency p) 0)) (actual concurrencyItems (pi_concurrency p)) =
      Some (match number "limit" (pi_concurrency p) with [] => [] | es => section "concurrency" (es ++ blankLine) end)).
    { unfold concurrencyItems. rewrite (tag_number _ _ F2). unfold number. destruct (Z.eqb (pi_concurrency p) 0); reflexivity. }
    assert (Ws : only (negb (isWorkspaceEmpty (pi_workspace p))) (actual workspaceItems (pi_workspace p)) =
      Some (match word enc "base" (ws_base (pi_workspace p)) ++ word enc "path" (ws_path (pi_workspace p)) with [] => [] | es => section "workspace" (es ++ blankLine) end)).
    { unfold workspaceItems. rewrite !tag_word. unfold isWorkspaceEmpty. destruct (pi_workspace p) as [base path]. cbn [ws_base ws_path]. destruct base, path; reflexivity. }
    rewrite S1, S2, V, PS, Nd, Dp, Tr, Pl, Cl, Cc, Ws. unfold blank. cbn [optApp]. reflexivity.
  Qed.
  Lemma cron_items : forall c, actual cronItems c = Some (cron enc c).
  Proof.
    intro c. unfold cronItems, specItems, cron, hasDeployment. rewrite !tag_word. unfold blank. destruct (cr_target c); reflexivity.
  Qed.
  Lemma signature_items : forall s, actual signatureItems s = Some (signature enc s).
  Proof. intro s. unfold signatureItems, signature. rewrite !tag_word. reflexivity. Qed.
  Lemma secret_items : forall s, actual secretItems s = Some (secret enc s (chunk (removeSpaces (se_data s)) 60)).
  Proof.
    intro s. unfold secretItems, secret, dataItems, getItems, isSecretGetEmpty. rewrite !tag_word, filled_empty. unfold blank.
    destruct (isEmpty (se_data s)), (se_get_key s), (se_get_name s), (se_get_path s); reflexivity.
  Qed.
  Lemma resource_document : forall r, GoResource r -> ~ HasNull r ->
    exists docs, Document enc formatFloat sprintFloat bytesSize r docs /\
      (if isRegistry r then Some [] else option_map (fun its => [its]) (actual resourceItems r)) = Some docs.
  Proof.
    intros [c|p|s|g|r] G N; cbn [isRegistry resourceItems].
    - eexists. split; [apply doc_cron|]. rewrite cron_items. reflexivity.
    - eexists. split; [apply doc_pipeline|]. rewrite (pipeline_items p G N). reflexivity.
    - eexists. split; [|rewrite secret_items; reflexivity]. apply doc_secret. exists (removeSpaces (se_data s)). split; [apply removed_spaces|].
      destruct (removeSpaces (se_data s)) as [|c d]; [left; split; reflexivity|right]. apply chunk_pieces. discriminate.
    - eexists. split; [apply doc_signature|]. rewrite signature_items. reflexivity.
    - eexists. split; [apply doc_registry|reflexivity].
  Qed.
  Theorem format_text : forall m, Forall GoResource (mf_resources m) -> ~ Exists HasNull (mf_resources m) ->
    exists docs, Forall2 (Document enc formatFloat sprintFloat bytesSize) (mf_resources m) docs /\
      actual print m = Ok (formatted (concat docs)).
  Proof.
    intros m G N. rewrite print_text. unfold formatted.
    assert (E : exists docs, Forall2 (Document enc formatFloat sprintFloat bytesSize) (mf_resources m) docs /\ PrettyItems.docs iph formatFloat sprintFloat bytesSize (mf_resources m) = Some (concat docs)).
    { revert G N. induction (mf_resources m) as [|r rs IH]; intros G N; [exists []; split; [constructor|reflexivity]|].
      inversion G as [|? ? G1 G2]; subst. destruct (resource_document r G1) as (d & D & E); [intro H; apply N; left; exact H|].
      destruct (IH G2) as (ds & F & E'); [intro H; apply N; right; exact H|]. exists (d :: ds). split; [constructor; assumption|].
      unfold docs in *. cbn [map optConcat]. rewrite E, E'. reflexivity. }
    destruct E as (ds & F & E). exists ds. split; [exact F|]. rewrite E. reflexivity.
  Qed.
End Format.
