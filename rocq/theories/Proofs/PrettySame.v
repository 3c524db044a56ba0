(** * PrettySame.v: formatting what was formatted changes nothing. *)
From Coq Require Import Lia Sorting.Permutation.
From Verif Require Import Model.Go Model.Types Model.Decode Model.Encode Model.Quote Model.Pretty.
From Verif Require Import Spec.DecodeSpec Spec.YamlSpec Spec.PrettySpec.
From Verif Require Import Proofs.GoFacts Proofs.MapFacts Proofs.PrettyTree Proofs.PrettyLayout Proofs.PrettyItems.
From Verif Require Import Proofs.YamlFacts Proofs.YamlStrings Proofs.YamlDocs Proofs.PrettyRound.
From Verif Require Model.Legacy.

(** ** Sorting twice *)
Section Twice.
  Context {V : Type}.
  Implicit Types m : smap V.
  Fixpoint Ordered m : Prop :=
    match m with
    | e :: m' => match m' with f :: _ => String.compare (fst e) (fst f) <> Gt | [] => True end /\ Ordered m'
    | [] => True
    end.
  Lemma compare_gt : forall a b, String.compare a b = Gt -> String.compare b a <> Gt.
  Proof. intros a b H. rewrite String.compare_antisym, H. discriminate. Qed.
  Lemma insert_ordered : forall e m, Ordered m -> Ordered (insertKey e m).
  Proof.
    intros e m. induction m as [|f m IH]; intro O; [repeat split|]. cbn [insertKey]. destruct (String.compare (fst e) (fst f)) eqn:C.
    - split; [rewrite C; discriminate|exact O].
    - split; [rewrite C; discriminate|exact O].
    - destruct O as [O1 O2]. specialize (IH O2). split; [|exact IH]. destruct m as [|g m]; [apply compare_gt, C|]. cbn [insertKey] in *.
      destruct (String.compare (fst e) (fst g)); [apply compare_gt, C|apply compare_gt, C|exact O1].
  Qed.
  Lemma byKey_ordered : forall m, Ordered (byKey m).
  Proof. induction m as [|e m IH]; [exact I|]. apply insert_ordered, IH. Qed.
  Lemma ordered_byKey : forall m, Ordered m -> byKey m = m.
  Proof.
    induction m as [|e m IH]; intros O; [reflexivity|]. destruct O as [O1 O2]. change (byKey (e :: m)) with (insertKey e (byKey m)). rewrite (IH O2).
    destruct m as [|f m]; [reflexivity|]. cbn [insertKey]. destruct (String.compare (fst e) (fst f)); congruence.
  Qed.
  Lemma byKey_twice : forall m, byKey (byKey m) = byKey m.
  Proof. intro m. apply ordered_byKey, byKey_ordered. Qed.
  Lemma byKey_nil : forall m, emptyList (byKey m) = emptyList m.
  Proof. intros [|e m]; [reflexivity|]. cbn [emptyList]. destruct (byKey (e :: m)) eqn:E; [|reflexivity]. exfalso. pose proof (byKey_perm (e :: m)) as P. rewrite E in P. apply Permutation_sym, Permutation_nil in P. discriminate P. Qed.
End Twice.

Section Same.
  Variable iph : N -> bool.
  Variables formatFloat sprintFloat : float64 -> string.
  Variable bytesSize : Z -> string.
  Variable resolve : string -> node.
  Variable ramInBytes : string -> option Z.
  Notation actual f := (f iph formatFloat sprintFloat bytesSize) (only parsing).
  Notation enc := (encodeString iph).
  Notation tag := (actual tagItems).
  Notation valueTree := (PrettyTree.valueTree iph formatFloat sprintFloat).
  Notation anyTree := (actual PrettyTree.anyTree).
  Notation ValueOk := (PrettySpec.ValueOk resolve formatFloat).

  Lemma same_stringMap : forall m, NoDup (map fst m) -> stringMapTree iph (byKey m) = stringMapTree iph m.
  Proof.
    intros m D. unfold stringMapTree. f_equal.
    pose (f := fun k (o : option string) => Some (enc k, stringTree iph (match o with Some v => v | None => "" end))).
    change (map (fun k => f k (mget k (byKey m))) (Legacy.sortStrings (mkeys (byKey m))) = map (fun k => f k (mget k m)) (Legacy.sortStrings (mkeys m))).
    rewrite !(sorted_get f) by (try apply byKey_NoDup; exact D). rewrite byKey_twice. reflexivity.
  Qed.
  Lemma same_map : forall k m, NoDup (map fst m) -> tag k (AMap (byKey m)) = tag k (AMap m).
  Proof.
    intros k m D. unfold tagItems. cbn [isZero]. rewrite byKey_nil. destruct m as [|e m]; [reflexivity|]. cbn [emptyList]. f_equal. f_equal. f_equal. f_equal.
    pose proof (byKey_nil (e :: m)) as E. cbn [PrettyTree.anyTree]. pose proof (same_stringMap (e :: m) D) as S.
    destruct (byKey (e :: m)) as [|f m']; [discriminate E|exact S].
  Qed.
  Lemma same_build : forall b, BuildOk b -> actual buildItems (sortedBuild b) = actual buildItems b.
  Proof.
    intros b ((Ka & _) & _ & _ & _ & _ & (Kl & _) & _). destruct Ka as [Ka _]. destruct Kl as [Kl _]. unfold buildItems, shortBuild, sortedBuild. cbn [b_args b_cache_from b_context b_dockerfile b_image b_labels].
    rewrite !byKey_nil, (same_map "args" _ Ka), (same_map "labels" _ Kl). reflexivity.
  Qed.

  Lemma same_underKey : forall v t, underKey (sortedValue v) t = underKey v t.
  Proof. intros [| | | | | |] t; reflexivity. Qed.
  Lemma same_value : forall v, ValueOk v -> valueTree (sortedValue v) = valueTree v.
  Proof.
    intros v H. induction H as [|b|z F|f P E|s R|l H IH|ks vs L D K H IH]; try reflexivity.
    - destruct l as [|x l]; [reflexivity|]. cbn [sortedValue]. change (TSeq (map (fun v => Some (valueTree v)) (map sortedValue (x :: l))) = TSeq (map (fun v => Some (valueTree v)) (x :: l))).
      rewrite map_map. f_equal. apply map_ext_in. intros v I. rewrite (IH v I). reflexivity.
    - rewrite combine_strs by exact L. set (m := combine ks vs).
      assert (Km : map fst m = ks). { unfold m. clear - L. revert vs L. induction ks as [|k ks IH]; intros [|v vs] L; try discriminate; [reflexivity|]. cbn. f_equal. apply IH. injection L as L. exact L. }
      assert (Vm : forall k v, In (k, v) m -> In v vs) by (intros k v I; eapply in_combine_r; exact I).
      destruct (emptyList m) eqn:Em; [destruct m; [reflexivity|discriminate]|]. assert (N : m <> []) by (destruct m; discriminate). clear Em.
      assert (Dm : NoDup (map fst m)) by (rewrite Km; exact D). rewrite sorted_strs, (valueTree_strs iph formatFloat sprintFloat m N Dm).
      assert (Kb : map fst (map (fun e => (fst e, sortedValue (snd e))) (byKey m)) = map fst (byKey m)) by (rewrite map_map; reflexivity).
      rewrite (valueTree_strs iph formatFloat sprintFloat).
      + rewrite byKey_map, byKey_twice, map_map. f_equal. apply map_ext_in. intros [k v] I. cbn [fst snd]. apply (byKey_In m) in I. rewrite same_underKey, (IH v (Vm k v I)). reflexivity.
      + intro Z. apply map_eq_nil in Z. pose proof (byKey_nil m) as E. rewrite Z in E. destruct m; [congruence|discriminate].
      + rewrite Kb. apply byKey_NoDup, Dm.
  Qed.
  Lemma same_below : forall v, ValueOk v -> anyTree (AValue (sortedValue v)) = anyTree (AValue v).
  Proof.
    intros v H. cbn [PrettyTree.anyTree]. pose proof (same_value v H) as E. destruct H as [|b|z F|f P X|s R|l H|ks vs L D K H]; try reflexivity.
    - destruct l as [|x l]; [reflexivity|]. exact E.
    - rewrite combine_strs in * by exact L. rewrite sorted_strs in *. pose proof (byKey_nil (combine ks vs)) as Z. destruct (combine ks vs) as [|e m]; [reflexivity|].
      destruct (byKey (e :: m)) as [|f m']; [discriminate Z|]. exact E.
  Qed.
  Lemma same_parameter : forall k p, PrettySpec.ParameterOk resolve formatFloat p -> actual parameterItems k (sortedParameter p) = actual parameterItems k p.
  Proof.
    intros k [v s] [(N & R & E)|(E & V & _)]; cbn [p_secret p_value] in *; unfold parameterItems, sortedParameter; cbn [p_secret p_value].
    - destruct s; [congruence|]. reflexivity.
    - rewrite E. cbn [isEmpty]. rewrite (same_below v V). reflexivity.
  Qed.
  Lemma same_settings : forall m, KeysOk m -> Forall (Present (PrettySpec.ParameterOk resolve formatFloat)) (map snd m) ->
    actual settingItems (byKey (map (fun e => (fst e, option_map sortedParameter (snd e))) m)) = actual settingItems m.
  Proof.
    intros m [D _] F. unfold settingItems. f_equal. f_equal.
    pose (f := fun k (o : option (option Parameter_)) => needs (match o with Some v => v | None => None end) (actual parameterItems k)).
    assert (D' : NoDup (map fst (byKey (map (fun e => (fst e, option_map sortedParameter (snd e))) m)))) by (apply byKey_NoDup; rewrite map_map; exact D).
    change (map (fun k => f k (mget k (byKey (map (fun e => (fst e, option_map sortedParameter (snd e))) m)))) (Legacy.sortStrings (mkeys (byKey (map (fun e => (fst e, option_map sortedParameter (snd e))) m)))) = map (fun k => f k (mget k m)) (Legacy.sortStrings (mkeys m))).
    rewrite (sorted_get f _ D'), (sorted_get f _ D), byKey_twice, byKey_map, map_map. apply map_ext_in. intros [k v] I. cbn [fst snd]. unfold f.
    apply (byKey_In m) in I. rewrite Forall_forall in F. destruct (F v (in_map snd m (k, v) I)) as (p & -> & P). cbn [option_map needs]. apply same_parameter, P.
  Qed.
  Lemma same_environ : forall m, NoDup (map fst m) -> actual environItems (byKey m) = actual environItems m.
  Proof.
    intros m D. unfold environItems. f_equal. f_equal.
    pose (f := fun k (o : option (option Variable_)) => needs (match o with Some v => v | None => None end) (actual variableItems k)).
    change (map (fun k => f k (mget k (byKey m))) (Legacy.sortStrings (mkeys (byKey m))) = map (fun k => f k (mget k m)) (Legacy.sortStrings (mkeys m))).
    rewrite !(sorted_get f) by (try apply byKey_NoDup; exact D). rewrite byKey_twice. reflexivity.
  Qed.
  Lemma same_container : forall c, PrettySpec.ContainerOk resolve ramInBytes formatFloat bytesSize c -> actual containerItems (sortedContainer c) = actual containerItems c.
  Proof.
    intros c O. unfold containerItems. destruct O as [OB _ _ _ _ _ _ _ [[OE _] _] _ _ _ _ _ _ _ _ _ [OS OSV] _ _ _ _ _].
    cbn [sortedContainer ct_build ct_command ct_commands ct_detach ct_depends ct_devices ct_dns ct_dns_search ct_entrypoint ct_environment ct_extra_hosts ct_failure ct_image ct_network ct_name ct_ports ct_privileged ct_pull ct_push ct_resources ct_settings ct_shell ct_user ct_volumes ct_when ct_working_dir].
    rewrite (same_settings _ OS OSV), (same_environ _ OE), !byKey_nil.
    replace (emptyList (map (fun e => (fst e, option_map sortedParameter (snd e))) (ct_settings c))) with (emptyList (ct_settings c)) by (destruct (ct_settings c); reflexivity).
    replace (isSet (option_map sortedBuild (ct_build c)) (actual buildItems)) with (isSet (ct_build c) (actual buildItems)); [reflexivity|].
    destruct (ct_build c) as [b|]; [|reflexivity]. cbn [option_map isSet]. symmetry. apply same_build, (OB b eq_refl).
  Qed.
  Lemma same_containers : forall k l, Forall (Present (PrettySpec.ContainerOk resolve ramInBytes formatFloat bytesSize)) l ->
    actual containersItems k (map (option_map sortedContainer) l) = actual containersItems k l.
  Proof.
    intros k l F. unfold containersItems. replace (emptyList (map (option_map sortedContainer) l)) with (emptyList l) by (destruct l; reflexivity). f_equal. f_equal. f_equal.
    rewrite map_map. apply map_ext_in. intros s I. rewrite Forall_forall in F. destruct (F s I) as (c & -> & O). cbn [option_map isSet]. rewrite (same_container c O). reflexivity.
  Qed.
  Lemma same_pipeline : forall p, PrettySpec.PipelineOk resolve ramInBytes formatFloat bytesSize p -> actual pipelineItems (sortedPipeline p) = actual pipelineItems p.
  Proof.
    intros p O. unfold pipelineItems. destruct O as [_ _ _ _ _ _ _ [[ON _] _] _ _ OV OS _ _ _].
    cbn [sortedPipeline pi_version pi_kind pi_type pi_name pi_clone pi_concurrency pi_depends pi_node pi_platform pi_pull_secrets pi_services pi_steps pi_trigger pi_volumes pi_workspace].
    rewrite (same_containers _ _ OV), (same_containers _ _ OS), byKey_nil, (same_map _ _ ON).
    match goal with |- (?a +? ?b +? ?c +? ?d +? ?e +? ?x +? ?r) = (_ +? _ +? _ +? _ +? _ +? ?y +? _) => assert (X : x = y) end.
    { destruct (pi_platform p) as [os arch variant version]. destruct os as [|a os]; [destruct arch as [|b arch]; [destruct variant as [|c variant]; [destruct version as [|d version]|]|]|]; reflexivity. }
    rewrite X. reflexivity.
  Qed.

  (** ** Secrets *)
  Lemma squeezed_unique : forall s t u, squeezed s t -> squeezed s u -> t = u.
  Proof. intros s t u H1 H2. unfold squeezed in *. rewrite <- H2 in H1. rewrite <- (string_of_list_ascii_of_string t), H1. apply string_of_list_ascii_of_string. Qed.
  Lemma squeezed_once : forall s t, squeezed s t -> squeezed t t.
  Proof.
    unfold squeezed. intros s t E. symmetry. rewrite E, filter_filter. apply filter_ext. intro c. destruct (negb _); reflexivity.
  Qed.
  Lemma squeezed_join : forall ps, squeezed (join " " ps +++ nl) (removeSpaces (concats ps)).
  Proof.
    intro ps. unfold squeezed. rewrite (removed_spaces (concats ps)), laos_app, filter_app. cbn [nl list_ascii_of_string filter]. 
    change (filter (fun c => negb (Ascii.eqb c " " || Ascii.eqb c NL)) (list_ascii_of_string nl)) with (@nil ascii). rewrite app_nil_r.
    induction ps as [|p ps IH]; [reflexivity|]. cbn [concats]. rewrite laos_app, filter_app, IH. destruct ps as [|q ps].
    - cbn [join]. change (concats []) with "". cbn. rewrite app_nil_r. reflexivity.
    - change (join " " (p :: q :: ps)) with (p +++ " " +++ join " " (q :: ps))%string. rewrite !laos_app, !filter_app. reflexivity.
  Qed.
  Lemma same_data : forall s d, FoldedData s d -> removeSpaces d = removeSpaces s /\ isEmpty d = isEmpty s \/ removeSpaces d = removeSpaces s /\ s <> "" /\ d <> "".
  Proof.
    intros s d [[-> ->]|(u & ps & S & [P1 P2] & ->)]; [left; split; reflexivity|]. right.
    assert (E : removeSpaces s = u) by (eapply squeezed_unique; [apply removed_spaces|exact S]).
    assert (U : removeSpaces u = u) by (eapply squeezed_unique; [apply removed_spaces|eapply squeezed_once; exact S]).
    split; [|split].
    - rewrite E. transitivity (removeSpaces (concats ps)); [|rewrite <- P1; exact U]. eapply squeezed_unique; [apply removed_spaces|apply squeezed_join].
    - intros ->. assert (Hu : u = "") by (rewrite <- E; reflexivity). rewrite Hu in P1. clear - P1 P2. destruct P2 as (w & l & -> & _ & L). rewrite concats_app in P1. cbn in P1. rewrite sapp_nil_r in P1. destruct l; [cbn in L; lia|]. destruct (concats w); discriminate P1.
    - intro Z. apply (f_equal String.length) in Z. rewrite slength_app in Z. cbn in Z. lia.
  Qed.

  Lemma same_resource : forall r r', ReadBack r r' -> PrettySpec.Formattable resolve ramInBytes formatFloat bytesSize r ->
    resourceItems iph formatFloat sprintFloat bytesSize r' = resourceItems iph formatFloat sprintFloat bytesSize r.
  Proof.
    intros r r' B F. destruct B as [p|c|s|s d D]; cbn [resourceItems].
    - apply same_pipeline, F.
    - reflexivity.
    - reflexivity.
    - unfold secretItems, isSecretGetEmpty, getItems, dataItems. cbn [se_version se_kind se_type se_name se_data se_get_path se_get_name se_get_key].
      apply same_data in D. destruct D as [[E Z]|(E & N1 & N2)]; rewrite E; [rewrite Z; reflexivity|]. destruct d; [congruence|]. destruct (se_data s); [congruence|]. reflexivity.
  Qed.
  Lemma same_text : forall m m', Forall (PrettySpec.Formattable resolve ramInBytes formatFloat bytesSize) (mf_resources m) ->
    Forall2 ReadBack (mf_resources m) (mf_resources m') -> actual Pretty.print m' = actual Pretty.print m.
  Proof.
    intros m m' F B. rewrite !print_text. replace (docs iph formatFloat sprintFloat bytesSize (mf_resources m')) with (docs iph formatFloat sprintFloat bytesSize (mf_resources m)); [reflexivity|].
    induction B as [|r r' rs rs' H B IH]; [reflexivity|]. apply Forall_cons_iff in F. destruct F as [Fr F]. unfold docs. cbn [map optConcat]. f_equal; [|exact (IH F)].
    rewrite (same_resource r r' H Fr). destruct H; reflexivity.
  Qed.
End Same.
