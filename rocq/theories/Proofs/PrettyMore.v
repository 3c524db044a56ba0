(** * PrettyMore.v: when formatting fails, the documents it writes and the text of secrets. *)
From Coq Require Import Lia Sorting.Permutation DecimalString DecimalZ.
From Verif Require Import Model.Go Model.Types Model.Decode Model.Encode Model.Quote Model.Pretty.
From Verif Require Import Spec.DecodeSpec Spec.YamlSpec Spec.PrettySpec.
From Verif Require Import Proofs.GoFacts Proofs.MapFacts Proofs.PrettyTree Proofs.PrettyLayout Proofs.PrettyItems.
From Verif Require Import Proofs.YamlFacts Proofs.YamlStrings Proofs.YamlDocs Proofs.PrettyRound.
From Verif Require Model.Legacy.

(** ** A resolver *)
Definition plainResolve (s : string) : node :=
  if smem s nullWords then NNull
  else if String.eqb s "true" then NBool s true
  else if String.eqb s "false" then NBool s false
  else match NilZero.int_of_string s with
       | Some d => if String.eqb (itoa (Z.of_int d)) s then NInt s (Z.of_int d) else NStr s
       | None => NStr s
       end.
Lemma plain_resolver : Resolver plainResolve.
Proof.
  constructor; [| |reflexivity|reflexivity|].
  - intros s N. unfold plainResolve. destruct (smem s nullWords) eqn:E; [apply smem_In in E; contradiction|].
    destruct (String.eqb s "true"); [split; [constructor|discriminate]|]. destruct (String.eqb s "false"); [split; [constructor|discriminate]|].
    destruct (NilZero.int_of_string s); [destruct (String.eqb _ s)|]; (split; [constructor|discriminate]).
  - intros s I. unfold plainResolve. apply smem_In in I. rewrite I. reflexivity.
  - intro z. unfold plainResolve.
    assert (I : NilZero.int_of_string (itoa z) = Some (Z.to_int z)) by (unfold itoa; apply NilZero.isi; intro H; pose proof (DecimalZ.of_to z) as Z; rewrite H in Z; cbn in Z; subst z; discriminate H).
    destruct (smem (itoa z) nullWords) eqn:E.
    { exfalso. apply smem_In in E. cbn in E. repeat (destruct E as [E|E]; [rewrite <- E in I; discriminate I|]). destruct E. }
    destruct (String.eqb_spec (itoa z) "true") as [T|_]; [rewrite T in I; discriminate I|].
    destruct (String.eqb_spec (itoa z) "false") as [T|_]; [rewrite T in I; discriminate I|].
    rewrite I, DecimalZ.of_to, String.eqb_refl. reflexivity.
Qed.

Section More.
  Variable iph : N -> bool.
  Variables formatFloat sprintFloat : float64 -> string.
  Variable bytesSize : Z -> string.
  Notation actual f := (f iph formatFloat sprintFloat bytesSize) (only parsing).
  Notation tag := (actual tagItems).
  Notation format := (actual Pretty.print).

  (** ** Null entries *)
  Lemma none_app : forall {A} (a b : option (list A)), a +? b = None <-> a = None \/ b = None.
  Proof. intros A [a|] [b|]; cbn; split; intro H; try discriminate; try tauto; destruct H; discriminate. Qed.
  Lemma none_concat : forall {A} (l : list (option (list A))), optConcat l = None <-> In None l.
  Proof.
    intros A l. induction l as [|a l IH]; [split; [discriminate|intros []]|]. cbn [optConcat]. rewrite none_app, IH. reflexivity.
  Qed.
  Lemma none_map : forall {A B} (f : A -> B) o, option_map f o = None <-> o = None.
  Proof. intros A B f [a|]; split; intro H; try discriminate; reflexivity. Qed.
  Lemma none_tag : forall k v, tag k v <> None.
  Proof. intros k v. unfold tagItems. destruct (isZero v); discriminate. Qed.
  Lemma none_inMap : forall k o, inMap iph k o = None <-> o = None.
  Proof. intros. unfold inMap, under. rewrite !none_map. reflexivity. Qed.
  Lemma none_inSeq : forall k o, inSeq iph k o = None <-> o = None.
  Proof. intros. unfold inSeq, under. rewrite !none_map. reflexivity. Qed.
  Lemma none_asItem : forall o, asItem o = None <-> o = None.
  Proof. intros. unfold asItem. apply none_map. Qed.
  Lemma none_only : forall {A} b (o : option (list A)), only b o = None <-> b = true /\ o = None.
  Proof. intros A [] o; cbn; split; try tauto; try discriminate; intros [? ?]; discriminate. Qed.
  Lemma none_set : forall {A B} (p : option A) (f : A -> option (list B)), isSet p f = None <-> exists a, p = Some a /\ f a = None.
  Proof. intros A B [a|] f; cbn; split; try discriminate; [eauto|intros (b & E & H); injection E as ->; exact H|intros (b & E & _); discriminate]. Qed.
  Lemma none_needs : forall {A B} (p : option A) (f : A -> option (list B)), needs p f = None <-> p = None \/ exists a, p = Some a /\ f a = None.
  Proof. intros A B [a|] f; cbn; split; eauto; try tauto; [intros [H|(b & E & H)]; [discriminate|injection E as ->; exact H]]. Qed.
  Lemma none_blank : blank <> None.
  Proof. discriminate. Qed.
  Lemma none_nonempty : forall {A} (l : list A) (P : Prop), (P -> l <> []) -> negb (emptyList l) = true /\ P <-> P.
  Proof. intros A l P H. split; [tauto|]. intro X. split; [|exact X]. destruct l; [exfalso; apply H; [exact X|reflexivity]|reflexivity]. Qed.

  Lemma never : forall P : Prop, ~ P -> P <-> False.
  Proof. tauto. Qed.
  Lemma none_build : forall b, actual buildItems b <> None.
  Proof.
    intro b. unfold buildItems. destruct (shortBuild b); [apply none_tag|]. rewrite none_inMap. repeat (rewrite none_app; intros [H|H]; [revert H; apply none_tag|revert H]). apply none_tag.
  Qed.
  Lemma none_devices : forall l, actual deviceItems l = None <-> In None l.
  Proof.
    intro l. unfold deviceItems. rewrite none_inSeq, none_concat, in_map_iff. split.
    - intros ([v|] & E & I); [|exact I]. exfalso. rewrite none_asItem, none_app in E. cbn [needs] in E. destruct E as [E|E]; exact (none_tag _ _ E).
    - intro I. exists None. split; [reflexivity|exact I].
  Qed.
  Lemma none_mounts : forall l, actual mountItems l = None <-> In None l.
  Proof.
    intro l. unfold mountItems. rewrite none_inSeq, none_concat, in_map_iff. split.
    - intros ([v|] & E & I); [|exact I]. exfalso. rewrite none_asItem, none_app in E. cbn [needs] in E. destruct E as [E|E]; exact (none_tag _ _ E).
    - intro I. exists None. split; [reflexivity|exact I].
  Qed.
  Lemma none_ports : forall l, actual portItems l = None <-> In None l.
  Proof.
    intro l. unfold portItems. rewrite none_inSeq, none_concat, in_map_iff. split.
    - intros ([v|] & E & I); [|exact I]. exfalso. cbn [needs] in E. unfold portElems in E. destruct (shortPort v); [discriminate|].
      rewrite none_asItem, !none_app in E. destruct E as [E|[E|E]]; exact (none_tag _ _ E).
    - intro I. exists None. split; [reflexivity|exact I].
  Qed.
  Lemma none_volumes : forall l, actual volumeItems l = None <-> In None l.
  Proof.
    intro l. unfold volumeItems. rewrite none_inSeq, none_concat, in_map_iff. split.
    - intros ([v|] & E & I); [|exact I]. exfalso. rewrite none_asItem, !none_app in E. cbn [needs] in E. destruct E as [E|[E|E]]; [exact (none_tag _ _ E)| |].
      + apply none_set in E. destruct E as (d & _ & E). unfold emptyDirItems in E. destruct (isEmptyDirEmpty d); [discriminate|]. rewrite none_inMap, none_app in E. destruct E as [E|E]; exact (none_tag _ _ E).
      + apply none_set in E. destruct E as (d & _ & E). unfold hostPathItems in E. rewrite none_inMap in E. exact (none_tag _ _ E).
    - intro I. exists None. split; [reflexivity|exact I].
  Qed.
  Lemma none_resources : forall r, actual resourcesItems r <> None.
  Proof.
    intros r E. unfold resourcesItems in E. rewrite none_inMap, none_app, !none_set in E. destruct E as [(a & _ & E)|(a & _ & E)]; unfold resourceObjectItems in E; rewrite none_inMap, none_app in E; destruct E as [E|E]; exact (none_tag _ _ E).
  Qed.
  Lemma none_sorted : forall {V} (m : smap (option V)) (f : string -> V -> option (list (option (string * tree)))),
    NoDup (map fst m) -> (forall k v, f k v <> None) ->
    optConcat (map (fun k => needs (match mget k m with Some v => v | None => None end) (f k)) (Legacy.sortStrings (mkeys m))) = None <-> In None (map snd m).
  Proof.
    intros V m f D H. rewrite (sorted_get (fun k ov => needs (match ov with Some v => v | None => None end) (f k)) m D), none_concat, !in_map_iff. split.
    - intros ([k v] & E & I). cbn [fst snd] in E. apply none_needs in E. apply (byKey_In m) in I. exists (k, v). split; [|exact I]. cbn. destruct E as [E|(a & _ & E)]; [exact E|]. exfalso. exact (H _ _ E).
    - intros ([k v] & E & I). cbn in E. subst v. exists (k, None). split; [reflexivity|]. apply byKey_In, I.
  Qed.
  Lemma none_environ : forall m, NoDup (map fst m) -> actual environItems m = None <-> In None (map snd m).
  Proof.
    intros m D. unfold environItems. rewrite none_inMap. apply none_sorted; [exact D|]. intros k v E. unfold variableItems in E. destruct (isEmpty (v_secret v)); [exact (none_tag _ _ E)|].
    rewrite none_inMap in E. exact (none_tag _ _ E).
  Qed.
  Lemma none_settings : forall m, NoDup (map fst m) -> actual settingItems m = None <-> In None (map snd m).
  Proof.
    intros m D. unfold settingItems. rewrite none_inMap. apply none_sorted; [exact D|]. intros k v E. unfold parameterItems in E. destruct (isEmpty (p_secret v)); [discriminate E|].
    rewrite none_inMap in E. exact (none_tag _ _ E).
  Qed.
  Lemma none_condition : forall k c, under iph k (actual conditionTree c) <> None.
  Proof.
    intros k c E. unfold under in E. rewrite none_map in E. unfold conditionTree in E. destruct (_ && _); [discriminate|]. rewrite none_map, none_app in E. destruct E as [E|E]; exact (none_tag _ _ E).
  Qed.
  Lemma none_conditions : forall k w, actual conditionsItems k w <> None.
  Proof.
    intros k w E. unfold conditionsItems in E. cbv zeta in E. rewrite none_inMap in E. repeat (rewrite none_app in E; destruct E as [E|E]; [rewrite none_only in E; destruct E as [_ E]; exact (none_condition _ _ E)|]).
    rewrite none_only in E. destruct E as [_ E]. exact (none_condition _ _ E).
  Qed.
  Ltac drop E := repeat (rewrite none_app in E; destruct E as [E|E]; [exfalso; revert E; first [apply none_tag|apply none_blank]|]).
  Lemma none_container : forall c, NoDup (map fst (ct_environment c)) -> NoDup (map fst (ct_settings c)) -> actual containerItems c = None <-> StepNull c.
  Proof.
    intros c D1 D2. unfold containerItems, StepNull. rewrite !none_app, !none_only, !none_set, none_devices, none_ports, none_mounts, (none_environ _ D1), (none_settings _ D2).
    rewrite (never _ (none_blank)). repeat rewrite (never _ (none_tag _ _)).
    assert (B : ~ exists a, ct_build c = Some a /\ actual buildItems a = None) by (intros (a & _ & E); exact (none_build a E)).
    assert (P : ~ exists a, ct_push c = Some a /\ tag "push" (AString (pu_image a)) = None) by (intros (a & _ & E); exact (none_tag _ _ E)).
    assert (R : ~ exists a, ct_resources c = Some a /\ actual resourcesItems a = None) by (intros (a & _ & E); exact (none_resources a E)).
    rewrite (never _ B), (never _ P), (never _ R), (never _ (none_conditions _ _)).
    rewrite (none_nonempty (ct_settings c)) by (intros I Z; rewrite Z in I; exact I). rewrite (none_nonempty (ct_environment c)) by (intros I Z; rewrite Z in I; exact I).
    rewrite (none_nonempty (ct_devices c)) by (intros I Z; rewrite Z in I; exact I). rewrite (none_nonempty (ct_ports c)) by (intros I Z; rewrite Z in I; exact I).
    rewrite (none_nonempty (ct_volumes c)) by (intros I Z; rewrite Z in I; exact I). tauto.
  Qed.
  Lemma none_containers : forall k l, (forall c, In (Some c) l -> NoDup (map fst (ct_environment c)) /\ NoDup (map fst (ct_settings c))) ->
    actual containersItems k l = None <-> exists c, In (Some c) l /\ StepNull c.
  Proof.
    intros k l D. unfold containersItems. rewrite none_only, none_inSeq, none_concat, in_map_iff. split.
    - intros (_ & s & E & I). apply none_set in E. destruct E as (c & -> & E). rewrite none_asItem, none_container in E by (apply D, I). exists c. split; assumption.
    - intros (c & I & S). split; [destruct l; [destruct I|reflexivity]|]. exists (Some c). split; [|exact I]. cbn [isSet]. rewrite none_asItem. apply none_container; [apply D, I|apply D, I|exact S].
  Qed.
  Lemma none_resource : forall r, GoMaps r -> resourceItems iph formatFloat sprintFloat bytesSize r = None <-> HasNull r.
  Proof.
    intros [c|p|s|g|r] D; cbn [resourceItems HasNull].
    - split; [|tauto]. intro E. unfold cronItems in E. drop E. rewrite none_app in E. destruct E as [E|E]; [|drop E; discriminate E].
      unfold specItems in E. rewrite none_inMap in E. drop E. rewrite none_only, none_inMap in E. exact (none_tag _ _ (proj2 E)).
    - cbn [GoMaps] in D. unfold pipelineItems.
      rewrite !none_app, !none_only, !none_app, !(never _ (none_tag _ _)), !(never _ none_blank), (never _ (none_conditions _ _)), none_volumes.
      rewrite (none_containers "steps") by (intros c I; apply D, in_or_app; left; exact I). rewrite (none_containers "services") by (intros c I; apply D, in_or_app; right; exact I).
      assert (P : ~ (if isPlatformEmpty (pi_platform p) then actual defaultItems else actual platformItems (pi_platform p)) = None).
      { destruct (isPlatformEmpty _); intro E; unfold defaultItems, platformItems in E; rewrite none_inMap in E; drop E; exact (none_blank E). }
      assert (C : ~ actual cloneItems (pi_clone p) = None) by (intro E; unfold cloneItems in E; rewrite none_inMap in E; drop E; exact (none_blank E)).
      assert (Cc : ~ actual concurrencyItems (pi_concurrency p) = None) by (intro E; unfold concurrencyItems in E; rewrite none_inMap in E; drop E; exact (none_blank E)).
      assert (W : ~ actual workspaceItems (pi_workspace p) = None) by (intro E; unfold workspaceItems in E; rewrite none_inMap in E; drop E; exact (none_blank E)).
      rewrite (never _ P), (never _ C), (never _ Cc), (never _ W).
      assert (V : negb (emptyList (pi_volumes p)) = true /\ (In None (pi_volumes p) \/ False) <-> In None (pi_volumes p)).
      { split; [tauto|]. intro I. split; [|tauto]. destruct (pi_volumes p); [destruct I|reflexivity]. }
      rewrite V. split.
      + intros H. repeat (destruct H as [H|H]; try tauto); destruct H as (c & I & S); left; exists c; (split; [apply in_or_app; tauto|exact S]).
      + intros [(c & I & S)|I]; [|tauto]. apply in_app_or in I. destruct I as [I|I]; [|]; [do 9 right|do 10 right]; left; exists c; split; assumption.
    - split; [|tauto]. intro E. unfold secretItems in E. drop E. rewrite none_app in E. destruct E as [E|E].
      + rewrite none_only in E. destruct E as [_ E]. drop E. discriminate E.
      + rewrite none_app in E. destruct E as [E|E]; [|drop E; discriminate E]. rewrite none_only in E. destruct E as [_ E]. drop E. unfold getItems in E. rewrite none_inMap in E. drop E. exact (none_tag _ _ E).
    - split; [|tauto]. intro E. unfold signatureItems in E. drop E. discriminate E.
    - split; [discriminate|tauto].
  Qed.
  Lemma format_panics : forall m, Forall GoMaps (mf_resources m) -> format m = Panic <-> Exists HasNull (mf_resources m).
  Proof.
    intros m D. rewrite print_text. assert (N : docs iph formatFloat sprintFloat bytesSize (mf_resources m) = None <-> Exists HasNull (mf_resources m)).
    { unfold docs. rewrite none_concat, in_map_iff, Exists_exists. split.
      - intros (r & E & I). exists r. split; [exact I|]. destruct (isRegistry r); [discriminate|]. rewrite none_map in E. rewrite Forall_forall in D. apply (none_resource r (D r I)), E.
      - intros (r & I & H). exists r. split; [|exact I]. rewrite Forall_forall in D. assert (Ir : isRegistry r = false) by (destruct r; [reflexivity|reflexivity|reflexivity|reflexivity|destruct H]). rewrite Ir, none_map.
        apply none_resource; [apply D, I|exact H]. }
    destruct (docs _ _ _ _ (mf_resources m)); split; intro H; try discriminate; try reflexivity; [apply N in H; discriminate|apply N; reflexivity].
  Qed.
  Lemma format_no_error : forall m e, format m <> Err e.
  Proof. intros m e. rewrite print_text. destruct (docs _ _ _ _ _); discriminate. Qed.

  (** ** Documents *)
  Lemma docs_cons : forall r rs, docs iph formatFloat sprintFloat bytesSize (r :: rs) =
    (if isRegistry r then Some [] else option_map (fun its => [its]) (resourceItems iph formatFloat sprintFloat bytesSize r)) +? docs iph formatFloat sprintFloat bytesSize rs.
  Proof. reflexivity. Qed.
  Definition single (r : Resource) : option string :=
    if isRegistry r then Some "" else option_map docText (resourceItems iph formatFloat sprintFloat bytesSize r).
  Lemma format_single : forall r, format {| mf_resources := [r] |} = match single r with Some t => Ok (t +++ "..." +++ nl)%string | None => Panic end.
  Proof.
    intro r. rewrite print_text. cbn [mf_resources]. unfold docs, single. cbn [map optConcat]. destruct (isRegistry r); [reflexivity|].
    destruct (resourceItems _ _ _ _ r) as [its|]; [|reflexivity]. cbn. rewrite sapp_nil_r. reflexivity.
  Qed.
  Lemma format_documents : forall rs out, format {| mf_resources := rs |} = Ok out <->
    exists texts, Forall2 (fun r t => format {| mf_resources := [r] |} = Ok (t +++ "..." +++ nl)%string) rs texts /\ out = (concats texts +++ "..." +++ nl)%string.
  Proof.
    assert (X : forall rs, match docs iph formatFloat sprintFloat bytesSize rs with
      | Some ds => exists texts, Forall2 (fun r t => single r = Some t) rs texts /\ concats (map docText ds) = concats texts
      | None => exists r, In r rs /\ single r = None end).
    { induction rs as [|r rs IH]; [exists []; split; [constructor|reflexivity]|]. rewrite docs_cons. unfold single in *. destruct (isRegistry r) eqn:Ir.
      - destruct (docs _ _ _ _ rs) as [ds|]; cbn [optApp app].
        + destruct IH as (ts & F & E). exists ("" :: ts). split; [constructor; [rewrite Ir; reflexivity|exact F]|exact E].
        + destruct IH as (r0 & I & E). exists r0. split; [right; exact I|exact E].
      - destruct (resourceItems _ _ _ _ r) as [its|] eqn:Er; cbn [option_map optApp].
        + destruct (docs _ _ _ _ rs) as [ds|]; cbn [optApp app].
          * destruct IH as (ts & F & E). exists (docText its :: ts). split; [constructor; [rewrite Ir, Er; reflexivity|exact F]|]. cbn [map concats]. rewrite E. reflexivity.
          * destruct IH as (r0 & I & E). exists r0. split; [right; exact I|exact E].
        + exists r. split; [left; reflexivity|]. rewrite Ir, Er. reflexivity. }
    intros rs out. rewrite print_text. cbn [mf_resources]. specialize (X rs). destruct (docs _ _ _ _ rs) as [ds|].
    - destruct X as (ts & F & E). split.
      + intro H. injection H as <-. exists ts. split; [|rewrite E; reflexivity]. clear - F. induction F as [|r t rs ts H F IH]; constructor; [rewrite format_single, H; reflexivity|exact IH].
      + intros (ts' & F' & ->). f_equal. rewrite E. f_equal. f_equal. clear - F F'. revert ts' F'. induction F as [|r t rs ts H F IH]; intros ts' F'; inversion F' as [|? t' ? ts'' H' F'']; subst; [reflexivity|].
        f_equal; [|apply IH, F'']. rewrite format_single, H in H'. injection H' as H'. apply sapp_inv_tail in H'. exact H'.
    - destruct X as (r & I & E). split; [discriminate|]. intros (ts & F & _). exfalso. clear - F I E. induction F as [|r' t rs ts H F IH]; [destruct I|]. destruct I as [->|I]; [|exact (IH I)].
      rewrite format_single, E in H. discriminate H.
  Qed.
End More.
