(** * ForeignFacts.v: the decoders of the converters meet Spec/ForeignSpec.v. *)
From Coq Require Import Ascii Lia.
From Verif Require Import Model.Go Model.Types Model.Decode Spec.DecodeSpec Proofs.GoFacts Proofs.MapFacts Proofs.DecodeFacts
  Model.Legacy Model.Gitlab Model.Bitbucket Spec.ForeignSpec.

(** ** One string or many *)
Lemma texts_list_iff : forall l ss, optTraverse decString l = Some ss <-> Forall2 IsText l ss.
Proof. intros l ss. apply optTraverse_iff. intros a _ b. apply decString_iff. Qed.
Lemma decStringSlice_iff : forall n ss, decStringSlice n = Some ss <-> IsSlice n ss.
Proof.
  intros n ss. destruct n as [|s|s b|s z|s f|l|m]; cbn [decStringSlice decString decSlice].
  1: { split; intro H.
       - injection H as <-. constructor.
       - inversion H as [|? s N T|]; subst; [reflexivity|contradiction]. }
  1-4: (split; intro H;
        [ injection H as <-; apply slice_text; [discriminate|constructor]
        | inversion H as [|? s' N T|]; subst; inversion T; reflexivity ]).
  - rewrite texts_list_iff. split; intro H.
    + constructor. exact H.
    + inversion H as [|? s N T|? ? F]; subst; [inversion T|exact F].
  - split; intro H; [discriminate|]. inversion H as [|? s N T|]; subst. inversion T.
Qed.
Lemma exact_stringSlice : Exact decStringSlice IsSlice.
Proof. intros n _ x. apply decStringSlice_iff. Qed.
#[export] Hint Resolve exact_stringSlice : exact.

Lemma others_iff : forall A (dec : node -> option A) R keys f, Exact dec R -> (forall k v, In (k, v) f -> Distinct v) ->
  forall m, optTraverse (fun kv => option_map (pair (fst kv)) (dec (snd kv)))
    (filter (fun kv => negb (smem (fst kv) keys)) f) = Some m <-> Others keys R f m.
Proof.
  intros A dec R keys f X. induction f as [|[k n] f IH]; intros D m.
  - cbn. split; intro H; [injection H as <-; constructor | inversion H; reflexivity].
  - assert (IH' := IH (fun k' v' I => D k' v' (or_intror I))). assert (Dn := D k n (or_introl eq_refl)). clear IH D.
    cbn [filter fst]. destruct (smem k keys) eqn:E; cbn [negb].
    + assert (I : In k keys) by (apply smem_In; exact E). rewrite IH'. split; intro H.
      * apply others_skip; assumption.
      * inversion H; subst; [assumption|contradiction].
    + assert (I : ~ In k keys) by (intro I; apply smem_In in I; congruence).
      rewrite optTraverse_cons. cbn [fst snd]. split.
      * destruct (dec n) as [x|] eqn:Ex; [|discriminate]. cbn [option_map].
        match goal with |- match ?o with _ => _ end = _ -> _ => destruct o as [m'|] eqn:Em end; [|discriminate].
        intro H. injection H as <-. apply others_keep; [exact I| |apply IH'; reflexivity].
        apply (X n Dn). exact Ex.
      * intro H. inversion H as [|? ? ? ? I'|? ? ? x m' _ Rx Hm]; subst; [contradiction|].
        apply (X n Dn) in Rx. rewrite Rx. cbn [option_map]. apply IH' in Hm. rewrite Hm. reflexivity.
Qed.

(** ** Splitting *)
Lemma without_nil : forall c, Without c "".
Proof. intros c H. exact H. Qed.
Lemma without_cons : forall c d s, d <> c -> Without c s -> Without c (String d s).
Proof. intros c d s N W [E|I]; [congruence|exact (W I)]. Qed.
Fixpoint splitGo (n : nat) (sep : ascii) (acc r : string) : list string :=
  match r with
  | "" => [acc]
  | String c r' => if Ascii.eqb c sep then acc :: splitn n sep r' else splitGo n sep (acc +++ String c "")%string r'
  end.
Lemma splitn_go : forall n sep s, splitn (S (S n)) sep s = splitGo (S n) sep "" s.
Proof.
  intros n sep s.
  enough (H : forall acc, (fix go (acc r : string) : list string :=
         match r with
         | "" => [acc]
         | String c r' => if Ascii.eqb c sep then acc :: splitn (S n) sep r' else go (acc +++ String c "")%string r'
         end) acc s = splitGo (S n) sep acc s) by exact (H "").
  induction s as [|c s IH]; intro acc; [reflexivity|].
  cbn [splitGo]. destruct (Ascii.eqb c sep); [reflexivity|apply IH].
Qed.
Lemma app_assoc1 : forall a c s, ((a +++ String c "") +++ s)%string = (a +++ String c s)%string.
Proof. induction a as [|d a IH]; intros c s; cbn; [reflexivity|]. f_equal. apply IH. Qed.
Lemma app_empty : forall a, (a +++ "")%string = a.
Proof. induction a as [|d a IH]; cbn; [reflexivity|]. f_equal. exact IH. Qed.
Lemma splitGo_without : forall n sep r acc, Without sep r -> splitGo n sep acc r = [(acc +++ r)%string].
Proof.
  intros n sep. induction r as [|c r IH]; intros acc W; cbn [splitGo].
  - rewrite app_empty. reflexivity.
  - destruct (Ascii.eqb_spec c sep) as [->|N]; [exfalso; apply W; left; reflexivity|].
    rewrite IH; [rewrite app_assoc1; reflexivity|]. intro I. apply W. right. exact I.
Qed.
Lemma splitGo_at : forall n sep a r acc, Without sep a ->
  splitGo n sep acc (a +++ String sep r)%string = (acc +++ a)%string :: splitn n sep r.
Proof.
  intros n sep. induction a as [|c a IH]; intros r acc W.
  - cbn [String.append splitGo]. rewrite Ascii.eqb_refl, app_empty. reflexivity.
  - cbn [String.append splitGo]. destruct (Ascii.eqb_spec c sep) as [->|N]; [exfalso; apply W; left; reflexivity|].
    rewrite IH; [rewrite app_assoc1; reflexivity|]. intro I. apply W. right. exact I.
Qed.
Lemma cut : forall sep s, Without sep s \/ exists a r, s = (a +++ String sep r)%string /\ Without sep a.
Proof.
  intros sep. induction s as [|c s [W|(a & r & -> & W)]].
  - left. apply without_nil.
  - destruct (Ascii.eqb_spec c sep) as [->|N].
    + right. exists "", s. split; [reflexivity|apply without_nil].
    + left. apply without_cons; assumption.
  - destruct (Ascii.eqb_spec c sep) as [->|N].
    + right. exists "", (a +++ String sep r)%string. split; [reflexivity|apply without_nil].
    + right. exists (String c a), r. split; [reflexivity|]. apply without_cons; assumption.
Qed.
Lemma split2_none : forall sep s, Without sep s -> splitn 2 sep s = [s].
Proof. intros sep s W. rewrite splitn_go, splitGo_without by exact W. reflexivity. Qed.
Lemma split2_at : forall sep a r, Without sep a -> splitn 2 sep (a +++ String sep r)%string = [a; r].
Proof. intros sep a r W. rewrite splitn_go, splitGo_at by exact W. reflexivity. Qed.
Lemma split3_none : forall sep s, Without sep s -> splitn 3 sep s = [s].
Proof. intros sep s W. rewrite splitn_go, splitGo_without by exact W. reflexivity. Qed.
Lemma split3_at : forall sep a r, Without sep a -> splitn 3 sep (a +++ String sep r)%string = a :: splitn 2 sep r.
Proof. intros sep a r W. rewrite splitn_go, splitGo_at by exact W. reflexivity. Qed.
Lemma cut_unique : forall sep a r a' r', Without sep a -> Without sep a' ->
  (a +++ String sep r)%string = (a' +++ String sep r')%string -> a = a' /\ r = r'.
Proof.
  intros sep a r a' r' W W' E.
  assert (S := split2_at sep a r W). rewrite E, (split2_at sep a' r' W') in S. injection S as <- <-. auto.
Qed.
Lemma cut_without : forall sep a r, ~ Without sep (a +++ String sep r)%string.
Proof.
  intros sep a r W. apply W. induction a as [|c a IH]; cbn; [left; reflexivity|]. right. apply IH.
  intro I. apply W. right. exact I.
Qed.

(** ** Lines key=value *)
Lemma addPair_other : forall m line, Without "=" line -> addPair m line = m.
Proof. intros m line W. unfold addPair. rewrite split2_none by exact W. reflexivity. Qed.
Lemma addPair_pair : forall m k v, Without "=" k -> addPair m (k +++ "=" +++ v)%string = mset k v m.
Proof. intros m k v W. unfold addPair. change ("=" +++ v)%string with (String "=" v). rewrite split2_at by exact W. reflexivity. Qed.
Lemma mset_again : forall (m m' : smap string) k w v, ~ In k (map fst m) -> mset k v (m ++ (k, w) :: m') = m ++ (k, v) :: m'.
Proof.
  induction m as [|[k1 v1] m IH]; intros m' k w v N; cbn [mset app].
  - rewrite String.eqb_refl. reflexivity.
  - cbn in N. destruct (String.eqb_spec k k1) as [->|_]; [exfalso; tauto|]. f_equal. apply IH. tauto.
Qed.
Lemma pairs_fold : forall ss m, Pairs ss m -> fold_left addPair ss [] = m /\ NoDup (map fst m).
Proof.
  intros ss m P. induction P as [|ss m line P [IH N] W|ss m k v P [IH N] W A|ss m k w m' v P [IH N] W].
  - split; [reflexivity|constructor].
  - rewrite fold_left_app. cbn [fold_left]. rewrite IH, addPair_other by exact W. auto.
  - rewrite fold_left_app. cbn [fold_left]. rewrite IH, addPair_pair by exact W. split; [apply mset_fresh; exact A|].
    rewrite map_app. cbn. apply NoDup_Add with (a := k) (l := map fst m).
    + assert (X := Add_app k (map fst m) []). rewrite app_nil_r in X. exact X.
    + auto.
  - rewrite fold_left_app. cbn [fold_left]. rewrite IH, addPair_pair by exact W.
    rewrite map_app in *. cbn [map fst] in *. split; [|exact N].
    apply mset_again. intro I. apply (NoDup_remove_2 _ _ _ N). apply in_or_app. auto.
Qed.
Lemma fold_pairs : forall ss, Pairs ss (fold_left addPair ss []).
Proof.
  intro ss. induction ss as [|line ss IH] using rev_ind; [constructor|].
  rewrite fold_left_app. cbn [fold_left]. set (m := fold_left addPair ss []) in *.
  destruct (cut "=" line) as [W|(k & v & -> & W)].
  - rewrite addPair_other by exact W. apply pairs_other; assumption.
  - change (String "=" v) with ("=" +++ v)%string. rewrite addPair_pair by exact W.
    destruct (in_dec string_dec k (map fst m)) as [I|N].
    + apply in_map_iff in I. destruct I as ([k' w] & E & I). cbn in E. subst k'.
      apply in_split in I. destruct I as (m1 & m2 & E). rewrite E in *.
      assert (U := proj2 (pairs_fold _ _ IH)). rewrite map_app in U. cbn [map fst] in U.
      rewrite mset_again; [apply pairs_again with (w := w); assumption|].
      intro I. apply (NoDup_remove_2 _ _ _ U). apply in_or_app. auto.
    + rewrite mset_fresh by exact N. apply pairs_new; assumption.
Qed.
Lemma exact_sliceMap : Exact decSliceMap IsPairs.
Proof.
  intros n D x. assert (M := exact_map _ _ _ exact_string n D).
  assert (G : match decMap decString n with Some m => Some m | None => l <? decSlice decString n ;; Some (fold_left addPair l []) end
              = Some x <-> IsPairs n x).
  { destruct (decMap decString n) as [m|] eqn:E.
    - split.
      + intro H. injection H as <-. apply ispairs_map. apply M. reflexivity.
      + intro H. inversion H as [? ? I|l ss ? F P]; subst.
        * apply M in I. congruence.
        * discriminate.
    - rewrite optBind_iff. split.
      + intros (l & S & H). injection H as <-. destruct n; try discriminate.
        cbn [decSlice] in S. apply texts_list_iff in S. exact (ispairs_list _ _ _ S (fold_pairs l)).
      + intro H. inversion H as [? ? I|l ss ? F P]; subst.
        * apply M in I. congruence.
        * exists ss. split; [apply texts_list_iff; exact F|]. f_equal. apply pairs_fold. exact P. }
  destruct n; cbn [decSliceMap]; try exact G.
Qed.
#[export] Hint Resolve exact_sliceMap : exact.

(** ** Volumes *)
Lemma ro_cases : forall c, (c = "ro" /\ String.eqb c "ro" = true) \/ (c <> "ro" /\ String.eqb c "ro" = false).
Proof. intro c. destruct (String.eqb_spec c "ro"); auto. Qed.
Lemma splitVolume_text : forall s, VolumeText s (splitVolume s).
Proof.
  intro s. unfold splitVolume. destruct (cut ":" s) as [W|(a & r & -> & W)].
  - rewrite split3_none by exact W. apply volume_one. exact W.
  - rewrite split3_at by exact W. destruct (cut ":" r) as [V|(b & c & -> & V)].
    + rewrite split2_none by exact V. apply volume_two; assumption.
    + rewrite split2_at by exact V. destruct (ro_cases c) as [[-> R]|[N R]]; rewrite R.
      * apply volume_ro; assumption.
      * apply volume_mode; assumption.
Qed.
Lemma volumeText_det : forall s v, VolumeText s v -> v = splitVolume s.
Proof.
  intros s v V. destruct V as [a b Wa Wb|a b Wa Wb|a b c Wa Wb N|s W]; unfold splitVolume.
  - change (":" +++ b)%string with (String ":" b). rewrite split3_at, split2_none by assumption. reflexivity.
  - change (":" +++ b +++ ":ro")%string with (String ":" (b +++ String ":" "ro")%string).
    rewrite split3_at, split2_at by assumption. reflexivity.
  - change (":" +++ b +++ ":" +++ c)%string with (String ":" (b +++ String ":" c)%string).
    rewrite split3_at, split2_at by assumption. destruct (String.eqb_spec c "ro"); [contradiction|reflexivity].
  - rewrite split3_none by assumption. reflexivity.
Qed.
Lemma exact_lvolume : Exact decLVolume IsLVolume.
Proof.
  intros n _ v. unfold decLVolume, IsLVolume. split.
  - destruct (decString n) as [s|] eqn:E; [|discriminate]. cbn. intro H. injection H as <-.
    exists s. split; [apply decString_iff; exact E | apply splitVolume_text].
  - intros (s & T & V). apply decString_iff in T. rewrite T. cbn. f_equal. symmetry. apply volumeText_det. exact V.
Qed.
#[export] Hint Resolve exact_lvolume : exact.

(** ** Secrets *)
Lemma exact_lsecret : Exact decLSecret IsLSecret.
Proof. structProof. Qed.
#[export] Hint Resolve exact_lsecret : exact.
Lemma exact_lsecrets : Exact decLSecrets IsLSecrets.
Proof.
  intros n D x. unfold decLSecrets. assert (S := exact_slice _ _ _ exact_string n D).
  assert (M := exact_slice _ _ _ (exact_ptr _ _ _ exact_lsecret) n D).
  destruct (decSlice decString n) as [l|] eqn:E.
  - assert (L := proj1 (S l) eq_refl). split.
    + intro H. injection H as <-. exact (secrets_names n l L).
    + intro H. inversion H as [? ss I|? l' N _]; subst.
      * apply S in I. injection I as <-. reflexivity.
      * exfalso. exact (N _ L).
  - rewrite (M x). split.
    + intro H. apply secrets_maps; [|exact H]. intros ss I. apply S in I. discriminate.
    + intro H. inversion H as [? ss I|? l' N I]; subst; [apply S in I; discriminate|exact I].
Qed.
#[export] Hint Resolve exact_lsecrets : exact.

(** ** Constraints *)
Lemma constraintField_iff : forall m k ss, NoDup (flat_map (fun kv => texts (fst kv)) m) ->
  constraintField k (NMap m) = ss <-> SliceAt m k ss.
Proof.
  intros m k ss N. unfold constraintField, SliceAt. destruct (entry k m) as [v|] eqn:E.
  - destruct (entry_In _ _ _ E) as (key & I & T).
    assert (U : forall key' v', In (key', v') m -> IsText key' k -> v' = v)
      by (intros key' v' I' T'; exact (NoDup_flat _ _ _ _ _ _ N I' I T' T)).
    destruct (decStringSlice v) as [l|] eqn:Ev; cbn [orNone].
    + assert (L := proj1 (decStringSlice_iff _ _) Ev). split.
      * intros <-. left. exists key, v. auto.
      * intros [(key' & n & I' & T' & H)|[A _]].
        -- rewrite (U _ _ I' T') in H. apply decStringSlice_iff in H. congruence.
        -- exfalso. exact (A _ _ _ I T L).
    + split.
      * intros <-. right. split; [|reflexivity]. intros key' n ss' I' T' H. rewrite (U _ _ I' T') in H.
        apply decStringSlice_iff in H. congruence.
      * intros [(key' & n & I' & T' & H)|[_ ->]]; [|reflexivity].
        rewrite (U _ _ I' T') in H. apply decStringSlice_iff in H. congruence.
  - assert (A := entry_None _ _ E). split.
    + intros <-. right. split; [|reflexivity]. intros key n ss' I T. exfalso. exact (A _ _ I T).
    + intros [(key & n & I & T & _)|[_ ->]]; [|reflexivity]. exfalso. exact (A _ _ I T).
Qed.
Lemma exact_constraint : Exact decConstraint IsConstraint.
Proof.
  intros n D x. unfold decConstraint.
  assert (G : (forall m, n <> NMap m) ->
    Some {| c_include := orNone (decStringSlice n); c_exclude := [] |} = Some x <-> IsConstraint n x).
  { intro NM. destruct (decStringSlice n) as [ss|] eqn:E; cbn [orNone].
    - assert (S := proj1 (decStringSlice_iff _ _) E). split.
      + intro H. injection H as <-. apply cons_slice. exact S.
      + intro H. inversion H as [? ss' S'|l A|m inc exc]; subst.
        * apply decStringSlice_iff in S'. rewrite E in S'. injection S' as <-. reflexivity.
        * exfalso. exact (A _ S).
        * exfalso. exact (NM _ eq_refl).
    - assert (A : forall ss, ~ IsSlice n ss) by (intros ss S; apply decStringSlice_iff in S; congruence). split.
      + intro H. injection H as <-. destruct n as [| | | | |l|m]; try discriminate.
        * apply cons_list. exact A.
        * exfalso. exact (NM _ eq_refl).
      + intro H. inversion H as [? ss' S'|l A'|m inc exc]; subst.
        * exfalso. exact (A _ S').
        * reflexivity.
        * exfalso. exact (NM _ eq_refl). }
  destruct n as [| | | | |l|m]; try (cbn [constraintField app]; apply G; discriminate).
  cbn [decStringSlice decString decSlice orNone]. rewrite app_nil_r. inversion D as [| | | | | |? N _]; subst. split.
  - intro H. injection H as <-. apply cons_map; apply (constraintField_iff m _ _ N); reflexivity.
  - intro H. inversion H as [? ss' S'|l A|? inc exc S1 S2]; subst.
    + inversion S' as [|? s N' T|]; subst. inversion T.
    + apply (constraintField_iff m _ _ N) in S1. apply (constraintField_iff m _ _ N) in S2. rewrite S1, S2. reflexivity.
Qed.
#[export] Hint Resolve exact_constraint : exact.
Lemma exact_lconstraints : Exact decLConstraints IsLConstraints.
Proof. unfold decLConstraints, IsLConstraints, HasConstraint, noCond. cbv zeta. structProof. Qed.
#[export] Hint Resolve exact_lconstraints : exact.

(** ** Containers *)
Lemma exact_value : Exact decValue IsValue.
Proof. intros n _ v. apply decValue_iff. Qed.
#[export] Hint Resolve exact_value : exact.
Lemma vargs_iff : forall f, Good f -> forall m, decVargs f = Some m <-> Others legacyStepKeys IsValue f m.
Proof. intros f [_ D] m. exact (others_iff _ _ _ _ f exact_value D m). Qed.
Ltac structWith L :=
  apply exact_struct; [ | reflexivity ];
  let f := fresh "f" in let G := fresh "G" in let x := fresh "x" in
  intros f G x; split;
  [ intro; unfoldFields; unbind;
    match goal with H : Some _ = Some x |- _ => injection H as <- end;
    repeat match goal with |- _ /\ _ => split end; cbn; first [toSpec | apply L; [exact G|assumption]]
  | let H := fresh "H" in intro H; destruct x; cbn in H; unfoldFields;
    repeat match goal with H : _ /\ _ |- _ => destruct H end; toEq;
    repeat match goal with H : Others _ _ f _ |- _ => apply L in H; [|exact G] end;
    repeat match goal with
      H : field _ _ _ _ = Some _ |- _ => rewrite H; clear H; cbn [optBind]
    end;
    match goal with H : _ = Some _ |- _ => rewrite H end; reflexivity ].
Lemma exact_lcontainer : Exact decLContainer IsLContainer.
Proof. unfold decLContainer, IsLContainer, fSlices, HasSlice. structWith vargs_iff. Qed.
Lemma renamed_iff : forall name c c', withName name c = c' <-> Renamed name c c'.
Proof.
  intros name c c'. split.
  - intros <-. unfold Renamed, withName. cbn. intuition reflexivity.
  - unfold Renamed. destruct c, c'. cbn. intros H. unfold withName. cbn.
    repeat match goal with H : _ /\ _ |- _ => destruct H end. subst. reflexivity.
Qed.

Section Containers.
  Variable formatFloat : float64 -> string.
  Variable formatKey : node -> string.
  Lemma rewritten_iff : forall n n', rewriteNode formatFloat n = n' <-> Rewritten formatFloat n n'.
  Proof.
    intro n. induction n as [|s|t b|t z|t f|l IH|m IH] using node_induction; intro n'; cbn [rewriteNode]; split;
      try (intros <-; try destruct b; constructor; fail);
      try (intro H; inversion H; reflexivity).
    - intros <-. constructor. induction l as [|a l IHl]; cbn; constructor.
      + apply IH; [left|]; reflexivity.
      + apply IHl. intros a' I. apply IH. right. exact I.
    - intro H. inversion H as [| | | | | |? l' F|]; subst. f_equal. clear H.
      induction F as [|a b l l' R _ IHF]; [reflexivity|]. cbn. f_equal.
      + apply IH; [left; reflexivity|exact R].
      + apply IHF. intros a' I. apply IH. right. exact I.
    - intros <-. constructor. induction m as [|[k v] m IHm]; cbn; constructor.
      + cbn. destruct (IH k v (or_introl eq_refl)) as [Hk Hv]. split; [apply Hk|apply Hv]; reflexivity.
      + apply IHm. intros k' v' I. apply IH. right. exact I.
    - intro H. inversion H as [| | | | | | |? m' F]; subst. f_equal. clear H.
      induction F as [|[k v] [k' v'] m m' [Rk Rv] _ IHF]; [reflexivity|]. cbn in *.
      destruct (IH k v (or_introl eq_refl)) as [Hk Hv]. f_equal.
      + f_equal; [apply Hk|apply Hv]; assumption.
      + apply IHF. intros a' b' I. apply IH. right. exact I.
  Qed.
  Lemma keyText_iff : forall n s, keyText formatKey n = s <-> KeyText formatKey n s.
  Proof.
    intros n s. split.
    - intros <-. destruct n as [| |t []| | | |]; cbn [keyText boolText]; constructor.
    - intro H. inversion H; reflexivity.
  Qed.
  Lemma containers_iff : forall n,
    (forall m key v w, n = NMap m -> In (key, v) m -> Rewritten formatFloat v w -> Distinct w) ->
    forall cs, decContainers formatFloat formatKey n = Some cs <-> IsContainers formatFloat formatKey n cs.
  Proof.
    intros n D cs. unfold IsContainers. destruct n as [| | | | | |m]; cbn [decContainers].
    1: { split.
         - intro H. injection H as <-. auto.
         - intros [[_ ->]|(m & E & _)]; [reflexivity|discriminate]. }
    1-5: (split; [discriminate|]; intros [[E _]|(m & E & _)]; discriminate).
    rewrite (optTraverse_iff _ _ _ (NamedContainer formatFloat formatKey) m).
    { split.
      - intro F. right. exists m. auto.
      - intros [[E _]|(m' & E & F)]; [discriminate|]. injection E as <-. exact F. }
    intros [key v] I c. unfold NamedContainer. cbn [fst snd]. rewrite optBind_iff.
    assert (Dv := D m key v _ eq_refl I (proj1 (rewritten_iff v _) eq_refl)). split.
    - intros (c0 & H & E). injection E as <-. exists (keyText formatKey key), (rewriteNode formatFloat v), c0.
      split; [apply keyText_iff; reflexivity|]. split; [apply rewritten_iff; reflexivity|].
      split; [apply (exact_lcontainer _ Dv); exact H | apply renamed_iff; reflexivity].
    - intros (name & w & c0 & K & R & L & N). apply rewritten_iff in R. subst w. apply keyText_iff in K. subst name.
      exists c0. split; [apply (exact_lcontainer _ Dv); exact L|]. f_equal. apply renamed_iff. exact N.
  Qed.
  Lemma exact_secretDef : Exact decSecretDef IsSecretDef.
  Proof. structProof. Qed.

  Lemma field_iff : forall A (dec : node -> option A) R zero f k, NoDup (map fst f) ->
    (forall n, In (k, n) f -> forall x, dec n = Some x <-> R n x) ->
    forall x, field dec zero k f = Some x <-> Has f k R zero x.
  Proof.
    intros A dec R zero f k N H x. unfold field, Has. destruct (mget k f) as [n|] eqn:E.
    - assert (I := DecodeFacts.mget_In _ _ _ _ E). rewrite (H n I x). split.
      + intro Rx. left. exists n. auto.
      + intros [(n' & I' & Rx)|[A' _]].
        * apply (mget_NoDup _ _ _ _ N) in I'. congruence.
        * exfalso. apply A'. apply in_map_iff. exists (k, n). auto.
    - assert (A' := proj1 (DecodeFacts.mget_None _ _ _) E). split.
      + intro F. injection F as <-. right. auto.
      + intros [(n' & I' & _)|[_ ->]]; [|reflexivity].
        exfalso. apply A'. apply in_map_iff. exists (k, n'). auto.
  Qed.
  Lemma lconfig_iff : forall n, StaysDistinct formatFloat n ->
    forall g, decLConfig formatFloat formatKey n = Some g <-> IsLConfig formatFloat formatKey n g.
  Proof.
    intros n [D W] g.
    assert (B : forall f, Fields n f -> forall x,
      (w <? field decWorkspace noWorkspace "workspace" f ;;
      clone <? field (decContainers formatFloat formatKey) [] "clone" f ;;
      pipeline <? field (decContainers formatFloat formatKey) [] "pipeline" f ;;
      services <? field (decContainers formatFloat formatKey) [] "services" f ;;
      branches <? field decConstraint noCond "branches" f ;;
      mx <? field decValue VNull "matrix" f ;;
      secrets <? field (decMap decSecretDef) [] "secrets" f ;;
      Some {| lg_base := ws_base w; lg_path := ws_path w; lg_clone := clone; lg_pipeline := pipeline;
              lg_services := services; lg_branches := branches; lg_matrix := mx; lg_secrets := secrets |}) = Some x <->
      (exists w, HasStruct f "workspace" IsWorkspace w /\ lg_base x = ws_base w /\ lg_path x = ws_path w) /\
      Has f "clone" (IsContainers formatFloat formatKey) [] (lg_clone x) /\
      Has f "pipeline" (IsContainers formatFloat formatKey) [] (lg_pipeline x) /\
      Has f "services" (IsContainers formatFloat formatKey) [] (lg_services x) /\
      HasConstraint f "branches" (lg_branches x) /\
      Has f "matrix" IsValue VNull (lg_matrix x) /\ Has f "secrets" (IsMap IsSecretDef) [] (lg_secrets x)).
    { intros f F x. assert (G := fields_Good _ _ D F).
      assert (C : forall k, In k ["clone"; "pipeline"; "services"] -> forall y,
        field (decContainers formatFloat formatKey) [] k f = Some y <-> Has f k (IsContainers formatFloat formatKey) [] y).
      { intros k Ik. apply field_iff; [exact (proj1 G)|]. intros n' I'. apply containers_iff.
        intros m key v w -> I R. exact (W f k m key v w F Ik I' I R). }
      assert (C1 := C "clone" (or_introl eq_refl)).
      assert (C2 := C "pipeline" (or_intror (or_introl eq_refl))).
      assert (C3 := C "services" (or_intror (or_intror (or_introl eq_refl)))).
      assert (Wk := exact_fieldStruct _ _ _ noWorkspace exact_workspace eq_refl f G "workspace").
      assert (Br := exact_field _ _ _ noCond exact_constraint f G "branches").
      assert (Mx := exact_field _ _ _ VNull exact_value f G "matrix").
      assert (Se : forall y, field (decMap decSecretDef) [] "secrets" f = Some y <->
        Has f "secrets" (IsMap IsSecretDef) [] y)
        by exact (exact_field _ _ _ [] (exact_map _ _ _ exact_secretDef) f G "secrets").
      split.
      - intro H. unbind. injection H as <-. cbn.
        split; [eexists; split; [apply Wk; eassumption | split; reflexivity]|].
        split; [apply C1; assumption|]. split; [apply C2; assumption|]. split; [apply C3; assumption|].
        split; [apply Br; assumption|]. split; [apply Mx; assumption | apply Se; assumption].
      - intros ((w & Hw & E1 & E2) & H1 & H2 & H3 & H4 & H5 & H6).
        apply Wk in Hw. apply C1 in H1. apply C2 in H2. apply C3 in H3. apply Br in H4. apply Mx in H5. apply Se in H6.
        rewrite Hw; cbn [optBind]. rewrite H1; cbn [optBind]. rewrite H2; cbn [optBind]. rewrite H3; cbn [optBind].
        rewrite H4; cbn [optBind]. rewrite H5; cbn [optBind]. rewrite H6; cbn [optBind]. destruct x. cbn in *. congruence. }
    unfold IsLConfig, decLConfig. destruct n as [| | | | | |l]; cbn [decStruct].
    1: { split.
         - intro E. injection E as <-. exists []. split; [left; auto|]. apply B; [left; auto|reflexivity].
         - intros (f & F & H). apply B in H; [|exact F]. destruct F as [[_ ->]|(l & E & _)]; [|discriminate].
           exact H. }
    1-5: (split; [discriminate|]; intros (f' & [[E _]|(l' & E & _)] & _); discriminate).
    rewrite optBind_iff. split.
    - intros (f & E & H). assert (F : Fields (NMap l) f).
      { right. exists l. split; [reflexivity|]. apply keyed_iff. exact E. }
      exists f. split; [exact F|]. apply B; assumption.
    - intros (f & F & H). apply B in H; [|exact F]. destruct F as [[E _]|(l' & E & F)]; [discriminate|].
      injection E as <-. exists f. split; [apply keyed_iff; exact F | exact H].
  Qed.
End Containers.

(** ** GitLab *)
Lemma exact_gimage : Exact decGImage IsGImage.
Proof.
  assert (X : Exact (decStruct noImage (fun f =>
             name <? fString "name" f ;; entrypoint <? fSlices "entrypoint" f ;;
             command <? fSlices "command" f ;; alias <? fString "alias" f ;;
             Some {| gi_name := name; gi_entrypoint := entrypoint; gi_command := command; gi_alias := alias |}))
    (fun n i => exists f, Fields n f /\ (HasText f "name" (gi_name i) /\ HasSlice f "entrypoint" (gi_entrypoint i) /\
       HasSlice f "command" (gi_command i) /\ HasText f "alias" (gi_alias i)))).
  { unfold fSlices, HasSlice. structProof. }
  intros n D x. destruct n as [|s|s b|s z|s f|l|m]; cbn [decGImage decString].
  1-5: (split; intro H;
        [ injection H as <-; first [exact (gimage_text NNull "" text_null) | apply gimage_text; constructor]
        | inversion H as [? s' T|]; subst; inversion T; reflexivity ]).
  - split; [discriminate|]. intro H. inversion H as [? s T|]; subst. inversion T.
  - rewrite (X _ D x). split.
    + intros (f & F & H1 & H2 & H3 & H4). exact (gimage_map m f x F H1 H2 H3 H4).
    + intro H. inversion H as [? s T|? f ? F H1 H2 H3 H4]; subst; [inversion T|]. exists f. auto.
Qed.
#[export] Hint Resolve exact_gimage : exact.
Lemma exact_gjob : Exact decGJob IsGJob.
Proof. unfold decGJob, IsGJob, fSlices, fImages, HasSlice, HasImages. structProof. Qed.
#[export] Hint Resolve exact_gjob : exact.
Lemma jobs_iff : forall f, Good f -> forall m, decJobs f = Some m <-> Others gitlabKeys (IsPtr IsGJob) f m.
Proof. intros f [_ D] m. exact (others_iff _ _ _ _ f (exact_ptr _ _ _ exact_gjob) D m). Qed.
Lemma exact_gconfig : Exact decGConfig IsGConfig.
Proof. unfold decGConfig, IsGConfig, fSlices, fImages, HasSlice, HasImages. structWith jobs_iff. Qed.

(** ** Bitbucket *)
Lemma exact_bstep : Exact decBStep IsBStep.
Proof. structProof. Qed.
#[export] Hint Resolve exact_bstep : exact.
Lemma exact_item : Exact decItem IsItem.
Proof.
  unfold decItem, IsItem. apply exact_struct; [|reflexivity]. intros f G x.
  apply (exact_field _ _ _ _ (exact_ptr _ _ _ exact_bstep) f G).
Qed.
Lemma exact_stage : Exact decBStage IsStage.
Proof. exact (exact_slice _ _ _ exact_item). Qed.
#[export] Hint Resolve exact_stage : exact.
Lemma exact_bconfig : Exact decBConfig IsBConfig.
Proof.
  assert (Xc : Exact (decStruct 0%Z (fInt "depth")) (fun n x => exists g, Fields n g /\ HasInt g "depth" x)).
  { apply exact_struct; [|reflexivity]. intros f G x. apply (exact_field _ _ _ _ exact_int f G). }
  assert (Xp : Exact (decStruct ([], [], []) (fun g =>
            d <? field decBStage [] "default" g ;;
            t <? field (decMap decBStage) [] "tags" g ;;
            b <? field (decMap decBStage) [] "branches" g ;; Some (d, t, b)))
    (fun n x => exists p, Fields n p /\ (Has p "default" IsStage [] (fst (fst x)) /\
       Has p "tags" (IsMap IsStage) [] (snd (fst x)) /\ Has p "branches" (IsMap IsStage) [] (snd x)))).
  { apply exact_struct; [|reflexivity]. intros f G x. split.
    - intro E. unbind. injection E as <-. cbn. repeat match goal with |- _ /\ _ => split end; toSpec.
    - destruct x as [[s b] d]. cbn [fst snd]. intros (H1 & H2 & H3). toEq.
      rewrite H1. cbn [optBind]. rewrite H2. cbn [optBind]. rewrite H3. reflexivity. }
  assert (Xd : Exact (decStruct ([], []) (fun g =>
            s <? field (decMap (decPtr decBStep)) [] "services" g ;;
            c <? fStringMap "caches" g ;; Some (s, c)))
    (fun n x => exists d, Fields n d /\ (Has d "services" (IsMap (IsPtr IsBStep)) [] (fst x) /\
       HasTextMap d "caches" (snd x)))).
  { apply exact_struct; [|reflexivity]. intros f G x. split.
    - intro E. unfoldFields. unbind. injection E as <-. cbn. repeat match goal with |- _ /\ _ => split end; toSpec.
    - destruct x as [s c]. cbn [fst snd]. intros (H1 & H2). unfoldFields. toEq.
      rewrite H1. cbn [optBind]. rewrite H2. reflexivity. }
  intros n D x.
  assert (X : Exact decBConfig (fun n c => exists f, Fields n f /\ (HasText f "image" (bc_image c) /\
    HasStruct f "clone" (fun n x => exists g, Fields n g /\ HasInt g "depth" x) (bc_depth c) /\
    HasStruct f "pipelines" (fun n x => exists p, Fields n p /\ (Has p "default" IsStage [] (fst (fst x)) /\
       Has p "tags" (IsMap IsStage) [] (snd (fst x)) /\ Has p "branches" (IsMap IsStage) [] (snd x)))
       (bc_default c, bc_tags c, bc_branches c) /\
    HasStruct f "definitions" (fun n x => exists d, Fields n d /\ (Has d "services" (IsMap (IsPtr IsBStep)) [] (fst x) /\
       HasTextMap d "caches" (snd x))) (bc_services c, bc_caches c)))).
  { unfold decBConfig. apply exact_struct; [|reflexivity]. intros f G c. split.
    - intro E. apply optBind_iff in E; destruct E as (i & E1 & E). apply optBind_iff in E; destruct E as (z & E2 & E).
      apply optBind_iff in E; destruct E as ([[d t] b] & E3 & E). apply optBind_iff in E; destruct E as ([s cs] & E4 & E).
      injection E as <-. cbn.
      split; [apply (exact_field _ _ _ _ exact_string f G); exact E1|].
      split; [apply (exact_fieldStruct _ _ _ _ Xc eq_refl f G); exact E2|].
      split; [apply (exact_fieldStruct _ _ _ _ Xp eq_refl f G); exact E3|].
      apply (exact_fieldStruct _ _ _ _ Xd eq_refl f G); exact E4.
    - intros (H1 & H2 & H3 & H4). apply (exact_field _ _ _ _ exact_string f G) in H1.
      apply (exact_fieldStruct _ _ _ _ Xc eq_refl f G) in H2. apply (exact_fieldStruct _ _ _ _ Xp eq_refl f G) in H3.
      apply (exact_fieldStruct _ _ _ _ Xd eq_refl f G) in H4.
      unfold fString. rewrite H1. cbn [optBind]. rewrite H2. cbn [optBind]. rewrite H3. cbn [optBind].
      rewrite H4. destruct c. reflexivity. }
  rewrite (X n D x). unfold IsBConfig. split.
  - intros (f & F & H1 & H2 & H3 & H4). exists f. split; [exact F|]. split; [exact H1|].
    apply hasStruct_eq in H2. destruct H2 as (cl & Hc & g & Fg & Hg).
    apply hasStruct_eq in H3. destruct H3 as (pl & Hp & p & Fp & P1 & P2 & P3).
    apply hasStruct_eq in H4. destruct H4 as (dl & Hd & d & Fd & D1 & D2). cbn in *.
    exists cl, g, pl, p, dl, d. auto 20.
  - intros (f & F & H1 & cl & g & pl & p & dl & d & Hc & Fg & Hg & Hp & Fp & P1 & P2 & P3 & Hd & Fd & D1 & D2).
    exists f. split; [exact F|]. split; [exact H1|].
    split; [apply hasStruct_eq; exists cl; split; [exact Hc|]; exists g; auto|].
    split; [apply hasStruct_eq; exists pl; split; [exact Hp|]; exists p; cbn; auto|].
    apply hasStruct_eq; exists dl; split; [exact Hd|]; exists d; cbn; auto.
Qed.

(** ** The whole conversions *)
Lemma legacy_text : forall getenv parseURL isPrintHigh marshal unmarshal ordM ordA formatFloat formatKey read expand print d remote,
  let convert := Convert getenv parseURL isPrintHigh marshal unmarshal ordM ordA formatFloat formatKey read expand print d remote in
  forall text, (forall a b, d <> (a +++ "<<:" +++ b)%string) /\ text = d \/
               (exists a b, d = (a +++ "<<:" +++ b)%string) /\ text = expand d ->
  (read text = None -> convert = Err "yaml") /\
  forall n, read text = Some n -> StaysDistinct formatFloat n ->
    ((forall g, ~ IsLConfig formatFloat formatKey n g) -> convert = Err "yaml") /\
    forall g, IsLConfig formatFloat formatKey n g ->
      match toManifest getenv parseURL isPrintHigh marshal unmarshal ordM ordA n g remote with
      | Ok m => convert = print m
      | Err e => convert = Err e
      | Panic => convert = Panic
      end.
Proof.
  intros getenv parseURL isPrintHigh marshal unmarshal ordM ordA formatFloat formatKey read expand print d remote convert text T.
  assert (E : (if contains d "<<:" then expand d else d) = text).
  { destruct (contains d "<<:") eqn:C.
    - apply contains_spec in C. destruct T as [[N _]|[_ ->]]; [|reflexivity]. destruct C as (a & b & C). exfalso. exact (N a b C).
    - destruct T as [[_ ->]|[X _]]; [reflexivity|]. apply contains_spec in X. congruence. }
  subst convert. unfold Convert. cbv zeta. rewrite E. split.
  - intros ->. reflexivity.
  - intros n -> S. assert (L := lconfig_iff formatFloat formatKey n S). split.
    + intro N. destruct (decLConfig formatFloat formatKey n) as [g|]; [|reflexivity].
      exfalso. apply (N g). apply L. reflexivity.
    + intros g H. apply L in H. rewrite H.
      destruct (toManifest getenv parseURL isPrintHigh marshal unmarshal ordM ordA n g remote); reflexivity.
Qed.
Lemma gitlab_text : forall available ord read print b,
  let convert := gitlabConvert available ord read print b in
  (read b = None -> convert = Err "yaml") /\
  forall n, read b = Some n -> Distinct n ->
    ((forall g, ~ IsGConfig n g) -> convert = Err "yaml") /\
    forall g, IsGConfig n g ->
      match gitlabManifest available ord g with
      | Ok m => convert = print m
      | Err e => convert = Err e
      | Panic => convert = Panic
      end.
Proof.
  intros available ord read print b convert. subst convert. unfold gitlabConvert. split; [intros ->; reflexivity|].
  intros n -> D. assert (X := exact_gconfig n D). split.
  - intro N. destruct (decGConfig n) as [g|]; [|reflexivity]. exfalso. apply (N g). apply X. reflexivity.
  - intros g H. apply X in H. rewrite H. destruct (gitlabManifest available ord g); reflexivity.
Qed.
Lemma bitbucket_text : forall pathMatch ordT ordB ordS read print b ref,
  let convert := bitbucketConvert pathMatch ordT ordB ordS read print b ref in
  (read b = None -> convert = Err "yaml") /\
  forall n, read b = Some n -> Distinct n ->
    ((forall g, ~ IsBConfig n g) -> convert = Err "yaml") /\
    forall g, IsBConfig n g ->
      match bitbucketManifest pathMatch ordT ordB ordS g ref with
      | Ok m => convert = print m
      | Err e => convert = Err e
      | Panic => convert = Panic
      end.
Proof.
  intros pathMatch ordT ordB ordS read print b ref convert. subst convert. unfold bitbucketConvert. split; [intros ->; reflexivity|].
  intros n -> D. assert (X := exact_bconfig n D). split.
  - intro N. destruct (decBConfig n) as [g|]; [|reflexivity]. exfalso. apply (N g). apply X. reflexivity.
  - intros g H. apply X in H. rewrite H. destruct (bitbucketManifest pathMatch ordT ordB ordS g ref); reflexivity.
Qed.
Lemma constraint_total : forall n, exists c, decConstraint n = Some c.
Proof. intro n. eexists. reflexivity. Qed.
