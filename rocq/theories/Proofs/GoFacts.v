(** * GoFacts.v: lemmas about the definitions of Model/Go.v. *)
From Coq Require Import Lia Permutation.
From Verif Require Import Model.Go.

(** ** Strings *)
Lemma sapp_nil_r s : (s +++ "")%string = s.
Proof. induction s as [|c s IH]; simpl; congruence. Qed.
Lemma sapp_assoc a b c : ((a +++ b) +++ c)%string = (a +++ b +++ c)%string.
Proof. induction a as [|x a IH]; simpl; congruence. Qed.
Lemma slength_app a b : String.length (a +++ b)%string = String.length a + String.length b.
Proof. induction a as [|x a IH]; simpl; congruence. Qed.
Lemma sapp_inv_head a b c : (a +++ b)%string = (a +++ c)%string -> b = c.
Proof. induction a as [|x a IH]; simpl; intro H; [exact H|]. injection H as H. auto. Qed.
Lemma sapp_inv_tail a b c : (a +++ c)%string = (b +++ c)%string -> a = b.
Proof.
  revert b; induction a as [|x a IH]; intros [|y b] H; simpl in *.
  - reflexivity.
  - exfalso. apply (f_equal String.length) in H. simpl in H. rewrite slength_app in H. lia.
  - exfalso. apply (f_equal String.length) in H. simpl in H. rewrite slength_app in H. lia.
  - injection H as -> H. f_equal. auto.
Qed.
Lemma sapp_eq_nil a b : (a +++ b)%string = "" <-> a = "" /\ b = "".
Proof. destruct a; simpl; split; [tauto|tauto|discriminate|intros [H _]; discriminate]. Qed.
Lemma isEmpty_true s : isEmpty s = true <-> s = "".
Proof. destruct s; simpl; split; congruence. Qed.
Lemma isEmpty_false s : isEmpty s = false <-> s <> "".
Proof. destruct s; simpl; split; congruence. Qed.

Lemma prefix_app p s : String.prefix p (p +++ s)%string = true.
Proof.
  induction p as [|c p IH]; simpl; [destruct s; reflexivity|].
  destruct (ascii_dec c c); [exact IH|congruence].
Qed.
Lemma prefix_spec p s : String.prefix p s = true <-> exists r, s = (p +++ r)%string.
Proof.
  split.
  - revert s; induction p as [|c p IH]; intros s H; [exists s; reflexivity|].
    destruct s as [|d s]; simpl in H; [discriminate|].
    destruct (ascii_dec c d) as [->|]; [|discriminate].
    destruct (IH _ H) as [r ->]. exists r; reflexivity.
  - intros [r ->]. apply prefix_app.
Qed.
Lemma prefix_false p s : String.prefix p s = false <-> forall r, s <> (p +++ r)%string.
Proof.
  rewrite <- not_true_iff_false, prefix_spec. split.
  - intros H r E. apply H. exists r; exact E.
  - intros H [r E]. exact (H r E).
Qed.

(** Strings as lists of bytes. *)
Lemma laos_app a b :
  list_ascii_of_string (a +++ b)%string = list_ascii_of_string a ++ list_ascii_of_string b.
Proof. induction a as [|c a IH]; simpl; congruence. Qed.
Lemma laos_inj a b : list_ascii_of_string a = list_ascii_of_string b -> a = b.
Proof.
  intro H. rewrite <- (string_of_list_ascii_of_string a), <- (string_of_list_ascii_of_string b).
  congruence.
Qed.
Lemma laos_length s : List.length (list_ascii_of_string s) = String.length s.
Proof. induction s as [|c s IH]; simpl; congruence. Qed.

Lemma hasChar_In c s : hasChar c s = true <-> In c (list_ascii_of_string s).
Proof.
  unfold hasChar. induction s as [|d s IH]; simpl; [split; [discriminate|tauto]|].
  rewrite orb_true_iff, IH, Ascii.eqb_eq. split; intros [H|H]; auto.
Qed.
Lemma hasChar_false c s : hasChar c s = false <-> ~ In c (list_ascii_of_string s).
Proof. rewrite <- hasChar_In, not_true_iff_false. reflexivity. Qed.
Lemma sexistsb_app f a b : sexistsb f (a +++ b)%string = sexistsb f a || sexistsb f b.
Proof. induction a as [|c a IH]; simpl; [reflexivity|]. rewrite IH, orb_assoc. reflexivity. Qed.
Lemma hasChar_app c a b : hasChar c (a +++ b)%string = hasChar c a || hasChar c b.
Proof. apply sexistsb_app. Qed.
Lemma sforallb_app f a b : sforallb f (a +++ b)%string = sforallb f a && sforallb f b.
Proof. induction a as [|c a IH]; simpl; [reflexivity|]. rewrite IH, andb_assoc. reflexivity. Qed.
Lemma sforallb_In f s :
  sforallb f s = true <-> forall c, In c (list_ascii_of_string s) -> f c = true.
Proof.
  induction s as [|d s IH]; simpl; [split; [intros _ c []|reflexivity]|].
  rewrite andb_true_iff, IH. split.
  - intros [Hd H] c [->|Hc]; auto.
  - intro H. split; [apply H; auto|]. intros c Hc. apply H; auto.
Qed.

Lemma smap_chars_app f a b : smap_chars f (a +++ b)%string = (smap_chars f a +++ smap_chars f b)%string.
Proof. induction a as [|c a IH]; simpl; congruence. Qed.

Lemma concats_app a b : concats (a ++ b) = (concats a +++ concats b)%string.
Proof. induction a as [|x a IH]; simpl; [reflexivity|]. rewrite IH, sapp_assoc. reflexivity. Qed.

Lemma sdrop_app a b : sdrop (String.length a) (a +++ b)%string = b.
Proof. induction a as [|c a IH]; simpl; [destruct b; reflexivity|exact IH]. Qed.
Lemma stake_app a b : stake (String.length a) (a +++ b)%string = a.
Proof. induction a as [|c a IH]; simpl; [destruct b; reflexivity|]. congruence. Qed.
Lemma stake_sdrop n s : (stake n s +++ sdrop n s)%string = s.
Proof.
  revert s; induction n as [|n IH]; intros s; simpl; [destruct s; reflexivity|].
  destruct s; simpl; [reflexivity|]. rewrite IH. reflexivity.
Qed.
Lemma slength_sdrop n s : String.length (sdrop n s) = String.length s - n.
Proof.
  revert s; induction n as [|n IH]; intros s; destruct s; simpl; auto.
Qed.
Lemma slength_stake n s : String.length (stake n s) = Nat.min n (String.length s).
Proof.
  revert s; induction n as [|n IH]; intros s; destruct s; simpl; auto.
Qed.

Lemma hasSuffix_spec s p : hasSuffix s p = true <-> exists r, s = (r +++ p)%string.
Proof.
  unfold hasSuffix. rewrite andb_true_iff, Nat.leb_le, String.eqb_eq. split.
  - intros [Hle H]. exists (stake (String.length s - String.length p) s).
    rewrite <- H at 2. symmetry. apply stake_sdrop.
  - intros [r ->]. rewrite slength_app. split; [lia|].
    replace (String.length r + String.length p - String.length p) with (String.length r) by lia.
    apply sdrop_app.
Qed.

Lemma contains_spec s p : contains s p = true <-> exists a b, s = (a +++ p +++ b)%string.
Proof.
  split.
  - induction s as [|c s IH]; cbn [contains]; rewrite orb_true_iff; intros [H|H].
    + apply prefix_spec in H as [r ->]. exists "", r. reflexivity.
    + discriminate.
    + apply prefix_spec in H as [r ->]. exists "", r. reflexivity.
    + destruct (IH H) as (a & b & ->). exists (String c a), b. reflexivity.
  - intros (a & b & ->). induction a as [|c a IH]; cbn [String.append].
    + destruct (p +++ b)%string eqn:E; cbn [contains]; rewrite <- E, prefix_app; reflexivity.
    + cbn [contains]. rewrite IH. apply orb_true_r.
Qed.

(** ** split_on *)
Lemma split_on_nonempty sep s : split_on sep s <> [].
Proof. destruct s; simpl; [discriminate|]. destruct (Ascii.eqb _ _); [discriminate|]. destruct (split_on _ _); discriminate. Qed.
Lemma split_on_none sep s : hasChar sep s = false -> split_on sep s = [s].
Proof.
  unfold hasChar. induction s as [|c s IH]; [reflexivity|]. simpl. rewrite orb_false_iff. intros [H1 H2].
  rewrite Ascii.eqb_sym, H1, IH by assumption. reflexivity.
Qed.
Lemma split_on_app sep a b :
  hasChar sep a = false -> split_on sep (a +++ String sep b)%string = a :: split_on sep b.
Proof.
  unfold hasChar. induction a as [|c a IH]; simpl.
  - intros _. rewrite Ascii.eqb_refl. reflexivity.
  - rewrite orb_false_iff. intros [H1 H2]. rewrite Ascii.eqb_sym, H1, IH by assumption. reflexivity.
Qed.
Lemma split_on_pieces sep s : Forall (fun p => hasChar sep p = false) (split_on sep s).
Proof.
  unfold hasChar. induction s as [|c s IH]; simpl; [repeat constructor|].
  destruct (Ascii.eqb c sep) eqn:E; [constructor; [reflexivity|exact IH]|].
  destruct (split_on sep s) as [|h t]; [repeat constructor; simpl; rewrite Ascii.eqb_sym, E; reflexivity|].
  inversion IH; subst. constructor; [simpl; rewrite Ascii.eqb_sym, E; assumption|assumption].
Qed.
Lemma join_split_on sep s : join (String sep "") (split_on sep s) = s.
Proof.
  induction s as [|c s IH]; [reflexivity|]. simpl.
  pose proof (split_on_nonempty sep s) as Hne.
  destruct (Ascii.eqb c sep) eqn:E.
  - apply Ascii.eqb_eq in E; subst. destruct (split_on sep s) as [|h t]; [congruence|].
    cbn [join] in *. simpl. rewrite <- IH. destruct t; reflexivity.
  - destruct (split_on sep s) as [|h t]; [congruence|]. rewrite <- IH. destruct t; reflexivity.
Qed.
Lemma split_on_join sep l :
  l <> [] -> Forall (fun p => hasChar sep p = false) l -> split_on sep (join (String sep "") l) = l.
Proof.
  intros Hne Hl. induction Hl as [|x l Hx Hl IH]; [congruence|].
  destruct l as [|y l]; [apply split_on_none; exact Hx|].
  change (join (String sep "") (x :: y :: l)) with (x +++ String sep (join (String sep "") (y :: l)))%string.
  rewrite split_on_app by exact Hx. f_equal. apply IH. discriminate.
Qed.

(** ** Maps *)
Section Maps.
  Context {V : Type}.
  Implicit Types (m : smap V).
  Lemma mget_In k v m : mget k m = Some v -> In (k, v) m.
  Proof.
    induction m as [|[k' v'] m IH]; simpl; [discriminate|].
    destruct (String.eqb_spec k k') as [->|]; [intro H; left; congruence|auto].
  Qed.
  Lemma mget_None k m : mget k m = None <-> ~ In k (mkeys m).
  Proof.
    induction m as [|[k' v'] m IH]; simpl; [tauto|].
    destruct (String.eqb_spec k k') as [->|N]; [split; [discriminate|tauto]|].
    rewrite IH. split; [intros H [E|E]; [congruence|tauto]|tauto].
  Qed.
  Lemma mget_NoDup k v m : NoDup (mkeys m) -> In (k, v) m -> mget k m = Some v.
  Proof.
    induction m as [|[k' v'] m IH]; simpl; [tauto|]. intros Hnd [H|H].
    - injection H as -> ->. rewrite String.eqb_refl. reflexivity.
    - inversion Hnd; subst. destruct (String.eqb_spec k k') as [->|]; [|auto].
      exfalso. apply H2. apply (in_map fst) in H. exact H.
  Qed.
  Lemma mget_mset k k' v m : mget k (mset k' v m) = if String.eqb k k' then Some v else mget k m.
  Proof.
    induction m as [|[k0 v0] m IH]; simpl; [reflexivity|].
    destruct (String.eqb_spec k' k0) as [->|N]; simpl.
    - destruct (String.eqb k k0); reflexivity.
    - rewrite IH. destruct (String.eqb_spec k k0) as [->|]; [|reflexivity].
      destruct (String.eqb_spec k0 k'); [congruence|reflexivity].
  Qed.
  Lemma mkeys_mset k v m x : In x (mkeys (mset k v m)) <-> x = k \/ In x (mkeys m).
  Proof.
    induction m as [|[k0 v0] m IH]; simpl; [intuition|].
    destruct (String.eqb_spec k k0) as [->|]; simpl; [intuition|]. rewrite IH. intuition.
  Qed.
  Lemma mset_NoDup k v m : NoDup (mkeys m) -> NoDup (mkeys (mset k v m)).
  Proof.
    induction m as [|[k0 v0] m IH]; simpl; intro H; [repeat constructor; tauto|].
    inversion H; subst. destruct (String.eqb_spec k k0) as [->|]; simpl; constructor; auto.
    rewrite mkeys_mset. intuition.
  Qed.
  Lemma mget_msets k new m :
    NoDup (mkeys new) ->
    mget k (msets new m) = match mget k new with Some v => Some v | None => mget k m end.
  Proof.
    revert m; induction new as [|[k0 v0] new IH]; intros m H; [reflexivity|]. simpl.
    inversion H; subst. rewrite IH by assumption. rewrite mget_mset.
    destruct (String.eqb_spec k k0) as [->|]; [|reflexivity].
    apply mget_None in H2. fold (mkeys new) in H2. rewrite H2. reflexivity.
  Qed.
  Lemma mkeys_msets new m x : In x (mkeys (msets new m)) <-> In x (mkeys new) \/ In x (mkeys m).
  Proof.
    revert m; induction new as [|[k0 v0] new IH]; intros m; simpl; [tauto|].
    rewrite IH, mkeys_mset. intuition.
  Qed.
  Lemma msets_NoDup new m : NoDup (mkeys m) -> NoDup (mkeys (msets new m)).
  Proof. revert m; induction new as [|[k0 v0] new IH]; intros m; simpl; auto using mset_NoDup. Qed.
  Lemma mget_perm k m m' : NoDup (mkeys m) -> Permutation m m' -> mget k m = mget k m'.
  Proof.
    intros Hnd HP.
    assert (Hnd' : NoDup (mkeys m')) by (eapply Permutation_NoDup; [apply Permutation_map, HP|exact Hnd]).
    destruct (mget k m) as [v|] eqn:E; symmetry.
    - apply mget_NoDup; [exact Hnd'|]. eapply Permutation_in; [exact HP|]. apply mget_In, E.
    - apply mget_None in E. apply mget_None. intro H. apply E.
      eapply Permutation_in; [|exact H]. apply Permutation_map, Permutation_sym, HP.
  Qed.
End Maps.

Lemma smem_In s l : smem s l = true <-> In s l.
Proof.
  unfold smem. rewrite existsb_exists. split.
  - intros (x & Hx & E). apply String.eqb_eq in E. congruence.
  - intro H. exists s. split; [exact H|apply String.eqb_refl].
Qed.
Lemma smem_false s l : smem s l = false <-> ~ In s l.
Proof. rewrite <- smem_In, not_true_iff_false. reflexivity. Qed.

(** ** Outcomes *)
Lemma obind_ok {A B} (m : outcome A) (k : A -> outcome B) b :
  obind m k = Ok b <-> exists a, m = Ok a /\ k a = Ok b.
Proof.
  destruct m; simpl; split; [eauto|intros (? & E & ?); congruence|discriminate| |discriminate|];
    intros (? & ? & ?); discriminate.
Qed.
Lemma obind_err {A B} (m : outcome A) (k : A -> outcome B) e :
  obind m k = Err e <-> m = Err e \/ exists a, m = Ok a /\ k a = Err e.
Proof.
  destruct m; simpl; split; intros H.
  - right; eauto.
  - destruct H as [H|(a' & E & H)]; congruence.
  - left; congruence.
  - destruct H as [H|(a' & E & H)]; congruence.
  - discriminate.
  - destruct H as [H|(a' & E & H)]; congruence.
Qed.
Lemma obind_panic {A B} (m : outcome A) (k : A -> outcome B) :
  obind m k = Panic <-> m = Panic \/ exists a, m = Ok a /\ k a = Panic.
Proof.
  destruct m; simpl; split; intros H.
  - right; eauto.
  - destruct H as [H|(a' & E & H)]; congruence.
  - discriminate.
  - destruct H as [H|(a' & E & H)]; congruence.
  - left; congruence.
  - reflexivity.
Qed.
Lemma otraverse_ok {A B} (f : A -> outcome B) l bs :
  otraverse f l = Ok bs <-> Forall2 (fun a b => f a = Ok b) l bs.
Proof.
  revert bs; induction l as [|a l IH]; intros bs; simpl.
  - split; [intro H; injection H as <-; constructor|intro H; inversion H; reflexivity].
  - rewrite obind_ok. split.
    + intros (b & Hb & H). rewrite obind_ok in H. destruct H as (bs' & Hbs & E). injection E as <-.
      constructor; [exact Hb|]. apply IH, Hbs.
    + intro H. inversion H; subst. exists y. split; [assumption|].
      rewrite obind_ok. exists l'. split; [apply IH; assumption|reflexivity].
Qed.
Lemma otraverse_err {A B} (f : A -> outcome B) l e :
  otraverse f l = Err e <->
  exists l1 a l2 bs, l = l1 ++ a :: l2 /\ Forall2 (fun a b => f a = Ok b) l1 bs /\ f a = Err e.
Proof.
  induction l as [|a l IH]; simpl.
  - split; [discriminate|]. intros (l1 & a & l2 & bs & H & _). destruct l1; discriminate.
  - rewrite obind_err. split.
    + intros [H|(b & Hb & H)].
      * exists [], a, l, []. repeat split; [constructor|exact H].
      * rewrite obind_err in H. destruct H as [H|(bs & _ & H)]; [|discriminate].
        apply IH in H as (l1 & a' & l2 & bs & -> & H1 & H2).
        exists (a :: l1), a', l2, (b :: bs). repeat split; [constructor; assumption|exact H2].
    + intros (l1 & a' & l2 & bs & E & H1 & H2). destruct l1 as [|a0 l1].
      * injection E as -> ->. left. exact H2.
      * injection E as -> ->. inversion H1; subst. right. exists y. split; [assumption|].
        rewrite obind_err. left. apply IH. exists l1, a', l2, l'. auto.
Qed.
Lemma otraverse_panic {A B} (f : A -> outcome B) l :
  (forall a, In a l -> f a <> Panic) -> otraverse f l <> Panic.
Proof.
  induction l as [|a l IH]; simpl; intros H E; [discriminate|].
  rewrite obind_panic in E. destruct E as [E|(b & _ & E)].
  - apply (H a); auto.
  - rewrite obind_panic in E. destruct E as [E|(bs & _ & E)]; [|discriminate].
    apply IH; auto.
Qed.
Lemma oiter_ok {A} (f : A -> outcome unit) l :
  oiter f l = Ok tt <-> forall a, In a l -> f a = Ok tt.
Proof.
  induction l as [|a l IH]; simpl; [split; [intros _ x []|reflexivity]|].
  rewrite obind_ok. split.
  - intros (u & Hu & H) x [->|Hx]; [destruct u; exact Hu|]. apply IH; assumption.
  - intro H. exists tt. split; [apply H; auto|]. apply IH; auto.
Qed.
Lemma oiter_panic {A} (f : A -> outcome unit) l :
  (forall a, In a l -> f a <> Panic) -> oiter f l <> Panic.
Proof.
  induction l as [|a l IH]; simpl; intros H E; [discriminate|].
  rewrite obind_panic in E. destruct E as [E|(b & _ & E)].
  - apply (H a); auto.
  - apply IH in E; auto.
Qed.
