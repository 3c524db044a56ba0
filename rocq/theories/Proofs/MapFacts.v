(** * MapFacts.v: maps as association lists. *)
From Coq Require Import Lia Sorting.Permutation.
From Verif Require Import Model.Go.

Section Maps.
  Context {V : Type}.
  Implicit Types (m new : smap V) (k : string) (v : V).

  Lemma mget_mset k k' v m : mget k (mset k' v m) = if String.eqb k k' then Some v else mget k m.
  Proof.
    induction m as [|[k1 v1] m IH]; cbn [mset mget]; [reflexivity|].
    destruct (String.eqb_spec k' k1) as [->|N]; cbn [mget].
    - destruct (String.eqb k k1); reflexivity.
    - destruct (String.eqb_spec k k1) as [->|N1]; [|exact IH].
      destruct (String.eqb_spec k1 k') as [->|_]; [congruence|reflexivity].
  Qed.
  Lemma mget_app k m m' : mget k (m ++ m') = match mget k m with Some v => Some v | None => mget k m' end.
  Proof. induction m as [|[k1 v1] m IH]; cbn; [reflexivity|]. destruct (String.eqb k k1); auto. Qed.
  Lemma mget_msets k new : forall m,
    mget k (msets new m) = match mget k (rev new) with Some v => Some v | None => mget k m end.
  Proof.
    induction new as [|[k1 v1] new IH]; intro m; cbn [msets rev]; [reflexivity|].
    rewrite IH, mget_app, mget_mset. cbn. destruct (mget k (rev new)); [reflexivity|]. destruct (String.eqb k k1); reflexivity.
  Qed.
  Lemma mget_In k v m : mget k m = Some v -> In (k, v) m.
  Proof.
    induction m as [|[k1 v1] m IH]; cbn; [discriminate|]. destruct (String.eqb_spec k k1) as [->|_]; intro H.
    - left. congruence. - right. auto.
  Qed.
  Lemma mget_none k m : mget k m = None <-> ~ In k (mkeys m).
  Proof.
    induction m as [|[k1 v1] m IH]; cbn; [tauto|]. destruct (String.eqb_spec k k1) as [->|N].
    - split; [discriminate|intro H; exfalso; apply H; auto].
    - rewrite IH. split; intros H; [intros [E|E]; [congruence|tauto]|tauto].
  Qed.
  Lemma mget_unique k v m : NoDup (mkeys m) -> (mget k m = Some v <-> In (k, v) m).
  Proof.
    intro H. split; [apply mget_In|]. induction m as [|[k1 v1] m IH]; [intros []|]. cbn in H. apply NoDup_cons_iff in H as [H1 H2].
    intros [[= -> ->]|Hin]; cbn; [rewrite String.eqb_refl; reflexivity|].
    destruct (String.eqb_spec k k1) as [->|_]; [|auto]. exfalso. apply H1. apply (in_map fst) in Hin. exact Hin.
  Qed.
  Lemma mkeys_rev m : mkeys (rev m) = rev (mkeys m).
  Proof. apply map_rev. Qed.
  Lemma mget_perm k m m' : NoDup (mkeys m) -> Permutation m m' -> mget k m = mget k m'.
  Proof.
    intros H P. assert (H' : NoDup (mkeys m')) by (apply (Permutation_NoDup (l := mkeys m)); [apply Permutation_map, P|exact H]).
    destruct (mget k m) as [v|] eqn:E.
    - symmetry. apply mget_unique; [exact H'|]. eapply Permutation_in; [exact P|]. apply mget_In, E.
    - symmetry. apply mget_none. apply mget_none in E. intro X. apply E.
      eapply Permutation_in; [apply Permutation_sym, Permutation_map, P|exact X].
  Qed.
  Lemma keys_values k m : ~ In k (mkeys m) <-> forall v, ~ In (k, v) m.
  Proof.
    split.
    - intros H v Hin. apply H. apply (in_map fst) in Hin. exact Hin.
    - intros H Hin. apply in_map_iff in Hin as ([k1 v1] & E & Hin). cbn in E. subst k1. exact (H _ Hin).
  Qed.
  Lemma mget_msets_unique k v new m : NoDup (mkeys new) ->
    (mget k (msets new m) = Some v <-> In (k, v) new \/ ((forall x, ~ In (k, x) new) /\ mget k m = Some v)).
  Proof.
    intro H. rewrite mget_msets.
    rewrite <- (mget_perm k new (rev new) H (Permutation_rev new)). rewrite <- (mget_unique k v new H), <- keys_values, <- mget_none.
    destruct (mget k new) as [v'|]; split.
    - intros [= ->]. auto.
    - intros [E|[E _]]; [exact E|discriminate].
    - auto.
    - intros [E|[_ E]]; [discriminate|exact E].
  Qed.
  Lemma mkeys_mset k v m : mkeys (mset k v m) = if mhas k m then mkeys m else mkeys m ++ [k].
  Proof.
    unfold mhas. induction m as [|[k1 v1] m IH]; [reflexivity|]. cbn [mset mget mkeys map].
    destruct (String.eqb_spec k k1) as [->|_]; cbn [mkeys map fst]; [reflexivity|]. unfold mkeys in IH. cbn. rewrite IH. destruct (mget k m); reflexivity.
  Qed.
  Lemma In_mkeys_mset k k' v m : In k (mkeys (mset k' v m)) <-> k = k' \/ In k (mkeys m).
  Proof.
    rewrite mkeys_mset. unfold mhas. destruct (mget k' m) eqn:E.
    - split; [auto|]. intros [->|H]; [|exact H]. apply mget_In in E. apply (in_map fst) in E. exact E.
    - rewrite in_app_iff. cbn. intuition.
  Qed.
  Lemma NoDup_mset k v m : NoDup (mkeys m) -> NoDup (mkeys (mset k v m)).
  Proof.
    intro H. rewrite mkeys_mset. unfold mhas. destruct (mget k m) eqn:E; [exact H|].
    apply mget_none in E. apply Permutation_NoDup with (l := k :: mkeys m); [apply Permutation_cons_append|]. constructor; assumption.
  Qed.
  Lemma NoDup_msets new : forall m, NoDup (mkeys m) -> NoDup (mkeys (msets new m)).
  Proof. induction new as [|[k v] new IH]; intros m H; [exact H|]. apply IH, NoDup_mset, H. Qed.
  Lemma mset_fresh k v m : ~ In k (mkeys m) -> mset k v m = m ++ [(k, v)].
  Proof.
    induction m as [|[k1 v1] m IH]; cbn; [reflexivity|]. intro H. destruct (String.eqb_spec k k1) as [->|_]; [exfalso; auto|].
    rewrite IH; auto.
  Qed.
End Maps.
