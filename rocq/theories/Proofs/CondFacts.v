(** * CondFacts.v *)
From Coq Require Import Lia Permutation.
From Verif Require Import Model.Go Model.Types Model.Cond Spec.CondSpec.

Section Facts.
  Variable glob : string -> string -> option bool.
  Lemma globs_true p v : globs glob p v = true <-> glob p v = Some true.
  Proof. unfold globs. destruct (glob p v) as [[|]|]; split; congruence. Qed.
  Lemma Includes_loop_spec ps v : Includes_loop glob ps v = true <-> Hits glob ps v.
  Proof.
    induction ps as [|p ps IH]; cbn [Includes_loop].
    - split; [discriminate|]. intros (p & [] & _).
    - destruct (globs glob p v) eqn:E.
      + split; [|reflexivity]. intros _. exists p. split; [left; reflexivity|apply globs_true, E].
      + rewrite IH. split; intros (q & Hq & H).
        * exists q. split; [right; exact Hq|exact H].
        * destruct Hq as [->|Hq]; [apply globs_true in H; congruence|]. exists q. auto.
  Qed.
  Lemma Excludes_loop_eq ps v : Excludes_loop glob ps v = Includes_loop glob ps v.
  Proof. induction ps as [|p ps IH]; [reflexivity|]. cbn. rewrite IH. reflexivity. Qed.
  Lemma Excludes_spec c v : Excludes glob c v = true <-> Hits glob (c_exclude c) v.
  Proof. unfold Excludes. rewrite Excludes_loop_eq. apply Includes_loop_spec. Qed.
  Lemma Includes_spec c v : Includes glob c v = true <-> Hits glob (c_include c) v.
  Proof. apply Includes_loop_spec. Qed.
  Lemma Match_spec c v : Match glob c v = true <-> Accepts glob c v.
  Proof.
    unfold Match, Accepts. rewrite <- Excludes_spec. destruct (Excludes glob c v) eqn:E.
    - split; [discriminate|]. intros [H _]. congruence.
    - rewrite <- Includes_spec. destruct (Includes glob c v) eqn:I.
      + split; [|reflexivity]. intros _. split; [discriminate|auto].
      + destruct (c_include c) as [|p ps] eqn:L; simpl.
        * split; [|reflexivity]. intros _. split; [discriminate|auto].
        * split; [discriminate|]. intros [_ [H|H]]; discriminate.
  Qed.
  Lemma Match_false c v : Match glob c v = false <-> ~ Accepts glob c v.
  Proof. rewrite <- Match_spec. symmetry. apply not_true_iff_false. Qed.

  Lemma Hits_same ps qs v : (forall p, In p ps <-> In p qs) -> (Hits glob ps v <-> Hits glob qs v).
  Proof. intro H. split; intros (p & Hp & E); exists p; split; try assumption; apply H; assumption. Qed.
  Lemma Match_same_patterns c d v :
    (forall p, In p (c_include c) <-> In p (c_include d)) ->
    (forall p, In p (c_exclude c) <-> In p (c_exclude d)) -> Match glob c v = Match glob d v.
  Proof.
    intros Hi He. apply eq_true_iff_eq. rewrite !Match_spec. unfold Accepts.
    rewrite (Hits_same _ _ v Hi), (Hits_same _ _ v He).
    assert (c_include c = [] <-> c_include d = []) as ->; [|reflexivity].
    split; intro H; [destruct (c_include d) as [|p l]|destruct (c_include c) as [|p l]]; try reflexivity; exfalso.
    - assert (X : In p (c_include c)) by (apply Hi; left; reflexivity). rewrite H in X. exact X.
    - assert (X : In p (c_include d)) by (apply Hi; left; reflexivity). rewrite H in X. exact X.
  Qed.
  Lemma Match_exclude_wins c v : Hits glob (c_exclude c) v -> Match glob c v = false.
  Proof. intro H. apply Match_false. intros [N _]. exact (N H). Qed.
  Lemma Match_bad_pattern c v p :
    glob p v = None ->
    Match glob {| c_include := c_include c; c_exclude := p :: c_exclude c |} v = Match glob c v /\
    (c_include c <> [] ->
     Match glob {| c_include := p :: c_include c; c_exclude := c_exclude c |} v = Match glob c v).
  Proof.
    intro B. assert (HH : forall ps, Hits glob (p :: ps) v <-> Hits glob ps v).
    { intro ps. split; intros (q & Hq & E).
      - destruct Hq as [<-|Hq]; [congruence|]. exists q. auto.
      - exists q. split; [right; exact Hq|exact E]. }
    split; [|intro Hne]; apply eq_true_iff_eq; rewrite !Match_spec; unfold Accepts; cbn [c_include c_exclude];
      rewrite HH; [reflexivity|]. split; intros [H1 [H2|H2]]; try discriminate; try contradiction; auto.
  Qed.
  Lemma Match_more_excludes c v ex :
    Match glob {| c_include := c_include c; c_exclude := c_exclude c ++ ex |} v = true -> Match glob c v = true.
  Proof.
    rewrite !Match_spec. unfold Accepts. cbn [c_include c_exclude]. intros [H1 H2]. split; [|exact H2].
    intros (p & Hp & E). apply H1. exists p. split; [apply in_or_app; auto|exact E].
  Qed.
  Lemma Match_more_includes c v inc :
    c_include c <> [] -> Match glob c v = true ->
    Match glob {| c_include := c_include c ++ inc; c_exclude := c_exclude c |} v = true.
  Proof.
    rewrite !Match_spec. unfold Accepts. cbn [c_include c_exclude]. intros Hne [H1 [H2|(p & Hp & E)]]; [contradiction|].
    split; [exact H1|right]. exists p. split; [apply in_or_app; auto|exact E].
  Qed.

  Lemma SkipFunc_spec data c :
    SkipFunc glob data c = true <->
    ~ (Accepts glob (w_branch (ct_when c)) (sk_branch data) /\ Accepts glob (w_cron (ct_when c)) (sk_cron data) /\
       Accepts glob (w_event (ct_when c)) (sk_event data) /\ Accepts glob (w_instance (ct_when c)) (sk_instance data) /\
       Accepts glob (w_ref (ct_when c)) (sk_ref data) /\ Accepts glob (w_repo (ct_when c)) (sk_repo data) /\
       Accepts glob (w_target (ct_when c)) (sk_target data) /\ Accepts glob (w_action (ct_when c)) (sk_action data)).
  Proof.
    rewrite <- !Match_spec. unfold SkipFunc.
    destruct (Match glob (w_branch (ct_when c)) _); cbn [negb]; [|intuition congruence].
    destruct (Match glob (w_cron (ct_when c)) _); cbn [negb]; [|intuition congruence].
    destruct (Match glob (w_event (ct_when c)) _); cbn [negb]; [|intuition congruence].
    destruct (Match glob (w_instance (ct_when c)) _); cbn [negb]; [|intuition congruence].
    destruct (Match glob (w_ref (ct_when c)) _); cbn [negb]; [|intuition congruence].
    destruct (Match glob (w_repo (ct_when c)) _); cbn [negb]; [|intuition congruence].
    destruct (Match glob (w_target (ct_when c)) _); cbn [negb]; [|intuition congruence].
    destruct (Match glob (w_action (ct_when c)) _); cbn [negb]; intuition congruence.
  Qed.

  Lemma toRunPolicy_spec c :
    (runsOnSuccess (toRunPolicy glob c) = true <-> Accepts glob (w_status (ct_when c)) "success") /\
    (runsOnFailure (toRunPolicy glob c) = true <->
       c_include (w_status (ct_when c)) <> [] /\ Accepts glob (w_status (ct_when c)) "failure").
  Proof.
    rewrite <- !Match_spec. unfold toRunPolicy.
    destruct (Match glob (w_status (ct_when c)) "success"), (Match glob (w_status (ct_when c)) "failure"),
      (c_include (w_status (ct_when c))); cbn; intuition congruence.
  Qed.
  Lemma toRunPolicy_default c : w_status (ct_when c) = noCond -> toRunPolicy glob c = RunOnSuccess.
  Proof. unfold toRunPolicy. intros ->. reflexivity. Qed.
  Lemma toRunPolicy_exclude_success c :
    c_include (w_status (ct_when c)) = [] -> Hits glob (c_exclude (w_status (ct_when c))) "success" ->
    toRunPolicy glob c = RunNever.
  Proof.
    intros Hi H. apply Match_exclude_wins in H. unfold toRunPolicy. rewrite H, Hi. cbn.
    rewrite !andb_false_r. reflexivity.
  Qed.
End Facts.
Lemma runPolicy_determined p q :
  runsOnSuccess p = runsOnSuccess q -> runsOnFailure p = runsOnFailure q -> p = q.
Proof. destruct p, q; simpl; congruence. Qed.
