(** * SubstFacts.v: the text substitution of matrix variables. *)
From Coq Require Import Lia Sorting.Permutation.
From Verif Require Import Model.Go Model.Types Model.Quote Model.Legacy Spec.LegacySpec Proofs.GoFacts.
From Verif Require Proofs.MapFacts.

Lemma render_cons : forall t l, render (t :: l) = (render1 t +++ render l)%string.
Proof. reflexivity. Qed.
Lemma render_app : forall a b, render (a ++ b) = (render a +++ render b)%string.
Proof. intros a b. unfold render. rewrite map_app. apply concats_app. Qed.
Lemma render_chars : forall s, render (chars s) = s.
Proof. induction s as [|c s IH]; [reflexivity|]. unfold chars in *. cbn [list_ascii_of_string map]. rewrite render_cons, IH. reflexivity. Qed.
Lemma hasChar_cons : forall c d s, hasChar c (String d s) = (Ascii.eqb c d || hasChar c s).
Proof. reflexivity. Qed.

(** Bytes without a dollar sign are copied. *)
Lemma skip_clean : forall old new a rest, hasChar "$" a = false ->
  (exists x, old = String "$" x) ->
  replace_skip old new 0 (a +++ rest) = (a +++ replace_skip old new 0 rest)%string.
Proof.
  intros old new a rest H (x & ->). induction a as [|c a IH]; [reflexivity|].
  rewrite hasChar_cons, orb_false_iff in H. destruct H as [E H].
  change (String c a +++ rest)%string with (String c (a +++ rest)).
  change (String c a +++ replace_skip (String "$" x) new 0 rest)%string with (String c (a +++ replace_skip (String "$" x) new 0 rest)).
  rewrite <- IH by exact H. cbn [replace_skip].
  replace (String.prefix (String "$" x) (String c (a +++ rest))) with false; [reflexivity|].
  symmetry. apply prefix_false. intros r X. cbn in X. injection X as -> _. discriminate.
Qed.
Lemma skip_all : forall old new a rest, replace_skip old new (String.length a) (a +++ rest) = replace_skip old new 0 rest.
Proof. intros old new a rest. induction a as [|c a IH]; [reflexivity|]. cbn. exact IH. Qed.
Lemma key_prefix : forall k k' rest, hasChar "}" k = false -> hasChar "}" k' = false ->
  String.prefix (k +++ "}") (k' +++ "}" +++ rest) = String.eqb k k'.
Proof.
  induction k as [|c k IH]; intros [|d k'] rest H H'.
  - cbn. destruct rest; reflexivity.
  - rewrite hasChar_cons, orb_false_iff in H'. destruct H' as [E _].
    apply prefix_false. intros r X. cbn in X. injection X as -> _. discriminate.
  - rewrite hasChar_cons, orb_false_iff in H. destruct H as [E _].
    apply prefix_false. intros r X. cbn in X. injection X as <- _. discriminate.
  - rewrite hasChar_cons, orb_false_iff in H, H'. destruct H as [_ H]. destruct H' as [_ H'].
    cbn [String.append String.prefix String.eqb]. destruct (ascii_dec c d) as [->|N].
    + rewrite Ascii.eqb_refl. apply IH; assumption.
    + apply Ascii.eqb_neq in N. rewrite N. reflexivity.
Qed.
Definition subst1 (k v : string) (t : token) : list token :=
  match t with Ch c => [Ch c] | Var k' => if String.eqb k k' then chars v else [Var k'] end.
Lemma nextByte_render : forall l, match render l with
  | "" => True
  | String c _ => c = "$"%char \/ nextByte l = Some c
  end.
Proof. intros [|[c|k] l]; cbn; auto. Qed.
Lemma replace_render : forall k v l, CleanKey k -> Plain l ->
  replaceAll (render l) ("${" +++ k +++ "}") v = render (flat_map (subst1 k v) l).
Proof.
  intros k v l (K1 & K2 & K3). unfold replaceAll.
  remember ("${" +++ k +++ "}")%string as old eqn:Eo.
  assert (Od : old = String "$" (String "{" (k +++ "}"))) by exact Eo.
  induction l as [|[c|k'] l IH]; intro P; [reflexivity| |].
  - cbn [Plain] in P. destruct P as [P Pl]. rewrite render_cons. cbn [flat_map subst1]. rewrite render_app. cbn [render1].
    change (String c "" +++ render l)%string with (String c (render l)).
    change (render [Ch c]) with (String c ""). change (String c "" +++ render (flat_map (subst1 k v) l))%string with (String c (render (flat_map (subst1 k v) l))).
    rewrite <- IH by exact Pl. cbn [replace_skip].
    replace (String.prefix old (String c (render l))) with false; [reflexivity|].
    symmetry. apply prefix_false. intros r X. rewrite Od in X. cbn in X. injection X as -> X.
    pose proof (nextByte_render l) as N. rewrite X in N. destruct N as [N|N]; [discriminate|]. exact (P eq_refl N).
  - cbn [Plain] in P. destruct P as [(K1' & K2' & K3') Pl]. rewrite render_cons. cbn [flat_map subst1]. rewrite render_app. cbn [render1].
    destruct (String.eqb_spec k k') as [<-|N].
    + rewrite render_chars, <- IH by exact Pl.
      change (("${" +++ k +++ "}") +++ render l)%string with (String "$" ((String "{" (k +++ "}")) +++ render l)).
      cbn [replace_skip].
      replace (String.prefix old (String "$" (String "{" (k +++ "}") +++ render l))) with true.
      * f_equal. replace (String.length old - 1) with (String.length (String "{" (k +++ "}"))).
        -- apply skip_all.
        -- rewrite Od. cbn. reflexivity.
      * symmetry. apply prefix_spec. exists (render l). rewrite Od. reflexivity.
    + rewrite <- IH by exact Pl.
      replace (("${" +++ k' +++ "}") +++ render l)%string with (String "$" (("{" +++ k' +++ "}") +++ render l)) by reflexivity.
      cbn [replace_skip].
      replace (String.prefix old (String "$" (("{" +++ k' +++ "}") +++ render l))) with false.
      * rewrite skip_clean; [|rewrite !hasChar_app, K1'; reflexivity|exists (String "{" (k +++ "}")); exact Od].
        change (render [Var k']) with (("${" +++ k' +++ "}") +++ "")%string. rewrite sapp_nil_r. reflexivity.
      * symmetry. rewrite Od. change (("{" +++ k' +++ "}") +++ render l)%string with (String "{" ((k' +++ "}") +++ render l)).
        rewrite sapp_assoc.
        assert (X : String.prefix (k +++ "}") (k' +++ "}" +++ render l) = false).
        { rewrite key_prefix by assumption. apply String.eqb_neq. exact N. }
        rewrite prefix_false in *. intros r E. injection E as E. exact (X r E).
Qed.
Lemma nextByte_chars : forall v l, hasChar "{" v = false -> nextByte l <> Some "{"%char -> nextByte (chars v ++ l) <> Some "{"%char.
Proof.
  intros [|c v] l H N; [exact N|]. rewrite hasChar_cons, orb_false_iff in H. destruct H as [E _]. cbn.
  intro X. injection X as ->. discriminate.
Qed.
Lemma nextByte_subst : forall k v l, hasChar "{" v = false -> nextByte l <> Some "{"%char ->
  nextByte (flat_map (subst1 k v) l) <> Some "{"%char.
Proof.
  intros k v l H. induction l as [|[c|k'] l IH]; intro N; cbn [flat_map subst1]; [exact N|exact N|].
  cbn [nextByte] in N. destruct (String.eqb k k'); [apply nextByte_chars; auto|cbn; auto].
Qed.
Lemma Plain_chars : forall v l, hasChar "$" v = false -> Plain l -> Plain (chars v ++ l).
Proof.
  induction v as [|c v IH]; intros l H P; [exact P|]. rewrite hasChar_cons, orb_false_iff in H. destruct H as [E H].
  cbn. split; [|apply IH; assumption]. intros ->. discriminate.
Qed.
Lemma Plain_subst : forall k v l, CleanValue v -> Plain l -> Plain (flat_map (subst1 k v) l).
Proof.
  intros k v l [V1 V2]. induction l as [|[c|k'] l IH]; intro P; cbn [flat_map subst1 app]; [exact P| |].
  - destruct P as [P Pl]. split; [|auto]. intro E. apply nextByte_subst; auto.
  - destruct P as [P Pl]. destruct (String.eqb k k'); [apply Plain_chars; auto|]. split; auto.
Qed.
Lemma no_vars : forall (env : smap string) v, flat_map (replaceVar env) (chars v) = chars v.
Proof. intros env v. unfold chars. induction (list_ascii_of_string v) as [|c l IH]; [reflexivity|]. cbn. f_equal. exact IH. Qed.

Section Substitute.
  Variable isPrintHigh : N -> bool.
  Lemma mget_shown : forall k env, mget k (shownEnv isPrintHigh env) = option_map (shown isPrintHigh) (mget k env).
  Proof. intros k env. induction env as [|[k1 v1] env IH]; [reflexivity|]. cbn. destruct (String.eqb k k1); [reflexivity|exact IH]. Qed.
  Lemma substitute_cons : forall k v env text,
    substitute isPrintHigh ((k, v) :: env) text = substitute isPrintHigh env (replaceAll text ("${" +++ k +++ "}") (shown isPrintHigh v)).
  Proof. reflexivity. Qed.
  Lemma substitute_ok : forall env l, NoDup (mkeys env) ->
    (forall k v, In (k, v) env -> CleanKey k /\ CleanValue (shown isPrintHigh v)) -> Plain l ->
    substitute isPrintHigh env (render l) = render (flat_map (replaceVar (shownEnv isPrintHigh env)) l).
  Proof.
    induction env as [|[k v] env IH]; intros l D H P.
    - cbn [substitute fold_left]. f_equal. clear. induction l as [|[c|k] l IH]; [reflexivity| |]; cbn; f_equal; exact IH.
    - inversion D as [|? ? N D']; subst. destruct (H k v (or_introl eq_refl)) as [Ck Cv].
      rewrite substitute_cons, replace_render by assumption. rewrite IH.
      + f_equal. clear -N. induction l as [|[c|k'] l IHl]; [reflexivity| |]; cbn [flat_map subst1 replaceVar].
        * cbn [app flat_map replaceVar]. f_equal. exact IHl.
        * rewrite flat_map_app, IHl. f_equal. cbn [shownEnv map mget fst snd].
          destruct (String.eqb_spec k k') as [<-|Nk].
          -- rewrite String.eqb_refl. apply no_vars.
          -- destruct (String.eqb_spec k' k) as [->|_]; [contradiction|]. cbn [flat_map replaceVar]. rewrite app_nil_r. reflexivity.
      + exact D'.
      + intros k' v' I. apply H. right. exact I.
      + apply Plain_subst; assumption.
  Qed.
  Lemma substitute_order : forall env env' l, Permutation env env' -> NoDup (mkeys env) ->
    (forall k v, In (k, v) env -> CleanKey k /\ CleanValue (shown isPrintHigh v)) -> Plain l ->
    substitute isPrintHigh env (render l) = substitute isPrintHigh env' (render l).
  Proof.
    intros env env' l Pm D H P. rewrite !substitute_ok; auto.
    - f_equal. apply flat_map_ext. intros [c|k]; [reflexivity|]. cbn. rewrite !mget_shown.
      rewrite (MapFacts.mget_perm k _ _ D Pm). reflexivity.
    - eapply Permutation_NoDup; [apply Permutation_map; exact Pm|exact D].
    - intros k v I. apply H. eapply Permutation_in; [apply Permutation_sym; exact Pm|exact I].
  Qed.
End Substitute.
