(** * DoubleStarFacts.v: doublestar.Match on components. *)
From Coq Require Import Lia.
From Verif Require Import Model.Go Model.Glob Model.DoubleStar.
From Verif Require Import Spec.GlobSpec Spec.DoubleStarSpec.
From Verif Require Import Proofs.GoFacts.

(** ** Cutting *)
Definition prepend (t : list N) (o : option (list N * list N)) : option (list N * list N) :=
  match o with Some (a, b) => Some (t ++ a, b) | None => None end.
Lemma cut_hit : forall r s, cutUnescaped r false (r :: s) = Some ([], s).
Proof. intros r s. cbn. rewrite N.eqb_refl. reflexivity. Qed.
Lemma cut_skip : forall r c esc s, c <> r -> cutUnescaped r esc (c :: s) = prepend [c] (cutUnescaped r (N.eqb c 92) s).
Proof. intros r c esc s N. cbn. apply N.eqb_neq in N. rewrite N. cbn [andb]. destruct (cutUnescaped r (N.eqb c 92) s) as [[a b]|]; reflexivity. Qed.
Lemma cut_escaped : forall r c s, cutUnescaped r true (c :: s) = prepend [c] (cutUnescaped r (N.eqb c 92) s).
Proof. intros r c s. cbn. rewrite andb_false_r. destruct (cutUnescaped r (N.eqb c 92) s) as [[a b]|]; reflexivity. Qed.
Lemma prepend_app : forall a b o, prepend a (prepend b o) = prepend (a ++ b) o.
Proof. intros a b [[x y]|]; cbn; [rewrite app_assoc|]; reflexivity. Qed.
(** Texts that a search passes over. *)
Definition Passed (r : N) (t : list N) : Prop := forall s, cutUnescaped r false (t ++ s) = prepend t (cutUnescaped r false s).
Lemma passed_nil : forall r, Passed r [].
Proof. intros r s. cbn. destruct (cutUnescaped r false s) as [[a b]|]; reflexivity. Qed.
Lemma passed_app : forall r a b, Passed r a -> Passed r b -> Passed r (a ++ b).
Proof. intros r a b A B s. rewrite <- app_assoc, A, B. apply prepend_app. Qed.
Lemma passed_one : forall r c, c <> r -> c <> 92%N -> Passed r [c].
Proof. intros r c N N' s. cbn [app]. rewrite cut_skip by exact N. apply N.eqb_neq in N'. rewrite N'. reflexivity. Qed.
Lemma passed_pair : forall r c, r <> 92%N -> c <> 92%N -> Passed r [92%N; c].
Proof.
  intros r c N N' s. cbn [app]. rewrite cut_skip by (intro X; apply N; auto). change (N.eqb 92 92) with true. rewrite cut_escaped. apply N.eqb_neq in N'. rewrite N'. apply prepend_app.
Qed.
Lemma passed_concat : forall r l, Forall (Passed r) l -> Passed r (concat l).
Proof. induction 1; cbn; [apply passed_nil|apply passed_app; assumption]. Qed.
Lemma passed_plain : forall r l, Forall (fun c => c <> r /\ c <> 92%N) l -> Passed r l.
Proof. intros r. induction 1 as [|c l [A B] _ IH]; [apply passed_nil|]. change (c :: l) with ([c] ++ l). apply passed_app; [apply passed_one; assumption|exact IH]. Qed.
Lemma passed_cut : forall r t s, Passed r t -> cutUnescaped r false (t ++ r :: s) = Some (t, s).
Proof. intros r t s P. rewrite P, cut_hit. cbn. rewrite app_nil_r. reflexivity. Qed.
(** ** Splitting *)
Definition pushed (t : list N) (l : list (list N)) : list (list N) := match l with p :: ps => (t ++ p) :: ps | [] => [t] end.
Lemma split_some : forall r esc s, splitUnescaped r esc s <> [].
Proof. intros r esc [|c s]; cbn; [discriminate|]. destruct (N.eqb c r && negb esc); [discriminate|]. destruct (splitUnescaped r (N.eqb c 92) s); discriminate. Qed.
Lemma split_clean : forall r t esc s, Forall (fun c => c <> r) t -> r <> 92%N ->
  splitUnescaped r esc (t ++ s) = pushed t (splitUnescaped r (match t with [] => esc | _ => N.eqb (last t 0%N) 92 end) s).
Proof.
  intros r t. induction t as [|c t IH]; intros esc s F N.
  - cbn [app]. destruct (splitUnescaped r esc s) eqn:E; [elim (split_some _ _ _ E)|reflexivity].
  - inversion F as [|? ? Nc F']; subst. cbn [app splitUnescaped]. apply N.eqb_neq in Nc. rewrite Nc. cbn [andb]. rewrite (IH (N.eqb c 92) s F' N).
    destruct t as [|d t]; [cbn [last]; destruct (splitUnescaped r (N.eqb c 92) s) eqn:E; [elim (split_some _ _ _ E)|reflexivity]|].
    change (last (c :: d :: t) 0%N) with (last (d :: t) 0%N). destruct (splitUnescaped r (N.eqb (last (d :: t) 0%N) 92) s); reflexivity.
Qed.
Lemma split_join : forall r l, r <> 92%N -> l <> [] -> Forall (fun t => Forall (fun c => c <> r) t /\ last t 0%N <> 92%N) l -> splitUnescaped r false (joinWith r l) = l.
Proof.
  intros r l Nr. induction l as [|t l IH]; intros Nl F; [contradiction|]. inversion F as [|? ? [A B] F']; subst.
  assert (E : forall s, splitUnescaped r false (t ++ s) = pushed t (splitUnescaped r false s)).
  { intro s. rewrite split_clean by auto. destruct t as [|c t]; [reflexivity|]. apply N.eqb_neq in B. rewrite B. reflexivity. }
  destruct l as [|u l].
  - cbn [joinWith]. rewrite <- (app_nil_r t) at 1. rewrite E. cbn. rewrite app_nil_r. reflexivity.
  - change (joinWith r (t :: u :: l)) with (t ++ r :: joinWith r (u :: l)). rewrite E. cbn [splitUnescaped]. rewrite N.eqb_refl. cbn [negb andb]. rewrite IH by (exact F' || discriminate).
    cbn [pushed]. rewrite app_nil_r. reflexivity.
Qed.

(** ** Classes *)
Lemma setChar_class : forall l r s, SetChar l r -> classChar (l ++ s) = Some (r, s).
Proof.
  intros l r s [r0 N|r0 N]; cbn [app classChar]; [|reflexivity].
  assert (r0 <> 45%N /\ r0 <> 92%N) as [A B] by (split; intros ->; apply N; cbn; auto). apply N.eqb_neq in A, B. rewrite A, B. reflexivity.
Qed.
Lemma setRange_nil : forall l x, SetRange l x -> l <> [].
Proof. intros l x [l0 r [r0 _|r0 _]|l0 lo l1 hi [r0 _|r0 _] _]; discriminate. Qed.
Lemma setRange_head : forall l x, SetRange l x -> hd 0%N l <> 45%N.
Proof.
  intros l x H. assert (C : forall l r, SetChar l r -> exists c l', l = c :: l' /\ c <> 45%N).
  { intros l0 r [r0 N|r0 N]; [exists r0, []|exists 92%N, [r0]]; (split; [reflexivity|]); [intros ->; apply N; cbn; auto|discriminate]. }
  destruct H as [l r H|l lo l' hi H _]; destruct (C _ _ H) as (c & l0 & -> & N); exact N.
Qed.
Lemma classLoop_ok : forall ls rs, Forall2 SetRange ls rs -> forall fuel r found, length ls < fuel ->
  classLoop fuel r found (concat ls) = Some (found || existsb (fun x => N.leb (fst x) r && N.leb r (snd x)) rs).
Proof.
  induction 1 as [|l x ls rs R Rs IH]; intros fuel r found L.
  - destruct fuel; [cbn in L; lia|]. cbn. rewrite orb_false_r. reflexivity.
  - destruct fuel as [|fuel]; [cbn in L; lia|]. cbn [length] in L. cbn [concat existsb].
    assert (Hs : forall lo hi l3, classChar (l ++ concat ls) = Some (lo, l3) ->
       (match l3 with d :: l2 => if N.eqb d 45 then classChar l2 else Some (lo, l3) | [] => Some (lo, l3) end) = Some (hi, concat ls) ->
       classLoop (S fuel) r found (l ++ concat ls) = classLoop fuel r (found || (N.leb lo r && N.leb r hi)) (concat ls)).
    { intros lo hi l3 E1 E2. cbn [classLoop]. destruct (l ++ concat ls) eqn:El; [exfalso; apply app_eq_nil in El; exact (setRange_nil _ _ R (proj1 El))|]. rewrite E1, E2. reflexivity. }
    destruct R as [l a C|l lo l' hi C C'].
    + rewrite (Hs a a (concat ls) (setChar_class _ _ _ C)), IH; [cbn [fst snd]; rewrite orb_assoc; reflexivity|lia|].
      destruct Rs as [|l0 x0 ls0 rs0 R0 Rs0]; [reflexivity|]. cbn [concat]. pose proof (setRange_head _ _ R0) as Nh. pose proof (setRange_nil _ _ R0) as Nn.
      destruct l0 as [|d l0]; [contradiction|]. cbn [app]. cbn [hd] in Nh. apply N.eqb_neq in Nh. rewrite Nh. reflexivity.
    + rewrite (Hs lo hi (dash :: l' ++ concat ls)), IH; [cbn [fst snd]; rewrite orb_assoc; reflexivity|lia| |].
      * rewrite <- app_assoc. exact (setChar_class _ _ _ C).
      * change (N.eqb dash 45) with true. exact (setChar_class _ _ _ C').
Qed.
Lemma within_ok : forall rs r, existsb (fun x => N.leb (fst x) r && N.leb r (snd x)) rs = true <-> Within rs r.
Proof.
  intros rs r. rewrite existsb_exists. unfold Within. split.
  - intros ([lo hi] & I & H). apply andb_true_iff in H. cbn in H. rewrite !N.leb_le in H. exists lo, hi. auto.
  - intros (lo & hi & I & H). exists (lo, hi). split; [exact I|]. cbn. apply andb_true_iff. rewrite !N.leb_le. exact H.
Qed.
Lemma setRange_passed : forall l x, SetRange l x -> Passed 93 l.
Proof.
  assert (C : forall l r, SetChar l r -> Passed 93 l).
  { intros l r [r0 N|r0 N]; [apply passed_one; intros ->; apply N; cbn; auto|apply passed_pair; [discriminate|intros ->; apply N; cbn; auto]]. }
  intros l x [l0 r H|l0 lo l1 hi H H']; [exact (C _ _ H)|]. apply passed_app; [exact (C _ _ H)|]. change (dash :: l1) with ([dash] ++ l1). apply passed_app; [apply passed_one; discriminate|exact (C _ _ H')].
Qed.
