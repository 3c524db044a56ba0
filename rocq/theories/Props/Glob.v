(** * Glob.v: theorem C100. *)
From Coq Require Import Permutation.
From Verif Require Import Model.Go Model.Quote Model.Types Model.Glob Model.Bitbucket
  Spec.GlobSpec Spec.ConverterSpec Proofs.GlobMatch Proofs.GlobClaims Proofs.GlobForm.

(** ** C100 *)
(** A name of ASCII characters. *)
Theorem C100_only_meaning : forall pattern name, Forall Ascii7 name -> globMatch pattern (utf8Text name) = Some true -> Names pattern name.
Proof. exact glob_names. Qed.
Print Assumptions C100_only_meaning.
(** Any name. *)
Theorem C100_whole_meaning : forall pattern name, Forall Valid name -> CalmPattern pattern -> Names pattern name ->
  globMatch pattern (utf8Text name) = Some true.
Proof. exact names_glob. Qed.
Print Assumptions C100_whole_meaning.
Theorem C100_anchored : forall ps its name, Parses ps its -> Forall Valid ps -> Forall Valid name -> Anchored its ->
  globMatch (utf8Text ps) (utf8Text name) = Some true -> GlobMatches its name.
Proof. intros ps its name P F V A. exact (glob_sound ps its name P F V (or_intror A)). Qed.
Print Assumptions C100_anchored.
Theorem C100_no_error : forall ps its name, Parses ps its -> Forall Valid ps -> globMatch (utf8Text ps) name <> None.
Proof. exact glob_no_error. Qed.
Print Assumptions C100_no_error.
Theorem C100_selection : forall ordT ordB, (forall m, Permutation m (ordT m)) -> (forall m, Permutation m (ordB m)) ->
  forall c ref tag branch, Stripped "refs/tags/" ref (utf8Text tag) -> Stripped "refs/heads/" ref (utf8Text branch) ->
  Forall Ascii7 tag -> Forall Ascii7 branch ->
  let s := pipelineFor globMatch ordT ordB c ref in
  (exists p, In (p, s) (bc_tags c) /\ Names p tag) \/
  ((forall p t, In (p, t) (bc_tags c) -> CalmPattern p -> ~ Names p tag) /\
   ((exists p, In (p, s) (bc_branches c) /\ Names p branch) \/
    ((forall p t, In (p, t) (bc_branches c) -> CalmPattern p -> ~ Names p branch) /\ s = bc_default c))).
Proof. exact glob_selection. Qed.
Print Assumptions C100_selection.
(** The whole ref of a branch is matched against the tag patterns; simple ones do not match it. *)
Theorem C100_branches : forall ordT ordB, (forall m, Permutation m (ordT m)) -> (forall m, Permutation m (ordB m)) ->
  forall c branch, Forall Ascii7 branch ->
  (forall p t, In (p, t) (bc_tags c) -> hasChar "[" p = false /\ slashes p <= 1) ->
  let s := pipelineFor globMatch ordT ordB c ("refs/heads/" +++ utf8Text branch) in
  (exists p, In (p, s) (bc_branches c) /\ Names p branch) \/
  ((forall p t, In (p, t) (bc_branches c) -> CalmPattern p -> ~ Names p branch) /\ s = bc_default c).
Proof. exact glob_branches. Qed.
Print Assumptions C100_branches.

(** feature/*-[0-9] and feature/a-7. *)
Definition featurePattern : list N := [102; 47; 42; 45; 91; 48; 45; 57; 93]%N.
Definition featureItems : list item := [Lit 102; Lit 47; Star; Lit 45; OneOf false [(48, 57)]]%N.
Lemma feature_parses : Parses featurePattern featureItems.
Proof.
  unfold featurePattern, featureItems.
  do 2 (apply parse_literal; [cbn; intuition discriminate|]). apply (parse_star [45; 91; 48; 45; 57; 93]%N). apply parse_literal; [cbn; intuition discriminate|].
  apply (parse_class false [[48; 45; 57]%N] [(48, 57)%N] [] []); [discriminate| |intros _; discriminate|constructor].
  constructor; [|constructor]. apply (range_two [48]%N 48 [57]%N 57); apply char_plain; cbn; intuition discriminate.
Qed.
Example C100_case : utf8Text featurePattern = "f/*-[0-9]" /\ Names "f/*-[0-9]" [102; 47; 97; 45; 98; 45; 55]%N /\ Calm featureItems /\ Anchored featureItems /\
  globMatch "f/*-[0-9]" "f/a-b-7" = Some true /\ globMatch "f/*-[0-9]" "f/a/b-7" = Some false.
Proof.
  split; [reflexivity|]. split.
  - exists featurePattern, featureItems. split; [repeat (apply Forall_cons; [left; reflexivity|]); apply Forall_nil|]. split; [reflexivity|]. split; [exact feature_parses|].
    do 2 apply glob_literal. apply (glob_star [97; 45; 98]%N); [cbn; intuition discriminate|]. apply glob_literal. apply glob_class; [|constructor].
    exists 48%N, 57%N. cbn. split; [auto|]. split; discriminate.
  - split; [|split; [|split; reflexivity]].
    + intros before between after negated ranges E. exfalso. assert (X : count_occ (fun x y : bool => Bool.bool_dec x y) (map (fun i => match i with Star => true | _ => false end) featureItems) true = 1) by reflexivity.
      rewrite E in X. rewrite map_app in X. cbn [map] in X. rewrite map_app in X. cbn [map] in X. rewrite count_occ_app in X. cbn [count_occ] in X.
      rewrite count_occ_app in X. cbn in X. rewrite <- !plus_n_Sm in X. discriminate.
    + intros before it after E. unfold featureItems in E. destruct before as [|b1 [|b2 [|b3 [|b4 [|b5 before]]]]]; cbn [app] in E; try discriminate E.
      * injection E as _ _ <- _. right. eexists. reflexivity.
      * injection E as _ _ _ _ _ E. destruct before; discriminate E.
Qed.
(** Two stars are no more than one: Bitbucket's pattern for all branches of a folder does not match their folders. *)
Example C100_double_star : globMatch "feature/**" "feature/a" = Some true /\ globMatch "feature/**" "feature/a/b" = Some false.
Proof. split; reflexivity. Qed.
(** A class between two stars that accepts a slash: the first match is kept though only a later one leads to the end. *)
Theorem C100_whole_meaning_refuted : exists pattern name, Forall Ascii7 name /\ Names pattern name /\ globMatch pattern (utf8Text name) = Some false.
Proof.
  exists "*[a/]*b", [97; 47; 98]%N. split; [repeat constructor|]. split; [|reflexivity].
  exists [42; 91; 97; 47; 93; 42; 98]%N, [Star; OneOf false [(97, 97); (47, 47)]; Star; Lit 98]%N.
  split; [repeat (apply Forall_cons; [left; reflexivity|]); apply Forall_nil|]. split; [reflexivity|]. split.
  - apply (parse_star [91; 97; 47; 93; 42; 98]%N). apply (parse_class false [[97]; [47]]%N [(97, 97); (47, 47)]%N [42; 98]%N [Star; Lit 98%N]); [discriminate| |intros _; discriminate|].
    + constructor; [|constructor; [|constructor]]; apply range_one; apply char_plain; cbn; intuition discriminate.
    + apply (parse_star [98]%N). apply parse_literal; [cbn; intuition discriminate|constructor].
  - apply (glob_star [97]%N); [cbn; intuition discriminate|]. apply glob_class.
    + exists 47%N, 47%N. cbn. split; [auto|]. split; discriminate.
    + apply (glob_star []); [auto|]. apply glob_literal. constructor.
Qed.
Print Assumptions C100_whole_meaning_refuted.
(** Beyond ASCII a star can end within a character. *)
Theorem C100_only_meaning_refuted : exists ps its name, Parses ps its /\ Forall Valid ps /\ Forall Valid name /\
  globMatch (utf8Text ps) (utf8Text name) = Some true /\ ~ GlobMatches its name.
Proof.
  exists [42; 63; 63]%N, [Star; Any; Any], [19990]%N. split; [apply (parse_star [63; 63]%N), (parse_any [63]%N), (parse_any []), parse_end|].
  split; [repeat (apply Forall_cons; [left; reflexivity|]); apply Forall_nil|]. split; [repeat (apply Forall_cons; [left; reflexivity|]); apply Forall_nil|].
  split; [reflexivity|]. intro G. inversion G as [|a ? ? N G1 Ei Ea| | |]. inversion G1 as [| |r1 ? rs1 N1 G2| |]. inversion G2 as [| |r2 ? rs2 N2 G3| |]. subst.
  destruct a as [|x [|y a]]; discriminate Ea.
Qed.
Print Assumptions C100_only_meaning_refuted.
