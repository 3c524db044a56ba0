(** * DoubleStar.v: theorem C102. *)
From Verif Require Import Model.Go Model.Quote Model.Types Model.DoubleStar Model.Cond
  Spec.GlobSpec Spec.DoubleStarSpec Proofs.DoubleStarClaims.

(** ** C102 *)
Theorem C102_matches : forall pattern ls v ns, Pattern pattern ls -> Value v ns ->
  (doubleStar pattern v = Some true <-> LevelsMatch ls ns).
Proof. exact doubleStar_ok. Qed.
Print Assumptions C102_matches.
Theorem C102_no_error : forall pattern ls v ns, Pattern pattern ls -> Value v ns -> doubleStar pattern v <> None.
Proof. exact doubleStar_no_error. Qed.
Print Assumptions C102_no_error.
Theorem C102_condition : forall c v ns, Value v ns -> (forall p, In p (c_include c) \/ In p (c_exclude c) -> exists ls, Pattern p ls) ->
  (Match doubleStar c v = true <->
   (forall p, In p (c_exclude c) -> ~ Says p v) /\ (c_include c = [] \/ exists p, In p (c_include c) /\ Says p v)).
Proof. exact condition_says. Qed.
Print Assumptions C102_condition.
Theorem C102_plain : forall p w, PlainText p -> PlainValue w -> (doubleStar (utf8Text p) (utf8Text w) = Some true <-> w = p).
Proof. exact plain_only_itself. Qed.
Print Assumptions C102_plain.
Theorem C102_star : forall p w, PlainText p -> PlainValue w ->
  (doubleStar (utf8Text (p ++ [asterisk])) (utf8Text w) = Some true <-> exists rest, w = p ++ rest /\ ~ In slash rest).
Proof. exact within_level. Qed.
Print Assumptions C102_star.
Theorem C102_below : forall p w, PlainText p -> PlainValue w ->
  (doubleStar (utf8Text (p ++ [slash; asterisk; asterisk])) (utf8Text w) = Some true <-> exists rest, w = p ++ slash :: rest).
Proof. exact below. Qed.
Print Assumptions C102_below.
Theorem C102_everything : forall w, PlainValue w -> doubleStar "**" (utf8Text w) = Some true.
Proof. exact everything. Qed.
Print Assumptions C102_everything.
Theorem C102_lists : forall c w, PlainValue w ->
  (forall p, In p (c_include c) \/ In p (c_exclude c) -> exists t, p = utf8Text t /\ PlainText t) ->
  (Match doubleStar c (utf8Text w) = true <-> ~ In (utf8Text w) (c_exclude c) /\ (c_include c = [] \/ In (utf8Text w) (c_include c))).
Proof. exact condition_lists. Qed.
Print Assumptions C102_lists.
(** A pattern for everything below a level does not match the level itself. *)
Theorem C102_level_itself_refuted : exists p, PlainText p /\ doubleStar (utf8Text (p ++ [slash; asterisk; asterisk])) (utf8Text p) = Some false.
Proof. exists [97]%N. split; [|reflexivity]. constructor; [|constructor]. split; [left; reflexivity|]. cbn. intuition discriminate. Qed.
Print Assumptions C102_level_itself_refuted.

(** r/**/{v?,x}[0-9] and r/a/b/va7. *)
Lemma release_pattern : Pattern "r/**/{v?,x}[0-9]"
  [Level [[[PLit 114]]]; Deep; Level [[[PLit 118; PAny]; [PLit 120]]; [[PClass false [(48, 57)]]]]]%N.
Proof.
  exists [[114]; [42; 42]; [123; 118; 63; 44; 120; 125; 91; 48; 45; 57; 93]]%N. split; [reflexivity|]. split; [repeat constructor|]. split; [discriminate|].
  constructor; [split; [apply component_literal; [cbn; intuition discriminate|constructor]|]|constructor; [reflexivity|constructor; [split|constructor]]].
  - intros e before after C E. inversion C as [|o os cs e' I C']; subst. destruct I as [<-|[]]. inversion C'; subst. destruct before as [|x [|y b]]; discriminate.
  - apply (component_options [[118; 63]; [120]]%N [[PLit 118; PAny]; [PLit 120]]%N).
    + discriminate.
    + constructor; [apply option_literal; [cbn; intuition discriminate|]; apply option_any; constructor|]. constructor; [apply option_literal; [cbn; intuition discriminate|constructor]|constructor].
    + constructor; [exists PAny; split; [right; left; reflexivity|discriminate]|]. constructor; [exists (PLit 120); split; [left; reflexivity|discriminate]|constructor].
    + apply (component_class false [[48; 45; 57]%N] [(48, 57)%N] [] []); [discriminate| |intros _; discriminate|constructor].
      constructor; [|constructor]. apply (set_two [48]%N 48 [57]%N 57); apply set_plain; cbn; intuition discriminate.
  - intros e before after C E. inversion C as [|o os cs e' I C']; subst. inversion C' as [|o' os' cs' e'' I' C'']; subst. inversion C''; subst. destruct I' as [<-|[]]. destruct I as [<-|[<-|[]]]; repeat (destruct before as [|? before]; try discriminate).
Qed.
Lemma release_value : Value "r/a/b/va7" [[114]; [97]; [98]; [118; 97; 55]]%N.
Proof. split; [reflexivity|]. split; [repeat constructor|]. split; [discriminate|]. repeat constructor; cbn; intuition discriminate. Qed.
Example C102_case : (exists ls ns, Pattern "r/**/{v?,x}[0-9]" ls /\ Value "r/a/b/va7" ns /\ LevelsMatch ls ns) /\
  doubleStar "r/**/{v?,x}[0-9]" "r/a/b/va7" = Some true /\ doubleStar "r/**/{v?,x}[0-9]" "r/a/b/v7" = Some false.
Proof.
  split; [|split; reflexivity]. eexists _, _. split; [exact release_pattern|]. split; [exact release_value|]. apply (C102_matches _ _ _ _ release_pattern release_value). reflexivity.
Qed.
(** feature/* without feature/wip. *)
Example C102_case_condition :
  let c := {| c_include := ["feature/*"]; c_exclude := ["feature/wip"; "**/old"] |} in
  Match doubleStar c "feature/a" = true /\ Match doubleStar c "feature/wip" = false /\ Match doubleStar c "feature/a/b" = false /\ Match doubleStar c "feature/old" = false /\
  doubleStar "feature/**" "feature/a/b" = Some true /\ doubleStar "feature/**" "feature" = Some false /\ doubleStar "*" "feature/a" = Some false.
Proof. repeat split. Qed.
Example C102_case_lists : PlainText [112; 117]%N /\ PlainValue [112; 117]%N /\ utf8Text [112; 117]%N = "pu" /\
  Match doubleStar {| c_include := ["pu"; "tag"]; c_exclude := [] |} "pu" = true.
Proof. split; [repeat constructor; cbn; intuition discriminate|]. split; [repeat constructor; discriminate|]. split; reflexivity. Qed.
