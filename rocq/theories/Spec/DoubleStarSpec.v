(** * DoubleStarSpec.v: the patterns of conditions, on code points. *)
From Verif Require Import Model.Go.
From Verif Require Import Spec.GlobSpec.

Definition comma : N := 44. Definition opening : N := 123. Definition closingBrace : N := 125.
Definition runeError : N := 65533.
Fixpoint joinWith (sep : N) (l : list (list N)) : list N :=
  match l with [] => [] | [x] => x | x :: l' => x ++ sep :: joinWith sep l' end.

(** ** Syntax *)
Inductive part : Type :=
| PStar
| PAny
| PLit (r : N)
| PClass (negated : bool) (ranges : list (N * N)).
Inductive SetChar : list N -> N -> Prop :=
| set_plain r : ~ In r [dash; closing; backslash; slash] -> SetChar [r] r
| set_escaped r : ~ In r [backslash; slash] -> SetChar [backslash; r] r.
Inductive SetRange : list N -> N * N -> Prop :=
| set_one l r : SetChar l r -> SetRange l (r, r)
| set_two l lo l' hi : SetChar l lo -> SetChar l' hi -> SetRange (l ++ dash :: l') (lo, hi).
(** An option in braces: stars, question marks and characters that mean themselves. *)
Inductive Option : list N -> list part -> Prop :=
| option_end : Option [] []
| option_star p ps : Option p ps -> Option (asterisk :: p) (PStar :: ps)
| option_any p ps : Option p ps -> Option (question :: p) (PAny :: ps)
| option_literal r p ps : ~ In r [asterisk; question; bracket; opening; backslash; slash; comma; closingBrace] ->
    Option p ps -> Option (r :: p) (PLit r :: ps).
(** A component of a pattern as a list of choices, most of them with one option that is one part.
    Each option in braces has something that is no star. *)
Inductive Component : list N -> list (list (list part)) -> Prop :=
| component_end : Component [] []
| component_star p cs : Component p cs -> Component (asterisk :: p) ([[PStar]] :: cs)
| component_any p cs : Component p cs -> Component (question :: p) ([[PAny]] :: cs)
| component_literal r p cs : ~ In r [asterisk; question; bracket; opening; backslash; slash] ->
    Component p cs -> Component (r :: p) ([[PLit r]] :: cs)
| component_escape r p cs : ~ In r [backslash; slash; runeError] -> Component p cs -> Component (backslash :: r :: p) ([[PLit r]] :: cs)
| component_class (negated : bool) ls rs p cs : ls <> [] -> Forall2 SetRange ls rs ->
    (negated = false -> hd 0%N (concat ls) <> caret) -> Component p cs ->
    Component (bracket :: (if negated then [caret] else []) ++ concat ls ++ closing :: p) ([[PClass negated rs]] :: cs)
| component_options texts os p cs : texts <> [] -> Forall2 Option texts os ->
    Forall (fun o => exists x, In x o /\ x <> PStar) os -> Component p cs ->
    Component (opening :: joinWith comma texts ++ closingBrace :: p) (os :: cs).
(** One option of each choice. *)
Inductive Chosen : list (list (list part)) -> list part -> Prop :=
| chosen_end : Chosen [] []
| chosen_more o os cs e : In o os -> Chosen cs e -> Chosen (os :: cs) (o ++ e).
(** Never two stars in a row. *)
Definition OneStar (cs : list (list (list part))) : Prop := forall e before after,
  Chosen cs e -> e <> before ++ [PStar; PStar] ++ after.
(** A whole pattern: components between slashes, some of them just two stars. *)
Inductive level : Type := Deep | Level (cs : list (list (list part))).
Definition LevelText (t : list N) (l : level) : Prop :=
  match l with
  | Deep => t = [asterisk; asterisk]
  | Level cs => Component t cs /\ OneStar cs
  end.
Definition Pattern (pattern : string) (ls : list level) : Prop := exists texts,
  pattern = utf8Text (joinWith slash texts) /\ Forall (Forall Valid) texts /\ texts <> [] /\ Forall2 LevelText texts ls.
(** A value, its components between slashes. *)
Definition Value (v : string) (ns : list (list N)) : Prop :=
  v = utf8Text (joinWith slash ns) /\ Forall (Forall Valid) ns /\ ns <> [] /\
  Forall (fun n => ~ In slash n /\ last n 0%N <> backslash) ns.

(** ** Meaning *)
Inductive PartsMatch : list part -> list N -> Prop :=
| match_end : PartsMatch [] []
| match_star a ps n : PartsMatch ps n -> PartsMatch (PStar :: ps) (a ++ n)
| match_any r ps n : PartsMatch ps n -> PartsMatch (PAny :: ps) (r :: n)
| match_literal r ps n : PartsMatch ps n -> PartsMatch (PLit r :: ps) (r :: n)
| match_class negated rs r ps n : Accepts negated rs r -> PartsMatch ps n -> PartsMatch (PClass negated rs :: ps) (r :: n).
Definition ComponentMatches (cs : list (list (list part))) (n : list N) : Prop := exists e, Chosen cs e /\ PartsMatch e n.
(** Two stars stand for any number of components, at the end for at least one. *)
Inductive LevelsMatch : list level -> list (list N) -> Prop :=
| levels_end : LevelsMatch [] []
| levels_one cs n ls ns : ComponentMatches cs n -> LevelsMatch ls ns -> LevelsMatch (Level cs :: ls) (n :: ns)
| levels_deep skipped ls ns : (ls = [] -> skipped <> []) -> LevelsMatch ls ns -> LevelsMatch (Deep :: ls) (skipped ++ ns).
(** What a pattern says of a value. *)
Definition Says (pattern v : string) : Prop := exists ls ns, Pattern pattern ls /\ Value v ns /\ LevelsMatch ls ns.
(** Characters that mean themselves in a pattern, with the slash. *)
Definition PlainText (l : list N) : Prop := Forall (fun r => Valid r /\ ~ In r [asterisk; question; bracket; opening; backslash]) l.
(** Values without backslashes. *)
Definition PlainValue (l : list N) : Prop := Forall (fun r => Valid r /\ r <> backslash) l.
(** Refs of proposed changes. *)
Definition Reviewed (ref : string) : Prop := exists x,
  ref = ("refs/pull/" +++ x)%string \/ ref = ("refs/pull-requests/" +++ x)%string \/ ref = ("refs/merge-requests/" +++ x)%string.
