(** * GlobSpec.v: the patterns of path.Match, on code points. *)
From Verif Require Import Model.Go.
From Verif Require Spec.ScriptSpec.

Definition utf8Text (rs : list N) : string := concats (map ScriptSpec.utf8 rs).
Definition Valid (r : N) : Prop := (r < 55296 \/ 57344 <= r < 1114112)%N.
Definition Ascii7 (r : N) : Prop := (r < 128)%N.

Definition slashes (s : string) : nat := count_occ ascii_dec (list_ascii_of_string s) "/"%char.
Definition slash : N := 47. Definition asterisk : N := 42. Definition question : N := 63.
Definition bracket : N := 91. Definition closing : N := 93. Definition backslash : N := 92.
Definition dash : N := 45. Definition caret : N := 94.

(** ** Syntax *)
Inductive item : Type :=
| Star
| Any
| Lit (r : N)
| OneOf (negated : bool) (ranges : list (N * N)).
Inductive ClassChar : list N -> N -> Prop :=
| char_plain r : ~ In r [dash; closing; backslash] -> ClassChar [r] r
| char_escaped r : ClassChar [backslash; r] r.
Inductive ClassRange : list N -> N * N -> Prop :=
| range_one l r : ClassChar l r -> ClassRange l (r, r)
| range_two l lo l' hi : ClassChar l lo -> ClassChar l' hi -> ClassRange (l ++ dash :: l') (lo, hi).
Inductive Parses : list N -> list item -> Prop :=
| parse_end : Parses [] []
| parse_star ps its : Parses ps its -> Parses (asterisk :: ps) (Star :: its)
| parse_any ps its : Parses ps its -> Parses (question :: ps) (Any :: its)
| parse_literal r ps its : ~ In r [asterisk; question; bracket; backslash] -> Parses ps its -> Parses (r :: ps) (Lit r :: its)
| parse_escape r ps its : Parses ps its -> Parses (backslash :: r :: ps) (Lit r :: its)
| parse_class (negated : bool) ls rs ps its : ls <> [] -> Forall2 ClassRange ls rs ->
    (negated = false -> hd 0%N (concat ls) <> caret) -> Parses ps its ->
    Parses (bracket :: (if negated then [caret] else []) ++ concat ls ++ closing :: ps) (OneOf negated rs :: its).

(** ** Meaning *)
Definition Within (rs : list (N * N)) (r : N) : Prop := exists lo hi, In (lo, hi) rs /\ (lo <= r <= hi)%N.
Definition Accepts (negated : bool) (rs : list (N * N)) (r : N) : Prop := if negated then ~ Within rs r else Within rs r.
Inductive GlobMatches : list item -> list N -> Prop :=
| glob_end : GlobMatches [] []
| glob_star a its rs : ~ In slash a -> GlobMatches its rs -> GlobMatches (Star :: its) (a ++ rs)
| glob_any r its rs : r <> slash -> GlobMatches its rs -> GlobMatches (Any :: its) (r :: rs)
| glob_literal r its rs : GlobMatches its rs -> GlobMatches (Lit r :: its) (r :: rs)
| glob_class negated ranges r its rs : Accepts negated ranges r -> GlobMatches its rs ->
    GlobMatches (OneOf negated ranges :: its) (r :: rs).
(** No class between two stars accepts a slash. *)
Definition Calm (its : list item) : Prop := forall before between after negated ranges,
  its = before ++ Star :: between ++ Star :: after -> In (OneOf negated ranges) between -> ~ Accepts negated ranges slash.
(** After a star come another star, the end, or a literal. *)
Definition Anchored (its : list item) : Prop := forall before it after,
  its = before ++ Star :: it :: after -> it = Star \/ exists r, it = Lit r.
(** The pattern is well formed and its meaning includes the name. *)
Definition Names (pattern : string) (name : list N) : Prop := exists ps its,
  Forall Valid ps /\ pattern = utf8Text ps /\ Parses ps its /\ GlobMatches its name.
Definition CalmPattern (pattern : string) : Prop := forall ps its,
  Forall Valid ps -> pattern = utf8Text ps -> Parses ps its -> Calm its.
