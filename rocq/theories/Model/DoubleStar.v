(** * DoubleStar.v: doublestar.Match, which yaml/cond.go 59 and 70 call for the patterns of a
    condition. The library is not in /repo; this follows its published source
    (github.com/bmatcuk/doublestar v1.1.1, doublestar.go). Texts are lists of code points: the
    library cuts texts at code points only. Within a component the indexes into the pattern and
    the name become the rests of the two. *)
From Verif Require Import Model.Go Model.Quote Model.Glob.

(** utf8.DecodeRuneInString until the end; invalid bytes count as utf8.RuneError. [fuel] bounds the
    length. *)
Fixpoint runesFrom (fuel : nat) (s : string) : list N :=
  match fuel, s with
  | S f, String c s' => let '(r, rest) := firstRune c s' in r :: runesFrom f rest
  | _, _ => []
  end.
Definition runes (s : string) : list N := runesFrom (String.length s) s.

(** indexRuneWithEscaping: the text before the first [r] without a backslash right before it, and
    the text after it. [esc]: the character before was a backslash. *)
Fixpoint cutUnescaped (r : N) (esc : bool) (s : list N) : option (list N * list N) :=
  match s with
  | [] => None
  | c :: s' =>
      if N.eqb c r && negb esc then Some ([], s')
      else match cutUnescaped r (N.eqb c 92) s' with Some (a, b) => Some (c :: a, b) | None => None end
  end.
(** splitPathOnSeparator. *)
Fixpoint splitUnescaped (r : N) (esc : bool) (s : list N) : list (list N) :=
  match s with
  | [] => [[]]
  | c :: s' =>
      if N.eqb c r && negb esc then [] :: splitUnescaped r false s'
      else match splitUnescaped r (N.eqb c 92) s' with p :: ps => (c :: p) :: ps | [] => [[c]] end
  end.

(** A character of a class, possibly escaped; [None] is ErrBadPattern. *)
Definition classChar (l : list N) : option (N * list N) :=
  match l with
  | [] => None
  | c :: l' =>
      if N.eqb c 45 then None
      else if N.eqb c 92 then match l' with [] => None | d :: l'' => Some (d, l'') end
      else Some (c, l')
  end.
(** The loop over the ranges of a class: whether [r] is in one of them. [fuel] bounds their number. *)
Fixpoint classLoop (fuel : nat) (r : N) (found : bool) (l : list N) : option bool :=
  match fuel, l with
  | 0, _ => None
  | S _, [] => Some found
  | S f, _ =>
      match classChar l with
      | None => None
      | Some (lo, l1) =>
          match (match l1 with d :: l2 => if N.eqb d 45 then classChar l2 else Some (lo, l1) | [] => Some (lo, l1) end) with
          | None => None
          | Some (hi, l3) => classLoop f r (found || (N.leb lo r && N.leb r hi)) l3
          end
      end
  end.

(** The rests of a text that are not empty. *)
Fixpoint suffixes (l : list N) : list (list N) :=
  match l with [] => [] | _ :: l' => l :: suffixes l' end.
Definition isNil {A} (l : list A) : bool := match l with [] => true | _ => false end.
Definition isStars (k : nat) (p : list N) : bool := if list_eq_dec N.eq_dec p (repeat 42%N k) then true else false.
Definition yes (b : option bool) : bool := match b with Some true => true | _ => false end.

(** matchComponent before its loop. *)
Definition enter (loop : list N -> list N -> option bool) (p n : list N) : option bool :=
  if isNil p && isNil n then Some true
  else if isNil p then Some false
  else if isNil n && negb (isStars 1 p) then Some false
  else loop p n.
(** The loop over the options in braces. *)
Fixpoint tryOptions (m : list N -> option bool) (options : list (list N)) : option bool :=
  match options with
  | [] => Some false
  | o :: os =>
      match m o with
      | None => None
      | Some true => Some true
      | Some false => tryOptions m os
      end
  end.
(** The loop of matchComponent; [None] is ErrBadPattern. Each round uses up some of the pattern:
    [fuel] bounds its length. *)
Fixpoint matchLoop (fuel : nat) (p n : list N) : option bool :=
  match fuel with
  | 0 => None
  | S f =>
      match p, n with
      | [], _ => Some (isNil n)
      | _, [] => Some (isStars 1 p || isStars 2 p)
      | c :: p', r :: n' =>
          if N.eqb c 92 then
            match p' with
            | [] => None
            | d :: p'' => if N.eqb d 65533 then None else if N.eqb d r then matchLoop f p'' n' else Some false
            end
          else if N.eqb c 42 then
            if isNil p' then Some true
            else Some (existsb (fun s => yes (enter (matchLoop f) p' s)) (suffixes n))
          else if N.eqb c 91 then
            match cutUnescaped 93 false p' with
            | None => None
            | Some (class, p'') =>
                if isNil class then None
                else
                  let negated := match class with c' :: _ => N.eqb c' 94 | [] => false end in
                  match classLoop (S (length class)) r false (if negated then tl class else class) with
                  | None => None
                  | Some found => if Bool.eqb found negated then Some false else matchLoop f p'' n'
                  end
            end
          else if N.eqb c 123 then
            match cutUnescaped 125 false p' with
            | None => None
            | Some (options, p'') => tryOptions (fun o => enter (matchLoop f) (o ++ p'') n) (splitUnescaped 44 false options)
            end
          else if N.eqb c 63 || N.eqb c r then matchLoop f p' n'
          else Some false
      end
  end.
Definition matchComponent (p n : list N) : option bool := enter (matchLoop (S (length p))) p n.

Fixpoint pathSuffixes (l : list (list N)) : list (list (list N)) :=
  match l with [] => [] | _ :: l' => l :: pathSuffixes l' end.
(** doMatching. *)
Fixpoint doMatching (ps ns : list (list N)) : option bool :=
  match ps, ns with
  | [], _ => Some (isNil ns)
  | _, [] => Some false
  | p :: ps', n :: ns' =>
      if isStars 2 p then
        if isNil ps' then Some true
        else Some (existsb (fun s => yes (doMatching ps' s)) (pathSuffixes ns))
      else
        match matchComponent p n with
        | Some true => doMatching ps' ns'
        | x => x
        end
  end.
(** Match. *)
Definition doubleStar (pattern name : string) : option bool :=
  doMatching (splitUnescaped 47 false (runes pattern)) (splitUnescaped 47 false (runes name)).
