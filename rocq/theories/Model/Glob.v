(** * Glob.v: path.Match of the Go standard library, which yaml/converter/bitbucket/config.go 79
    and 86 call to choose a pipeline. The library is not in /repo; this follows its published
    source (path/match.go of Go 1.12). Later versions report more malformed patterns, but a
    pattern that is reported does not match in any version. *)
From Verif Require Import Model.Go Model.Quote.

(** utf8.DecodeRuneInString of the text [c], [s], and what follows the code point; [None] if
    the encoding is invalid. *)
Definition nextRune (c : ascii) (s : string) : option (N * string) :=
  if N.ltb (code c) 128 then Some (code c, s)
  else match decodeRune c s with Some (r, w) => Some (r, sdrop (w - 1) s) | None => None end.
(** Invalid encodings count as utf8.RuneError, one byte wide. *)
Definition firstRune (c : ascii) (s : string) : N * string :=
  match nextRune c s with Some x => x | None => (65533%N, s) end.

(** getEsc: a possibly escaped character of a class; something has to follow it. [None] is
    ErrBadPattern. *)
Definition getEsc (chunk : string) : option (N * string) :=
  match chunk with
  | "" => None
  | String c s =>
      if Ascii.eqb c "-" || Ascii.eqb c "]" then None
      else match (if Ascii.eqb c "\" then s else chunk) with
           | "" => None
           | String d s' =>
               match nextRune d s' with
               | Some (r, rest) => if isEmpty rest then None else Some (r, rest)
               | None => None
               end
           end
  end.
(** The loop over the ranges of a class: whether [r] is in one of them, and what follows the
    class. [fuel] bounds the number of ranges. *)
Fixpoint classRanges (fuel : nat) (first : bool) (r : N) (found : bool) (chunk : string) : option (bool * string) :=
  match fuel with
  | 0 => None
  | S f =>
      if hasPrefix chunk "]" && negb first then Some (found, sdrop 1 chunk)
      else
        match getEsc chunk with
        | None => None
        | Some (lo, chunk1) =>
            match (if hasPrefix chunk1 "-" then getEsc (sdrop 1 chunk1) else Some (lo, chunk1)) with
            | None => None
            | Some (hi, chunk2) => classRanges f false r (found || (N.leb lo r && N.leb r hi)) chunk2
            end
        end
  end.

(** matchChunk: a malformed chunk, no match, or a match and the rest of the name. *)
Inductive chunkResult : Type := Bad | No | Rest (s : string).
Fixpoint matchChunkFrom (fuel : nat) (chunk s : string) : chunkResult :=
  match fuel with
  | 0 => Bad
  | S f =>
      match chunk with
      | "" => Rest s
      | String c chunk1 =>
          match s with
          | "" => No
          | String d s1 =>
              if Ascii.eqb c "[" then
                let '(r, s2) := firstRune d s1 in
                match chunk1 with
                | "" => Bad
                | String e chunk2 =>
                    let negated := Ascii.eqb e "^" in
                    let ranges := if negated then chunk2 else chunk1 in
                    match classRanges (S (String.length ranges)) true r false ranges with
                    | None => Bad
                    | Some (found, chunk3) => if Bool.eqb found negated then No else matchChunkFrom f chunk3 s2
                    end
                end
              else if Ascii.eqb c "?" then
                if Ascii.eqb d "/" then No else matchChunkFrom f chunk1 (snd (firstRune d s1))
              else if Ascii.eqb c "\" then
                match chunk1 with
                | "" => Bad
                | String e chunk2 => if Ascii.eqb e d then matchChunkFrom f chunk2 s1 else No
                end
              else if Ascii.eqb c d then matchChunkFrom f chunk1 s1 else No
          end
      end
  end.
Definition matchChunk (chunk s : string) : chunkResult := matchChunkFrom (S (String.length chunk)) chunk s.

(** scanChunk: the stars, then the text up to the next star outside a class. *)
Fixpoint dropStars (s : string) : string :=
  match s with String c s' => if Ascii.eqb c "*" then dropStars s' else s | "" => "" end.
Fixpoint scanLoop (inrange : bool) (s : string) : string * string :=
  match s with
  | "" => ("", "")
  | String c s' =>
      if Ascii.eqb c "\" then
        match s' with
        | "" => (String c "", "")
        | String d s'' => let '(a, b) := scanLoop inrange s'' in (String c (String d a), b)
        end
      else if Ascii.eqb c "*" && negb inrange then ("", s)
      else
        let inrange := if Ascii.eqb c "[" then true else if Ascii.eqb c "]" then false else inrange in
        let '(a, b) := scanLoop inrange s' in (String c a, b)
  end.
Definition scanChunk (pattern : string) : bool * string * string :=
  let '(chunk, rest) := scanLoop false (dropStars pattern) in
  (hasPrefix pattern "*", chunk, rest).

(** The loop of Match that skips bytes of the name, but no slash. *)
Fixpoint skipTo (chunk : string) (last : bool) (name : string) : chunkResult :=
  match name with
  | "" => No
  | String c name' =>
      if Ascii.eqb c "/" then No
      else match matchChunk chunk name' with
           | Rest t => if last && negb (isEmpty t) then skipTo chunk last name' else Rest t
           | Bad => Bad
           | No => skipTo chunk last name'
           end
  end.
(** Match; [fuel] bounds the number of chunks, [None] is ErrBadPattern. *)
Fixpoint matchFrom (fuel : nat) (pattern name : string) : option bool :=
  match fuel with
  | 0 => None
  | S f =>
      if isEmpty pattern then Some (isEmpty name)
      else
        let '(star, chunk, rest) := scanChunk pattern in
        let skip := if star then match skipTo chunk (isEmpty rest) name with
                                 | Rest t => matchFrom f rest t
                                 | Bad => None
                                 | No => Some false
                                 end
                    else Some false in
        if star && isEmpty chunk then Some (negb (hasChar "/" name))
        else match matchChunk chunk name with
             | Rest t => if isEmpty t || negb (isEmpty rest) then matchFrom f rest t else skip
             | Bad => None
             | No => skip
             end
  end.
Definition globMatch (pattern name : string) : option bool := matchFrom (S (String.length pattern)) pattern name.
