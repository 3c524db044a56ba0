(** * YamlSpec.v: reading a subset of yaml: block mappings and sequences, plain and double-quoted
    scalars on one line, empty flow collections and folded scalars (YAML 1.1, chapters 5 to 9).

    The reader is meant for texts of characters yaml allows ([YamlText]) and gives [None] on
    everything outside the subset: anchors, tags, aliases, comments, flow collections with content,
    single quotes, scalars on several lines, complex keys, merge keys. What a plain scalar stands
    for (null, a boolean, a number or a string) is a parameter, [resolve]. *)
From Verif Require Import Model.Go Model.Types Model.Decode Spec.DecodeSpec.
From Verif Require Spec.ScriptSpec.

(** ** Characters *)
Definition YamlChar (r : N) : Prop :=
  (32 <= r <= 126 \/ 160 <= r <= 55295 /\ r <> 8232 /\ r <> 8233 \/
   57344 <= r <= 65533 /\ r <> 65279 \/ 65536 <= r <= 1114111)%N.
(** Printable characters in UTF-8, without byte order marks and the line breaks of Unicode. *)
Definition YamlText (s : string) : Prop :=
  exists rs, s = concats (map ScriptSpec.utf8 rs) /\ Forall (fun r => YamlChar r \/ r = 10%N) rs.

(** ** Double-quoted scalars: the value up to the closing quote, and what follows. *)
Definition simpleEscapes : list (ascii * N) :=
  [("0", 0); ("a", 7); ("b", 8); ("t", 9); ("n", 10); ("v", 11); ("f", 12); ("r", 13); ("e", 27);
   (" ", 32); ("""", 34); ("/", 47); ("\", 92); ("N", 133); ("_", 160); ("L", 8232); ("P", 8233)]%char%N.
Definition simpleEscape (c : ascii) : option N :=
  option_map snd (find (fun e => Ascii.eqb (fst e) c) simpleEscapes).
Definition prepend (s : string) (o : option (string * string)) : option (string * string) :=
  option_map (fun p => ((s +++ fst p)%string, snd p)) o.
(** A character written by its number; halves of a surrogate pair are none. *)
Definition isCharacter (v : N) : bool := (N.ltb v 55296 || N.ltb 57343 v && N.ltb v 1114112)%N.
Definition numbered (digits : list ascii) (o : option (string * string)) : option (string * string) :=
  match ScriptSpec.hexVals 0 digits with
  | Some v => if isCharacter v then prepend (ScriptSpec.utf8 v) o else None
  | None => None
  end.
Fixpoint readQuoted (s : string) : option (string * string) :=
  match s with
  | "" => None
  | String c s1 =>
      if Ascii.eqb c """" then Some ("", s1)
      else if Ascii.eqb c "\" then
        match s1 with
        | "" => None
        | String e s2 =>
            match simpleEscape e with
            | Some v => prepend (ScriptSpec.utf8 v) (readQuoted s2)
            | None =>
                if Ascii.eqb e "x" then
                  match s2 with
                  | String a (String b s3) => numbered [a; b] (readQuoted s3)
                  | _ => None
                  end
                else if Ascii.eqb e "u" then
                  match s2 with
                  | String a (String b (String c (String d s3))) => numbered [a; b; c; d] (readQuoted s3)
                  | _ => None
                  end
                else if Ascii.eqb e "U" then
                  match s2 with
                  | String a (String b (String c (String d (String e (String f (String g (String h s3))))))) =>
                      numbered [a; b; c; d; e; f; g; h] (readQuoted s3)
                  | _ => None
                  end
                else None
            end
        end
      else prepend (String c "") (readQuoted s1)
  end.

(** ** Plain scalars in block context *)
Definition isBlank (c : ascii) : bool := Ascii.eqb c " ".
Definition plainStart (s : string) : bool :=
  match s with
  | "" => false
  | String c s' =>
      if hasChar c "-?:" then match s' with String d _ => negb (isBlank d) | "" => false end
      else negb (hasChar c " ,[]{}#&*!|>'""%@`")
  end.
Fixpoint lastChar (s : string) : option ascii :=
  match s with "" => None | String c "" => Some c | String _ s' => lastChar s' end.
(** A plain scalar ends at a colon before a blank, at a blank before a number sign, and has no
    blank at its end. *)
Definition plainBody (s : string) : bool :=
  negb (contains s ": ") && negb (contains s " #") &&
  match lastChar s with Some c => negb (Ascii.eqb c ":" || isBlank c) | None => false end.
Definition isPlain (s : string) : bool := plainStart s && plainBody s.

(** ** Lines: indentation and content *)
Definition line : Type := (nat * string).
Fixpoint leading (n : nat) (s : string) : line :=
  match s with
  | String c s' => if isBlank c then leading (S n) s' else (n, s)
  | "" => (n, "")
  end.
Definition linesOf (text : string) : list line := map (leading 0) (split_on NL text).
Definition blankLine (l : line) : bool := isEmpty (snd l).
Fixpoint dropBlank (ls : list line) : list line :=
  match ls with
  | [] => []
  | l :: ls' => if blankLine l then dropBlank ls' else ls
  end.
(** An entry of a block sequence. *)
Definition isDash (s : string) : bool :=
  match s with
  | String "-" "" => true
  | String "-" (String c _) => isBlank c
  | _ => false
  end.
(** Cutting lines before each line where something starts: the lines before the first one, and for
    each one the lines that follow it. *)
Fixpoint group (starts : line -> bool) (ls : list line) : list line * list (line * list line) :=
  match ls with
  | [] => ([], [])
  | l :: ls' =>
      let (before, groups) := group starts ls' in
      if starts l then ([], (l, before) :: groups) else (l :: before, groups)
  end.
(** The value of a folded scalar whose lines are all indented alike. *)
Fixpoint takeText (ls : list line) : list line :=
  match ls with
  | [] => []
  | l :: ls' => if blankLine l then [] else l :: takeText ls'
  end.
Definition readFolded (parent : nat) (ls : list line) : option node :=
  let text := takeText ls in
  if forallb blankLine (skipn (List.length text) ls) then
    match text with
    | [] => Some (NStr "")
    | (m, _) :: _ =>
        if Nat.ltb parent m && forallb (fun l => Nat.eqb (fst l) m) text
        then Some (NStr (join " " (map snd text) +++ nl)%string)
        else None
    end
  else None.

Section Reader.
  Variable resolve : string -> node.

  Definition readScalar (s : string) : option node :=
    if String.eqb s "[]" then Some (NSeq [])
    else if String.eqb s "{}" then Some (NMap [])
    else match s with
         | String c s' =>
             if Ascii.eqb c """" then
               match readQuoted s' with Some (v, "") => Some (NStr v) | _ => None end
             else if isPlain s then Some (resolve s) else None
         | "" => None
         end.

  (** What follows the colon of an entry. *)
  Definition afterColon (s : string) : option string :=
    match s with
    | String ":" "" => Some ""
    | String ":" (String c v) => if isBlank c then Some v else None
    | _ => None
    end.
  (** The text before the first colon that ends a plain key, and what follows it. *)
  Fixpoint cutColon (s : string) : option (string * string) :=
    match afterColon s with
    | Some v => Some ("", v)
    | None =>
        match s with
        | "" => None
        | String c s' => match cutColon s' with Some (k, v) => Some (String c k, v) | None => None end
        end
    end.
  (** The key of an entry and the rest of its first line. A key on one line is at most 1024
      characters long; a plain key << asks for a merge. *)
  Definition readKey (s : string) : option (node * string) :=
    let short (v : string) (n : node) : option (node * string) :=
      if Nat.leb (String.length s - String.length v) 1024 then Some (n, v) else None in
    match s with
    | String c s' =>
        if Ascii.eqb c """" then
          match readQuoted s' with
          | Some (k, rest) => match afterColon rest with Some v => short v (NStr k) | None => None end
          | None => None
          end
        else
          match cutColon s with
          | Some (k, v) => if isPlain k && negb (String.eqb k "<<") then short v (resolve k) else None
          | None => None
          end
    | "" => None
    end.

  Definition startsItem (n : nat) (l : line) : bool := Nat.eqb (fst l) n && isDash (snd l).
  Definition startsEntry (n : nat) (l : line) : bool :=
    Nat.eqb (fst l) n && negb (blankLine l) && negb (isDash (snd l)).
  (** Lines that belong to an item or an entry. The items of a sequence may be as much indented as
      the key of the sequence. *)
  Definition inItem (n : nat) (l : line) : bool := blankLine l || Nat.ltb n (fst l).
  Definition inEntry (n : nat) (l : line) : bool := inItem n l || startsItem n l.
  Definition allIn (inside : line -> bool) (gs : list (line * list line)) : bool :=
    forallb (fun g => forallb inside (snd g)) gs.

  Fixpoint readBlock (fuel : nat) (ls : list line) : option node :=
    match fuel with
    | 0 => None
    | S f =>
        match dropBlank ls with
        | [] => Some NNull
        | (n, s) :: rest =>
            if isDash s then
              match group (startsItem n) ((n, s) :: rest) with
              | ([], gs) =>
                  if allIn (inItem n) gs then
                    option_map NSeq (optTraverse (fun g : line * list line =>
                      let (m, t) := leading (S (S n)) (sdrop 2 (snd (fst g))) in
                      readBlock f ((m, t) :: snd g)) gs)
                  else None
              | _ => None
              end
            else if match readKey s with Some _ => true | None => false end then
              match group (startsEntry n) ((n, s) :: rest) with
              | ([], gs) =>
                  if allIn (inEntry n) gs then
                    option_map NMap (optTraverse (fun g : line * list line =>
                      match readKey (snd (fst g)) with
                      | Some (k, v) =>
                          option_map (pair k)
                            (if isEmpty v then readBlock f (snd g)
                             else if String.eqb v ">" then readFolded n (snd g)
                             else if forallb blankLine (snd g) then readScalar v else None)
                      | None => None
                      end) gs)
                  else None
              | _ => None
              end
            else if forallb blankLine rest then readScalar s else None
        end
    end.
  Definition readYaml (text : string) : option node := readBlock (S (String.length text)) (linesOf text).

  (** The texts the reader is meant for: characters yaml allows, no marks of documents, no lines of
      blanks. *)
  Definition YamlDocument (text : string) : Prop :=
    YamlText text /\
    forall l, In l (split_on NL text) ->
      (forall r, l <> ("---" +++ r)%string /\ l <> ("..." +++ r)%string) /\
      (l = "" \/ exists c, In c (list_ascii_of_string l) /\ c <> " "%char).
  (** A reader of yaml, of all of it or of as much as it likes: on these texts it makes of the
      subset what the reader above does. *)
  Definition Reads (read : string -> option node) : Prop :=
    forall text n, YamlDocument text -> readYaml text = Some n -> read text = Some n.
End Reader.
