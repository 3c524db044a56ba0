(** * ScriptSpec.v: reading the text of a generated script: Go string literals, double-quoted words
    of the shell, single-quoted strings of PowerShell, base64. *)
From Verif Require Import Model.Go.

(** ** The fixed parts of a script, line by line. *)
Definition unlines (l : list string) : string := concats (map (fun x => x +++ nl)%string l).
Definition posixHead : string := unlines
  ["";
   "if [ -n ""$CI_NETRC_MACHINE"" ]; then";
   "cat <<EOF > $HOME/.netrc";
   "machine $CI_NETRC_MACHINE";
   "login $CI_NETRC_USERNAME";
   "password $CI_NETRC_PASSWORD";
   "EOF";
   "chmod 0600 $HOME/.netrc";
   "fi";
   "unset CI_NETRC_USERNAME";
   "unset CI_NETRC_PASSWORD";
   "unset DRONE_NETRC_USERNAME";
   "unset DRONE_NETRC_PASSWORD";
   "set -e"].
Definition clearWin (name : string) : string :=
  ("[Environment]::SetEnvironmentVariable(""" +++ name +++ """, $null);")%string.
Definition winHead : string := unlines
  ["";
   "if ($Env:CI_NETRC_MACHINE) {";
   "@""";
   "machine $Env:CI_NETRC_MACHINE";
   "login $Env:CI_NETRC_USERNAME";
   "password $Env:CI_NETRC_PASSWORD";
   """@ > (Join-Path $Env:USERPROFILE '_netrc');";
   "}";
   clearWin "CI_NETRC_USERNAME";
   clearWin "CI_NETRC_PASSWORD";
   clearWin "DRONE_NETRC_USERNAME";
   clearWin "DRONE_NETRC_PASSWORD";
   clearWin "CI_SCRIPT";
   "$ErrorActionPreference = 'Stop';"].
(** The text of a script is a head and, for each command in order, the lines that print and run it. *)
Definition scriptText (head : string) (lines : string -> list string) (commands : list string) : string :=
  (head +++ concats (map (fun c => unlines (lines c)) commands) +++ nl)%string.
Definition posixLines (word : string -> string) (cmd : string) : list string :=
  [""; "echo + " +++ word cmd; cmd]%string.
Definition winLines (word : string -> string) (cmd : string) : list string :=
  [""; "Write-Output ('+ " +++ word cmd +++ "');"; "& " +++ cmd +++ "; if ($LASTEXITCODE -ne 0) {exit $LASTEXITCODE}"]%string.

(** ** Go string literals (the Go specification, "String literals"). *)
Definition hexVal (c : ascii) : option N :=
  if between 48 57 c then Some (code c - 48)%N
  else if between 97 102 c then Some (code c - 87)%N
  else if between 65 70 c then Some (code c - 55)%N else None.
Fixpoint hexVals (acc : N) (l : list ascii) : option N :=
  match l with
  | [] => Some acc
  | c :: l' => match hexVal c with Some v => hexVals (acc * 16 + v)%N l' | None => None end
  end.
(** UTF-8. *)
Definition bytes (l : list N) : string := string_of_list_ascii (map byte l).
Definition utf8 (r : N) : string :=
  (if r <? 128 then bytes [r]
   else if r <? 2048 then bytes [192 + r / 64; 128 + r mod 64]
   else if r <? 65536 then bytes [224 + r / 4096; 128 + (r / 64) mod 64; 128 + r mod 64]
   else bytes [240 + r / 262144; 128 + (r / 4096) mod 64; 128 + (r / 64) mod 64; 128 + r mod 64])%N.
Definition simpleEscapes : list (ascii * N) :=
  [("a", 7); ("b", 8); ("f", 12); ("n", 10); ("r", 13); ("t", 9); ("v", 11); ("\", 92); ("""", 34)]%char%N.
Definition simpleEscape (c : ascii) : option N :=
  option_map snd (find (fun e => Ascii.eqb (fst e) c) simpleEscapes).
Definition prepend (s : string) (o : option string) : option string := option_map (fun t => s +++ t)%string o.
(** What is between the quotes. *)
Fixpoint goRead (s : string) : option string :=
  match s with
  | "" => Some ""
  | String c s1 =>
      if Ascii.eqb c """" then None
      else if Ascii.eqb c "\" then
        match s1 with
        | "" => None
        | String e s2 =>
            match simpleEscape e with
            | Some v => prepend (bytes [v]) (goRead s2)
            | None =>
                if Ascii.eqb e "x" then
                  match s2 with
                  | String a (String b s3) =>
                      match hexVals 0 [a; b] with Some v => prepend (bytes [v]) (goRead s3) | None => None end
                  | _ => None
                  end
                else if Ascii.eqb e "u" then
                  match s2 with
                  | String a (String b (String c (String d s3))) =>
                      match hexVals 0 [a; b; c; d] with Some v => prepend (utf8 v) (goRead s3) | None => None end
                  | _ => None
                  end
                else if Ascii.eqb e "U" then
                  match s2 with
                  | String a (String b (String c (String d (String e (String f (String g (String h s3))))))) =>
                      match hexVals 0 [a; b; c; d; e; f; g; h] with Some v => prepend (utf8 v) (goRead s3) | None => None end
                  | _ => None
                  end
                else None
            end
        end
      else prepend (String c "") (goRead s1)
  end.
(** The value of a literal with its quotes: the closing quote is the last byte. *)
Definition GoLiteral (lit s : string) : Prop :=
  exists body, lit = ("""" +++ body +++ """")%string /\ goRead body = Some s.

(** ** Double quotes of the shell (POSIX.1-2017, XCU 2.2.3): the text up to the closing quote and what
    follows it. [None] when the text is not closed, or when it contains an expansion or a command
    substitution, so that the word is not a constant. *)
Definition backquote : ascii := "`".
Fixpoint dquoted (s : string) : option (string * string) :=
  match s with
  | "" => None
  | String c s1 =>
      if Ascii.eqb c """" then Some ("", s1)
      else if Ascii.eqb c "$" || Ascii.eqb c backquote then None
      else if Ascii.eqb c "\" then
        match s1 with
        | "" => None
        | String d s2 =>
            match dquoted s2 with
            | None => None
            | Some (t, r) =>
                if Ascii.eqb d "$" || Ascii.eqb d backquote || Ascii.eqb d """" || Ascii.eqb d "\" then Some (String d t, r)
                else if Ascii.eqb d NL then Some (t, r)
                else Some (String "\" (String d t), r)
            end
        end
      else match dquoted s1 with Some (t, r) => Some (String c t, r) | None => None end
  end.
(** [w] is one constant double-quoted word and stands for [t]. *)
Definition ShellWord (w t : string) : Prop := exists body, w = String """" body /\ dquoted body = Some (t, "").
(** Printable ASCII. *)
Definition Printable (s : string) : Prop := forall c, In c (list_ascii_of_string s) -> (32 <= code c <= 126)%N.

(** ** Single-quoted strings of PowerShell, on text without typographic quotes: the text up to the
    closing quote, where a doubled quote stands for one, and what follows. *)
Fixpoint squoted (s : string) : option (string * string) :=
  match s with
  | "" => None
  | String c s1 =>
      if Ascii.eqb c "'" then
        match s1 with
        | String d s2 =>
            if Ascii.eqb d "'" then match squoted s2 with Some (t, r) => Some (String "'" t, r) | None => None end
            else Some ("", s1)
        | "" => Some ("", "")
        end
      else match squoted s1 with Some (t, r) => Some (String c t, r) | None => None end
  end.

(** ** base64 (RFC 4648, section 4), with padding. *)
Definition sextet (c : ascii) : option N :=
  if between 65 90 c then Some (code c - 65)%N
  else if between 97 122 c then Some (code c - 71)%N
  else if between 48 57 c then Some (code c + 4)%N
  else if Ascii.eqb c "+" then Some 62%N
  else if Ascii.eqb c "/" then Some 63%N else None.
Fixpoint unbase64 (s : string) : option string :=
  match s with
  | "" => Some ""
  | String a (String b (String c (String d r))) =>
      match sextet a, sextet b with
      | Some x, Some y =>
          let first := (x * 4 + y / 16)%N in
          match sextet c, sextet d with
          | Some z, Some t => prepend (bytes [first; (y mod 16) * 16 + z / 4; (z mod 4) * 64 + t]%N) (unbase64 r)
          | Some z, None =>
              if Ascii.eqb d "=" && isEmpty r && N.eqb (z mod 4) 0 then Some (bytes [first; (y mod 16) * 16 + z / 4]%N) else None
          | None, _ => if Ascii.eqb c "=" && Ascii.eqb d "=" && isEmpty r && N.eqb (y mod 16) 0 then Some (bytes [first]) else None
          end
      | _, _ => None
      end
  | _ => None
  end.

(** A dollar sign is written with a backslash before it. *)
Definition escapeDollars (s : string) : string :=
  concats (map (fun c => if Ascii.eqb c "$" then "\$" else String c "") (list_ascii_of_string s)).
(** The word that is printed for a command: a Go literal on one line, with its dollar signs escaped. *)
Definition TraceWord (cmd w : string) : Prop :=
  exists lit, GoLiteral lit cmd /\ w = escapeDollars lit /\ hasChar NL w = false.
