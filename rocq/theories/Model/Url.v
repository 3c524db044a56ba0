(** * Url.v: url.Parse and URL.Hostname of the Go standard library, which
    yaml/converter/legacy/internal/config.go 454-458 calls for the clone URL. The library is not in
    /repo; this follows its published source (net/url/url.go of Go 1.12.8). Only the host name and
    the path of the URL are kept. *)
From Verif Require Import Model.Go.

(** The text before the first [c] and the text after it. *)
Fixpoint cutFirst (c : ascii) (s : string) : option (string * string) :=
  match s with
  | "" => None
  | String d s' =>
      if Ascii.eqb d c then Some ("", s')
      else match cutFirst c s' with Some (a, b) => Some (String d a, b) | None => None end
  end.
(** The text before the last [c] and the text after it. *)
Fixpoint cutLast (c : ascii) (s : string) : option (string * string) :=
  match s with
  | "" => None
  | String d s' =>
      match cutLast c s' with
      | Some (a, b) => Some (String d a, b)
      | None => if Ascii.eqb d c then Some ("", s') else None
      end
  end.

(** unhex; [None] unless ishex. *)
Definition unhex (c : ascii) : option N :=
  if isDigit c then Some (code c - 48)%N
  else if between 97 102 c then Some (code c - 87)%N
  else if between 65 70 c then Some (code c - 55)%N
  else None.
Definition isAlnum (c : ascii) : bool := isLower c || isUpper c || isDigit c.
(** shouldEscape of an ASCII byte with encodeHost or encodeZone. *)
Definition hostEscapes (c : ascii) : bool := negb (isAlnum c || hasChar c "!$&'()*+,;=:[]<>""-_.~").
Inductive mode : Type := Plain | Host | Zone.
(** unescape; [None] is an error. encodePath, encodeUserPassword and encodeFragment are [Plain]. *)
Fixpoint unescape (m : mode) (s : string) : option string :=
  match s with
  | "" => Some ""
  | String c s' =>
      if Ascii.eqb c "%" then
        match s' with
        | String a (String b s'') =>
            match unhex a, unhex b with
            | Some x, Some y =>
                let v := (x * 16 + y)%N in
                let bad := match m with
                           | Plain => false
                           | Host => N.ltb x 8 && negb (N.eqb v 37)
                           | Zone => negb (N.eqb v 37) && negb (N.eqb v 32) && (N.leb 128 v || hostEscapes (byte v))
                           end in
                if bad then None else option_map (String (byte v)) (unescape m s'')
            | _, _ => None
            end
        | _ => None
        end
      else
        let bad := match m with Plain => false | _ => N.ltb (code c) 128 && hostEscapes c end in
        if bad then None else option_map (String c) (unescape m s')
  end.

(** getscheme: the scheme and the rest. *)
Fixpoint schemeFrom (first : bool) (whole s : string) : option (string * string) :=
  match s with
  | "" => Some ("", whole)
  | String c s' =>
      if isLower c || isUpper c || (negb first && (isDigit c || hasChar c "+-.")) then
        match schemeFrom false whole s' with
        | Some (scheme, rest) => if isEmpty scheme then Some ("", whole) else Some (String c scheme, rest)
        | None => None
        end
      else if Ascii.eqb c ":" then if first then None else Some (":", s')
      else Some ("", whole)
  end.
Definition getscheme (s : string) : option (string * string) :=
  match schemeFrom true s s with
  | Some (scheme, rest) => Some (trimSuffix scheme ":", rest)
  | None => None
  end.

(** validOptionalPort. *)
Definition validOptionalPort (port : string) : bool :=
  match port with "" => true | String c digits => Ascii.eqb c ":" && sforallb isDigit digits end.
(** parseHost. *)
Definition parseHost (host : string) : option string :=
  if hasPrefix host "[" then
    match cutLast "]" host with
    | None => None
    | Some (inner, port) =>
        if validOptionalPort port then
          match index 0 "%25" inner with
          | Some zone =>
              match unescape Host (stake zone inner), unescape Zone (sdrop zone inner), unescape Host ("]" +++ port) with
              | Some a, Some b, Some c => Some (a +++ b +++ c)%string
              | _, _, _ => None
              end
          | None => unescape Host host
          end
        else None
    end
  else
    match cutLast ":" host with
    | Some (_, port) => if sforallb isDigit port then unescape Host host else None
    | None => unescape Host host
    end.
(** validUserinfo: letters, digits and some punctuation; other characters, in any encoding, are refused. *)
Definition validUserinfo (s : string) : bool := sforallb (fun c => isAlnum c || hasChar c "-._:~!$&'()*+,;=%@") s.
(** parseAuthority, without the user. *)
Definition parseAuthority (authority : string) : option string :=
  match cutLast "@" authority with
  | None => parseHost authority
  | Some (userinfo, host) =>
      match parseHost host with
      | None => None
      | Some h =>
          if validUserinfo userinfo then
            match cutFirst ":" userinfo with
            | None => option_map (fun _ => h) (unescape Plain userinfo)
            | Some (user, password) =>
                match unescape Plain user, unescape Plain password with Some _, Some _ => Some h | _, _ => None end
            end
          else None
      end
  end.
(** URL.Hostname, splitHostPort. *)
Definition hostname (host : string) : string :=
  let h := match cutLast ":" host with Some (a, port) => if sforallb isDigit port then a else host | None => host end in
  if hasPrefix h "[" && hasSuffix h "]" then stake (String.length h - 2) (sdrop 1 h) else h.

(** parse: the host name and the path. *)
Definition parseRest (scheme rest : string) : option (string * string) :=
  let setPath host path := option_map (fun p => (host, p)) (unescape Plain path) in
  if negb (hasPrefix rest "/") && negb (isEmpty scheme) then Some ("", "")
  else if negb (hasPrefix rest "/") && hasChar ":" (match cutFirst "/" rest with Some (a, _) => a | None => rest end) then None
  else if (negb (isEmpty scheme) || negb (hasPrefix rest "///")) && hasPrefix rest "//" then
    let '(authority, path) := match cutFirst "/" (sdrop 2 rest) with Some (a, b) => (a, "/" +++ b)%string | None => (sdrop 2 rest, "") end in
    match parseAuthority authority with
    | Some host => setPath (hostname host) path
    | None => None
    end
  else setPath "" rest.
Definition parseURLBody (s : string) : option (string * string) :=
  if sexistsb (fun c => N.ltb (code c) 32 || N.eqb (code c) 127) s then None
  else if String.eqb s "*" then Some ("", "*")
  else match getscheme s with
       | None => None
       | Some (scheme, rest) => parseRest scheme (match cutFirst "?" rest with Some (a, _) => a | None => rest end)
       end.
(** Parse. *)
Definition goParseURL (s : string) : option (string * string) :=
  match cutFirst "#" s with
  | None => parseURLBody s
  | Some (u, fragment) =>
      match parseURLBody u, unescape Plain fragment with Some r, Some _ => Some r | _, _ => None end
  end.
