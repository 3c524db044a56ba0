(** * Image.v: package image (yaml/compiler/image/image.go) on top of a model of the parts of
    github.com/docker/distribution/reference v2.7.1 and github.com/opencontainers/go-digest that
    it calls. The library is not in /repo: its functions are modelled from their documented
    grammar; the regular expressions are unfolded into recognisers over bytes. *)
From Verif Require Import Model.Go.

(** strings.IndexRune(s, sep) and the two slices around it; [None] when [sep] does not occur. *)
Fixpoint cut (sep : ascii) (s : string) : string * option string :=
  match s with
  | "" => ("", None)
  | String c s' =>
      if Ascii.eqb c sep then ("", Some s')
      else let '(a, b) := cut sep s' in (String c a, b)
  end.

Definition isLowNum (c : ascii) : bool := isLower c || isDigit c.
Definition isAlNum (c : ascii) : bool := isLowNum c || isUpper c.
Definition isHexLower (c : ascii) : bool := isDigit c || between 97 102 c.

(** reference.nameComponentRegexp: lower-case alphanumeric runs separated by one '.', one or two
    '_' or any number of '-'. The state: what was read last. *)
Inductive nameState : Type := NStart | NAlnum | NDot | NUnder | NUnder2 | NDash.
Definition nameStep (q : nameState) (c : ascii) : option nameState :=
  if isLowNum c then Some NAlnum
  else match q with
       | NAlnum =>
           if Ascii.eqb c "." then Some NDot
           else if Ascii.eqb c "_" then Some NUnder
           else if Ascii.eqb c "-" then Some NDash else None
       | NUnder => if Ascii.eqb c "_" then Some NUnder2 else None
       | NDash => if Ascii.eqb c "-" then Some NDash else None
       | NStart | NDot | NUnder2 => None
       end.
Fixpoint nameRun (q : nameState) (s : string) : bool :=
  match s with
  | "" => match q with NAlnum => true | _ => false end
  | String c s' => match nameStep q c with Some q' => nameRun q' s' | None => false end
  end.
Definition nameComponent (s : string) : bool := nameRun NStart s.

(** reference.DomainRegexp: dot-separated host components, optionally ':' and a port. *)
Fixpoint lastByte (c : ascii) (s : string) : ascii := match s with "" => c | String d s' => lastByte d s' end.
Definition domainComponent (s : string) : bool :=
  match s with
  | "" => false
  | String c s' => isAlNum c && sforallb (fun c => isAlNum c || Ascii.eqb c "-") s' && isAlNum (lastByte c s')
  end.
Definition domainName (s : string) : bool := forallb domainComponent (split_on "." s).
Definition portNumber (s : string) : bool := negb (isEmpty s) && sforallb isDigit s.
Definition domainOk (s : string) : bool :=
  match split_on ":" s with
  | [h] => domainName h
  | [h; p] => domainName h && portNumber p
  | _ => false
  end.

(** reference.TagRegexp: one word byte, then at most 127 word bytes, '.' or '-'. *)
Definition isWord (c : ascii) : bool := isAlNum c || Ascii.eqb c "_".
Definition tagOk (s : string) : bool :=
  match s with
  | "" => false
  | String c s' =>
      isWord c && sforallb (fun c => isWord c || Ascii.eqb c "." || Ascii.eqb c "-") s' && Nat.leb (String.length s') 127
  end.

(** reference.anchoredIdentifierRegexp. *)
Definition isIdentifier (s : string) : bool := Nat.eqb (String.length s) 64 && sforallb isHexLower s.

(** A reference with the fields of reference.reference; an absent tag or digest is "". *)
Record Ref : Type := { r_domain : string; r_path : string; r_tag : string; r_digest : string }.

(** reference.repository.Name and the String methods of the reference types. *)
Definition refName (r : Ref) : string :=
  if isEmpty (r_domain r) then r_path r else (r_domain r +++ "/" +++ r_path r)%string.
Definition refString (r : Ref) : string :=
  (refName r +++ (if isEmpty (r_tag r) then "" else ":" +++ r_tag r)
             +++ (if isEmpty (r_digest r) then "" else "@" +++ r_digest r))%string.

Section Image.
  (** Which digest algorithms the binary has linked in (digest.Algorithm.Available). *)
  Variable available : string -> bool.

  (** digest.Parse without error: an available algorithm and the right number of lower-case
      hexadecimal digits. *)
  Definition digestSize (alg : string) : option nat :=
    if String.eqb alg "sha256" then Some 64
    else if String.eqb alg "sha384" then Some 96
    else if String.eqb alg "sha512" then Some 128 else None.
  Definition digestOk (s : string) : bool :=
    let '(alg, enc) := cut ":" s in
    match enc, digestSize alg with
    | Some e, Some n => available alg && Nat.eqb (String.length e) n && sforallb isHexLower e
    | _, _ => false
    end.

  (** reference.Parse: an optional digest after '@', an optional tag after the ':' of the last
      path segment, and a name of at most 255 bytes. All its errors look the same to the
      callers, so they are [None]. *)
  Definition parseName (name : list string) : option (string * string) :=
    match name with
    | [] => None
    | h :: t =>
        if negb (Nat.eqb (length t) 0) && domainOk h && forallb nameComponent t then Some (h, join "/" t)
        else if forallb nameComponent (h :: t) then Some ("", join "/" (h :: t))
        else None
    end.
  Definition parseRef (s : string) : option Ref :=
    let '(front, dig) := cut "@" s in
    let segments := split_on "/" front in
    let '(lastName, tag) := cut ":" (last segments "") in
    let name := removelast segments ++ [lastName] in
    if (match dig with Some d => digestOk d | None => true end)
       && (match tag with Some t => tagOk t | None => true end)
       && Nat.leb (String.length (join "/" name)) 255
    then match parseName name with
         | Some (d, p) =>
             Some {| r_domain := d; r_path := p;
                     r_tag := match tag with Some t => t | None => "" end;
                     r_digest := match dig with Some d => d | None => "" end |}
         | None => None
         end
    else None.

  (** reference.splitDockerDomain. *)
  Definition hostLike (s : string) : bool := hasChar "." s || hasChar ":" s || String.eqb s "localhost".
  Definition splitDockerDomain (name : string) : string * string :=
    let '(h, rest) := cut "/" name in
    let '(domain, remainder) :=
      match rest with
      | Some r => if hostLike h then (h, r) else ("docker.io", name)
      | None => ("docker.io", name)
      end in
    let domain := if String.eqb domain "index.docker.io" then "docker.io" else domain in
    if String.eqb domain "docker.io" && negb (hasChar "/" remainder)
    then (domain, "library/" +++ remainder)%string else (domain, remainder).

  (** reference.ParseNormalizedNamed. *)
  Definition parseNormalizedNamed (s : string) : option Ref :=
    if isIdentifier s then None
    else let '(domain, remainder) := splitDockerDomain s in
         let remoteName := fst (cut ":" remainder) in
         if negb (String.eqb (toLower remoteName) remoteName) then None
         else parseRef (domain +++ "/" +++ remainder)%string.

  (** reference.ParseAnyReference, as the String of its result. *)
  Definition parseAnyReference (s : string) : option string :=
    if isIdentifier s then Some ("sha256:" +++ s)%string
    else if digestOk s then Some s
    else option_map refString (parseNormalizedNamed s).

  (** reference.ParseNamed. *)
  Definition parseNamed (s : string) : option Ref :=
    match parseNormalizedNamed s with
    | Some r => if String.eqb (refString r) s then Some r else None
    | None => None
    end.

  (** yaml/compiler/image/image.go 21-28, 35-42, 71-78: the common start of Trim, Expand and
      MatchHostname. *)
  Definition canonicalRef (name : string) : option Ref :=
    match parseAnyReference name with
    | Some s => parseNamed s
    | None => None
    end.

  (** reference.FamiliarName of reference.TrimNamed. *)
  Definition familiarName (r : Ref) : string :=
    if String.eqb (r_domain r) "docker.io"
    then match split_on "/" (r_path r) with
         | [l; x] => if String.eqb l "library" then x else r_path r
         | _ => r_path r
         end
    else refName r.
  (** reference.TagNameOnly. *)
  Definition tagNameOnly (r : Ref) : Ref :=
    if isEmpty (r_tag r) && isEmpty (r_digest r)
    then {| r_domain := r_domain r; r_path := r_path r; r_tag := "latest"; r_digest := "" |} else r.

  (** yaml/compiler/image/image.go 20-31. *)
  Definition Trim (name : string) : string :=
    match canonicalRef name with Some r => familiarName r | None => name end.
  (** yaml/compiler/image/image.go 34-45. *)
  Definition Expand (name : string) : string :=
    match canonicalRef name with Some r => refString (tagNameOnly r) | None => name end.
  (** yaml/compiler/image/image.go 50-58. *)
  Fixpoint Match_loop (from : string) (to : list string) : bool :=
    match to with
    | [] => false
    | m :: to' => if String.eqb from (Trim m) then true else Match_loop from to'
    end.
  Definition ImageMatch (from : string) (to : list string) : bool := Match_loop (Trim from) to.
  (** yaml/compiler/image/image.go 62-64. *)
  Definition MatchTag (a b : string) : bool := String.eqb (Expand a) (Expand b).
  (** yaml/compiler/image/image.go 68-83. *)
  Definition MatchHostname (image hostname : string) : bool :=
    match canonicalRef image with
    | Some r =>
        let hostname := if String.eqb hostname "index.docker.io" then "docker.io" else hostname in
        String.eqb (r_domain r) hostname
    | None => false
    end.
End Image.
