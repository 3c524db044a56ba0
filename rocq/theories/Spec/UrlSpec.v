(** * UrlSpec.v: clone URLs (RFC 3986). *)
From Verif Require Import Model.Go.

Definition Chars (allowed s : string) : Prop := forall c, In c (list_ascii_of_string s) -> In c (list_ascii_of_string allowed).
Definition letters : string := "abcdefghijklmnopqrstuvwxyzABCDEFGHIJKLMNOPQRSTUVWXYZ".
Definition digits : string := "0123456789".
Definition lettersDigits : string := letters +++ digits.
(** Bytes that are neither control characters nor one of the two that end a path. *)
Definition Printed (c : ascii) : Prop := (32 <= code c)%N /\ code c <> 127%N.

(** Percent encoding. *)
Definition hexDigits : list (ascii * N) :=
  combine (list_ascii_of_string "0123456789abcdefABCDEF") [0; 1; 2; 3; 4; 5; 6; 7; 8; 9; 10; 11; 12; 13; 14; 15; 10; 11; 12; 13; 14; 15]%N.
Inductive Escaped : string -> string -> Prop :=
| escaped_end : Escaped "" ""
| escaped_plain c s t : c <> "%"%char -> Escaped s t -> Escaped (String c s) (String c t)
| escaped_hex a b x y s t : In (a, x) hexDigits -> In (b, y) hexDigits -> Escaped s t ->
    Escaped (String "%" (String a (String b s))) (String (byte (16 * x + y)) t).

Definition Scheme (s : string) : Prop :=
  exists c s', s = String c s' /\ Chars letters (String c "") /\ Chars (lettersDigits +++ "+-.") s'.
(** Nothing, or user or user:password and an at sign. *)
Definition User (s : string) : Prop :=
  s = "" \/ exists u t, s = (u +++ "@")%string /\ Chars (lettersDigits +++ "-._~!$&'()*+,;=:%@") u /\ Escaped u t.
(** A name, an IPv4 address, or an IPv6 address in brackets. *)
Definition HostText (text host : string) : Prop :=
  (text = host /\ host <> "" /\ Chars (lettersDigits +++ "-._~!$&'()*+,;=") host) \/
  (text = ("[" +++ host +++ "]")%string /\ host <> "" /\ Chars (digits +++ "abcdefABCDEF:.") host).
Definition Port (s : string) : Prop := s = "" \/ exists d, s = (":" +++ d)%string /\ Chars digits d.
Definition PathText (text path : string) : Prop :=
  (text = "" \/ exists p, text = ("/" +++ p)%string) /\ Escaped text path /\
  forall c, In c (list_ascii_of_string text) -> Printed c /\ c <> "?"%char /\ c <> "#"%char.
Definition Query (s : string) : Prop :=
  s = "" \/ exists q, s = ("?" +++ q)%string /\ forall c, In c (list_ascii_of_string q) -> Printed c /\ c <> "#"%char.
Definition Fragment (s : string) : Prop := s = "" \/ exists f t, s = ("#" +++ f)%string /\ Escaped f t.
(** A URL, its host and its path. *)
Definition Link (s host path : string) : Prop := exists scheme user text port ptext query fragment,
  s = (scheme +++ "://" +++ user +++ text +++ port +++ ptext +++ query +++ fragment)%string /\
  Scheme scheme /\ User user /\ HostText text host /\ Port port /\ PathText ptext path /\ Query query /\ Fragment fragment.
(** What may be in a host name at all, escapes resolved: these and bytes outside ASCII. *)
Definition hostBytes : string := lettersDigits +++ "!$&'()*+,;=:[]<>""-_.~% ".
(** Only digits after the last colon, except within brackets. *)
Definition PortDigits (hostport : string) : Prop := forall a d, hostport = (a +++ ":" +++ d)%string ->
  (forall r, hostport <> ("[" +++ r)%string) -> ~ In ":"%char (list_ascii_of_string d) -> Chars digits d.
(** The parts of a text with a host. *)
Definition Parts (s host path : string) : Prop := exists front user hostport ptext query fragment,
  s = (front +++ "//" +++ user +++ hostport +++ ptext +++ query +++ fragment)%string /\
  (front = "" \/ exists scheme, front = (scheme +++ ":")%string /\ Scheme scheme) /\
  User user /\ PathText ptext path /\ Query query /\ Fragment fragment /\ PortDigits hostport /\
  (forall c, In c (list_ascii_of_string hostport) -> Printed c /\ ~ In c ["@"; "/"; "?"; "#"]%char) /\
  (forall c, In c (list_ascii_of_string host) -> (128 <= code c)%N \/ In c (list_ascii_of_string hostBytes)).
(** user@host:path *)
Definition ScpLike (s : string) : Prop := exists a b, s = (a +++ ":" +++ b)%string /\ In "@"%char (list_ascii_of_string a) /\
  forall c, In c (list_ascii_of_string a) -> ~ In c [":"; "/"; "?"; "#"]%char.
(** The text without a slash at either end. *)
Definition WithoutSlashes (path core : string) : Prop :=
  exists pre post, path = (pre +++ core +++ post)%string /\ (pre = "" \/ pre = "/") /\ (post = "" \/ post = "/") /\
    (pre = "" -> forall r, path <> ("/" +++ r)%string) /\ (post = "" -> forall r, core <> (r +++ "/")%string).
