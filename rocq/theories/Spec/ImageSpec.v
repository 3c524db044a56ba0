(** * ImageSpec.v: what an image name means. *)
From Verif Require Import Model.Go Model.Image.

Definition LowNum (s : string) : Prop := s <> "" /\ sforallb isLowNum s = true.
Definition Dashes (s : string) : Prop := forall c, In c (list_ascii_of_string s) -> c = "-"%char.

(** One path component: [a-z0-9]+ ( ( [._] | __ | -* ) [a-z0-9]+ )* *)
Inductive Component : string -> Prop :=
| Comp_one s : LowNum s -> Component s
| Comp_more s sep t : Component s -> In sep ["."; "_"; "__"] \/ Dashes sep -> LowNum t ->
    Component (s +++ sep +++ t)%string.

(** One host component: alphanumeric, dashes allowed inside. *)
Definition HostComponent (s : string) : Prop :=
  exists a b, (s = String a "" \/ exists m, s = String a (m +++ String b "") /\
                 (forall c, In c (list_ascii_of_string m) -> isAlNum c = true \/ c = "-"%char))%string /\
              isAlNum a = true /\ isAlNum b = true.
(** host(.host)*[:port] *)
Definition Domain (s : string) : Prop :=
  exists hs, hs <> [] /\ Forall HostComponent hs /\
    (s = join "." hs \/ exists p, s = (join "." hs +++ ":" +++ p)%string /\ p <> "" /\ sforallb isDigit p = true).

Definition Tag (s : string) : Prop :=
  exists c s', s = String c s' /\ String.length s' <= 127 /\ isWord c = true /\
    forall d, In d (list_ascii_of_string s') -> isWord d = true \/ d = "."%char \/ d = "-"%char.

Definition Hex (n : nat) (s : string) : Prop := String.length s = n /\ sforallb isHexLower s = true.
Definition Digest (available : string -> bool) (s : string) : Prop :=
  exists alg e n, s = (alg +++ ":" +++ e)%string /\ In (alg, n) [("sha256", 64); ("sha384", 96); ("sha512", 128)] /\
    available alg = true /\ Hex n e.

(** A full reference host/path[:tag][@digest]; the host is missing only when the first path
    component is no legal host. *)
Definition ValidRef (available : string -> bool) (r : Ref) : Prop :=
  exists segs, segs <> [] /\ Forall Component segs /\ r_path r = join "/" segs /\
    (Domain (r_domain r) \/ (r_domain r = "" /\ ~ (2 <= length segs /\ Domain (hd "" segs)))) /\
    (r_tag r = "" \/ Tag (r_tag r)) /\
    (r_digest r = "" \/ Digest available (r_digest r)) /\
    String.length (refName r) <= 255.

Definition NoSlash (s : string) : Prop := ~ In "/"%char (list_ascii_of_string s).
(** The first component of a name is taken for a registry host when it looks like one. *)
Definition HostLike (s : string) : Prop :=
  In "."%char (list_ascii_of_string s) \/ In ":"%char (list_ascii_of_string s) \/ s = "localhost".
Definition Hub (s : string) : Prop := s = "docker.io" \/ s = "index.docker.io".

(** [Long s t]: [t] is the name [s] written out with its registry host. *)
Inductive Long : string -> string -> Prop :=
| Long_host d rem : NoSlash d -> HostLike d -> ~ Hub d -> Long (d +++ "/" +++ rem) (d +++ "/" +++ rem)
| Long_hub d rem : Hub d -> ~ NoSlash rem -> Long (d +++ "/" +++ rem) ("docker.io/" +++ rem)
| Long_hub_official d x : Hub d -> NoSlash x -> Long (d +++ "/" +++ x) ("docker.io/library/" +++ x)
| Long_user u rem : NoSlash u -> ~ HostLike u -> Long (u +++ "/" +++ rem) ("docker.io/" +++ u +++ "/" +++ rem)
| Long_official x : NoSlash x -> Long x ("docker.io/library/" +++ x).

(** [Image available s r]: [s] is a legal image name and means [r]. Names that are image ids
    or digests are no image names. *)
Definition IsImage (available : string -> bool) (s : string) (r : Ref) : Prop :=
  Long s (refString r) /\ ValidRef available r /\ ~ Hex 64 s /\ ~ Digest available s.

(** The reference with the tag "latest" if it has neither tag nor digest. *)
Definition Tagged (r : Ref) : Ref :=
  match r_tag r, r_digest r with
  | "", "" => {| r_domain := r_domain r; r_path := r_path r; r_tag := "latest"; r_digest := "" |}
  | _, _ => r
  end.
(** The short name: no tag, no Docker Hub host, no "library/". *)
Inductive Short_name : Ref -> string -> Prop :=
| SN_official x r : r_domain r = "docker.io" -> NoSlash x -> r_path r = ("library/" +++ x)%string -> Short_name r x
| SN_hub r : r_domain r = "docker.io" -> (forall x, NoSlash x -> r_path r <> ("library/" +++ x)%string) -> Short_name r (r_path r)
| SN_other r : r_domain r <> "docker.io" -> Short_name r (refName r).
Definition WithTag (r : Ref) (t : string) : Ref :=
  {| r_domain := r_domain r; r_path := r_path r; r_tag := t; r_digest := "" |}.
(** Not a Docker Hub path that looks like it names another registry. *)
Definition HubSafe (r : Ref) : Prop :=
  r_domain r = "docker.io" ->
  forall u rem, NoSlash u -> r_path r = (u +++ "/" +++ rem)%string -> ~ HostLike u.
