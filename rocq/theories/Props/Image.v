(** * Image.v: theorems C22 to C26 and C70. *)
From Verif Require Import Model.Go Model.Types Model.Image Model.Dind Spec.ImageSpec Proofs.GoFacts Proofs.ImageFacts Conform.Pipelines.

Definition allDigests : string -> bool := fun _ => true.
Ltac is_image := apply canonicalRef_iff; vm_compute; reflexivity.
Definition golang : Ref := {| r_domain := "docker.io"; r_path := "library/golang"; r_tag := ""; r_digest := "" |}.
Definition gcr : Ref := {| r_domain := "gcr.io:443"; r_path := "a/b-c"; r_tag := "1.0"; r_digest := "" |}.
Example golang_image : IsImage allDigests "golang" golang. Proof. is_image. Qed.
Example golang_long : IsImage allDigests "index.docker.io/library/golang" golang. Proof. is_image. Qed.
Example gcr_image : IsImage allDigests "gcr.io:443/a/b-c:1.0" gcr. Proof. is_image. Qed.
Example broken_image av : ~ exists r, IsImage av "foo/bar?baz:boo" r.
Proof. apply not_image. vm_compute. reflexivity. Qed.

(** ** C22 *)
Theorem C22_characters : forall c,
  (isLowNum c = true <-> In c (list_ascii_of_string "abcdefghijklmnopqrstuvwxyz0123456789")) /\
  (isAlNum c = true <-> In c (list_ascii_of_string "abcdefghijklmnopqrstuvwxyz0123456789ABCDEFGHIJKLMNOPQRSTUVWXYZ")) /\
  (isWord c = true <-> In c (list_ascii_of_string "abcdefghijklmnopqrstuvwxyz0123456789ABCDEFGHIJKLMNOPQRSTUVWXYZ_")) /\
  (isHexLower c = true <-> In c (list_ascii_of_string "0123456789abcdef")) /\
  (isDigit c = true <-> In c (list_ascii_of_string "0123456789")).
Proof. exact image_characters. Qed.
Print Assumptions C22_characters.
Theorem C22_expand_of_image : forall av s r, IsImage av s r -> Expand av s = refString (Tagged r).
Proof. exact Expand_image. Qed.
Print Assumptions C22_expand_of_image.
Theorem C22_expand_of_other : forall av s, (~ exists r, IsImage av s r) -> Expand av s = s.
Proof. exact Expand_other. Qed.
Print Assumptions C22_expand_of_other.
Theorem C22_expand_idempotent : forall av s, Expand av (Expand av s) = Expand av s.
Proof. exact Expand_idem. Qed.
Print Assumptions C22_expand_idempotent.
Theorem C22_expanded_is_image : forall av s r, IsImage av s r ->
  IsImage av (Expand av s) (Tagged r) /\ (r_tag (Tagged r) <> "" \/ r_digest (Tagged r) <> "").
Proof. exact Expand_tagged. Qed.
Print Assumptions C22_expanded_is_image.
Theorem C22_expanded_host : forall av s r, IsImage av s r ->
  Domain (r_domain r) \/
  (r_domain r = "" /\ exists u rem, refName r = (u +++ "/" +++ rem)%string /\ NoSlash u /\ HostLike u /\ hasChar "_" u = true).
Proof. exact image_host. Qed.
Print Assumptions C22_expanded_host.
Theorem C22_host_refuted : exists s r,
  IsImage allDigests s r /\ Expand allDigests s = "a_b.c/d:latest" /\ r_domain r = "".
Proof.
  exists "a_b.c/d", {| r_domain := ""; r_path := "a_b.c/d"; r_tag := ""; r_digest := "" |}.
  split; [is_image|split; reflexivity].
Qed.
Print Assumptions C22_host_refuted.
Example C22_case : Expand allDigests "golang" = "docker.io/library/golang:latest" /\
  Expand allDigests "gcr.io:443/a/b-c:1.0" = "gcr.io:443/a/b-c:1.0" /\
  Expand allDigests "foo/bar?baz:boo" = "foo/bar?baz:boo".
Proof. repeat split; vm_compute; reflexivity. Qed.

(** ** C23 *)
Theorem C23_trim_of_image : forall av s r, IsImage av s r -> Short_name r (Trim av s).
Proof. exact Trim_image. Qed.
Print Assumptions C23_trim_of_image.
Theorem C23_short_name_unique : forall r x y, Short_name r x -> Short_name r y -> x = y.
Proof. exact Short_det. Qed.
Print Assumptions C23_short_name_unique.
Theorem C23_trim_of_other : forall av s, (~ exists r, IsImage av s r) -> Trim av s = s.
Proof. exact Trim_other. Qed.
Print Assumptions C23_trim_of_other.
Theorem C23_trim_of_expanded : forall av s, Trim av (Expand av s) = Trim av s.
Proof. exact Trim_Expand. Qed.
Print Assumptions C23_trim_of_expanded.
Theorem C23_trim_ignores_tag : forall av s r t,
  IsImage av s r -> r_tag r = "" -> r_digest r = "" -> Tag t -> ~ Digest av (s +++ ":" +++ t) ->
  Trim av (s +++ ":" +++ t) = Trim av s.
Proof. exact Trim_tag. Qed.
Print Assumptions C23_trim_ignores_tag.
Theorem C23_any_tag_refuted : exists s r t,
  IsImage allDigests s r /\ r_tag r = "" /\ r_digest r = "" /\ Tag t /\
  Trim allDigests (s +++ ":" +++ t) <> Trim allDigests s.
Proof.
  exists "sha256", {| r_domain := "docker.io"; r_path := "library/sha256"; r_tag := ""; r_digest := "" |},
    "0123456789abcdef0123456789abcdef0123456789abcdef0123456789abcdef".
  split; [is_image|]. split; [reflexivity|]. split; [reflexivity|]. split; [apply tagOk_iff; reflexivity|vm_compute; discriminate].
Qed.
Print Assumptions C23_any_tag_refuted.
Theorem C23_trim_idempotent : forall av s,
  (forall r u rem, IsImage av s r -> r_domain r = "docker.io" -> r_path r = (u +++ "/" +++ rem)%string -> ~ Hub u) ->
  Trim av (Trim av s) = Trim av s.
Proof. exact Trim_idem. Qed.
Print Assumptions C23_trim_idempotent.
Theorem C23_trim_idempotent_refuted : exists s,
  Trim allDigests s = "docker.io/x" /\ Trim allDigests (Trim allDigests s) = "x".
Proof. exists "docker.io/docker.io/x:1". split; reflexivity. Qed.
Print Assumptions C23_trim_idempotent_refuted.
Example C23_case : Trim allDigests "docker.io/library/golang:1.0.0" = "golang" /\
  Trim allDigests "gcr.io:443/a/b-c:1.0" = "gcr.io:443/a/b-c" /\ Trim allDigests "foo/bar?baz:boo" = "foo/bar?baz:boo".
Proof. repeat split; vm_compute; reflexivity. Qed.
Example C23_case_tag : Tag "1.0.0" /\ ~ Digest allDigests ("golang" +++ ":" +++ "1.0.0").
Proof. split; [apply tagOk_iff; reflexivity|]. intro H. apply digestOk_iff in H. discriminate. Qed.
Example C23_case_idem : forall r u rem, IsImage allDigests "golang" r -> r_domain r = "docker.io" ->
  r_path r = (u +++ "/" +++ rem)%string -> ~ Hub u.
Proof.
  intros r u rem H _ E. rewrite (IsImage_det _ _ _ _ H golang_image) in E. intros [->| ->]; discriminate.
Qed.

(** ** C24 *)
Theorem C24_match_equivalence : forall av,
  (forall a, ImageMatch av a [a] = true) /\
  (forall a b, ImageMatch av a [b] = true -> ImageMatch av b [a] = true) /\
  (forall a b c, ImageMatch av a [b] = true -> ImageMatch av b [c] = true -> ImageMatch av a [c] = true).
Proof. exact ImageMatch_equiv. Qed.
Print Assumptions C24_match_equivalence.
Theorem C24_match_tag_equivalence : forall av,
  (forall a, MatchTag av a a = true) /\
  (forall a b, MatchTag av a b = true -> MatchTag av b a = true) /\
  (forall a b c, MatchTag av a b = true -> MatchTag av b c = true -> MatchTag av a c = true).
Proof. exact MatchTag_equiv. Qed.
Print Assumptions C24_match_tag_equivalence.
Theorem C24_match_tag_implies_match : forall av a b, MatchTag av a b = true -> ImageMatch av a [b] = true.
Proof. exact MatchTag_Match. Qed.
Print Assumptions C24_match_tag_implies_match.
Theorem C24_match_list : forall av a l, ImageMatch av a l = true <-> exists b, In b l /\ ImageMatch av a [b] = true.
Proof. exact ImageMatch_list. Qed.
Print Assumptions C24_match_list.
Theorem C24_match_ignores_tag : forall av s r t x,
  IsImage av s r -> r_tag r = "" -> r_digest r = "" -> Tag t -> ~ Digest av (s +++ ":" +++ t) ->
  ImageMatch av (s +++ ":" +++ t) [x] = ImageMatch av s [x] /\ ImageMatch av x [(s +++ ":" +++ t)%string] = ImageMatch av x [s].
Proof. exact ImageMatch_tag. Qed.
Print Assumptions C24_match_ignores_tag.
Theorem C24_match_tag_of_images : forall av a b ra rb,
  IsImage av a ra -> IsImage av b rb -> (MatchTag av a b = true <-> Tagged ra = Tagged rb).
Proof. exact MatchTag_iff. Qed.
Print Assumptions C24_match_tag_of_images.
Example C24_case : ImageMatch allDigests "golang:1" ["x"; "docker.io/library/golang"] = true /\
  ImageMatch allDigests "golang:1" ["x"; "gcr.io/library/golang"] = false /\
  MatchTag allDigests "golang" "docker.io/library/golang:latest" = true /\
  MatchTag allDigests "golang:1" "golang" = false.
Proof. repeat split; vm_compute; reflexivity. Qed.

(** ** C25 *)
Theorem C25_match_same_registry_refuted : exists a b ra rb,
  IsImage allDigests a ra /\ IsImage allDigests b rb /\ ImageMatch allDigests a [b] = true /\
  r_domain ra = "docker.io" /\ r_domain rb = "foo.bar".
Proof.
  exists "docker.io/foo.bar/baz", "foo.bar/baz",
    {| r_domain := "docker.io"; r_path := "foo.bar/baz"; r_tag := ""; r_digest := "" |},
    {| r_domain := "foo.bar"; r_path := "baz"; r_tag := ""; r_digest := "" |}.
  split; [is_image|]. split; [is_image|]. repeat split; vm_compute; reflexivity.
Qed.
Print Assumptions C25_match_same_registry_refuted.
Theorem C25_match_same_repository : forall av a b ra rb,
  IsImage av a ra -> IsImage av b rb -> HubSafe ra -> HubSafe rb ->
  (ImageMatch av a [b] = true <-> r_domain ra = r_domain rb /\ r_path ra = r_path rb).
Proof. exact Match_same_repository. Qed.
Print Assumptions C25_match_same_repository.
Theorem C25_privileged_from_other_registry_refuted : exists c,
  ct_image c = "docker.io/foo.bar/baz" /\ DindFunc allDigests ["foo.bar/baz"] c = true.
Proof. exists (container "x" "docker.io/foo.bar/baz" None [] [] []). split; reflexivity. Qed.
Print Assumptions C25_privileged_from_other_registry_refuted.
Example C25_case : HubSafe golang /\ HubSafe gcr.
Proof.
  split; intros E u rem Hu; [|discriminate]. intros Ep [H|[H|H]].
  - change (r_path golang) with ("library" +++ "/" +++ "golang")%string in Ep.
    apply split_first in Ep as [<- _]; [|apply NoSlash_iff; reflexivity|exact Hu]. apply hasChar_In in H. discriminate.
  - change (r_path golang) with ("library" +++ "/" +++ "golang")%string in Ep.
    apply split_first in Ep as [<- _]; [|apply NoSlash_iff; reflexivity|exact Hu]. apply hasChar_In in H. discriminate.
  - subst u. discriminate.
Qed.

(** ** C26 *)
Theorem C26_dind_iff : forall av images c,
  DindFunc av images c = true <->
  ct_commands c = [] /\ ct_command c = [] /\ ct_entrypoint c = [] /\
  exists img, In img images /\ ImageMatch av img [ct_image c] = true.
Proof. exact DindFunc_iff. Qed.
Print Assumptions C26_dind_iff.
Theorem C26_dind_same_repository : forall av images c r,
  IsImage av (ct_image c) r -> HubSafe r ->
  (forall img, In img images -> exists ri, IsImage av img ri /\ HubSafe ri) ->
  ct_commands c = [] -> ct_command c = [] -> ct_entrypoint c = [] ->
  (DindFunc av images c = true <->
   exists img ri, In img images /\ IsImage av img ri /\ r_domain ri = r_domain r /\ r_path ri = r_path r).
Proof. exact DindFunc_same_repository. Qed.
Print Assumptions C26_dind_same_repository.
Example C26_case :
  DindFunc allDigests ["plugins/docker"; "golang"] (container "x" "golang:1" None [] [] []) = true /\
  DindFunc allDigests ["plugins/docker"; "golang"] (container "x" "golang:1" None ["ls"] [] []) = false /\
  DindFunc allDigests ["plugins/docker"] (container "x" "golang:1" None [] [] []) = false.
Proof. repeat split; vm_compute; reflexivity. Qed.

(** ** C70 *)
Theorem C70_hostname_of_image : forall av s r h, IsImage av s r ->
  (MatchHostname av s h = true <-> r_domain r = (if String.eqb h "index.docker.io" then "docker.io" else h)).
Proof. exact MatchHostname_iff. Qed.
Print Assumptions C70_hostname_of_image.
Theorem C70_hostname_of_other : forall av s h, (~ exists r, IsImage av s r) -> MatchHostname av s h = false.
Proof. exact MatchHostname_other. Qed.
Print Assumptions C70_hostname_of_other.
Theorem C70_hostname_unique : forall av s h h',
  MatchHostname av s h = true -> MatchHostname av s h' = true -> h <> "index.docker.io" -> h' <> "index.docker.io" -> h = h'.
Proof. exact MatchHostname_unique. Qed.
Print Assumptions C70_hostname_unique.
Example C70_case : MatchHostname allDigests "golang" "docker.io" = true /\ MatchHostname allDigests "golang" "index.docker.io" = true /\
  MatchHostname allDigests "golang" "gcr.io" = false /\ MatchHostname allDigests "gcr.io:443/a/b-c:1.0" "gcr.io:443" = true.
Proof. repeat split; vm_compute; reflexivity. Qed.
