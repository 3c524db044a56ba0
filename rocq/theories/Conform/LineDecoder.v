(** * LineDecoder.v: a small yaml decoder for flat documents.

    It reads lines of the form [key: value], which is enough for the documents used in
    examples and witnesses. No theorem depends on it being the real decoder: it only shows
    that the hypotheses on decoders can be met. *)
From Verif Require Import Model.Go Model.Types Model.RawParse Spec.ParseSpec Spec.SignSpec Proofs.GoFacts Proofs.ParseFacts.

Fixpoint find_field (key : string) (ls : list string) : string :=
  match ls with
  | [] => ""
  | l :: ls' => if hasPrefix l (key +++ ": ")%string then dropCR (trimPrefix l (key +++ ": ")%string)
                else find_field key ls'
  end.
Definition field (key doc : string) : string := find_field key (split_on NL doc).

Definition line_header (d : string) : option Header :=
  Some {| h_version := field "version" d; h_kind := field "kind" d; h_type := field "type" d |}.
Definition lineDecoder : Decoder := {|
  dec_header := line_header;
  dec_cron := fun d => Some {| cr_version := field "version" d; cr_kind := field "kind" d; cr_type := field "type" d;
    cr_name := field "name" d; cr_schedule := field "schedule" d; cr_branch := field "branch" d;
    cr_target := field "target" d |};
  dec_secret := fun d => Some {| se_version := field "version" d; se_kind := field "kind" d; se_type := field "type" d;
    se_name := field "name" d; se_data := field "data" d; se_get_path := ""; se_get_name := ""; se_get_key := "" |};
  dec_signature := fun d => Some {| si_version := field "version" d; si_kind := field "kind" d; si_hmac := field "hmac" d |};
  dec_registry := fun d => Some {| rg_version := field "version" d; rg_kind := field "kind" d; rg_type := field "type" d;
    rg_data := [] |};
  dec_pipeline := fun d => Some
    {| pi_version := field "version" d; pi_kind := field "kind" d; pi_type := field "type" d;
       pi_name := field "name" d; pi_clone := noClone; pi_concurrency := 0; pi_depends := []; pi_node := [];
       pi_platform := noPlatform; pi_pull_secrets := []; pi_services := []; pi_steps := [];
       pi_trigger := noConds; pi_volumes := []; pi_workspace := noWorkspace |} |}.

(** It reads the signature documents the signer writes. *)
Lemma lineDecoder_reads : ReadsSignature lineDecoder.
Proof.
  intros h Hh _.
  assert (Hn : hasChar NL h = false).
  { apply hasChar_false. intro H. apply Hh in H. revert H. apply hasChar_false. reflexivity. }
  assert (Hc : dropCR h = h).
  { apply dropCR_no. intros l' ->. specialize (Hh CR). apply (proj1 (hasChar_false CR hexDigits) eq_refl).
    apply Hh. apply snoc_char_In. }
  assert (E : split_on NL (sig_text h) = ["kind: signature"; ("hmac: " +++ h)%string; ""; ""]).
  { unfold sig_text, text. cbn [map concats].
    change (("kind: signature" +++ nl) +++ ("hmac: " +++ h) +++ nl +++ "" +++ nl +++ "")%string
      with (("kind: signature") +++ String NL (("hmac: " +++ h) +++ nl +++ "" +++ nl +++ ""))%string.
    replace ((("kind: signature" +++ nl) +++ (("hmac: " +++ h) +++ nl) +++ ("" +++ nl) +++ ""))%string
      with ("kind: signature" +++ String NL (("hmac: " +++ h) +++ String NL nl))%string
      by (rewrite !sapp_assoc; reflexivity).
    rewrite split_on_app by reflexivity. rewrite split_on_app; [reflexivity|].
    rewrite hasChar_app, Hn. reflexivity. }
  split.
  - eexists. split; [reflexivity|]. simpl. unfold field. rewrite E. reflexivity.
  - eexists. split; [reflexivity|]. simpl. unfold field. rewrite E. cbn [find_field].
    change (hasPrefix "kind: signature" ("hmac" +++ ": ")) with false.
    change (hasPrefix ("hmac: " +++ h) ("hmac" +++ ": ")) with (prefix "" h).
    change (trimPrefix ("hmac: " +++ h) ("hmac" +++ ": ")) with (if prefix "" h then h else ("hmac: " +++ h)%string).
    destruct h; exact Hc.
Qed.
