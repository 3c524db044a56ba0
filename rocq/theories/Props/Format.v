(** * Format.v: theorems C98 and C99. *)
From Verif Require Import Model.Go Model.Types Model.Decode Model.RawParse Model.Pretty
  Proofs.PrettyClaims Spec.DecodeSpec Spec.PrettySpec Spec.TreeSpec Spec.ScriptSpec Spec.FormatSpec Proofs.FormatFacts Proofs.FormatClaims.

(** ** C98 *)
Theorem C98_text : forall isPrintHigh formatFloat sprintFloat bytesSize m,
  Forall GoResource (mf_resources m) -> ~ Exists HasNull (mf_resources m) ->
  exists docs, Forall2 (Document (encodeString isPrintHigh) formatFloat sprintFloat bytesSize) (mf_resources m) docs /\
    print isPrintHigh formatFloat sprintFloat bytesSize m = Ok (formatted (concat docs)).
Proof. exact format_text. Qed.
Print Assumptions C98_text.
Theorem C98_number_keys_refuted : exists m out m', sample print m = Ok out /\ parse sampleDecoder out = Ok m' /\
  settingsOf m = [("codes", VMap [(VInt 200, VStr "ok")])] /\ settingsOf m' = [("codes", VMap [(VInt 200, VNull)])].
Proof. exact number_key. Qed.
Print Assumptions C98_number_keys_refuted.
Theorem C98_large_numbers_refuted : exists m out m', sample print m = Ok out /\ parse sampleDecoder out = Ok m' /\
  settingsOf m = [("seed", VInt 9223372036854775808)] /\ settingsOf m' = [] /\ sample print m' = Panic.
Proof. exact large_number. Qed.
Print Assumptions C98_large_numbers_refuted.
Example C98_case : Forall GoResource (mf_resources sampleManifest) /\ ~ Exists HasNull (mf_resources sampleManifest).
Proof. exact sample_go. Qed.

(** ** C99 *)
Theorem C99_strings : forall isPrintHigh s,
  (NeedsQuotes s -> GoLiteral (encodeString isPrintHigh s) s) /\ (~ NeedsQuotes s -> encodeString isPrintHigh s = s).
Proof. exact written_string. Qed.
Print Assumptions C99_strings.
Example C99_case : NeedsQuotes "- a" /\ NeedsQuotes "a:" /\ ~ NeedsQuotes "-a:b#c" /\
  encodeString (fun _ => true) "a:" = """a:""" /\ encodeString (fun _ => true) "-a:b#c" = "-a:b#c".
Proof.
  split; [apply (quote_mark "- a" "-"); [cbn; tauto|exists "a"; reflexivity]|]. split; [apply quote_end; exists "a"; reflexivity|].
  split; [|split; reflexivity]. rewrite <- QuoteNeed.quoted_need. discriminate.
Qed.
