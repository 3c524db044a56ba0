(** * FormatClaims.v: how strings are written, and what a formatted setting loses. *)
From Coq Require Import Lia Floats.SpecFloat.
From Verif Require Import Model.Go Model.Types Model.Decode Model.RawParse Model.Quote Model.Pretty Proofs.ScriptFacts Proofs.QuoteNeed Proofs.PrettyClaims
  Spec.DecodeSpec Spec.PrettySpec Spec.ScriptSpec Spec.FormatSpec Proofs.FormatFacts.

Lemma written_string : forall iph s,
  (NeedsQuotes s -> GoLiteral (encodeString iph s) s) /\ (~ NeedsQuotes s -> encodeString iph s = s).
Proof.
  intros iph s. unfold encodeString. rewrite <- quoted_need. destruct s as [|c s]; [split; [intros _|intro N; exfalso; apply N; reflexivity]|].
  - exists "". split; reflexivity.
  - cbn [isEmpty]. destruct (isQuoted (String c s)) eqn:E; split; intro H; try discriminate H; try (exfalso; apply H; reflexivity); [apply quote_literal|reflexivity].
Qed.
Lemma number_key : exists m out m', sample print m = Ok out /\ parse sampleDecoder out = Ok m' /\
  settingsOf m = [("codes", VMap [(VInt 200, VStr "ok")])] /\ settingsOf m' = [("codes", VMap [(VInt 200, VNull)])].
Proof.
  set (m := parsed "kind: pipeline
steps:
- name: a
  settings:
    codes:
      200: ok
"). exists m, (printed m), (parsed (printed m)). computed.
Qed.
Lemma large_number : exists m out m', sample print m = Ok out /\ parse sampleDecoder out = Ok m' /\
  settingsOf m = [("seed", VInt 9223372036854775808)] /\ settingsOf m' = [] /\ sample print m' = Panic.
Proof.
  set (m := parsed "kind: pipeline
steps:
- name: a
  settings:
    seed: 9223372036854775808
"). exists m, (printed m), (parsed (printed m)). computed.
Qed.
Lemma sample_go : Forall GoResource (mf_resources sampleManifest) /\ ~ Exists HasNull (mf_resources sampleManifest).
Proof.
  split.
  - constructor; [|repeat constructor]. split; [split; reflexivity || discriminate|]. split; [split; reflexivity || discriminate|]. split; [constructor|].
    intros c [E|[E|[]]]; injection E as <-; (split; [|split; [|split]]); cbn; try discriminate.
    + repeat constructor; cbn; intuition discriminate.
    + repeat constructor; cbn; intuition discriminate.
    + intros p [].
    + constructor.
    + constructor.
    + intros p [E|[]]. injection E as <-. unfold Fits. cbn. lia.
  - intro E. inversion E as [r rs H|r rs H]; subst.
    + exact (proj2 sample_no_null H).
    + repeat match goal with X : Exists _ _ |- _ => inversion X; clear X; subst end; contradiction.
Qed.
