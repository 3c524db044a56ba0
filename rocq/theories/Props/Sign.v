(** * Sign.v: theorems C05 to C11. *)
From Verif Require Import Model.Go Model.Types Model.RawParse Model.Signer Model.Sha256.
From Verif Require Import Spec.ParseSpec Spec.SignSpec Conform.LineDecoder Proofs.ShaFacts Proofs.SignFacts Proofs.SignMore.

(** ** C05 *)
Theorem C05_signed_file_verifies : forall D mac data key out,
  ReadsSignature D -> Mac32 mac -> NoCRCR data ->
  SignUpdate D mac data key = Ok out -> Verify D mac out key = Ok true.
Proof. exact sign_then_verify. Qed.
Print Assumptions C05_signed_file_verifies.

(** Without the condition on carriage returns the claim is false. *)
Theorem C05_any_signed_file_verifies_refuted :
  exists data out, SignUpdate lineDecoder hmac_sha256 data testKey = Ok out /\
                   Verify lineDecoder hmac_sha256 out testKey = Ok false.
Proof. exact crcr_fails. Qed.
Print Assumptions C05_any_signed_file_verifies_refuted.

Example C05_decoder : ReadsSignature lineDecoder.
Proof. exact lineDecoder_reads. Qed.
Example C05_mac : Mac32 hmac_sha256.
Proof. exact hmac_sha256_32. Qed.
(** ** C06 *)
Theorem C06_sign_update_documents : forall D mac data key out,
  ReadsSignature D -> Mac32 mac -> NoCRCR data -> SignUpdate D mac data key = Ok out ->
  exists res rest s h,
    parseRawString D data = Ok res /\ Unsigned res rest /\ Sign D mac data key = Ok h /\
    parseRawString D out = Ok (rest ++ [s]) /\ rr_kind s = "signature" /\ rr_data s = sig_text h.
Proof. exact sign_update_documents. Qed.
Print Assumptions C06_sign_update_documents.

Theorem C06_write_to_is_sign_update : forall D mac data key h out,
  Sign D mac data key = Ok h -> (WriteTo D data h = (out, None) <-> SignUpdate D mac data key = Ok out).
Proof. exact write_to_sign. Qed.
Print Assumptions C06_write_to_is_sign_update.

(** ** C07 *)
Theorem C07_sign_update_idempotent : forall D mac data key out,
  ReadsSignature D -> Mac32 mac -> NoCRCR data ->
  SignUpdate D mac data key = Ok out -> SignUpdate D mac out key = Ok out.
Proof. exact sign_update_idem. Qed.
Print Assumptions C07_sign_update_idempotent.

Theorem C07_sign_ignores_signatures : forall D mac data key out h,
  ReadsSignature D -> Mac32 mac -> NoCRCR data ->
  SignUpdate D mac data key = Ok out -> (Sign D mac out key = Ok h <-> Sign D mac data key = Ok h).
Proof. exact sign_same_after. Qed.
Print Assumptions C07_sign_ignores_signatures.

(** ** C08 *)
Theorem C08_short_key : forall D mac data key,
  (slen key < 32)%N ->
  (forall h, Sign D mac data key <> Ok h) /\ (forall out, SignUpdate D mac data key <> Ok out) /\
  Verify D mac data key <> Ok true.
Proof. exact short_key. Qed.
Print Assumptions C08_short_key.

Theorem C08_long_key : forall D mac data key,
  (32 <= slen key)%N ->
  forall res, parseRawString D data = Ok res ->
    (exists h, Sign D mac data key = Ok h) /\ (exists out, SignUpdate D mac data key = Ok out) /\
    (exists b, Verify D mac data key = Ok b).
Proof. exact long_key_ok. Qed.
Print Assumptions C08_long_key.

Example C08_case : slen testKey = 32%N /\ slen "589396227fff5a93ba934965e8735f8" = 31%N.
Proof. split; reflexivity. Qed.

(** A case for C05 to C07. *)
Definition unsignedFile : string := ("kind: pipeline" +++ nl +++ "---" +++ nl +++ "kind: cron" +++ nl)%string.
Example C05_case : NoCRCR unsignedFile /\ exists out, SignUpdate lineDecoder hmac_sha256 unsignedFile testKey = Ok out.
Proof.
  split.
  - intros (a & b & E). assert (H : In CR (list_ascii_of_string (unsignedFile +++ nl)%string)).
    { rewrite E, GoFacts.laos_app. apply in_or_app. right. left. reflexivity. }
    simpl in H. intuition discriminate.
  - destruct (parseRawString lineDecoder unsignedFile) as [res|e|] eqn:E; [|discriminate|discriminate].
    refine (proj1 (proj2 (C08_long_key lineDecoder hmac_sha256 unsignedFile testKey _ res E))). discriminate.
Qed.

(** ** C09 *)
Theorem C09_verify_iff : forall D mac data key,
  Verify D mac data key = Ok true <->
  exists res c h, parseRawString D data = Ok res /\ Content res c /\ (32 <= slen key)%N /\
    FirstSignature D res h /\ HexOf (mac key c) h.
Proof. exact verify_iff. Qed.
Print Assumptions C09_verify_iff.

Theorem C09_same_signature_same_content_or_collision : forall D mac s t key res1 res2 c1 c2 h,
  parseRawString D s = Ok res1 -> parseRawString D t = Ok res2 -> Content res1 c1 -> Content res2 c2 ->
  FirstSignature D res1 h -> FirstSignature D res2 h ->
  Verify D mac s key = Ok true -> Verify D mac t key = Ok true ->
  c1 = c2 \/ (c1 <> c2 /\ mac key c1 = mac key c2).
Proof. exact tamper_same_signature. Qed.
Print Assumptions C09_same_signature_same_content_or_collision.

Theorem C09_missing_signature_fails : forall D mac data key res,
  parseRawString D data = Ok res -> Forall NotSig res -> Verify D mac data key = Ok false.
Proof. exact no_signature_fails. Qed.
Print Assumptions C09_missing_signature_fails.

Theorem C09_verify_never_panics : forall D mac data key, Verify D mac data key <> Panic.
Proof. exact Verify_panic. Qed.
Print Assumptions C09_verify_never_panics.

(** ** C10 *)
(** The claim 'a file that verifies has the documents that were signed' is false. *)
Theorem C10_boundaries_signed_refuted :
  exists s t res1 res2 docs1 docs2,
    parseRawString lineDecoder s = Ok res1 /\ parseRawString lineDecoder t = Ok res2 /\
    Verify lineDecoder hmac_sha256 s testKey = Ok true /\ Verify lineDecoder hmac_sha256 t testKey = Ok true /\
    Unsigned res1 docs1 /\ Unsigned res2 docs2 /\ length docs1 = 2%nat /\ length docs2 = 1%nat.
Proof. exact boundary_moved'. Qed.
Print Assumptions C10_boundaries_signed_refuted.

Theorem C10_only_content_is_signed : forall D mac s t key res1 res2 c h,
  parseRawString D s = Ok res1 -> parseRawString D t = Ok res2 -> Content res1 c -> Content res2 c ->
  FirstSignature D res1 h -> FirstSignature D res2 h ->
  (Verify D mac s key = Ok true <-> Verify D mac t key = Ok true).
Proof. exact boundaries_unsigned. Qed.
Print Assumptions C10_only_content_is_signed.

(** ** C11 *)
Theorem C11_decode_encode : forall b, hexDecode (hexEncode b) = Some b.
Proof. exact hexDecode_hexEncode. Qed.
Print Assumptions C11_decode_encode.

Theorem C11_decode_spells : forall h b, hexDecode h = Some b <-> HexOf b h.
Proof. exact hexDecode_HexOf. Qed.
Print Assumptions C11_decode_spells.

Theorem C11_upper_case_verifies : forall D mac s t key res1 res2 c h,
  parseRawString D s = Ok res1 -> parseRawString D t = Ok res2 -> Content res1 c -> Content res2 c ->
  FirstSignature D res1 h -> FirstSignature D res2 (toUpper h) ->
  (Verify D mac s key = Ok true <-> Verify D mac t key = Ok true).
Proof. exact upper_case_verifies. Qed.
Print Assumptions C11_upper_case_verifies.

Theorem C11_bad_hex_never_verifies : forall D mac data key res h,
  parseRawString D data = Ok res -> FirstSignature D res h ->
  (Nat.odd (String.length h) = true \/ exists c, In c (list_ascii_of_string h) /\ digitValue c = None) ->
  Verify D mac data key = Ok false.
Proof. exact bad_hex_fails. Qed.
Print Assumptions C11_bad_hex_never_verifies.

Example C11_case : HexOf "J" "4a" /\ HexOf "J" "4A" /\ digitValue "g" = None.
Proof. split; [|split]; [apply hexDecode_HexOf|apply hexDecode_HexOf|]; reflexivity. Qed.
