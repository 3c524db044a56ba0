(** * SealedSpec.v: what signing must leave alone. *)
From Verif Require Import Model.Go Model.Types Model.RawParse Spec.SignSpec.

(** The yaml decoder reads the signature document the signer writes as what is written there. *)
Definition ReadsAsWritten (D : Decoder) : Prop := forall h, IsHex h -> slen h = 64%N ->
  dec_signature D (sig_text h) = Some {| si_version := ""; si_kind := "signature"; si_hmac := h |}.
Definition NotSignature (r : Resource) : Prop := match r with RSignature _ => False | _ => True end.
