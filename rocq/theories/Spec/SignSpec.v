(** * SignSpec.v: what signing a file means. *)
From Verif Require Import Model.Go Model.Types Model.RawParse Model.Signer Spec.ParseSpec.

(** No line of the file ends in two carriage returns. *)
Definition NoCRCR (data : string) : Prop :=
  ~ exists a b, (data +++ nl = a +++ cr +++ cr +++ nl +++ b)%string.

(** The text of the signature document the signer writes. *)
Definition sig_text (h : string) : string := text ["kind: signature"; ("hmac: " +++ h)%string; ""].

(** The lower-case hexadecimal digits. *)
Definition hexDigits : string := "0123456789abcdef".
Definition IsHex (h : string) : Prop :=
  forall c, In c (list_ascii_of_string h) -> In c (list_ascii_of_string hexDigits).

(** The yaml decoder reads the signature document the signer writes: its kind and its hmac. *)
Definition ReadsSignature (D : Decoder) : Prop :=
  forall h, IsHex h -> slen h = 64%N ->
    (exists hd, dec_header D (sig_text h) = Some hd /\ h_kind hd = "signature") /\
    (exists sg, dec_signature D (sig_text h) = Some sg /\ si_hmac sg = h).

(** The MAC has 32 bytes, as HMAC-SHA256 has. *)
Definition Mac32 (mac : string -> string -> string) : Prop := forall k m, slen (mac k m) = 32%N.

Definition NotSig (r : RawResource) : Prop := rr_kind r <> "signature".

(** [Content res c]: [c] is what is signed, the data of all non-signature resources, joined. *)
Inductive Content : list RawResource -> string -> Prop :=
| Content_nil : Content [] ""
| Content_sig r res c : rr_kind r = "signature" -> Content res c -> Content (r :: res) c
| Content_doc r res c : NotSig r -> Content res c -> Content (r :: res) (rr_data r +++ c)%string.

(** [Unsigned res res']: [res'] are the non-signature resources of [res], in order. *)
Inductive Unsigned : list RawResource -> list RawResource -> Prop :=
| Unsigned_nil : Unsigned [] []
| Unsigned_sig r res res' : rr_kind r = "signature" -> Unsigned res res' -> Unsigned (r :: res) res'
| Unsigned_doc r res res' : NotSig r -> Unsigned res res' -> Unsigned (r :: res) (r :: res').

(** [HexOf b h]: [h] spells the bytes [b] in hexadecimal, in either case. Each byte is two
    digits, high one first. *)
Definition digitValue (c : ascii) : option N :=
  match index 0 (String c "") "0123456789abcdef", index 0 (String c "") "0123456789ABCDEF" with
  | Some i, _ => Some (N.of_nat i)
  | None, Some i => Some (N.of_nat i)
  | None, None => None
  end.
Inductive HexOf : string -> string -> Prop :=
| HexOf_nil : HexOf "" ""
| HexOf_cons c hi lo x y b h :
    digitValue hi = Some x -> digitValue lo = Some y -> N_of_ascii c = (16 * x + y)%N ->
    HexOf b h -> HexOf (String c b) (String hi (String lo h)).

(** [FirstSignature D res h]: the first signature document of [res] carries the hmac [h]. *)
Definition FirstSignature (D : Decoder) (res : list RawResource) (h : string) : Prop :=
  exists pre s post sg, res = pre ++ s :: post /\ Forall NotSig pre /\ rr_kind s = "signature" /\
    dec_signature D (rr_data s) = Some sg /\ si_hmac sg = h.
