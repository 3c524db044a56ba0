(** * Signer.v: signatures (yaml/signer/signer.go). *)
From Verif Require Import Model.Go Model.Types Model.RawParse.

(** yaml/manifest.go 31. *)
Definition KindSignature : string := "signature".
(** yaml/signer/signer.go 17. *)
Definition ErrInvalidKey : string := "signer: key must be 32-bytes".
(** yaml/signer/signer.go 112. *)
Definition errMissingSignature : string := "yaml: missing signature".

(** encoding/hex. *)
Definition hexDigit (n : N) : ascii :=
  if N.ltb n 10 then byte (48 + n) else byte (87 + n).
Fixpoint hexEncode (s : string) : string :=
  match s with
  | "" => ""
  | String c s' => String (hexDigit (code c / 16)) (String (hexDigit (code c mod 16)) (hexEncode s'))
  end.
Definition unhexDigit (c : ascii) : option N :=
  if isDigit c then Some (code c - 48)%N
  else if between 97 102 c then Some (code c - 87)%N
  else if between 65 70 c then Some (code c - 55)%N
  else None.
(** hex.DecodeString: [None] for an odd length or an invalid digit. *)
Fixpoint hexDecode (s : string) : option string :=
  match s with
  | "" => Some ""
  | String a (String b s') =>
      match unhexDigit a, unhexDigit b, hexDecode s' with
      | Some x, Some y, Some t => Some (String (byte (16 * x + y)) t)
      | _, _, _ => None
      end
  | String _ "" => None
  end.

Definition isSig (r : RawResource) : bool := String.eqb (rr_kind r) KindSignature.

Section Signer.
  Variable D : Decoder.
  (** [mac key message]: HMAC-SHA256, or any other function. *)
  Variable mac : string -> string -> string.

  (** yaml/signer/signer.go 117-128. Writing to the hash piece by piece hashes the
      concatenation of the pieces. *)
  Definition sign (res : list RawResource) (key : string) : outcome string :=
    if N.ltb (slen key) 32 then Err ErrInvalidKey
    else Ok (mac key (concats (map rr_data (filter (fun r => negb (isSig r)) res)))).

  (** yaml/signer/signer.go 30-37. The second component is nil exactly when it is [None];
      with an error the first component is the empty string. *)
  Definition Sign (data key : string) : outcome string :=
    res <- parseRawString D data ;;
    h <- sign res key ;;
    Ok (hexEncode h).

  (** yaml/signer/signer.go 52-60 and 133-140: what is written for the other resources. *)
  Definition write_docs (res : list RawResource) : string :=
    concats (map (fun r => "---" +++ nl +++ rr_data r)%string (filter (fun r => negb (isSig r)) res)).
  (** yaml/signer/signer.go 61-69 and 141-149. *)
  Definition write_sig (hmac : string) : string :=
    ("---" +++ nl +++ "kind: signature" +++ nl +++ "hmac: " +++ hmac +++ nl +++ nl +++ "..." +++ nl)%string.

  (** yaml/signer/signer.go 42-71. *)
  Definition SignUpdate (data key : string) : outcome string :=
    res <- parseRawString D data ;;
    h <- sign res key ;;
    Ok (write_docs res +++ write_sig (hexEncode h))%string.

  (** yaml/signer/signer.go 132-151. *)
  Definition upsert (res : list RawResource) (hmac : string) : string :=
    (write_docs res +++ write_sig hmac)%string.

  (** yaml/signer/signer.go 94-97: returns data together with a possible error; on an error
      the resource list is nil. *)
  Definition WriteTo (data hmac : string) : string * option string :=
    match parseRawString D data with
    | Ok res => (upsert res hmac, None)
    | Err e => (upsert [] hmac, Some e)
    | Panic => (upsert [] hmac, Some "")
    end.

  (** yaml/signer/signer.go 101-113. *)
  Fixpoint extract (res : list RawResource) : outcome string :=
    match res with
    | [] => Err errMissingSignature
    | r :: res' =>
        if isSig r then
          out <- decoded (dec_signature D (rr_data r)) ;;
          match hexDecode (si_hmac out) with
          | Some m => Ok m
          | None => Err "hex"
          end
        else extract res'
    end.

  (** yaml/signer/signer.go 75-89. *)
  Definition Verify (data key : string) : outcome bool :=
    res <- parseRawString D data ;;
    match extract res with
    | Ok mac1 =>
        mac2 <- sign res key ;;
        Ok (String.eqb mac1 mac2)
    | Err _ => Ok false
    | Panic => Panic
    end.
End Signer.
