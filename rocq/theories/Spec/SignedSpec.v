(** * SignedSpec.v: a configuration and its signature. *)
From Verif Require Import Model.Go Model.Types.

(** The configuration without its signatures, followed by a new one. *)
Definition isSignature (r : Resource) : bool := match r with RSignature _ => true | _ => false end.
Definition withSignature (h : string) (m : Manifest) : Manifest :=
  {| mf_resources := filter (fun r => negb (isSignature r)) (mf_resources m) ++
       [RSignature {| si_version := ""; si_kind := "signature"; si_hmac := h |}] |}.
