(** * SignerCases.v: published vectors of SHA-256 and HMAC, and the files of yaml/signer/testdata.
    Tests of the model, not proofs. *)
From Verif Require Import Model.Go Model.Types Model.RawParse Model.Signer Model.Sha256 Conform.LineDecoder.

Example sha_abc : hexEncode (sha256 "abc") = "ba7816bf8f01cfea414140de5dae2223b00361a396177a9cb410ff61f20015ad".
Proof. vm_compute. reflexivity. Qed.
Definition fox : string := "The quick brown fox jumps over the lazy dog, and then it lies down next to it for a long nap in the sun.".
Example sha_two_blocks : hexEncode (sha256 fox) = "3b2dbbec1464b40534e1a7ddb3ba35b3222544f26500efec107850c1d8e76d15".
Proof. vm_compute. reflexivity. Qed.
Example hmac_empty : hexEncode (hmac_sha256 "" "") = "b613679a0814d9ec772f95d778c35fc5ff1697c493715653c6c712144292c5ad".
Proof. vm_compute. reflexivity. Qed.
Example hmac_long_key : hexEncode (hmac_sha256 "kkkkkkkkkkkkkkkkkkkkkkkkkkkkkkkkkkkkkkkkkkkkkkkkkkkkkkkkkkkkkkkkkkkkkk" fox)
  = "06f45553c0515bcbe2cc8d2b5bd469bd64ba5d0d66048f99e356533dfcef440e".
Proof. vm_compute. reflexivity. Qed.

Definition repoKey : string := "589396227fff5a93ba934965e8735f88".
Definition signedFile : string := "---
kind: pipeline
name: default

pipeline:
- name: build
  image: golang
  commands:
  - go build
  - go test

---
kind: secret
data:
  password: YjgwNDc4ZDY4NmQzNzQzYjNkYmUwYmE3YjMwOTM2OWUK
  username: N2NmYjA3ODQwNTY1ODFlY2E5MGJmOWI1NDk0NDFhMTEK

---
kind: signature
hmac: 389cf92a7472870783a9a5ea77b4abe58a4bb67ba58e1e7293e943aee314aedc

...
".
Definition missingFile : string := "---
kind: pipeline
name: default

pipeline:
- name: build
  image: golang
  commands:
  - go build
  - go test

...
".
Definition invalidFile : string := "---
kind: pipeline
name: default

pipeline:
- name: build
  image: golang
  commands:
  - go build
  - go test

---
kind: secret
data:
  password: YjgwNDc4ZDY4NmQzNzQzYjNkYmUwYmE3YjMwOTM2OWUK
  username: N2NmYjA3ODQwNTY1ODFlY2E5MGJmOWI1NDk0NDFhMTEK

---
kind: signature
hmac: 8a4f92a79a5eabb67ba5389c77b4abe58472870783ae1e7293e943aee314aedc

...
".
Example verify_signed : Verify lineDecoder hmac_sha256 signedFile repoKey = Ok true.
Proof. vm_compute. reflexivity. Qed.
Example verify_missing : Verify lineDecoder hmac_sha256 missingFile repoKey = Ok false.
Proof. vm_compute. reflexivity. Qed.
Example verify_invalid : Verify lineDecoder hmac_sha256 invalidFile repoKey = Ok false.
Proof. vm_compute. reflexivity. Qed.
Example update_invalid : exists out, SignUpdate lineDecoder hmac_sha256 invalidFile repoKey = Ok out /\
  Verify lineDecoder hmac_sha256 out repoKey = Ok true.
Proof. eexists. split; [vm_compute; reflexivity|vm_compute; reflexivity]. Qed.
