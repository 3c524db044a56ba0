(** * SealedCases.v: a file whose last pipeline is erased when the file is signed. *)
From Verif Require Import Model.Go Model.Types Model.RawParse Model.Signer Model.Sha256 Model.Main
  Spec.SignSpec Spec.CompileSpec Spec.MainSpec Proofs.GoFacts Proofs.SignMore Proofs.MainFacts Proofs.PrettyClaims Proofs.Sealed Conform.LineDecoder Conform.Machines.

Definition firstPart : string := "kind: pipeline
name: build
".
Definition lastPart : string := "
---
kind: pipeline
name: deploy
".
Definition keptText : string := Eval vm_compute in match SignUpdate sampleDecoder hmac_sha256 firstPart testKey with Ok s => s | _ => "" end.
Lemma kept : SignUpdate sampleDecoder hmac_sha256 firstPart testKey = Ok keptText.
Proof. vm_compute. reflexivity. Qed.
Lemma tail_erased : exists mc key f fs content out, fs f = Some content /\ contains content "name: deploy" = true /\
  (let signed := run mc (ASign true key f) fs in x_status signed = 0%Z /\ x_files signed f = Some out /\
   contains out "name: deploy" = false /\ x_status (run mc (AVerify key f) (x_files signed)) = 0%Z).
Proof.
  destruct long_exists as (long & N & L).
  exists sampleMachine, testKey, "a.yml", (oneFile "a.yml" (firstPart +++ long +++ lastPart)%string), (firstPart +++ long +++ lastPart)%string, keptText.
  split; [reflexivity|]. split; [apply contains_spec; exists (firstPart +++ long +++ nl +++ "---" +++ nl +++ "kind: pipeline" +++ nl)%string, nl; rewrite !sapp_assoc; reflexivity|].
  cbv zeta. assert (A : firstPart = "" \/ exists a', firstPart = (a' +++ nl)%string) by (right; exists ("kind: pipeline" +++ nl +++ "name: build")%string; reflexivity).
  assert (B : lastPart = "" \/ exists b', lastPart = (nl +++ b')%string) by (right; eexists (String.substring 1 1000 lastPart); reflexivity).
  pose proof (sealed_long sampleDecoder hmac_sha256 firstPart long lastPart testKey A N L B) as E. rewrite kept in E.
  pose proof (sign_save sampleMachine testKey "a.yml" (oneFile "a.yml" (firstPart +++ long +++ lastPart)%string) _ eq_refl) as Q. cbv zeta in Q.
  change (mc_decoder sampleMachine) with sampleDecoder in Q. change (mc_mac sampleMachine) with hmac_sha256 in Q. rewrite E in Q.
  change (mc_writable sampleMachine "a.yml") with true in Q. destruct Q as ((Q1 & _) & _ & Q2).
  split; [exact Q2|]. split; [exact Q1|]. split; [vm_compute; reflexivity|]. apply (verify_result _ _ _ _ _ Q1). vm_compute. reflexivity.
Qed.
Lemma no_crcr_check s : hasChar CR s = false -> NoCRCR s.
Proof.
  intros H (a & b & E). apply (f_equal (hasChar CR)) in E. rewrite !hasChar_app, H, !orb_true_r in E. discriminate.
Qed.
