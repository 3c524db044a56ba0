(** * SignMain.v: the commands fmt, sign and verify one after the other. *)
From Coq Require Import Lia.
From Verif Require Import Model.Go Model.Types Model.RawParse Model.Decode Model.Signer Model.Pretty Model.Compiler Model.Main
  Spec.ParseSpec Spec.YamlSpec Spec.PrettySpec Spec.SignSpec Spec.SignedSpec Spec.CompileSpec Spec.MainSpec
  Proofs.MainFacts Proofs.SignFormat.

Theorem format_sign_format mc resolve ramInBytes reader p q key f fs content m out :
  mc_decoder mc = treeDecoder ramInBytes reader -> Resolver resolve -> Reads resolve reader -> Mac32 (mc_mac mc) -> (32 <= slen key)%N ->
  mc_writable mc f = true -> fs f = Some content -> parse (mc_decoder mc) content = Ok m -> mf_resources m <> [] ->
  Forall (Formattable resolve ramInBytes (w_formatFloat (mc_world mc)) (mc_bytesSize mc)) (mf_resources m) ->
  formatted mc m = Ok out -> (forall lines, ParseSpec.Lines out lines -> Forall ParseSpec.Short lines) ->
  let a := run mc (AFormat p true f) fs in
  let b := run mc (ASign true key f) (x_files a) in
  let c := run mc (AFormat q true f) (x_files b) in
  x_status a = 0%Z /\ x_status b = 0%Z /\ x_status c = 0%Z /\ (forall g, x_files c g = x_files b g) /\
  x_status (run mc (AVerify key f) (x_files c)) = 0%Z.
Proof.
  intros HD HR HRd HM HK Hw Hf Hp Hn HF Ho Hl. cbv zeta.
  pose proof (format_result mc p true f fs content Hf) as H1. cbv zeta in H1. rewrite Hp, Ho, Hw in H1. destruct H1 as ((H1 & _) & _ & _ & H1s).
  destruct (signed_is_formatted (w_isPrintHigh (mc_world mc)) (w_formatFloat (mc_world mc)) (mc_sprintFloat mc) (mc_bytesSize mc) resolve ramInBytes reader HR HRd
    (mc_mac mc) m out key HM HK Hn HF Ho Hl) as (h & signed & m' & _ & HS & _ & HV & HP & HO).
  rewrite <- HD in HS, HV, HP.
  pose proof (sign_save mc key f _ out H1) as H2. cbv zeta in H2. rewrite HS, Hw in H2. destruct H2 as ((H2 & _) & _ & H2s).
  pose proof (format_result mc q true f _ signed H2) as H3. cbv zeta in H3. rewrite HP in H3. unfold formatted at 1 in H3. rewrite HO, Hw in H3. destruct H3 as ((H3 & H3') & _ & _ & H3s).
  split; [exact H1s|]. split; [exact H2s|]. split; [exact H3s|]. split.
  - intro g. destruct (string_dec g f) as [->|Hg]; [congruence|apply H3', Hg].
  - apply (proj1 (proj2 (verify_result mc key f _ signed H3))). exact HV.
Qed.
