(** * Sealed.v: what a signed file means. *)
From Coq Require Import Lia.
From Verif Require Import Model.Go Model.Types Model.RawParse Model.Decode Model.Lint Model.Signer Model.Pretty Model.Compiler Model.Main
  Spec.ParseSpec Spec.DecodeSpec Spec.YamlSpec Spec.TreeSpec Spec.PrettySpec Spec.SignSpec Spec.SignedSpec Spec.SealedSpec Spec.CompileSpec Spec.MainSpec
  Proofs.GoFacts Proofs.ParseFacts Proofs.DecodeFacts Proofs.SignFacts Proofs.SignMore Proofs.MainFacts Proofs.PrettyClaims Proofs.YamlDocs Proofs.PrettyRound Proofs.PrettyTrip Proofs.SignFormat Proofs.ConvertLint.

Lemma reads_as_written resolve ramInBytes reader : Resolver resolve -> Reads resolve reader -> ReadsAsWritten (treeDecoder ramInBytes reader).
Proof.
  intros HR HRd h H L.
  destruct (sig_written (fun _ => true) noFloat noFloat noBytes resolve ramInBytes HR h H L) as (r' & _ & _ & G & T & B & K & (v & t & Hd) & R).
  rewrite <- sig_data.
  pose proof (read_document resolve reader HRd _ G T) as Rd. destruct G as (W & _ & Dd). inversion B; subst. cbn [getKind si_kind IsResource] in *.
  cbn [treeDecoder dec_signature]. rewrite Rd. cbn [optBind]. apply exact_signature; [exact Dd|apply R].
Qed.

Section Sealed.
  Variable D : Decoder.
  Variable mac : string -> string -> string.
  Hypothesis HS : ReadsSignature D.
  Hypothesis HW : ReadsAsWritten D.
  Hypothesis HM : Mac32 mac.
  Lemma typed_signature raw r : Typed D raw r -> (rr_kind raw = "signature" <-> isSignature r = true).
  Proof.
    intro T. destruct T as [c K _|c K _|c K _|c K _|c K _]; cbn [isSignature]; (split; intro E; [|try discriminate; try exact K]); try reflexivity; try congruence.
    exfalso. apply K. rewrite E. right. right. left. reflexivity.
  Qed.
  Lemma typed_unsigned raws rs : Forall2 (fun raw res => Typed D raw res /\ getKind res <> "") raws rs ->
    Forall2 (fun raw res => Typed D raw res /\ getKind res <> "") (unsigned raws) (filter (fun r => negb (isSignature r)) rs).
  Proof.
    induction 1 as [|raw r raws rs [T N] F IH]; [constructor|]. unfold unsigned in *. cbn [filter].
    pose proof (typed_signature raw r T) as E. destruct (isSig raw) eqn:S.
    - apply isSig_spec in S. apply E in S. rewrite S. exact IH.
    - destruct (isSignature r) eqn:S'; [|constructor; auto]. apply isSig_false in S. destruct (S (proj2 E eq_refl)).
  Qed.
  Lemma typed_fun raw r r' : Typed D raw r -> Typed D raw r' -> r = r'.
  Proof. intros A B. apply parseRaw_ok in A, B. congruence. Qed.
  Theorem sealed_iff data key out : NoCRCR data -> SignUpdate D mac data key = Ok out ->
    exists raws rest h, parseRawString D data = Ok raws /\ Unsigned raws rest /\ Sign D mac data key = Ok h /\
    forall m', parse D out = Ok m' <->
      exists rs, Forall2 (fun raw res => Typed D raw res /\ getKind res <> "") rest rs /\
        mf_resources m' = rs ++ [RSignature {| si_version := ""; si_kind := "signature"; si_hmac := h |}].
  Proof.
    intros C U. destruct (sign_update_spec D mac data key out HS HM C U) as (raws & c & s & sg & H1 & Hc & Hk & H2 & H3 & H4 & H5 & H6).
    assert (L : slen (hexEncode (mac key c)) = 64%N) by (rewrite hexEncode_slen, HM; reflexivity).
    pose proof (HW _ (hexEncode_IsHex (mac key c)) L) as W. rewrite <- H4 in W.
    exists raws, (unsigned raws), (hexEncode (mac key c)). split; [exact H1|]. split; [apply Unsigned_filter; reflexivity|].
    split; [apply Sign_ok; exists raws, c; auto|]. intro m'. rewrite parse_ok. split.
    - intros (raws' & E & F). rewrite H2 in E. injection E as <-. apply Forall2_app_inv_l in F as (rs & l & F & G & ->).
      exists rs. split; [exact F|]. f_equal. inversion G as [|x y lx ly [T _] G' E1 E2]; subst. inversion G'; subst. f_equal.
      apply (typed_fun s); [exact T|]. apply Typed_signature; [exact H3|exact W].
    - intros (rs & F & E). exists (unsigned raws ++ [s]). split; [exact H2|]. rewrite E. apply Forall2_app; [exact F|]. constructor; [|constructor].
      split; [apply Typed_signature; assumption|discriminate].
  Qed.
  Theorem sealed_resources data key out m : NoCRCR data -> SignUpdate D mac data key = Ok out -> parse D data = Ok m ->
    exists h, Sign D mac data key = Ok h /\ IsHex h /\ slen h = 64%N /\ parse D out = Ok (withSignature h m).
  Proof.
    intros C U P. destruct (sign_update_spec D mac data key out HS HM C U) as (raws & c & s & sg & H1 & Hc & Hk & H2 & H3 & H4 & H5 & H6).
    assert (L : slen (hexEncode (mac key c)) = 64%N) by (rewrite hexEncode_slen, HM; reflexivity).
    exists (hexEncode (mac key c)). split; [apply Sign_ok; exists raws, c; auto|]. split; [apply hexEncode_IsHex|]. split; [exact L|].
    apply parse_ok in P as (raws' & E & F). rewrite H1 in E. injection E as <-.
    apply parse_ok. exists (unsigned raws ++ [s]). split; [exact H2|]. cbn [withSignature mf_resources]. apply Forall2_app; [apply typed_unsigned, F|].
    constructor; [|constructor]. split; [|discriminate]. apply Typed_signature; [exact H3|]. rewrite H4. apply HW; [apply hexEncode_IsHex|exact L].
  Qed.
End Sealed.

Lemma find_unsigned name l h : findPipeline name (filter (fun r => negb (isSignature r)) l ++ [RSignature h]) = findPipeline name l.
Proof.
  induction l as [|r l IH]; [reflexivity|]. destruct r; cbn [filter isSignature negb app findPipeline]; try exact IH.
  destruct (_ || _); [reflexivity|exact IH].
Qed.
Lemma lint_unsigned trusted l h : si_hmac h <> "" -> Forall (fun r => isSignature r = true -> Lint r trusted = Ok tt) l ->
  oiter (fun r => Lint r trusted) (filter (fun r => negb (isSignature r)) l ++ [RSignature h]) = oiter (fun r => Lint r trusted) l.
Proof.
  intros N F. induction F as [|r l H F IH].
  - cbn. unfold validateSignature. destruct (si_hmac h); [congruence|reflexivity].
  - cbn [filter]. destruct (isSignature r) eqn:S; cbn [negb].
    + cbn [oiter]. rewrite (H eq_refl). exact IH.
    + cbn [app oiter]. rewrite IH. reflexivity.
Qed.

Lemma not_signature l (P : Resource -> Prop) : Forall (fun r => ~ NotSignature r -> P r) l -> Forall (fun r => isSignature r = true -> P r) l.
Proof. apply Forall_impl. intros r H E. apply H. destruct r; try discriminate. intros []. Qed.

Section Commands.
  Variable mc : Machine.
  Hypothesis HS : ReadsSignature (mc_decoder mc).
  Hypothesis HW : ReadsAsWritten (mc_decoder mc).
  Hypothesis HM : Mac32 (mc_mac mc).
  Variables (key f : string) (fs : Files) (content : string) (m : Manifest).
  Hypothesis Hk : (32 <= slen key)%N.
  Hypothesis Hw : mc_writable mc f = true.
  Hypothesis Hf : fs f = Some content.
  Hypothesis Hc : NoCRCR content.
  Hypothesis Hp : parse (mc_decoder mc) content = Ok m.
  Let signed := run mc (ASign true key f) fs.
  Lemma signed_file : exists out h, x_status signed = 0%Z /\ x_files signed f = Some out /\ (forall g, g <> f -> x_files signed g = fs g) /\
    h <> "" /\ parse (mc_decoder mc) out = Ok (withSignature h m).
  Proof using HS HW HM Hk Hw Hf Hc Hp.
    destruct (proj1 (parse_ok _ _ _) Hp) as (raws & Hr & _). destruct (long_key_ok (mc_decoder mc) (mc_mac mc) content key Hk raws Hr) as (_ & (out & HU) & _).
    destruct (sealed_resources _ _ HS HW HM content key out m Hc HU) as (h & _ & _ & L & P); [exact Hp|].
    exists out, h. pose proof (sign_save mc key f fs content Hf) as Q. cbv zeta in Q. rewrite HU, Hw in Q. fold signed in Q. destruct Q as ((Q1 & Q2) & _ & Q3).
    split; [exact Q3|]. split; [exact Q1|]. split; [exact Q2|]. split; [intros ->; discriminate L|exact P].
  Qed.
  Theorem sealed_compile name clone fl :
    let x := run mc (ACompile name clone fl f) fs in
    let y := run mc (ACompile name clone fl f) (x_files signed) in
    x_status signed = 0%Z /\ x_status y = x_status x /\ x_stdout y = x_stdout x /\ x_stderr y = x_stderr x.
  Proof using HS HW HM Hk Hw Hf Hc Hp.
    cbv zeta. destruct signed_file as (out & h & S & F & _ & _ & P). split; [exact S|].
    unfold run, main, runCompile. cbn [source parseArgs]. rewrite Hf, F, Hp, P. cbn [obind compileName compileFlags cloneFlag].
    unfold withSignature. cbn [mf_resources]. rewrite find_unsigned.
    destruct (findPipeline _ _) as [p|]; cbn [x_status x_stdout x_stderr]; [|auto].
    destruct (registryAuths _) as [auths| |]; cbn [obind x_status x_stdout x_stderr]; auto.
    destruct (Compile _ _ _ _ _ _ _ _ _ _) as [[c n]| |]; cbn [obind x_status x_stdout x_stderr d_stdout d_stderr]; auto.
  Qed.
  Theorem sealed_lint trusted : Forall (fun r => ~ NotSignature r -> Lint r trusted = Ok tt) (mf_resources m) ->
    let x := run mc (ALint trusted f) fs in
    let y := run mc (ALint trusted f) (x_files signed) in
    x_status y = x_status x /\ x_stdout y = x_stdout x /\ x_stderr y = x_stderr x.
  Proof using HS HW HM Hk Hw Hf Hc Hp.
    intro A. apply not_signature in A. cbv zeta. destruct signed_file as (out & h & S & F & _ & N & P).
    unfold run, main, runLint. cbn [source parseArgs]. rewrite Hf, F, Hp, P. cbn [obind lintPriv].
    unfold withSignature. cbn [mf_resources]. rewrite lint_unsigned; [|exact N|exact A].
    destruct (oiter _ _) as [[]| |]; cbn [obind x_status x_stdout x_stderr d_stdout d_stderr]; auto.
  Qed.
  Theorem sealed_lint_iff trusted :
    x_status (run mc (ALint trusted f) (x_files signed)) = 0%Z <->
    Forall (fun r => NotSignature r -> Lint r trusted = Ok tt) (mf_resources m).
  Proof using HS HW HM Hk Hw Hf Hc Hp.
    destruct signed_file as (out & h & S & F & _ & N & P). rewrite (lint_status mc trusted f _ out _ F P). unfold withSignature. cbn [mf_resources].
    rewrite Forall_app, !Forall_forall. split.
    - intros [A _] r I Hs. apply A. apply filter_In. split; [exact I|]. destruct r; try reflexivity. destruct Hs.
    - intro A. split.
      + intros r I. apply filter_In in I as [I Hs]. apply A; [exact I|]. destruct r; try exact Logic.I. discriminate.
      + intros r [<-|[]]. cbn. unfold validateSignature. cbn [si_hmac]. destruct h; [congruence|reflexivity].
  Qed.
End Commands.

(** ** Lines that do not fit *)
Theorem sealed_long D mac a long b key :
  (a = "" \/ exists a', a = a' +++ nl)%string -> ~ In NL (list_ascii_of_string long) -> (65536 <= slen long)%N ->
  (b = "" \/ exists b', b = nl +++ b')%string ->
  SignUpdate D mac (a +++ long +++ b) key = SignUpdate D mac a key.
Proof.
  intros A N L B. unfold SignUpdate, parseRawString. rewrite (long_line_dropped a long b A N L B). reflexivity.
Qed.
Lemma parse_long D a long b :
  (a = "" \/ exists a', a = a' +++ nl)%string -> ~ In NL (list_ascii_of_string long) -> (65536 <= slen long)%N ->
  (b = "" \/ exists b', b = nl +++ b')%string -> parse D (a +++ long +++ b) = parse D a.
Proof. intros A N L B. unfold parse, parseRawString. rewrite (long_line_dropped a long b A N L B). reflexivity. Qed.
Theorem long_saved mc f fs fs' a long b :
  (a = "" \/ exists a', a = a' +++ nl)%string -> ~ In NL (list_ascii_of_string long) -> (65536 <= slen long)%N ->
  (b = "" \/ exists b', b = nl +++ b')%string -> fs f = Some (a +++ long +++ b)%string -> fs' f = Some a ->
  forall c, (exists key, c = ASign true key f) \/ (exists priv, c = AFormat priv true f) ->
  let x := run mc c fs in let y := run mc c fs' in
  x_status x = x_status y /\ (x_status x = 0%Z -> x_files x f = x_files y f).
Proof.
  intros A N L B Hf Hf' c [[key ->]|[priv ->]]; cbv zeta.
  - pose proof (sign_save mc key f fs _ Hf) as X. pose proof (sign_save mc key f fs' _ Hf') as Y. cbv zeta in X, Y. rewrite (sealed_long _ _ a long b key A N L B) in X.
    destruct (SignUpdate _ _ a key) as [out|e|]; [|destruct X as (_ & _ & X), Y as (_ & _ & Y); rewrite X, Y; split; [reflexivity|discriminate]..].
    destruct (mc_writable mc f); [|destruct X as (_ & X), Y as (_ & Y); rewrite X, Y; split; [reflexivity|discriminate]].
    destruct X as ((X1 & _) & _ & X2), Y as ((Y1 & _) & _ & Y2). rewrite X1, X2, Y1, Y2. auto.
  - pose proof (format_result mc priv true f fs _ Hf) as X. pose proof (format_result mc priv true f fs' _ Hf') as Y. cbv zeta in X, Y. rewrite (parse_long _ a long b A N L B) in X.
    destruct (parse _ a) as [m|e|]; [|destruct X as (_ & _ & X), Y as (_ & _ & Y); rewrite X, Y; split; [reflexivity|discriminate]..].
    destruct (formatted mc m) as [out|e|]; [|destruct X as (_ & _ & X), Y as (_ & _ & Y); rewrite X, Y; split; [reflexivity|discriminate]..].
    destruct (mc_writable mc f); [|destruct X as (_ & X), Y as (_ & Y); rewrite X, Y; split; [reflexivity|discriminate]].
    destruct X as ((X1 & _) & _ & _ & X2), Y as ((Y1 & _) & _ & _ & Y2). rewrite X1, X2, Y1, Y2. auto.
Qed.
Lemma long_exists : exists long, ~ In NL (list_ascii_of_string long) /\ (65536 <= slen long)%N.
Proof.
  assert (exists n, N.of_nat n = 65536%N) as [n Hn0] by (exists (N.to_nat 65536); apply N2Nat.id).
  exists (repeatc n "#"%char). split; [|rewrite repeatc_slen, Hn0; reflexivity].
  intro H. apply repeatc_In in H. discriminate.
Qed.
