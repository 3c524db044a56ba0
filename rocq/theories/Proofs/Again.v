(** * Again.v: converting what was converted. *)
From Verif Require Import Model.Go Model.Types Model.RawParse Model.Decode Model.Pretty Model.Gitlab Model.Bitbucket Model.Convert Model.Legacy Model.Main
  Spec.ConverterSpec Spec.CompileSpec Spec.MainSpec Spec.AgainSpec Proofs.ConverterFacts Proofs.MainFacts Proofs.MarginLines.

Lemma obind_ok {A B} (o : outcome A) (f : A -> outcome B) b : obind o f = Ok b -> exists a, o = Ok a /\ f a = Ok b.
Proof. destruct o as [a| |]; cbn; intro H; try discriminate. eauto. Qed.

Section Again.
  Variable isPrintHigh : N -> bool.
  Variable formatFloat sprintFloat : float64 -> string.
  Variable bytesSize : Z -> string.
  Hypothesis HF : OneLine formatFloat.
  Notation print := (Pretty.print isPrintHigh formatFloat sprintFloat bytesSize).
  Variable bitbucket : string -> string -> outcome string.
  Variable gitlab : string -> outcome string.
  Variable legacy : string -> string -> outcome string.
  Definition Printed (out : string) : Prop := exists m, print m = Ok out.
  Hypothesis HB : forall d ref out, bitbucket d ref = Ok out -> Printed out.
  Hypothesis HG : forall d out, gitlab d = Ok out -> Printed out.
  Hypothesis HL : forall d url out, legacy d url = Ok out -> Printed out.
  Lemma printed_left out m : Printed out -> OwnName (me_filename m) -> ConvertFile bitbucket gitlab legacy out m = Ok out.
  Proof using HF.
    intros (mf & P) [A B]. apply convert_unchanged; [exact A|exact B|]. exact (format_not_legacy _ _ _ _ HF mf out P).
  Qed.
  Lemma convert_again d m out m' : ConvertFile bitbucket gitlab legacy d m = Ok out -> OwnName (me_filename m') ->
    ConvertFile bitbucket gitlab legacy out m' = Ok out.
  Proof using HF HB HG HL.
    intros H O. unfold ConvertFile in H. destruct (String.eqb_spec (me_filename m) "bitbucket-pipelines.yml") as [_|N1].
    { apply printed_left; [exact (HB _ _ _ H)|exact O]. }
    destruct (String.eqb_spec (me_filename m) ".gitlab-ci.yml") as [_|N2].
    { apply printed_left; [exact (HG _ _ H)|exact O]. }
    destruct (legacyMatch d) eqn:L.
    { apply printed_left; [exact (HL _ _ _ H)|exact O]. }
    injection H as <-. destruct O as [A B]. apply convert_unchanged; [exact A|exact B|]. intro P. apply legacyMatch_lines in P. congruence.
  Qed.
End Again.

Lemma bitbucket_printed pathMatch ordT ordB ordS read print d ref out :
  bitbucketConvert pathMatch ordT ordB ordS read print d ref = Ok out -> exists m, print m = Ok out.
Proof.
  unfold bitbucketConvert. destruct (read d) as [n|]; [|discriminate]. destruct (decBConfig n) as [c|]; [|discriminate].
  intro H. apply obind_ok in H as (m & _ & H). eauto.
Qed.
Lemma gitlab_printed available ord read print d out : gitlabConvert available ord read print d = Ok out -> exists m, print m = Ok out.
Proof.
  unfold gitlabConvert. destruct (read d) as [n|]; [|discriminate]. destruct (decGConfig n) as [c|]; [|discriminate].
  intro H. apply obind_ok in H as (m & _ & H). eauto.
Qed.
Lemma legacy_printed getenv parseURL isPrintHigh marshal unmarshal ordM ordA formatFloat formatKey read expand print d url out :
  Legacy.Convert getenv parseURL isPrintHigh marshal unmarshal ordM ordA formatFloat formatKey read expand print d url = Ok out -> exists m, print m = Ok out.
Proof.
  unfold Legacy.Convert. destruct (read _) as [n|]; [|discriminate]. destruct (decLConfig _ _ n) as [c|]; [|discriminate].
  intro H. apply obind_ok in H as (m & _ & H). eauto.
Qed.

Theorem twice isPrintHigh formatFloat sprintFloat bytesSize : OneLine formatFloat ->
  let print := Pretty.print isPrintHigh formatFloat sprintFloat bytesSize in
  forall pathMatch ordT ordB ordS readB available ordG readG getenv parseURL isPrintHigh' marshal unmarshal ordM ordA formatFloat' formatKey readL expand,
  let convert := ConvertFile (bitbucketConvert pathMatch ordT ordB ordS readB print) (gitlabConvert available ordG readG print)
    (Legacy.Convert getenv parseURL isPrintHigh' marshal unmarshal ordM ordA formatFloat' formatKey readL expand print) in
  forall d m out m', convert d m = Ok out -> OwnName (me_filename m') -> convert out m' = Ok out.
Proof.
  intros HF print pathMatch ordT ordB ordS readB available ordG readG getenv parseURL iph marshal unmarshal ordM ordA ff formatKey readL expand convert d m out m' H O.
  apply (convert_again isPrintHigh formatFloat sprintFloat bytesSize HF) with (d := d) (m := m); [| | |exact H|exact O]; clear;
    intros; [eapply bitbucket_printed|eapply gitlab_printed|eapply legacy_printed]; eassumption.
Qed.

Lemma converted_again mc : OneLine (w_formatFloat (mc_world mc)) -> Converters mc ->
  forall f addr d out f' addr', converted mc f addr d = Ok out -> OwnName f' -> converted mc f' addr' out = Ok out.
Proof.
  intros HF ((pm & oT & oB & oS & rB & EB) & (av & o & rG & EG) & ge & pu & ip & ma & um & oM & oA & ff & fk & rL & ex & EL) f addr d out f' addr' H O.
  unfold converted in *.
  refine (convert_again (w_isPrintHigh (mc_world mc)) (w_formatFloat (mc_world mc)) (mc_sprintFloat mc) (mc_bytesSize mc) HF _ _ _ _ _ _ d _ out {| me_filename := f'; me_url := addr'; me_ref := "" |} H O).
  - rewrite EB. intros x ref y. apply bitbucket_printed.
  - rewrite EG. intros x y. apply gitlab_printed.
  - rewrite EL. intros x url y. apply legacy_printed.
Qed.
Theorem commands_again mc : OneLine (w_formatFloat (mc_world mc)) -> Converters mc ->
  forall save addr f fs content, fs f = Some content ->
  let x := run mc (AConvert save addr f) fs in x_status x = 0%Z ->
  forall save' addr' f' fs', fs' f' = Some (x_stderr x) -> OwnName f' ->
  let y := run mc (AConvert save' addr' f') fs' in x_status y = 0%Z /\ x_stderr y = x_stderr x.
Proof.
  intros HF HC save addr f fs content Hf x Hx save' addr' f' fs' Hf' O y.
  pose proof (convert_prints mc save addr f fs content Hf) as Q. fold x in Q.
  destruct (converted mc f addr content) as [out|e|] eqn:E; [|destruct Q as [_ Q]; congruence|congruence].
  destruct Q as [Q _]. rewrite Q in *. pose proof (convert_prints mc save' addr' f' fs' out Hf') as R. fold y in R.
  rewrite (converted_again mc HF HC f addr content out f' addr' E O) in R. destruct R as [R1 R2]. split; [exact R2|congruence].
Qed.
Theorem format_then_convert mc : OneLine (w_formatFloat (mc_world mc)) ->
  forall priv f fs, (exists content, fs f = Some content) ->
  let x := run mc (AFormat priv false f) fs in x_status x = 0%Z ->
  forall save' addr' f' fs', fs' f' = Some (x_stderr x) -> OwnName f' ->
  let y := run mc (AConvert save' addr' f') fs' in x_status y = 0%Z /\ x_stderr y = x_stderr x.
Proof.
  intros HF priv f fs (content & Hf) x Hx save' addr' f' fs' Hf' O y.
  assert (P : exists m, formatted mc m = Ok (x_stderr x)).
  { revert Hx. unfold x, run, main, runFormat. cbn [source parseArgs]. rewrite Hf. destruct (parse _ content) as [m| |]; cbn [obind]; try discriminate.
    unfold formatted. destruct (Pretty.print _ _ _ _ m) as [b| |] eqn:E; cbn [obind formatSave]; try discriminate. intros _. exists m. exact E. }
  pose proof (convert_prints mc save' addr' f' fs' _ Hf') as R. fold y in R. destruct P as (m & P).
  unfold converted in R. rewrite (convert_unchanged _ _ _ (x_stderr x) {| me_filename := f'; me_url := addr'; me_ref := "" |} (proj1 O) (proj2 O)) in R.
  - destruct R as [R1 R2]. auto.
  - exact (format_not_legacy _ _ _ _ HF m _ P).
Qed.
Theorem saved_then_convert mc : OneLine (w_formatFloat (mc_world mc)) ->
  forall priv f fs, (exists content, fs f = Some content) -> OwnName f ->
  let x := run mc (AFormat priv true f) fs in x_status x = 0%Z ->
  forall save' addr', let y := run mc (AConvert save' addr' f) (x_files x) in
  x_status y = 0%Z /\ x_files x f = Some (x_stderr y) /\ x_files y f = x_files x f.
Proof.
  intros HF priv f fs (content & Hf) O x Hx save' addr' y.
  assert (P : exists m b, formatted mc m = Ok b /\ x_files x f = Some b).
  { revert Hx. unfold x, run, main, runFormat. cbn [source parseArgs]. rewrite Hf. destruct (parse _ content) as [m| |]; cbn [obind]; try discriminate.
    unfold formatted. destruct (Pretty.print _ _ _ _ m) as [b| |] eqn:E; cbn [obind formatSave formatFile]; try discriminate. unfold writeFile.
    destruct (mc_writable mc f); [|discriminate]. intros _. exists m, b. split; [exact E|]. cbn. unfold writeTo. rewrite String.eqb_refl. reflexivity. }
  destruct P as (m & b & P & Hb). pose proof (convert_prints mc save' addr' f (x_files x) _ Hb) as R. fold y in R.
  unfold converted in R. rewrite (convert_unchanged _ _ _ b {| me_filename := f; me_url := addr'; me_ref := "" |} (proj1 O) (proj2 O)) in R.
  - destruct R as [R1 R2]. split; [exact R2|]. split; [congruence|]. unfold y. exact (proj1 (convert_untouched mc save' addr' f (x_files x)) f).
  - exact (format_not_legacy _ _ _ _ HF m _ P).
Qed.
