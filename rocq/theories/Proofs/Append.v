(** * Append.v: texts put one after another. *)
From Coq Require Import Lia.
From Verif Require Import Model.Go Model.Types Model.RawParse Model.Lint Model.Signer Model.Pretty Model.Compiler Model.Main
  Spec.ParseSpec Spec.SignSpec Spec.CompileSpec Spec.MainSpec Spec.AppendSpec
  Proofs.GoFacts Proofs.ParseFacts Proofs.SignFacts Proofs.MainFacts Proofs.MainCompile Proofs.PrettyText Proofs.PrettyMore Proofs.PrettyClaims Proofs.ConvertLint.

Lemma same_docs s t : raw_docs s = raw_docs t -> SameDocuments s t.
Proof. intros E D. unfold parseRawString. rewrite E. reflexivity. Qed.
Lemma same_parse s t D : SameDocuments s t -> parse D s = parse D t.
Proof. intro E. unfold parse. rewrite E. reflexivity. Qed.

(** ** After the end mark *)
Lemma dot_mark r : isTerminator (dropCR ("..." +++ r)) = true.
Proof. apply isTerminator_spec. destruct r as [|c r]; [exists ""; reflexivity|exists (dropCR (String c r)); reflexivity]. Qed.
Lemma dash_mark r : isSeparator (dropCR ("---" +++ r)) = true.
Proof. apply isSeparator_spec. destruct r as [|c r]; [exists ""; reflexivity|exists (dropCR (String c r)); reflexivity]. Qed.
Lemma loop_end t u v : isTerminator (dropCR t) = true -> forall la docs cur,
  raw_loop (map dropCR (fitting (la ++ t :: u))) docs cur = raw_loop (map dropCR (fitting (la ++ t :: v))) docs cur.
Proof.
  intro T. assert (S : isSeparator (dropCR t) = false) by (apply term_not_sep, isTerminator_spec, T).
  induction la as [|l la IH]; intros docs cur; cbn [app fitting].
  - destruct (N.ltb _ _); [|reflexivity]. cbn [map raw_loop]. rewrite S, T. reflexivity.
  - destruct (N.ltb _ _); [|reflexivity]. cbn [map raw_loop]. destruct (isSeparator (dropCR l)); [apply IH|]. destruct (isTerminator (dropCR l)); [reflexivity|apply IH].
Qed.
Lemma cons_line l s : ~ In NL (list_ascii_of_string l) -> forall ls, Lines s ls -> Lines (l +++ nl +++ s) (l :: ls).
Proof. intros H ls L. constructor; assumption. Qed.
Theorem after_end s x : Ended s -> SameDocuments (s +++ x) s.
Proof.
  intros (a & r & b & A & N & ->). apply same_docs. unfold raw_docs.
  destruct (Lines_exists a) as (la & La). destruct (Lines_exists b) as (lb & Lb). destruct (Lines_exists (b +++ x)) as (lx & Lx).
  assert (N' : ~ In NL (list_ascii_of_string ("..." +++ r))) by (cbn [String.append list_ascii_of_string]; intros [|[|[|I]]]; try discriminate; apply N, I).
  pose proof (Lines_app _ _ _ _ La A (cons_line _ _ N' _ Lb)) as E. pose proof (Lines_app _ _ _ _ La A (cons_line _ _ N' _ Lx)) as E'.
  rewrite !sapp_assoc in E, E'. rewrite (scan_lines_Lines _ _ E). rewrite !sapp_assoc, (scan_lines_Lines _ _ E'). apply loop_end, dot_mark.
Qed.

(** ** Two texts *)
Lemma append_last_app p l d : l <> [] -> append_last (p ++ l) d = p ++ append_last l d.
Proof.
  intro H. induction p as [|x p IH]; [reflexivity|]. cbn [app append_last]. rewrite <- IH. destruct (p ++ l) eqn:E; [|reflexivity].
  destruct p; [cbn in E; congruence|discriminate].
Qed.
Lemma append_last_some l d : l <> [] -> append_last l d <> [].
Proof. destruct l as [|x [|y l]]; cbn; congruence. Qed.
Lemma loop_prefix ls : forall p docs cur, docs <> [] \/ cur = false -> raw_loop ls (p ++ docs) cur = p ++ raw_loop ls docs cur.
Proof.
  induction ls as [|l ls IH]; intros p docs cur H; [reflexivity|]. cbn [raw_loop]. destruct (isSeparator l).
  - rewrite <- app_assoc. apply IH. left. destruct docs; discriminate.
  - assert (E : (if cur then p ++ docs else (p ++ docs) ++ [""]) = p ++ (if cur then docs else docs ++ [""])) by (destruct cur; [reflexivity|rewrite app_assoc; reflexivity]).
    assert (N : (if cur then docs else docs ++ [""]) <> []) by (destruct cur; [destruct H; [assumption|discriminate]|destruct docs; discriminate]).
    rewrite E. destruct (isTerminator l); [reflexivity|]. rewrite !append_last_app by auto using append_last_some. apply IH. left. auto using append_last_some.
Qed.
Lemma loop_app la : Forall (fun l => isTerminator l = false) la -> forall lb docs cur, hd_error lb = None \/ (exists l, hd_error lb = Some l /\ isSeparator l = true) ->
  raw_loop (la ++ lb) docs cur = raw_loop la docs cur ++ raw_loop lb [] false.
Proof.
  induction 1 as [|l la T F IH]; intros lb docs cur H.
  - cbn [app]. destruct lb as [|l lb]; [cbn; rewrite app_nil_r; reflexivity|]. destruct H as [H|(l' & E & S)]; [discriminate|]. injection E as ->.
    cbn [raw_loop]. rewrite S. rewrite loop_prefix; [reflexivity|]. left. discriminate.
  - cbn [app raw_loop]. destruct (isSeparator l); [apply IH, H|]. rewrite T. apply IH, H.
Qed.
Lemma chomp_term l : ~ Starts "..." l -> isTerminator (dropCR l) = false.
Proof.
  intro H. destruct (isTerminator (dropCR l)) eqn:E; [|reflexivity]. exfalso. apply H. apply isTerminator_spec in E as [r E].
  destruct (proj2 (Chomp_dropCR l (dropCR l)) eq_refl) as [m|m N].
  - rewrite E. exists (r +++ cr)%string. rewrite sapp_assoc. reflexivity.
  - exists r. exact E.
Qed.
Lemma open_docs a la : OpenText a -> Lines a la -> scan_lines a = map dropCR la /\ Forall (fun l => isTerminator l = false) (map dropCR la).
Proof.
  intros [_ O] L. specialize (O la L). rewrite (scan_lines_Lines _ _ L), fitting_short; [|eapply Forall_impl; [|exact O]; cbn; tauto].
  split; [reflexivity|]. apply Forall_map. eapply Forall_impl; [|exact O]. cbn. intros l [_ H]. apply chomp_term, H.
Qed.
Lemma fitting_app a b : Forall Short a -> fitting (a ++ b) = a ++ fitting b.
Proof. induction 1 as [|l a H _ IH]; [reflexivity|]. cbn [app fitting]. unfold Short in H. apply N.ltb_lt in H. unfold maxToken. rewrite H, IH. reflexivity. Qed.
Lemma docs_app a b : OpenText a -> (b = "" \/ Starts "---" b) -> raw_docs (a +++ b) = raw_docs a ++ raw_docs b.
Proof.
  intros O B. destruct (Lines_exists a) as (la & La). destruct (Lines_exists b) as (lb & Lb).
  destruct (open_docs a la O La) as [E T]. pose proof (proj2 O la La) as Sh. unfold raw_docs. rewrite E.
  rewrite (scan_lines_Lines _ _ (Lines_app _ _ _ _ La (proj1 O) Lb)), fitting_app by (eapply Forall_impl; [|exact Sh]; cbn; tauto).
  rewrite map_app, (scan_lines_Lines _ _ Lb). apply loop_app; [exact T|]. destruct B as [->|[r ->]].
  - inversion Lb as [|? N|? ? ? ? ? Q]; subst; [left; reflexivity|congruence|destruct l; discriminate].
  - inversion Lb as [|l N1 N2 E1|l s ls N Ls E1]; subst.
    + cbn [fitting]. destruct (N.ltb _ _); [|left; reflexivity]. right. eexists. split; [reflexivity|]. apply dash_mark.
    + cbn [fitting]. destruct (N.ltb _ _); [|left; reflexivity]. right. eexists. split; [reflexivity|].
      apply isSeparator_spec. destruct (proj2 (Chomp_dropCR l (dropCR l)) eq_refl) as [m|m Nm].
      * destruct m as [|c [|d [|e m]]]; cbn in E1; try discriminate. injection E1 as -> -> -> _. exists m. reflexivity.
      * destruct m as [|c [|d [|e m]]]; cbn in E1; try discriminate. injection E1 as -> -> -> _. exists m. reflexivity.
Qed.
Theorem joined_raw D a b : OpenText a -> (b = "" \/ Starts "---" b) -> forall raws,
  parseRawString D (a +++ b) = Ok raws <-> exists ra rb, parseRawString D a = Ok ra /\ parseRawString D b = Ok rb /\ raws = ra ++ rb.
Proof.
  intros O B raws. unfold parseRawString. rewrite (docs_app a b O B), otraverse_ok. setoid_rewrite otraverse_ok. split.
  - intro F. apply Forall2_app_inv_l in F as (ra & rb & F & G & ->). exists ra, rb. auto.
  - intros (ra & rb & F & G & ->). apply Forall2_app; assumption.
Qed.
Theorem joined D a b : OpenText a -> (b = "" \/ Starts "---" b) -> forall m,
  parse D (a +++ b) = Ok m <-> exists ma mb, parse D a = Ok ma /\ parse D b = Ok mb /\ mf_resources m = mf_resources ma ++ mf_resources mb.
Proof.
  intros O B m. rewrite parse_ok. setoid_rewrite parse_ok. setoid_rewrite (joined_raw D a b O B). split.
  - intros (raws & (ra & rb & A1 & A2 & ->) & F). apply Forall2_app_inv_l in F as (l & l' & F & G & E).
    exists {| mf_resources := l |}, {| mf_resources := l' |}. split; [exists ra; auto|]. split; [exists rb; auto|exact E].
  - intros (ma & mb & (ra & A1 & F) & (rb & A2 & G) & E). exists (ra ++ rb). split; [exists ra, rb; auto|]. rewrite E. apply Forall2_app; assumption.
Qed.
(** The first separator may be left out. *)
Theorem start_mark r b : ~ In NL (list_ascii_of_string r) -> (slen r < 65533)%N ->
  (exists l ls, Lines b (l :: ls) /\ Short l /\ Plain l) -> SameDocuments ("---" +++ r +++ nl +++ b) b.
Proof.
  intros N L (l & ls & Lb & Sh & P). apply same_docs. unfold raw_docs.
  assert (N' : ~ In NL (list_ascii_of_string ("---" +++ r))) by (cbn [String.append list_ascii_of_string]; intros [|[|[|I]]]; try discriminate; apply N, I).
  pose proof (cons_line _ _ N' _ Lb) as E. rewrite sapp_assoc in E. rewrite (scan_lines_Lines _ _ E), (scan_lines_Lines _ _ Lb).
  assert (S1 : (slen ("---" +++ r) <? maxToken)%N = true) by (apply N.ltb_lt; rewrite slen_app; unfold maxToken; change (slen "---") with 3%N; lia).
  assert (S2 : (slen l <? maxToken)%N = true) by (apply N.ltb_lt; exact Sh).
  assert (S3 : isSeparator (dropCR ("---" +++ r)) = true) by apply dash_mark.
  assert (S4 : isSeparator (dropCR l) = false).
  { destruct P as [P _]. destruct (isSeparator (dropCR l)) eqn:Q; [|reflexivity]. exfalso. apply P. apply isSeparator_spec in Q as [q Q].
    destruct (proj2 (Chomp_dropCR l (dropCR l)) eq_refl) as [m|m Nm].
    - rewrite Q. exists (q +++ cr)%string. rewrite sapp_assoc. reflexivity.
    - exists q. exact Q. }
  assert (S5 : isTerminator (dropCR l) = false) by (apply chomp_term, P).
  cbn [fitting]. rewrite S1, S2. cbn [map raw_loop]. rewrite S3, S4, S5. reflexivity.
Qed.

(** ** The commands *)
Local Ltac quiet := cbn; (do 3 (split; [reflexivity|])); left; split; intro; reflexivity.
Theorem same_effect mc c fs fs' s t : ~ Converts c -> fs (source c) = Some s -> fs' (source c) = Some t -> SameDocuments s t -> SameEffect mc c fs fs'.
Proof.
  intros NC Hs Ht E. unfold SameEffect, Untouched, OnlyWritten. pose proof (same_parse s t (mc_decoder mc) E) as P. specialize (E (mc_decoder mc)).
  destruct c as [p sv f|sv u f|p f|sv k f|k f|n cl fl f]; cbn [source] in *; [|destruct NC; exact I|..];
    unfold run, main; cbn [source]; rewrite Hs, Ht; cbn [parseArgs].
  - unfold runFormat. rewrite P. destruct (parse _ t) as [m| |]; cbn [obind]; [|quiet..]. destruct (print _ _ _ _ m) as [o| |]; cbn [obind formatSave formatFile]; [|quiet..].
    destruct sv; [|quiet]. unfold writeFile. destruct (mc_writable mc f); [|quiet]. cbn [x_status x_stdout x_stderr x_files d_files d_stdout d_stderr].
    do 3 (split; [reflexivity|]). right. exists o. rewrite !write_same. split; (split; [reflexivity|intros; apply write_other; assumption]).
  - unfold runLint. rewrite P. destruct (parse _ t) as [m| |]; cbn [obind]; [|quiet..]. destruct (oiter _ _) as [[]| |]; quiet.
  - unfold runSign, SignUpdate, Sign. rewrite E. cbn [signSave signKey signFile]. destruct (parseRawString _ t) as [r| |]; [|destruct sv; quiet..]. cbn [obind].
    destruct (sign _ r k) as [h| |]; [|destruct sv; quiet..]. cbn [obind]. destruct sv; [|quiet]. unfold writeFile. destruct (mc_writable mc f); [|quiet].
    cbn [x_status x_stdout x_stderr x_files d_files d_stdout d_stderr]. do 3 (split; [reflexivity|]). right. eexists. rewrite !write_same. split; (split; [reflexivity|intros; apply write_other; assumption]).
  - unfold runVerify, Verify. rewrite E. destruct (parseRawString _ t) as [r| |]; cbn [obind]; [|quiet..].
    match goal with |- context [obind ?v] => destruct v as [[]| |] end; quiet.
  - unfold runCompile. rewrite P. destruct (parse _ t) as [m| |]; cbn [obind]; [|quiet..]. destruct (findPipeline _ _) as [q|]; [|quiet].
    destruct (registryAuths _) as [au| |]; cbn [obind]; [|quiet..]. destruct (Compile _ _ _ _ _ _ _ _ _ _) as [[z1 z2]| |]; quiet.
Qed.

(** ** What the program writes has an end mark *)
Lemma whole_concats texts : Forall WholeLines texts -> WholeLines (concats texts).
Proof.
  induction 1 as [|t ts H _ IH]; [left; reflexivity|]. cbn [concats]. destruct IH as [->|(u & ->)].
  - rewrite sapp_nil_r. exact H.
  - right. exists (t +++ u)%string. rewrite sapp_assoc. reflexivity.
Qed.
Theorem formatted_ended iph ff sf bs m out : print iph ff sf bs m = Ok out -> Ended out.
Proof.
  destruct m as [rs]. rewrite format_documents. intros (texts & F & ->). exists (concats texts), "", "". split; [|split; [intros []|reflexivity]].
  apply whole_concats. induction F as [|r t rs ts H F IH]; constructor; [|exact IH]. apply single_text in H. destruct r; try (destruct H as (u & v & _ & ->); right; exists v; reflexivity).
  left. exact H.
Qed.
Theorem signed_ended D mac data key out : SignUpdate D mac data key = Ok out -> Ended out.
Proof.
  unfold SignUpdate. rewrite obind_ok. intros (res & _ & H). rewrite obind_ok in H. destruct H as (h & _ & H). injection H as <-.
  exists (write_docs res +++ "---" +++ nl +++ "kind: signature" +++ nl +++ "hmac: " +++ hexEncode h +++ nl +++ nl)%string, "", "".
  split; [right; exists (write_docs res +++ "---" +++ nl +++ "kind: signature" +++ nl +++ "hmac: " +++ hexEncode h +++ nl)%string; rewrite !sapp_assoc; reflexivity|].
  split; [intros []|]. unfold write_sig. rewrite !sapp_assoc. reflexivity.
Qed.

(** ** Joined files *)
Section Joined.
  Variables (mc : Machine) (a b f : string) (fsa fsb fs : Files).
  Hypothesis O : OpenText a.
  Hypothesis B : b = "" \/ Starts "---" b.
  Hypothesis Ha : fsa f = Some a.
  Hypothesis Hb : fsb f = Some b.
  Hypothesis Hf : fs f = Some (a +++ b)%string.
  Theorem joined_lint trusted : x_status (run mc (ALint trusted f) fs) = 0%Z <->
    x_status (run mc (ALint trusted f) fsa) = 0%Z /\ x_status (run mc (ALint trusted f) fsb) = 0%Z.
  Proof using O B Ha Hb Hf.
    rewrite (proj2 (proj2 (lint_result mc trusted f fs _ Hf))), (proj2 (proj2 (lint_result mc trusted f fsa _ Ha))), (proj2 (proj2 (lint_result mc trusted f fsb _ Hb))). split.
    - intros (m & P & F). apply (joined _ a b O B) in P as (ma & mb & Pa & Pb & E). rewrite E in F. apply Forall_app in F as [F G]. split; [exists ma|exists mb]; auto.
    - intros [(ma & Pa & F) (mb & Pb & G)]. exists {| mf_resources := mf_resources ma ++ mf_resources mb |}.
      split; [apply (joined _ a b O B); exists ma, mb; auto|]. apply Forall_app. auto.
  Qed.
  Lemma find_app name l l' : findPipeline name (l ++ l') = match findPipeline name l with Some p => Some p | None => findPipeline name l' end.
  Proof. induction l as [|r l IH]; [reflexivity|]. destruct r; cbn [app findPipeline]; try exact IH. destruct (_ || _); [reflexivity|exact IH]. Qed.
  Theorem joined_compile ma mb : parse (mc_decoder mc) a = Ok ma -> parse (mc_decoder mc) b = Ok mb -> forall name clone fl,
    let x := run mc (ACompile name clone fl f) fs in
    let xa := run mc (ACompile name clone fl f) fsa in
    let xb := run mc (ACompile name clone fl f) fsb in
    ((exists p, MainSpec.Selected name (mf_resources ma) p) -> x_status x = x_status xa /\ x_stdout x = x_stdout xa /\ x_stderr x = x_stderr xa) /\
    (~ (exists p, MainSpec.Selected name (mf_resources ma) p) -> x_status x = x_status xb /\ x_stdout x = x_stdout xb /\ x_stderr x = x_stderr xb).
  Proof using O B Ha Hb Hf.
    intros Pa Pb name clone fl. cbv zeta.
    assert (P : parse (mc_decoder mc) (a +++ b) = Ok {| mf_resources := mf_resources ma ++ mf_resources mb |}) by (apply (joined _ a b O B); exists ma, mb; auto).
    unfold run, main, runCompile. cbn [source parseArgs]. rewrite Hf, Ha, Hb, P, Pa, Pb. cbn [obind compileName compileFlags cloneFlag mf_resources]. rewrite find_app.
    destruct (findPipeline name (mf_resources ma)) as [p|] eqn:E; split; intro H.
    - destruct (registryAuths _) as [auths| |]; cbn [obind]; [|cbn; auto..]. destruct (Compile _ _ _ _ _ _ _ _ _ _) as [[c n]| |]; cbn; auto.
    - exfalso. apply H. exists p. apply find_selected, E.
    - exfalso. destruct H as (p & H). apply find_selected in H. congruence.
    - destruct (findPipeline name (mf_resources mb)) as [p|]; [|cbn; auto].
      destruct (registryAuths _) as [auths| |]; cbn [obind]; [|cbn; auto..]. destruct (Compile _ _ _ _ _ _ _ _ _ _) as [[c n]| |]; cbn; auto.
  Qed.
End Joined.

(** ** Appending to a signed file *)
Theorem append_signed mc key f fs content x : ReadsSignature (mc_decoder mc) -> Mac32 (mc_mac mc) -> fs f = Some content -> NoCRCR content ->
  let signed := run mc (ASign true key f) fs in x_status signed = 0%Z ->
  exists out, x_files signed f = Some out /\
  forall fs', fs' f = Some (out +++ x)%string ->
    x_status (run mc (AVerify key f) fs') = 0%Z /\
    forall c, ~ Converts c -> source c = f -> SameEffect mc c (x_files signed) fs'.
Proof.
  intros HS HM Hf Hc. cbv zeta. intro S. pose proof (sign_verify mc key f fs content HS HM Hf Hc S) as V.
  pose proof (sign_save mc key f fs content Hf) as Q. cbv zeta in Q.
  destruct (SignUpdate _ _ content key) as [out| |] eqn:U; [|destruct Q as (_ & _ & Q); congruence..].
  destruct (mc_writable mc f); [|destruct Q as (_ & Q); congruence]. destruct Q as ((Q & _) & _). exists out. split; [exact Q|]. intros fs' Hf'.
  assert (E : forall c, ~ Converts c -> source c = f -> SameEffect mc c (x_files (run mc (ASign true key f) fs)) fs').
  { intros c Nc Sc. apply (same_effect mc c _ _ out (out +++ x)); [exact Nc|rewrite Sc; exact Q|rewrite Sc; exact Hf'|].
    intro D. symmetry. apply after_end. eapply signed_ended, U. }
  split; [|exact E]. destruct (E (AVerify key f)) as (E1 & _); [intros []|reflexivity|]. cbv zeta in E1. rewrite E1. exact V.
Qed.
