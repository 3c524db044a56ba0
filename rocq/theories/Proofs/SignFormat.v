(** * SignFormat.v: signing a formatted file gives a formatted file. *)
From Coq Require Import Lia.
From Verif Require Import Model.Go Model.Types Model.RawParse Model.Decode Model.Signer Model.Pretty
  Spec.ParseSpec Spec.DecodeSpec Spec.YamlSpec Spec.PrettySpec Spec.SignSpec Spec.SignedSpec Spec.TreeSpec
  Proofs.GoFacts Proofs.ParseFacts Proofs.DecodeFacts Proofs.SignFacts Proofs.PrettyTree Proofs.PrettyLayout Proofs.PrettyItems Proofs.YamlFacts Proofs.YamlDocs Proofs.PrettyRound
  Proofs.YamlStrings Proofs.QuoteNeed Proofs.PrettyTrip Proofs.PrettyClaims.

(** ** Lines *)
Lemma cut_line a b s t : ~ In NL (list_ascii_of_string a) -> ~ In NL (list_ascii_of_string b) ->
  (a +++ nl +++ s = b +++ nl +++ t)%string -> a = b /\ s = t.
Proof.
  revert b. induction a as [|c a IH]; intros [|d b] Ha Hb E; cbn in E; cbn [list_ascii_of_string] in *.
  - injection E as ->. auto.
  - injection E as <- _. exfalso. apply Hb. left. reflexivity.
  - injection E as -> _. exfalso. apply Ha. left. reflexivity.
  - injection E as <- E. destruct (IH b) as [-> ->]; auto; intro I; [apply Ha|apply Hb]; right; exact I.
Qed.
Lemma Lines_fun s l l' : Lines s l -> Lines s l' -> l = l'.
Proof.
  intro H. revert l'. induction H as [|x N Hx|x s l Hx _ IH]; intros l' H'.
  - inversion H'; subst; [reflexivity|congruence|]. destruct l; discriminate.
  - inversion H'; subst; [congruence|reflexivity|]. exfalso. apply Hx. rewrite laos_app. apply in_or_app. right. left. reflexivity.
  - inversion H' as [E|y N Hy E|y t r Hy Ht E]; subst.
    + destruct x; discriminate.
    + exfalso. apply Hy. rewrite laos_app. apply in_or_app. right. left. reflexivity.
    + destruct (cut_line _ _ _ _ Hy Hx E) as [-> ->]. f_equal. apply IH. exact Ht.
Qed.

(** ** Hexadecimal text is not quoted *)
Definition hexChar (c : ascii) : bool := hasChar c hexDigits.
Lemma hex_all h : IsHex h -> sforallb hexChar h = true.
Proof.
  unfold IsHex. induction h as [|c h IH]; intro H; [reflexivity|]. cbn [sforallb]. rewrite IH by (intros d I; apply H; right; exact I).
  rewrite andb_true_r. unfold hexChar. specialize (H c (or_introl eq_refl)). cbn in H.
  repeat (destruct H as [<-|H]; [reflexivity|]). destruct H.
Qed.
Lemma hex_plain h : IsHex h -> h <> "" -> isQuoted h = false.
Proof.
  intros H N. apply hex_all in H.
  assert (P : forall p, (exists c, In c (list_ascii_of_string p) /\ hexChar c = false) -> hasPrefix h p || hasSuffix h p = false).
  { intros p (c & I & Hc). apply orb_false_iff. rewrite sforallb_In in H. split; apply not_true_is_false; intro E.
    - apply starts_spec in E as (r & E). rewrite (H c) in Hc; [discriminate|]. rewrite E, laos_app. apply in_or_app. left. exact I.
    - apply hasSuffix_spec in E as (r & E). rewrite (H c) in Hc; [discriminate|]. rewrite E, laos_app. apply in_or_app. right. exact I. }
  unfold isQuoted. replace (isEmpty h) with false by (destruct h; [congruence|reflexivity]).
  replace (trimChanges h) with false.
  2:{ symmetry. unfold trimChanges, spaceChars. cbn [map existsb]. rewrite !P; try reflexivity;
      (eexists; split; [left; reflexivity|reflexivity]). }
  cbv zeta. assert (Q : forall prev s, sforallb hexChar s = true -> quotedInside prev s = false).
  { intros prev s. revert prev. induction s as [|c s IH]; intros prev Hs; [reflexivity|]. cbn [sforallb] in Hs. apply andb_prop in Hs as [Hc Hs].
    cbn [quotedInside]. rewrite IH by exact Hs. clear - Hc. unfold hexChar in Hc. apply hasChar_In in Hc. cbn in Hc.
    repeat (destruct Hc as [<-|Hc]; [reflexivity|]). destruct Hc. }
  rewrite (Q _ _ H). specialize (P ":" (ex_intro _ ":"%char (conj (or_introl eq_refl) eq_refl))). apply orb_false_iff in P as [_ P]. rewrite P.
  destruct h as [|c h]; [congruence|]. cbn [sforallb] in H. apply andb_prop in H as [Hc _]. unfold hexChar in Hc. apply hasChar_In in Hc. cbn in Hc.
  repeat (destruct Hc as [<-|Hc]; [reflexivity|]). destruct Hc.
Qed.
Lemma hex_readable h : IsHex h -> slen h = 64%N -> Readable h.
Proof.
  intros H L. apply word_readable. apply hex_all in H. assert (L' : String.length h = 64) by (unfold slen in L; lia).
  unfold keyWord. rewrite L'. cbn [Nat.leb]. rewrite andb_true_r.
  assert (P : sforallb printable h = true).
  { rewrite sforallb_In in H |- *. intros c I. specialize (H c I). unfold hexChar in H. apply hasChar_In in H. cbn in H.
    repeat (destruct H as [<-|H]; [reflexivity|]). destruct H. }
  rewrite P. replace (smem h _) with false.
  - destruct h as [|c h]; [reflexivity|]. cbn [sforallb] in H. apply andb_prop in H as [Hc _]. unfold hexChar in Hc. apply hasChar_In in Hc. cbn in Hc.
    repeat (destruct Hc as [<-|Hc]; [reflexivity|]). destruct Hc.
  - symmetry. apply not_true_is_false. intro E. apply smem_In in E. cbn in E. repeat (destruct E as [<-|E]; [discriminate|]). destruct E.
Qed.

(** ** Documents *)
Section Docs.
  Variable iph : N -> bool.
  Variables formatFloat sprintFloat : float64 -> string.
  Variable bytesSize : Z -> string.
  Variable resolve : string -> node.
  Variable ramInBytes : string -> option Z.
  Variable reader : string -> option node.
  Hypothesis HR : Resolver resolve.
  Hypothesis HRd : Reads resolve reader.
  Notation D := (treeDecoder ramInBytes reader).
  Notation FormattableR := (Formattable resolve ramInBytes formatFloat bytesSize).
  Notation printR := (print iph formatFloat sprintFloat bytesSize).
  Notation DocForR := (DocFor iph formatFloat sprintFloat bytesSize resolve ramInBytes).
  Definition Written (r : Resource) (its : list (option (string * tree))) : Prop := exists r', DocForR r its r'.

  Lemma written_all rs : Forall FormattableR rs -> exists ds, Forall2 Written rs ds.
  Proof.
    induction 1 as [|r rs H _ (ds & IH)]; [exists []; constructor|]. destruct (resource_doc iph formatFloat sprintFloat bytesSize resolve ramInBytes HR r H) as (its & r' & Dr).
    exists (its :: ds). constructor; [exists r'; exact Dr|exact IH].
  Qed.
  Lemma written_print rs ds : Forall2 Written rs ds -> printR {| mf_resources := rs |} = Ok (outText ds).
  Proof.
    intro F. rewrite print_text. cbn [mf_resources].
    assert (E : docs iph formatFloat sprintFloat bytesSize rs = Some (map (fun its => its ++ [None])%list ds)).
    { induction F as [|r its rs ds (r' & Ei & Ir & _) F IH]; [reflexivity|]. unfold docs in IH |- *. cbn [map optConcat]. rewrite IH, Ir, Ei. reflexivity. }
    rewrite E. unfold outText. rewrite map_map. reflexivity.
  Qed.
  Lemma written_good rs ds : Forall2 Written rs ds -> Forall (fun its => WF resolve (TMap its) /\ Top its) ds.
  Proof. induction 1 as [|r its rs ds (r' & H) F IH]; constructor; [|exact IH]. split; apply H. Qed.
  Lemma written_wf rs ds : Forall2 Written rs ds -> Forall (fun its => WF resolve (TMap its)) ds.
  Proof. intro F. apply written_good in F. eapply Forall_impl; [|exact F]. cbn. tauto. Qed.
  Lemma written_raw r its : Written r its -> exists raw, decode_raw D (dataText its) = Ok raw /\ rr_data raw = dataText its /\ isSig raw = isSignature r.
  Proof.
    intros (r' & _ & _ & G & T & B & K & (v & t & Hd) & R). pose proof (read_document resolve reader HRd its G T) as Rd. destruct G as (W & _ & Dd).
    exists {| rr_version := v; rr_kind := getKind r'; rr_type := t; rr_data := dataText its |}. split; [|split; [reflexivity|]].
    - apply decode_raw_ok. split; [reflexivity|]. cbn [treeDecoder dec_header]. rewrite Rd. cbn [optBind]. apply header_iff; [exact Dd|]. exact Hd.
    - unfold isSig. cbn [rr_kind]. destruct B; cbn [isSignature getKind IsResource] in *; destruct R as [R _];
      try (rewrite R; reflexivity).
      + apply String.eqb_neq. intro E. apply R. rewrite E. cbn. tauto.
  Qed.
  Lemma written_raws rs ds : Forall2 Written rs ds -> exists raws ds',
    otraverse (decode_raw D) (map dataText ds) = Ok raws /\ Forall2 Written (filter (fun r => negb (isSignature r)) rs) ds' /\
    write_docs raws = concats (map (fun its => docText (its ++ [None])%list) ds') /\ incl ds' ds.
  Proof.
    induction 1 as [|r its rs ds H F (raws & ds' & E1 & E2 & E3 & E4)]; [exists [], []; repeat split; [constructor|intros x []]|].
    destruct (written_raw _ _ H) as (raw & R1 & R2 & R3). unfold write_docs in *.
    assert (T : otraverse (decode_raw D) (map dataText (its :: ds)) = Ok (raw :: raws)).
    { cbn [map otraverse]. rewrite R1. cbn [obind]. rewrite E1. reflexivity. }
    destruct (isSignature r) eqn:S.
    - exists (raw :: raws), ds'. split; [exact T|]. cbn [filter]. rewrite R3, S. cbn [negb]. split; [exact E2|]. split; [exact E3|]. intros x I. right. apply E4, I.
    - exists (raw :: raws), (its :: ds'). split; [exact T|]. cbn [filter]. rewrite R3, S. cbn [negb]. split; [constructor; assumption|]. split.
      + cbn [map concats]. rewrite E3, R2, docText_data, !sapp_assoc. reflexivity.
      + intros x [<-|I]; [left; reflexivity|right; apply E4, I].
  Qed.

  (** The signature. *)
  Definition sigIts (h : string) : list (option (string * tree)) := [Some ("kind", TScalar "signature"); Some ("hmac", TScalar h); None].
  Definition signature (h : string) : Resource := RSignature {| si_version := ""; si_kind := "signature"; si_hmac := h |}.
  Lemma sig_ok h : IsHex h -> slen h = 64%N -> FormattableR (signature h).
  Proof. intros H L. cbn. split; [apply word_readable; reflexivity|]. split; [reflexivity|apply hex_readable; assumption]. Qed.
  Lemma sig_items h : IsHex h -> h <> "" -> resourceItems iph formatFloat sprintFloat bytesSize (signature h) = Some (sigIts h ++ [None]).
  Proof.
    intros H N. cbn [signature resourceItems]. unfold signatureItems, sigIts. cbn [si_version si_kind si_hmac]. unfold tagItems.
    replace (isZero (AString h)) with false by (destruct h; [congruence|reflexivity]).
    change (encodeString iph "kind") with "kind". change (encodeString iph "hmac") with "hmac".
    replace (PrettyTree.anyTree iph formatFloat sprintFloat bytesSize (AString h)) with (TScalar h); [reflexivity|].
    unfold AString. cbn [PrettyTree.anyTree below valueTree scalarOf]. unfold encodeString. rewrite (hex_plain h H N). destruct h; [congruence|reflexivity].
  Qed.
  Lemma sig_nonempty h : slen h = 64%N -> h <> "".
  Proof. intros L ->. discriminate L. Qed.
  Lemma sig_written h : IsHex h -> slen h = 64%N -> Written (signature h) (sigIts h).
  Proof.
    intros H L. destruct (resource_doc iph formatFloat sprintFloat bytesSize resolve ramInBytes HR _ (sig_ok h H L)) as (its & r' & Dr).
    pose proof (proj1 Dr) as E. rewrite (sig_items h H (sig_nonempty h L)) in E. injection E as E. destruct its as [|a its]; [discriminate|].
    assert (E' : sigIts h = a :: its).
    { apply (app_inv_tail [None]). cbn [sigIts app] in *. exact (f_equal (fun x => x) E). }
    exists r'. rewrite E'. exact Dr.
  Qed.
  Lemma sig_lines h : linesText (sigIts h) = ["kind: signature"; ("hmac: " +++ h)%string; ""].
  Proof. reflexivity. Qed.
  Lemma sig_data h : dataText (sigIts h) = sig_text h.
  Proof. reflexivity. Qed.
  Lemma sig_doc h : (docText (sigIts h ++ [None]) +++ "..." +++ nl)%string = write_sig h.
  Proof. rewrite docText_data, sig_data. unfold sig_text, write_sig, ParseSpec.text. cbn [map concats]. rewrite !sapp_assoc. reflexivity. Qed.
  (** The decoder reads the signature documents the signer writes. *)
  Lemma reads_signature : ReadsSignature D.
  Proof.
    intros h H L. destruct (sig_written h H L) as (r' & _ & _ & G & T & B & K & (v & t & Hd) & R). rewrite <- sig_data.
    pose proof (read_document resolve reader HRd _ G T) as Rd. destruct G as (W & _ & Dd). inversion B; subst. cbn [getKind si_kind IsResource] in *. split.
    - exists {| h_version := v; h_kind := "signature"; h_type := t |}. split; [|reflexivity]. cbn [treeDecoder dec_header]. rewrite Rd. cbn [optBind].
      apply header_iff; [exact Dd|exact Hd].
    - exists {| si_version := ""; si_kind := "signature"; si_hmac := h |}. split; [|reflexivity]. cbn [treeDecoder dec_signature]. rewrite Rd. cbn [optBind]. apply exact_signature; [exact Dd|apply R].
  Qed.
  Lemma no_crcr ls : Forall (fun l => oneLine l = true) ls -> NoCRCR (ParseSpec.text ls).
  Proof.
    intros F (a & b & E). assert (C : hasChar CR (ParseSpec.text ls +++ nl) = false).
    { rewrite hasChar_app. apply orb_false_iff. split; [|reflexivity]. unfold ParseSpec.text. clear E. induction F as [|l ls H F IH]; [reflexivity|]. cbn [map concats]. rewrite !hasChar_app, (oneLine_CR _ H), IH. reflexivity. }
    rewrite E, !hasChar_app in C. apply orb_false_iff in C as [_ C]. discriminate C.
  Qed.
  Lemma written_lines rs ds : Forall2 Written rs ds -> Lines (outText ds) (outLines ds).
  Proof. intro F. rewrite out_lines. apply lines_text. eapply out_oneLine, written_wf, F. Qed.

  Theorem signed_is_formatted mac m out key : Mac32 mac -> (32 <= slen key)%N ->
    mf_resources m <> [] -> Forall FormattableR (mf_resources m) -> printR m = Ok out ->
    (forall lines, Lines out lines -> Forall Short lines) ->
    exists h signed m', Sign D mac out key = Ok h /\ SignUpdate D mac out key = Ok signed /\ printR (withSignature h m) = Ok signed /\
      Verify D mac signed key = Ok true /\ parse D signed = Ok m' /\ printR m' = Ok signed.
  Proof.
    intros M K N F P S. destruct m as [rs]. cbn [mf_resources] in *. destruct (written_all rs F) as (ds & W).
    rewrite (written_print _ _ W) in P. injection P as <-. destruct (written_raws _ _ W) as (raws & ds' & E1 & W' & E3 & I).
    assert (PR : parseRawString D (outText ds) = Ok raws).
    { unfold parseRawString. rewrite (split_out resolve ds); [exact E1| |apply (written_good _ _ W)|exact S]. intros ->. inversion W; subst. congruence. }
    destruct (Content_exists raws) as (c & Hc). set (h := hexEncode (mac key c)).
    assert (Hh : IsHex h) by apply hexEncode_IsHex. assert (Hl : slen h = 64%N) by (unfold h; rewrite hexEncode_slen, M; reflexivity).
    assert (W2 : Forall2 Written (mf_resources (withSignature h {| mf_resources := rs |})) (ds' ++ [sigIts h])).
    { cbn [withSignature mf_resources]. apply Forall2_app; [exact W'|]. constructor; [apply sig_written; assumption|constructor]. }
    assert (U : upsert raws h = outText (ds' ++ [sigIts h])).
    { unfold upsert. rewrite E3, <- sig_doc. unfold outText. rewrite map_app, concats_app. cbn [map concats]. rewrite sapp_nil_r, !sapp_assoc. reflexivity. }
    assert (SU : SignUpdate D mac (outText ds) key = Ok (outText (ds' ++ [sigIts h]))).
    { apply SignUpdate_ok. exists raws, c. rewrite <- U. auto. }
    assert (S2 : forall lines, Lines (outText (ds' ++ [sigIts h])) lines -> Forall Short lines).
    { intros ls Ls. rewrite (Lines_fun _ _ _ Ls (written_lines _ _ W2)). pose proof (S _ (written_lines _ _ W)) as So. rewrite Forall_forall in So.
      apply Forall_forall. intros l Il. unfold outLines in Il. rewrite map_app, concat_app in Il. apply in_app_or in Il as [Il|Il].
      - apply in_app_or in Il as [Il|Il].
        + apply So. unfold outLines. apply in_or_app. left. apply in_concat in Il as (d & Id & Il). apply in_concat. exists d. split; [|exact Il].
          apply in_map_iff in Id as (its & <- & Id). apply (in_map (fun its => "---" :: linesText its)). apply I, Id.
        + cbn [map concat] in Il. rewrite sig_lines, app_nil_r in Il. cbn [In] in Il. destruct Il as [<-|[<-|[<-|[<-|[]]]]]; unfold Short; try reflexivity.
          rewrite slen_app, Hl. reflexivity.
      - destruct Il as [<-|[]]. reflexivity. }
    assert (P2 : printR (withSignature h {| mf_resources := rs |}) = Ok (outText (ds' ++ [sigIts h]))) by (apply (written_print _ _ W2)).
    destruct (format_twice iph formatFloat sprintFloat bytesSize resolve ramInBytes reader HR HRd (withSignature h {| mf_resources := rs |})) with (out := outText (ds' ++ [sigIts h])) as (m' & Pm & Pp).
    - cbn [withSignature mf_resources]. intro X. apply app_eq_nil in X as [_ X]. discriminate X.
    - cbn [withSignature mf_resources]. apply Forall_app. split; [|constructor; [apply sig_ok; assumption|constructor]].
      apply Forall_forall. intros r Ir. apply filter_In in Ir as [Ir _]. rewrite Forall_forall in F. apply F, Ir.
    - exact P2.
    - exact S2.
    - exists h, (outText (ds' ++ [sigIts h])), m'. split; [apply Sign_ok; exists raws, c; auto|]. split; [exact SU|]. split; [exact P2|]. split; [|split; assumption].
      apply (sign_then_verify D mac (outText ds)); [apply reads_signature|exact M| |exact SU]. rewrite out_lines. apply no_crcr. eapply out_oneLine, written_wf, W.
  Qed.
End Docs.
