(** * SignMore.v: consequences and counterexamples for parsing and signing. *)
From Coq Require Import Lia.
From Verif Require Import Model.Go Model.Types Model.RawParse Model.Signer Model.Sha256.
From Verif Require Import Spec.ParseSpec Spec.SignSpec Proofs.GoFacts Proofs.ParseFacts Proofs.SignFacts.
From Verif Require Import Conform.LineDecoder.

(** Everything in this file depends on a file only through its documents. *)
Lemma same_docs D mac s t key :
  raw_docs s = raw_docs t ->
  parseRawString D s = parseRawString D t /\ Sign D mac s key = Sign D mac t key /\
  SignUpdate D mac s key = SignUpdate D mac t key /\ Verify D mac s key = Verify D mac t key.
Proof.
  intro H. assert (E : parseRawString D s = parseRawString D t) by (unfold parseRawString; rewrite H; reflexivity).
  unfold Sign, SignUpdate, Verify. rewrite E. auto.
Qed.

Lemma crlf_same D mac s rls key :
  Lines s rls -> ~ In CR (list_ascii_of_string s) -> Forall (fun l => (slen l < 65535)%N) rls ->
  parseRawString D (crlf s) = parseRawString D s /\ Sign D mac (crlf s) key = Sign D mac s key /\
  SignUpdate D mac (crlf s) key = SignUpdate D mac s key /\ Verify D mac (crlf s) key = Verify D mac s key.
Proof. intros. apply same_docs. eapply crlf_raw_docs; eassumption. Qed.
Lemma final_newline_same D mac s key :
  s <> "" -> (forall s', s <> s' +++ nl)%string ->
  parseRawString D (s +++ nl)%string = parseRawString D s /\ Sign D mac (s +++ nl)%string key = Sign D mac s key /\
  SignUpdate D mac (s +++ nl)%string key = SignUpdate D mac s key /\
  Verify D mac (s +++ nl)%string key = Verify D mac s key.
Proof. intros. apply same_docs. apply final_newline_raw_docs; assumption. Qed.

(** ** Lines below the limit are all kept *)
Lemma text_app a b : text (a ++ b) = (text a +++ text b)%string.
Proof. unfold text. rewrite map_app, concats_app. reflexivity. Qed.
Definition notSep (l : string) : bool := negb (isSeparator l).
Lemma filter_plain body : Forall Plain body -> filter notSep body = body.
Proof.
  induction 1 as [|l body H _ IH]; [reflexivity|]. cbn [filter]. unfold notSep at 1.
  apply Plain_spec in H as [H _]. rewrite H. simpl. congruence.
Qed.
Lemma Blocks_content ls docs :
  Blocks ls docs -> Forall (fun l => ~ Starts "..." l) ls -> concats (map text docs) = text (filter notSep ls).
Proof.
  induction 1 as [|t rest Ht|sep body ls docs Hs Hb _ IH]; intro Hn.
  - reflexivity.
  - inversion Hn; subst. contradiction.
  - inversion Hn as [|? ? _ Hn']; subst. apply Forall_app in Hn' as [_ Hn']. cbn [map concats filter].
    unfold notSep at 1. apply isSeparator_spec in Hs. rewrite Hs. simpl. rewrite filter_app, (filter_plain _ Hb), text_app.
    f_equal. apply IH, Hn'.
Qed.
Lemma File_content ls docs :
  File ls docs -> Forall (fun l => ~ Starts "..." l) ls -> concats (map text docs) = text (filter notSep ls).
Proof.
  intros [|ls' doc ds H|l body ls' ds Hp H|t rest Ht] Hn.
  - reflexivity.
  - apply Blocks_content; assumption.
  - apply Forall_app in Hn as [_ Hn]. cbn [map concats]. rewrite filter_app, (filter_plain _ Hp), text_app.
    f_equal. apply Blocks_content; assumption.
  - inversion Hn; subst. contradiction.
Qed.
Lemma short_lines_kept D s rls ls res :
  Lines s rls -> Forall Short rls -> Forall2 Chomp rls ls -> Forall (fun l => ~ Starts "..." l) ls ->
  parseRawString D s = Ok res -> concats (map rr_data res) = text (filter notSep ls).
Proof.
  intros H1 H2 H3 H4 H. destruct (File_exists ls) as [docs Hf]. rewrite <- (File_content _ _ Hf H4).
  apply (parse_raw_exact _ _ _ _ _ H1 H2 H3 Hf) in H. f_equal. clear -H.
  induction H as [|d r docs res [Hd _] _ IH]; [reflexivity|]. simpl. congruence.
Qed.

(** ** An over-long line *)
Lemma long_line_same D a long b :
  (a = "" \/ exists a', a = a' +++ nl)%string ->
  ~ In NL (list_ascii_of_string long) -> (65536 <= slen long)%N ->
  (b = "" \/ exists b', b = nl +++ b')%string ->
  parseRawString D (a +++ long +++ b)%string = parseRawString D a.
Proof. intros. unfold parseRawString. rewrite long_line_dropped; auto. Qed.

Fixpoint repeatc (n : nat) (c : ascii) : string := match n with O => "" | S n => String c (repeatc n c) end.
Lemma repeatc_slen n c : slen (repeatc n c) = N.of_nat n.
Proof. unfold slen. induction n as [|n IH]; [reflexivity|]. cbn [repeatc String.length]. lia. Qed.
Lemma repeatc_In n c d : In d (list_ascii_of_string (repeatc n c)) -> d = c.
Proof. induction n as [|n IH]; cbn [repeatc list_ascii_of_string]; [intros []|]. intros [<-|H]; auto. Qed.

Lemma long_line_lost :
  exists D s ls l res, Lines s ls /\ In l ls /\ Forall Plain ls /\ parseRawString D s = Ok res /\
    forall r, In r res -> ~ exists a b, rr_data r = (a +++ l +++ b)%string.
Proof.
  assert (exists n, N.of_nat n = 65536%N) as [n Hn0] by (exists (N.to_nat 65536); apply N2Nat.id).
  pose (long := repeatc n "a"%char).
  assert (Hn : ~ In NL (list_ascii_of_string long)).
  { intro H. apply repeatc_In in H. discriminate. }
  assert (Hl : (65536 <= slen long)%N) by (unfold long; rewrite repeatc_slen, Hn0; reflexivity).
  assert (Hne : long <> "") by (intro E; rewrite E in Hl; unfold slen in Hl; simpl in Hl; lia).
  assert (Hp : Plain long).
  { unfold long. destruct n as [|n]; [discriminate Hn0|]. split; intros [r E]; discriminate. }
  clearbody long.
  exists lineDecoder, ("kind: pipeline" +++ nl +++ long)%string, ["kind: pipeline"; long], long,
    [ {| rr_version := ""; rr_kind := "pipeline"; rr_type := ""; rr_data := ("kind: pipeline" +++ nl)%string |} ].
  split; [|split; [|split; [|split]]].
  - constructor; [simpl; intuition discriminate|]. constructor; assumption.
  - right. left. reflexivity.
  - repeat constructor; try apply Hp; intros [r E]; discriminate.
  - pose proof (long_line_same lineDecoder ("kind: pipeline" +++ nl)%string long "") as E.
    rewrite sapp_nil_r in E. rewrite sapp_assoc in E. rewrite E; auto. right. exists "kind: pipeline". reflexivity.
  - intros r [<-|[]] (a & b & E). simpl in E. apply (f_equal slen) in E. rewrite !slen_app in E.
    change (slen _) with 15%N in E at 1. lia.
Qed.

(** ** Signing and carriage returns *)
Definition testKey : string := "589396227fff5a93ba934965e8735f88".
Lemma crcr_fails :
  exists data out, SignUpdate lineDecoder hmac_sha256 data testKey = Ok out /\
                   Verify lineDecoder hmac_sha256 out testKey = Ok false.
Proof.
  exists ("kind: pipeline" +++ cr +++ cr +++ nl)%string.
  exists (match SignUpdate lineDecoder hmac_sha256 ("kind: pipeline" +++ cr +++ cr +++ nl)%string testKey with
          | Ok o => o | _ => "" end).
  split; vm_compute; reflexivity.
Qed.

(** ** Document boundaries *)
Lemma same_content_same_verdict D mac s t key res1 res2 c m :
  parseRawString D s = Ok res1 -> parseRawString D t = Ok res2 -> Content res1 c -> Content res2 c ->
  extract D res1 = Ok m -> extract D res2 = Ok m -> Verify D mac s key = Verify D mac t key.
Proof.
  intros H1 H2 C1 C2 E1 E2. unfold Verify. rewrite H1, H2. cbn [obind]. rewrite E1, E2.
  unfold sign. fold (unsigned res1). fold (unsigned res2). apply Content_spec in C1, C2. rewrite <- C1, <- C2. reflexivity.
Qed.
Lemma boundary_moved :
  exists s t res1 res2,
    parseRawString lineDecoder s = Ok res1 /\ parseRawString lineDecoder t = Ok res2 /\
    Verify lineDecoder hmac_sha256 s testKey = Ok true /\ Verify lineDecoder hmac_sha256 t testKey = Ok true /\
    length (unsigned res1) = 2%nat /\ length (unsigned res2) = 1%nat.
Proof.
  pose (data := ("kind: pipeline" +++ nl +++ "name: a" +++ nl +++ "---" +++ nl +++ "kind: pipeline" +++ nl +++ "name: b" +++ nl)%string).
  pose (data2 := ("kind: pipeline" +++ nl +++ "name: a" +++ nl +++ "kind: pipeline" +++ nl +++ "name: b" +++ nl)%string).
  pose (out1 := match SignUpdate lineDecoder hmac_sha256 data testKey with Ok o => o | _ => "" end).
  pose (h := match Sign lineDecoder hmac_sha256 data testKey with Ok o => o | _ => "" end).
  pose (out2 := fst (WriteTo lineDecoder data2 h)).
  exists out1, out2,
    (match parseRawString lineDecoder out1 with Ok r => r | _ => [] end),
    (match parseRawString lineDecoder out2 with Ok r => r | _ => [] end).
  vm_compute. repeat split; reflexivity.
Qed.

(** A tampered file that still verifies with the same signature is a collision. *)
Lemma tamper_collision D mac s t key res1 res2 c1 c2 m :
  parseRawString D s = Ok res1 -> parseRawString D t = Ok res2 -> Content res1 c1 -> Content res2 c2 ->
  extract D res1 = Ok m -> extract D res2 = Ok m ->
  Verify D mac s key = Ok true -> Verify D mac t key = Ok true ->
  c1 = c2 \/ (c1 <> c2 /\ mac key c1 = mac key c2).
Proof.
  intros H1 H2 C1 C2 E1 E2 V1 V2.
  apply Verify_true in V1 as (r1 & c1' & p1 & s1 & q1 & g1 & P1 & D1 & K1 & X1).
  apply Verify_true in V2 as (r2 & c2' & p2 & s2 & q2 & g2 & P2 & D2 & K2 & X2).
  rewrite H1 in P1. injection P1 as <-. rewrite H2 in P2. injection P2 as <-.
  rewrite (Content_det _ _ _ D1 C1) in X1. rewrite (Content_det _ _ _ D2 C2) in X2.
  assert (F1 : extract D res1 = Ok (mac key c1)) by (apply <- extract_ok; exists p1, s1, q1, g1; tauto).
  assert (F2 : extract D res2 = Ok (mac key c2)) by (apply <- extract_ok; exists p2, s2, q2, g2; tauto).
  rewrite F1 in E1. rewrite F2 in E2. destruct (String.string_dec c1 c2) as [->|N]; [auto|right].
  split; [exact N|congruence].
Qed.

(** ** Hexadecimal signatures *)
Lemma hex_bad h :
  (Nat.odd (String.length h) = true \/ exists c, In c (list_ascii_of_string h) /\ digitValue c = None) ->
  forall b, ~ HexOf b h.
Proof.
  intros Hbad b H. induction H as [|c hi lo x y b h H1 H2 _ _ IH].
  - destruct Hbad as [H|(c & [] & _)]. discriminate.
  - apply IH. destruct Hbad as [Hodd|(d & [<-|[<-|Hin]] & Hd)]; try congruence.
    + left. exact Hodd.
    + right. eauto.
Qed.
Lemma HexOf_upper b h : HexOf b (toUpper h) <-> HexOf b h.
Proof. rewrite <- !hexDecode_HexOf, hexDecode_toUpper. reflexivity. Qed.
Lemma HexOf_length b h : HexOf b h -> slen h = (2 * slen b)%N.
Proof. induction 1; [reflexivity|]. unfold slen in *. cbn [String.length]. lia. Qed.
Lemma HexOf_fun b b' h : HexOf b h -> HexOf b' h -> b = b'.
Proof. rewrite <- !hexDecode_HexOf. congruence. Qed.
Lemma bad_signature_fails D mac data key res pre s post sg :
  parseRawString D data = Ok res -> res = pre ++ s :: post -> Forall NotSig pre -> rr_kind s = "signature" ->
  dec_signature D (rr_data s) = Some sg ->
  (Nat.odd (String.length (si_hmac sg)) = true \/
   exists c, In c (list_ascii_of_string (si_hmac sg)) /\ digitValue c = None) ->
  Verify D mac data key = Ok false.
Proof.
  intros H1 H2 H3 H4 H5 H6. unfold Verify. rewrite H1. cbn [obind].
  destruct (extract D res) as [m|e|] eqn:E; [|reflexivity|exfalso; exact (extract_panic _ _ E)].
  exfalso. apply extract_ok in E as (pre' & s' & post' & sg' & E & P & K & Dg & Hx).
  assert (s' = s).
  { clear -H2 H3 H4 E P K. subst res. revert pre' H3 E P. induction pre as [|p pre IH]; intros pre' H3 E P; destruct pre' as [|p' pre'].
    - injection E as E _. congruence.
    - injection E as E _. subst. inversion P; subst. contradiction.
    - injection E as E _. subst. inversion H3; subst. contradiction.
    - injection E as _ E. inversion H3; subst. inversion P; subst. eapply IH; eassumption. }
  subst s'. rewrite H5 in Dg. injection Dg as <-. exact (hex_bad _ H6 _ Hx).
Qed.

Lemma Verify_upper D mac s t key res1 res2 pre1 pre2 s1 s2 post1 post2 g1 g2 c :
  parseRawString D s = Ok res1 -> parseRawString D t = Ok res2 -> Content res1 c -> Content res2 c ->
  res1 = pre1 ++ s1 :: post1 -> res2 = pre2 ++ s2 :: post2 -> Forall NotSig pre1 -> Forall NotSig pre2 ->
  rr_kind s1 = "signature" -> rr_kind s2 = "signature" ->
  dec_signature D (rr_data s1) = Some g1 -> dec_signature D (rr_data s2) = Some g2 ->
  si_hmac g2 = toUpper (si_hmac g1) ->
  (Verify D mac s key = Ok true <-> Verify D mac t key = Ok true).
Proof.
  intros P1 P2 C1 C2 R1 R2 N1 N2 K1 K2 G1 G2 U.
  assert (forall m, extract D res1 = Ok m <-> extract D res2 = Ok m) as He.
  { assert (forall m, extract D res1 = Ok m <-> HexOf m (si_hmac g1)) as A1.
    { intro m. split; intro H.
      - apply hexDecode_HexOf. subst res1. clear -H N1 K1 G1. induction N1 as [|p pre Hp _ IH]; cbn [app extract] in H.
        + apply isSig_spec in K1. rewrite K1, G1 in H. cbn in H. destruct (hexDecode _); congruence.
        + apply isSig_false in Hp. rewrite Hp in H. auto.
      - apply extract_ok. exists pre1, s1, post1, g1. auto. }
    assert (forall m, extract D res2 = Ok m <-> HexOf m (si_hmac g2)) as A2.
    { intro m. split; intro H.
      - apply hexDecode_HexOf. subst res2. clear -H N2 K2 G2. induction N2 as [|p pre Hp _ IH]; cbn [app extract] in H.
        + apply isSig_spec in K2. rewrite K2, G2 in H. cbn in H. destruct (hexDecode _); congruence.
        + apply isSig_false in Hp. rewrite Hp in H. auto.
      - apply extract_ok. exists pre2, s2, post2, g2. auto. }
    intro m. rewrite A1, A2, U, HexOf_upper. reflexivity. }
  split; intro V; unfold Verify in *; rewrite ?P1, ?P2 in *; cbn [obind] in *.
  - destruct (extract D res1) as [m|e|] eqn:E; try discriminate. rewrite (proj1 (He m) eq_refl).
    unfold sign in *. fold (unsigned res1) in *. fold (unsigned res2) in *. apply Content_spec in C1, C2.
    rewrite <- C1 in V. rewrite <- C2. exact V.
  - destruct (extract D res2) as [m|e|] eqn:E; try discriminate. rewrite (proj2 (He m) eq_refl).
    unfold sign in *. fold (unsigned res1) in *. fold (unsigned res2) in *. apply Content_spec in C1, C2.
    rewrite <- C1. rewrite <- C2 in V. exact V.
Qed.

(** ** The statements of the property files *)
Lemma parse_raw_documents D s rls ls docs :
  Lines s rls -> Forall Short rls -> Forall2 Chomp rls ls -> File ls docs ->
  forall res, parseRawString D s = Ok res <-> Forall2 (Document D) docs res.
Proof. intros H1 H2 H3 H4. exact (parse_raw_exact D s rls ls docs H1 H2 H3 H4). Qed.
Lemma every_file s :
  exists rls ls docs, Lines s rls /\ Forall2 Chomp rls ls /\ File ls docs.
Proof.
  destruct (Lines_exists s) as [rls H1]. destruct (Chomp_exists rls) as [ls H2].
  destruct (File_exists ls) as [docs H3]. eauto 6.
Qed.
Lemma WithoutSeparators_filter ls ls' : WithoutSeparators ls ls' -> ls' = filter notSep ls.
Proof.
  induction 1 as [|l ls ls' H _ IH|l ls ls' H _ IH]; [reflexivity| |]; cbn [filter]; unfold notSep at 1;
    rewrite <- isSeparator_spec in H.
  - rewrite H. exact IH.
  - apply not_true_iff_false in H. rewrite H. simpl. congruence.
Qed.
Lemma short_lines_kept' D s rls ls ls' res :
  Lines s rls -> Forall Short rls -> Forall2 Chomp rls ls -> Forall (fun l => ~ Starts "..." l) ls ->
  WithoutSeparators ls ls' ->
  parseRawString D s = Ok res -> concats (map rr_data res) = text ls'.
Proof. intros H1 H2 H3 H4 H5 H. apply WithoutSeparators_filter in H5 as ->. eapply short_lines_kept; eassumption. Qed.

Lemma parse_rejects D s raws raw :
  parseRawString D s = Ok raws -> In raw raws ->
  (~ exists res, Typed D raw res /\ getKind res <> "") -> exists e, parse D s = Err e.
Proof.
  intros H1 Hin Hbad. destruct (parse D s) as [m|e|] eqn:E.
  - exfalso. apply parse_ok in E as (raws' & H1' & H). rewrite H1 in H1'. injection H1' as <-.
    clear -H Hin Hbad. induction H as [|a b l l' Hab _ IH]; [destruct Hin|].
    destruct Hin as [->|Hin]; [eauto|auto].
  - eauto.
  - exfalso. exact (parse_panic _ _ E).
Qed.
Lemma parse_rejects_undecoded D s e : parseRawString D s = Err e -> parse D s = Err e.
Proof. intro H. unfold parse. rewrite H. reflexivity. Qed.

Lemma sign_update_documents D mac data key out :
  ReadsSignature D -> Mac32 mac -> NoCRCR data -> SignUpdate D mac data key = Ok out ->
  exists res rest s h,
    parseRawString D data = Ok res /\ Unsigned res rest /\ Sign D mac data key = Ok h /\
    parseRawString D out = Ok (rest ++ [s]) /\ rr_kind s = "signature" /\ rr_data s = sig_text h.
Proof.
  intros H1 H2 H3 H. destruct (sign_update_spec D mac data key out H1 H2 H3 H)
    as (res & c & s & sg & P & C & K & Q & S1 & S2 & _).
  exists res, (unsigned res), s, (hexEncode (mac key c)). split; [exact P|].
  split; [apply Unsigned_filter; reflexivity|]. split; [|auto]. apply Sign_ok. exists res, c. auto.
Qed.

Lemma FirstSignature_extract D res h b : FirstSignature D res h -> (extract D res = Ok b <-> HexOf b h).
Proof.
  intros (pre & s & post & sg & -> & N & K & G & <-). split; intro H.
  - apply hexDecode_HexOf. induction N as [|p pre Hp _ IH]; cbn [app extract] in H.
    + apply isSig_spec in K. rewrite K, G in H. cbn in H. destruct (hexDecode _); congruence.
    + apply isSig_false in Hp. rewrite Hp in H. auto.
  - apply extract_ok. exists pre, s, post, sg. auto.
Qed.
Lemma verify_iff D mac data key :
  Verify D mac data key = Ok true <->
  exists res c h, parseRawString D data = Ok res /\ Content res c /\ (32 <= slen key)%N /\
    FirstSignature D res h /\ HexOf (mac key c) h.
Proof.
  rewrite Verify_true. split.
  - intros (res & c & pre & s & post & sg & H1 & H2 & H3 & H4 & H5 & H6 & H7 & H8).
    exists res, c, (si_hmac sg). repeat (split; [assumption|]). split; [|assumption].
    exists pre, s, post, sg. auto.
  - intros (res & c & h & H1 & H2 & H3 & (pre & s & post & sg & H4 & H5 & H6 & H7 & H8) & H9).
    exists res, c, pre, s, post, sg. subst h. auto 10.
Qed.
Lemma verify_false_otherwise D mac data key res :
  parseRawString D data = Ok res -> (32 <= slen key)%N ->
  Verify D mac data key = Ok true \/ Verify D mac data key = Ok false.
Proof.
  intros H Hk. destruct (long_key_ok D mac data key Hk res H) as (_ & _ & [b Hb]). rewrite Hb. destruct b; auto.
Qed.
Lemma tamper_same_signature D mac s t key res1 res2 c1 c2 h :
  parseRawString D s = Ok res1 -> parseRawString D t = Ok res2 -> Content res1 c1 -> Content res2 c2 ->
  FirstSignature D res1 h -> FirstSignature D res2 h ->
  Verify D mac s key = Ok true -> Verify D mac t key = Ok true ->
  c1 = c2 \/ (c1 <> c2 /\ mac key c1 = mac key c2).
Proof.
  intros P1 P2 C1 C2 F1 F2 V1 V2. apply verify_iff in V1 as (r1 & d1 & h1 & Q1 & D1 & _ & G1 & X1).
  apply verify_iff in V2 as (r2 & d2 & h2 & Q2 & D2 & _ & G2 & X2).
  rewrite P1 in Q1. injection Q1 as <-. rewrite P2 in Q2. injection Q2 as <-.
  rewrite <- (Content_det _ _ _ C1 D1) in X1. rewrite <- (Content_det _ _ _ C2 D2) in X2.
  apply (FirstSignature_extract _ _ _ _ G1), (FirstSignature_extract _ _ _ _ F1) in X1.
  apply (FirstSignature_extract _ _ _ _ G2), (FirstSignature_extract _ _ _ _ F2) in X2.
  destruct (String.string_dec c1 c2) as [->|N]; [auto|right]. split; [exact N|]. eapply HexOf_fun; eassumption.
Qed.
Lemma boundaries_unsigned D mac s t key res1 res2 c h :
  parseRawString D s = Ok res1 -> parseRawString D t = Ok res2 -> Content res1 c -> Content res2 c ->
  FirstSignature D res1 h -> FirstSignature D res2 h ->
  (Verify D mac s key = Ok true <-> Verify D mac t key = Ok true).
Proof.
  intros P1 P2 C1 C2 F1 F2. rewrite !verify_iff.
  split; intros (r & d & k & Q & Dc & K & G & X).
  - rewrite P1 in Q. injection Q as <-. rewrite (Content_det _ _ _ Dc C1) in X.
    apply (FirstSignature_extract _ _ _ _ G), (FirstSignature_extract _ _ _ _ F1) in X. exists res2, c, h. auto.
  - rewrite P2 in Q. injection Q as <-. rewrite (Content_det _ _ _ Dc C2) in X.
    apply (FirstSignature_extract _ _ _ _ G), (FirstSignature_extract _ _ _ _ F2) in X. exists res1, c, h. auto.
Qed.
Lemma boundary_moved' :
  exists s t res1 res2 docs1 docs2,
    parseRawString lineDecoder s = Ok res1 /\ parseRawString lineDecoder t = Ok res2 /\
    Verify lineDecoder hmac_sha256 s testKey = Ok true /\ Verify lineDecoder hmac_sha256 t testKey = Ok true /\
    Unsigned res1 docs1 /\ Unsigned res2 docs2 /\ length docs1 = 2%nat /\ length docs2 = 1%nat.
Proof.
  destruct boundary_moved as (s & t & r1 & r2 & H). exists s, t, r1, r2, (unsigned r1), (unsigned r2).
  rewrite !Unsigned_filter. tauto.
Qed.
Lemma upper_case_verifies D mac s t key res1 res2 c h :
  parseRawString D s = Ok res1 -> parseRawString D t = Ok res2 -> Content res1 c -> Content res2 c ->
  FirstSignature D res1 h -> FirstSignature D res2 (toUpper h) ->
  (Verify D mac s key = Ok true <-> Verify D mac t key = Ok true).
Proof.
  intros P1 P2 C1 C2 F1 F2. rewrite !verify_iff.
  split; intros (r & d & k & Q & Dc & K & G & X).
  - rewrite P1 in Q. injection Q as <-. rewrite (Content_det _ _ _ Dc C1) in X.
    apply (FirstSignature_extract _ _ _ _ G), (FirstSignature_extract _ _ _ _ F1) in X.
    exists res2, c, (toUpper h). rewrite HexOf_upper. auto.
  - rewrite P2 in Q. injection Q as <-. rewrite (Content_det _ _ _ Dc C2) in X.
    apply (FirstSignature_extract _ _ _ _ G), (FirstSignature_extract _ _ _ _ F2) in X.
    exists res1, c, h. rewrite HexOf_upper in X. auto.
Qed.
Lemma bad_hex_fails D mac data key res h :
  parseRawString D data = Ok res -> FirstSignature D res h ->
  (Nat.odd (String.length h) = true \/ exists c, In c (list_ascii_of_string h) /\ digitValue c = None) ->
  Verify D mac data key = Ok false.
Proof.
  intros H1 (pre & s & post & sg & H2 & H3 & H4 & H5 & <-) H6. eapply bad_signature_fails; eassumption.
Qed.
Lemma no_signature_fails D mac data key res :
  parseRawString D data = Ok res -> Forall NotSig res -> Verify D mac data key = Ok false.
Proof.
  intros H N. unfold Verify. rewrite H. cbn [obind]. assert (E : extract D res = Err errMissingSignature).
  { clear H. induction N as [|r res Hr _ IH]; [reflexivity|]. cbn [extract]. apply isSig_false in Hr. rewrite Hr. exact IH. }
  rewrite E. reflexivity.
Qed.
