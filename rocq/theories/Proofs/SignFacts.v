(** * SignFacts.v: lemmas about Model/Signer.v. *)
From Coq Require Import Lia.
From Verif Require Import Model.Go Model.Types Model.RawParse Model.Signer.
From Verif Require Import Spec.ParseSpec Spec.SignSpec Proofs.GoFacts Proofs.ParseFacts.

(** ** Hex *)
Definition allBytes : list ascii := map ascii_of_nat (seq 0 256).
Lemma allBytes_In c : In c allBytes.
Proof.
  unfold allBytes. apply in_map_iff. exists (nat_of_ascii c). split; [apply ascii_nat_embedding|].
  apply in_seq. pose proof (nat_ascii_bounded c). lia.
Qed.
Lemma forall_bytes (f : ascii -> bool) : forallb f allBytes = true -> forall c, f c = true.
Proof. intros H c. rewrite forallb_forall in H. apply H, allBytes_In. Qed.

Definition optN_eqb (a b : option N) : bool :=
  match a, b with Some x, Some y => N.eqb x y | None, None => true | _, _ => false end.
Lemma optN_eqb_eq a b : optN_eqb a b = true -> a = b.
Proof. destruct a, b; simpl; try discriminate; [|reflexivity]. intro H. apply N.eqb_eq in H. congruence. Qed.

Lemma unhexDigit_value c : unhexDigit c = digitValue c.
Proof.
  apply optN_eqb_eq. revert c. apply forall_bytes. vm_compute. reflexivity.
Qed.
Lemma unhexDigit_lt c x : unhexDigit c = Some x -> (x < 16)%N.
Proof.
  intro H. pose (f c := match unhexDigit c with Some x => N.ltb x 16 | None => true end).
  assert (Hf : f c = true) by (apply forall_bytes; vm_compute; reflexivity).
  unfold f in Hf. rewrite H in Hf. apply N.ltb_lt, Hf.
Qed.
Lemma code_byte n : (n < 256)%N -> code (byte n) = n.
Proof. apply N_ascii_embedding. Qed.
Lemma byte_code c : byte (code c) = c.
Proof. apply ascii_N_embedding. Qed.
Lemma code_lt c : (code c < 256)%N.
Proof. apply N_ascii_bounded. Qed.

Lemma hexDecode_HexOf h b : hexDecode h = Some b <-> HexOf b h.
Proof.
  split.
  - revert b. induction h as [h H] using (well_founded_induction (Wf_nat.well_founded_ltof _ String.length)).
    intros b. destruct h as [|hi [|lo h]].
    + simpl. intro E. injection E as <-. constructor.
    + discriminate.
    + cbn [hexDecode]. destruct (unhexDigit hi) as [x|] eqn:E1; [|discriminate].
      destruct (unhexDigit lo) as [y|] eqn:E2; [|discriminate].
      destruct (hexDecode h) as [t|] eqn:E3; [|discriminate].
      intro E. injection E as <-. pose proof (unhexDigit_lt _ _ E1). pose proof (unhexDigit_lt _ _ E2).
      apply HexOf_cons with (x := x) (y := y); try (rewrite <- unhexDigit_value; assumption).
      * apply code_byte. lia.
      * apply H; [unfold Wf_nat.ltof; simpl; lia|exact E3].
  - induction 1 as [|c hi lo x y b h H1 H2 H3 _ IH]; [reflexivity|]. cbn [hexDecode].
    rewrite <- unhexDigit_value in H1, H2. rewrite H1, H2, IH. rewrite <- H3. fold (code c).
    rewrite byte_code. reflexivity.
Qed.
Lemma hexDigit_value n : (n < 16)%N -> digitValue (hexDigit n) = Some n.
Proof.
  intro H. assert (Hn : In n (map N.of_nat (seq 0 16))).
  { apply in_map_iff. exists (N.to_nat n). split; [apply N2Nat.id|]. apply in_seq. lia. }
  assert (E : forallb (fun n => optN_eqb (digitValue (hexDigit n)) (Some n)) (map N.of_nat (seq 0 16)) = true)
    by (vm_compute; reflexivity).
  rewrite forallb_forall in E. apply optN_eqb_eq, E, Hn.
Qed.
Lemma hexEncode_HexOf b : HexOf b (hexEncode b).
Proof.
  induction b as [|c b IH]; simpl; [constructor|]. pose proof (code_lt c).
  apply HexOf_cons with (x := (code c / 16)%N) (y := (code c mod 16)%N).
  - apply hexDigit_value. apply N.div_lt_upper_bound; lia.
  - apply hexDigit_value. apply N.mod_lt. lia.
  - fold (code c). apply N.div_mod'.
  - exact IH.
Qed.
Lemma hexDecode_hexEncode b : hexDecode (hexEncode b) = Some b.
Proof. apply hexDecode_HexOf, hexEncode_HexOf. Qed.
Lemma hexEncode_inj a b : hexEncode a = hexEncode b -> a = b.
Proof.
  intro H. apply (f_equal hexDecode) in H. rewrite !hexDecode_hexEncode in H. congruence.
Qed.
Lemma hexEncode_IsHex b : IsHex (hexEncode b).
Proof.
  assert (E : forall n, (n < 16)%N -> In (hexDigit n) (list_ascii_of_string hexDigits)).
  { intros n H. assert (Hn : In n (map N.of_nat (seq 0 16))).
    { apply in_map_iff. exists (N.to_nat n). split; [apply N2Nat.id|]. apply in_seq. lia. }
    assert (F : forallb (fun n => existsb (Ascii.eqb (hexDigit n)) (list_ascii_of_string hexDigits)) (map N.of_nat (seq 0 16)) = true)
      by (vm_compute; reflexivity).
    rewrite forallb_forall in F. apply F in Hn. apply existsb_exists in Hn as (c & Hc & Ec).
    apply Ascii.eqb_eq in Ec. rewrite Ec. exact Hc. }
  intros d. induction b as [|c b IH]; cbn [hexEncode list_ascii_of_string]; [intros []|].
  pose proof (code_lt c). intros [<-|[<-|H1]].
  - apply E. apply N.div_lt_upper_bound; lia.
  - apply E. apply N.mod_lt. lia.
  - exact (IH H1).
Qed.
Lemma hexEncode_slen b : slen (hexEncode b) = (2 * slen b)%N.
Proof. induction b as [|c b IH]; [reflexivity|]. unfold slen in *. cbn [hexEncode String.length]. lia. Qed.

(** Case does not matter. *)
Lemma unhexDigit_upper c : unhexDigit (upperChar c) = unhexDigit c.
Proof. apply optN_eqb_eq. revert c. apply forall_bytes. vm_compute. reflexivity. Qed.
Lemma hexDecode_toUpper h : hexDecode (toUpper h) = hexDecode h.
Proof.
  unfold toUpper. induction h as [h IH] using (well_founded_induction (Wf_nat.well_founded_ltof _ String.length)).
  destruct h as [|hi [|lo h]]; [reflexivity|reflexivity|]. cbn [smap_chars hexDecode].
  rewrite !unhexDigit_upper, IH; [reflexivity|]. unfold Wf_nat.ltof. simpl. lia.
Qed.

(** ** Signed content *)
Lemma isSig_spec r : isSig r = true <-> rr_kind r = "signature".
Proof. apply String.eqb_eq. Qed.
Lemma isSig_false r : isSig r = false <-> NotSig r.
Proof. apply String.eqb_neq. Qed.
Definition unsigned (res : list RawResource) : list RawResource := filter (fun r => negb (isSig r)) res.
Lemma Unsigned_filter res res' : Unsigned res res' <-> res' = unsigned res.
Proof.
  unfold unsigned. split.
  - induction 1 as [|r res res' H _ IH|r res res' H _ IH]; [reflexivity| |]; cbn [filter].
    + apply isSig_spec in H. rewrite H. exact IH.
    + apply isSig_false in H. rewrite H. simpl. congruence.
  - intros ->. induction res as [|r res IH]; cbn [filter]; [constructor|].
    destruct (isSig r) eqn:E; simpl.
    + apply Unsigned_sig; [apply isSig_spec, E|exact IH].
    + apply Unsigned_doc; [apply isSig_false, E|exact IH].
Qed.
Lemma Content_spec res c : Content res c <-> c = concats (map rr_data (unsigned res)).
Proof.
  unfold unsigned. split.
  - induction 1 as [|r res c H _ IH|r res c H _ IH]; [reflexivity| |]; cbn [filter].
    + apply isSig_spec in H. rewrite H. exact IH.
    + apply isSig_false in H. rewrite H. simpl. congruence.
  - intros ->. induction res as [|r res IH]; cbn [filter]; [constructor|].
    destruct (isSig r) eqn:E; simpl.
    + apply Content_sig; [apply isSig_spec, E|exact IH].
    + apply Content_doc; [apply isSig_false, E|exact IH].
Qed.
Lemma Content_exists res : exists c, Content res c.
Proof. eexists. apply Content_spec. reflexivity. Qed.
Lemma Content_det res c c' : Content res c -> Content res c' -> c = c'.
Proof. rewrite !Content_spec. congruence. Qed.

Section Facts.
  Variable D : Decoder.
  Variable mac : string -> string -> string.

  Lemma sign_ok res key h c :
    Content res c -> (sign mac res key = Ok h <-> (32 <= slen key)%N /\ h = mac key c).
  Proof.
    intro Hc. apply Content_spec in Hc. unfold sign. fold (unsigned res). rewrite <- Hc.
    destruct (N.ltb_spec (slen key) 32) as [H|H]; split.
    - discriminate.
    - intros [H' _]. lia.
    - intro E. injection E as <-. auto.
    - intros [_ ->]. reflexivity.
  Qed.
  Lemma sign_err res key e : sign mac res key = Err e <-> (slen key < 32)%N /\ e = ErrInvalidKey.
  Proof.
    unfold sign. destruct (N.ltb_spec (slen key) 32) as [H|H]; split.
    - intro E. injection E as <-. auto.
    - intros [_ ->]. reflexivity.
    - discriminate.
    - intros [H' _]. lia.
  Qed.

  Lemma Sign_ok data key h :
    Sign D mac data key = Ok h <->
    exists res c, parseRawString D data = Ok res /\ Content res c /\ (32 <= slen key)%N /\ h = hexEncode (mac key c).
  Proof.
    unfold Sign. rewrite obind_ok. split.
    - intros (res & H1 & H). rewrite obind_ok in H. destruct H as (m & Hm & E). injection E as <-.
      destruct (Content_exists res) as [c Hc]. apply (sign_ok _ _ _ _ Hc) in Hm; destruct Hm as [Hk ->].
      exists res, c. auto.
    - intros (res & c & H1 & Hc & Hk & ->). exists res. split; [exact H1|]. rewrite obind_ok.
      exists (mac key c). split; [apply (sign_ok _ _ _ _ Hc); auto|reflexivity].
  Qed.
  Lemma SignUpdate_ok data key out :
    SignUpdate D mac data key = Ok out <->
    exists res c, parseRawString D data = Ok res /\ Content res c /\ (32 <= slen key)%N /\
      out = upsert res (hexEncode (mac key c)).
  Proof.
    unfold SignUpdate. rewrite obind_ok. split.
    - intros (res & H1 & H). rewrite obind_ok in H. destruct H as (m & Hm & E). injection E as <-.
      destruct (Content_exists res) as [c Hc]. apply (sign_ok _ _ _ _ Hc) in Hm; destruct Hm as [Hk ->].
      exists res, c. auto.
    - intros (res & c & H1 & Hc & Hk & ->). exists res. split; [exact H1|]. rewrite obind_ok.
      exists (mac key c). split; [apply (sign_ok _ _ _ _ Hc); auto|reflexivity].
  Qed.

  (** First signature resource. *)
  Lemma extract_ok res m :
    extract D res = Ok m <->
    exists pre s post sg, res = pre ++ s :: post /\ Forall NotSig pre /\ rr_kind s = "signature" /\
      dec_signature D (rr_data s) = Some sg /\ HexOf m (si_hmac sg).
  Proof using D. clear mac.
    induction res as [|r res IH]; cbn [extract].
    - split; [discriminate|]. intros (pre & s & post & sg & E & _). destruct pre; discriminate.
    - destruct (isSig r) eqn:E.
      + rewrite obind_ok. split.
        * intros (sg & H1 & H). apply decoded_ok in H1. destruct (hexDecode (si_hmac sg)) as [m'|] eqn:Eh; [|discriminate].
          injection H as <-. exists [], r, res, sg. repeat split; auto; [apply isSig_spec, E|apply hexDecode_HexOf, Eh].
        * intros (pre & s & post & sg & E' & Hpre & Hs & Hd & Hh). destruct pre as [|p pre].
          -- injection E' as -> ->. exists sg. split; [apply decoded_ok, Hd|].
             apply hexDecode_HexOf in Hh. rewrite Hh. reflexivity.
          -- exfalso. injection E' as -> _. inversion Hpre; subst. apply isSig_false in H1. congruence.
      + rewrite IH. split.
        * intros (pre & s & post & sg & -> & Hpre & H). exists (r :: pre), s, post, sg. repeat split; try tauto.
          constructor; [apply isSig_false, E|exact Hpre].
        * intros (pre & s & post & sg & E' & Hpre & Hs & H). destruct pre as [|p pre].
          -- exfalso. injection E' as -> ->. apply isSig_spec in Hs. congruence.
          -- injection E' as -> ->. inversion Hpre; subst. exists pre, s, post, sg. repeat split; tauto.
  Qed.
  Lemma extract_panic res : extract D res <> Panic.
  Proof using D. clear mac.
    induction res as [|r res IH]; cbn [extract]; [discriminate|]. destruct (isSig r); [|exact IH].
    unfold decoded. destruct (dec_signature D (rr_data r)); simpl; [|discriminate].
    destruct (hexDecode _); discriminate.
  Qed.
  Lemma Verify_true data key :
    Verify D mac data key = Ok true <->
    exists res c pre s post sg,
      parseRawString D data = Ok res /\ Content res c /\ (32 <= slen key)%N /\
      res = pre ++ s :: post /\ Forall NotSig pre /\ rr_kind s = "signature" /\
      dec_signature D (rr_data s) = Some sg /\ HexOf (mac key c) (si_hmac sg).
  Proof.
    unfold Verify. rewrite obind_ok. split.
    - intros (res & H1 & H). destruct (extract D res) as [m|e|] eqn:E; try discriminate.
      rewrite obind_ok in H. destruct H as (m2 & Hm & Hb). injection Hb as Hb. apply String.eqb_eq in Hb. subst m2.
      destruct (Content_exists res) as [c Hc]. apply (sign_ok _ _ _ _ Hc) in Hm; destruct Hm as [Hk ->].
      apply extract_ok in E as (pre & s & post & sg & E1 & E2 & E3 & E4 & E5).
      exists res, c, pre, s, post, sg. auto 10.
    - intros (res & c & pre & s & post & sg & H1 & Hc & Hk & E1 & E2 & E3 & E4 & E5).
      exists res. split; [exact H1|].
      assert (Ex : extract D res = Ok (mac key c)) by (apply extract_ok; exists pre, s, post, sg; auto).
      rewrite Ex, obind_ok. exists (mac key c). split; [apply (sign_ok _ _ _ _ Hc); auto|].
      rewrite String.eqb_refl. reflexivity.
  Qed.
  Lemma Verify_panic data key : Verify D mac data key <> Panic.
  Proof.
    unfold Verify. intro H. rewrite obind_panic in H. destruct H as [H|(res & _ & H)].
    - exact (parseRawString_panic _ _ H).
    - destruct (extract D res) eqn:E; [|discriminate|exact (extract_panic _ E)].
      rewrite obind_panic in H. destruct H as [H|(m & _ & H)]; [|discriminate].
      unfold sign in H. destruct (N.ltb _ _); discriminate.
  Qed.

  (** ** Reading back what the signer writes *)
  Definition GoodLine (l : string) : Prop :=
    ~ In NL (list_ascii_of_string l) /\ Short l /\ Plain l /\ (forall l', l <> l' +++ cr)%string.

  Lemma Lines_text body s ls :
    Forall (fun l => ~ In NL (list_ascii_of_string l)) body -> Lines s ls ->
    Lines (text body +++ s)%string (body ++ ls).
  Proof using. clear mac. clear D.
    intros Hb Hs. induction Hb as [|l body Hl _ IH]; [exact Hs|].
    unfold text. cbn [map concats]. fold (text body). rewrite !sapp_assoc. constructor; assumption.
  Qed.
  Lemma File_body_lines ls docs : File ls docs -> Forall (Forall (fun l => Plain l /\ In l ls)) docs.
  Proof using. clear mac. clear D.
    assert (HB : forall ls docs, Blocks ls docs -> Forall (Forall (fun l => Plain l /\ In l ls)) docs).
    { induction 1 as [|t rest Ht|sep body ls' ds Hs Hb _ IH]; constructor.
      - rewrite Forall_forall in *. intros x Hx. split; [apply Hb, Hx|]. right. apply in_or_app. auto.
      - eapply Forall_impl; [|exact IH]. intros d Hd. eapply Forall_impl; [|exact Hd].
        intros x [H1 H2]. split; [exact H1|]. right. apply in_or_app. auto. }
    intros [|ls' doc ds H|l body ls' ds Hp H|t rest Ht].
    - constructor.
    - apply HB, H.
    - constructor.
      + rewrite Forall_forall in *. intros x Hx. split; [apply Hp, Hx|]. apply in_or_app. auto.
      + eapply Forall_impl; [|apply HB, H]. intros d Hd. eapply Forall_impl; [|exact Hd].
        intros x [H1 H2]. split; [exact H1|]. apply in_or_app. auto.
    - repeat constructor.
  Qed.
  Lemma Lines_noNL s ls : Lines s ls -> Forall (fun l => ~ In NL (list_ascii_of_string l)) ls.
  Proof using. clear mac. clear D. induction 1; repeat constructor; auto. Qed.
  Lemma Lines_in s ls l : Lines s ls -> In l ls -> exists a b, (s +++ nl = a +++ l +++ nl +++ b)%string.
  Proof using. clear mac. clear D.
    induction 1 as [|l0 H1 H2|l0 s ls H1 H2 IH]; intro Hin.
    - destruct Hin.
    - destruct Hin as [->|[]]. exists "", "". rewrite sapp_nil_r. reflexivity.
    - destruct Hin as [->|Hin].
      + exists "", (s +++ nl)%string. rewrite !sapp_assoc. reflexivity.
      + destruct (IH Hin) as (a & b & E). exists (l0 +++ nl +++ a)%string, b.
        rewrite !sapp_assoc, E. reflexivity.
  Qed.
  Lemma dropCR_noNL l : ~ In NL (list_ascii_of_string l) -> ~ In NL (list_ascii_of_string (dropCR l)).
  Proof using. clear mac. clear D.
    intro H. destruct (proj2 (Chomp_dropCR l (dropCR l)) eq_refl) as [l'|l' _]; [|exact H].
    intro Hin. apply H. rewrite laos_app. apply in_or_app. auto.
  Qed.
  Lemma dropCR_slen l : (slen (dropCR l) <= slen l)%N.
  Proof using. clear mac. clear D.
    destruct (proj2 (Chomp_dropCR l (dropCR l)) eq_refl) as [l'|l' _]; [|lia]. rewrite slen_app. lia.
  Qed.
  Lemma fitting_in l ls : In l (fitting ls) -> In l ls /\ Short l.
  Proof using. clear mac. clear D.
    induction ls as [|x ls IH]; simpl; [tauto|]. destruct (N.ltb_spec (slen x) maxToken) as [H|H]; [|simpl; tauto].
    simpl. intros [<-|Hin]; [split; [auto|exact H]|]. apply IH in Hin as [H1 H2]. auto.
  Qed.

  Lemma raw_docs_bodies data :
    exists bodies, raw_docs data = map text bodies /\
      Forall (Forall (fun l => ~ In NL (list_ascii_of_string l) /\ Short l /\ Plain l)) bodies /\
      (NoCRCR data -> Forall (Forall GoodLine) bodies).
  Proof using. clear mac. clear D.
    destruct (Lines_exists data) as [rls Hl]. destruct (File_exists (map dropCR (fitting rls))) as [docs Hf].
    exists docs. split; [|split].
    - unfold raw_docs. rewrite (scan_lines_Lines _ _ Hl). apply raw_loop_File, Hf.
    - eapply Forall_impl; [|apply (File_body_lines _ _ Hf)]. intros d Hd. eapply Forall_impl; [|exact Hd].
      intros l [Hp Hin]. apply in_map_iff in Hin as (r & <- & Hin). apply fitting_in in Hin as [Hin Hs].
      pose proof (Lines_noNL _ _ Hl) as Hn. rewrite Forall_forall in Hn. repeat split; try apply Hp.
      + apply dropCR_noNL, Hn, Hin.
      + unfold Short in *. pose proof (dropCR_slen r). lia.
    - intro Hcr. eapply Forall_impl; [|apply (File_body_lines _ _ Hf)]. intros d Hd. eapply Forall_impl; [|exact Hd].
      intros l [Hp Hin]. apply in_map_iff in Hin as (r & <- & Hin). apply fitting_in in Hin as [Hin Hs].
      pose proof (Lines_noNL _ _ Hl) as Hn. rewrite Forall_forall in Hn. unfold GoodLine. repeat split; try apply Hp.
      + apply dropCR_noNL, Hn, Hin.
      + unfold Short in *. pose proof (dropCR_slen r). lia.
      + intros l' E. destruct (proj2 (Chomp_dropCR r (dropCR r)) eq_refl) as [l0|l0 Hno]; [|exact (Hno _ E)].
        subst l0. destruct (Lines_in _ _ _ Hl Hin) as (a & b & Eab). apply Hcr. exists (a +++ l')%string, b.
        rewrite Eab, !sapp_assoc. reflexivity.
  Qed.

  Lemma raw_docs_blocks bodies :
    Forall (Forall GoodLine) bodies -> bodies <> [] ->
    forall tl, Lines tl ["..."] ->
    raw_docs (concats (map (fun d => "---" +++ nl +++ text d)%string bodies) +++ tl)%string = map text bodies.
  Proof using. clear mac. clear D.
    intros Hg Hne tl Htl.
    pose (ls := flat_map (fun b => "---" :: b) bodies ++ ["..."]).
    assert (HL : Lines (concats (map (fun d => "---" +++ nl +++ text d)%string bodies) +++ tl)%string ls).
    { unfold ls. clear ls Hne. induction Hg as [|b bs Hb _ IH]; [exact Htl|].
      cbn [map concats flat_map]. rewrite !sapp_assoc. cbn [app]. rewrite <- app_assoc. constructor.
      - simpl. intuition discriminate.
      - apply Lines_text; [|exact IH]. eapply Forall_impl; [|exact Hb]. intros l Hl. apply Hl. }
    assert (HS : Forall Short ls).
    { unfold ls. apply Forall_app. split; [|repeat constructor]. clear -Hg.
      induction Hg as [|b bs Hb _ IH]; [constructor|]. cbn [flat_map]. constructor; [reflexivity|].
      apply Forall_app. split; [|exact IH]. eapply Forall_impl; [|exact Hb]. intros l Hl. apply Hl. }
    assert (HC : map dropCR ls = ls).
    { unfold ls. rewrite map_app. f_equal. clear -Hg. induction Hg as [|b bs Hb _ IH]; [reflexivity|].
      cbn [flat_map]. rewrite map_app, IH. f_equal. cbn [map]. f_equal.
      induction Hb as [|l b Hl _ IH']; [reflexivity|]. cbn [map]. rewrite IH', dropCR_no by apply Hl. reflexivity. }
    apply raw_docs_File with (rls := ls) (ls := ls); [exact HL|exact HS|apply Forall2_Chomp; congruence|].
    assert (HB : Blocks ls bodies).
    { unfold ls. clear -Hg. induction Hg as [|b bs Hb _ IH].
      - apply Blocks_term. exists "". reflexivity.
      - cbn [flat_map app]. rewrite <- app_assoc. apply Blocks_doc; [exists ""; reflexivity| |exact IH].
        eapply Forall_impl; [|exact Hb]. intros l Hl. apply Hl. }
    destruct bodies as [|b bs]; [congruence|]. apply File_sep, HB.
  Qed.

  Lemma unsigned_app a b : unsigned (a ++ b) = unsigned a ++ unsigned b.
  Proof using. clear mac. clear D. apply filter_app. Qed.
  Lemma unsigned_idem a : unsigned (unsigned a) = unsigned a.
  Proof using. clear mac. clear D.
    unfold unsigned. induction a as [|r a IH]; [reflexivity|]. cbn [filter].
    destruct (negb (isSig r)) eqn:E; cbn [filter]; [rewrite E, IH; reflexivity|exact IH].
  Qed.
  Lemma unsigned_NotSig a : Forall NotSig (unsigned a).
  Proof using. clear mac. clear D.
    unfold unsigned. induction a as [|r a IH]; [constructor|]. cbn [filter].
    destruct (isSig r) eqn:E; simpl; [exact IH|]. constructor; [apply isSig_false, E|exact IH].
  Qed.

  Lemma GoodLine_const l :
    hasChar NL l = false -> N.ltb (slen l) 65536 = true -> isSeparator l = false -> isTerminator l = false ->
    hasChar CR l = false -> GoodLine l.
  Proof using. clear mac. clear D.
    intros H1 H2 H3 H4 H5. repeat split.
    - apply hasChar_false, H1.
    - apply N.ltb_lt, H2.
    - apply Plain_spec; auto.
    - apply Plain_spec; auto.
    - intros l' ->. apply hasChar_false in H5. apply H5, snoc_char_In.
  Qed.
  Lemma IsHex_no c h : IsHex h -> hasChar c hexDigits = false -> hasChar c h = false.
  Proof using. clear mac. clear D. intros H Hc. apply hasChar_false. intro Hin. apply H in Hin. apply hasChar_In in Hin. congruence. Qed.
  Lemma GoodLine_hmac h : IsHex h -> slen h = 64%N -> GoodLine ("hmac: " +++ h)%string.
  Proof using. clear mac. clear D.
    intros H Hl. apply GoodLine_const.
    - rewrite hasChar_app, (IsHex_no NL h H) by reflexivity. reflexivity.
    - rewrite slen_app, Hl. reflexivity.
    - reflexivity.
    - reflexivity.
    - rewrite hasChar_app, (IsHex_no CR h H) by reflexivity. reflexivity.
  Qed.

  (** The resources of what [upsert] writes. *)
  Lemma parse_upsert data res h :
    ReadsSignature D -> IsHex h -> slen h = 64%N -> NoCRCR data -> parseRawString D data = Ok res ->
    exists s sg, parseRawString D (upsert res h) = Ok (unsigned res ++ [s]) /\
      rr_kind s = "signature" /\ rr_data s = sig_text h /\
      dec_signature D (rr_data s) = Some sg /\ si_hmac sg = h.
  Proof using D. clear mac.
    intros Hrs Hh Hlen Hcr Hp.
    destruct (raw_docs_bodies data) as (bodies & Hd & _ & Hg). specialize (Hg Hcr).
    unfold parseRawString in Hp. rewrite Hd in Hp. apply otraverse_ok in Hp. apply Forall2_map_l in Hp.
    (* the bodies of the unsigned resources *)
    assert (HU : exists ub, Forall (Forall GoodLine) ub /\ map text ub = map rr_data (unsigned res) /\
                            Forall2 (fun b r => decode_raw D (text b) = Ok r) ub (unsigned res)).
    { clear Hd. revert res Hp. induction Hg as [|b bs Hb _ IH]; intros res Hp; inversion Hp; subst.
      - exists []. repeat split; constructor.
      - destruct (IH _ H3) as (ub & Hu1 & Hu2 & Hu3). unfold unsigned. cbn [filter].
        destruct (isSig y) eqn:E; simpl.
        + exists ub. auto.
        + exists (b :: ub). split; [constructor; assumption|]. split; [|constructor; assumption].
          simpl. f_equal; [|exact Hu2]. apply decode_raw_ok in H1 as [<- _]. reflexivity. }
    destruct HU as (ub & Hu1 & Hu2 & Hu3).
    destruct (Hrs h Hh Hlen) as [(hd & Hhd & Hk) (sg & Hsg & Hhm)].
    pose (sb := ["kind: signature"; ("hmac: " +++ h)%string; ""]).
    assert (Hsb : Forall GoodLine sb).
    { constructor; [apply GoodLine_const; reflexivity|]. constructor; [apply GoodLine_hmac; assumption|].
      constructor; [apply GoodLine_const; reflexivity|constructor]. }
    assert (Eup : upsert res h =
      (concats (map (fun d => "---" +++ nl +++ text d) (ub ++ [sb])) +++ "..." +++ nl)%string).
    { unfold upsert, write_docs. fold (unsigned res). rewrite map_app, concats_app.
      rewrite !sapp_assoc. f_equal.
      - rewrite <- (map_map text (fun d => "---" +++ nl +++ d)%string).
        rewrite Hu2. rewrite map_map. reflexivity.
      - unfold write_sig, sb, text. cbn [map concats]. rewrite !sapp_nil_r, !sapp_assoc. reflexivity. }
    exists {| rr_version := h_version hd; rr_kind := h_kind hd; rr_type := h_type hd; rr_data := sig_text h |}, sg.
    split; [|auto].
    unfold parseRawString. rewrite Eup. rewrite raw_docs_blocks.
    - apply otraverse_ok. apply Forall2_map_l. apply Forall2_app; [exact Hu3|].
      constructor; [|constructor]. apply decode_raw_ok. simpl. split; [reflexivity|].
      fold (sig_text h). unfold header_of. simpl. unfold sb. fold (sig_text h). rewrite Hhd. destruct hd; reflexivity.
    - apply Forall_app. auto.
    - intro E. destruct ub; discriminate.
    - change ("..." +++ nl)%string with ("..." +++ nl +++ "")%string. constructor; [simpl; intuition discriminate|constructor].
  Qed.

  Lemma Content_unsigned_sig res s c :
    rr_kind s = "signature" -> (Content (unsigned res ++ [s]) c <-> Content res c).
  Proof using. clear mac. clear D.
    intro Hs. rewrite !Content_spec, unsigned_app, unsigned_idem. unfold unsigned at 2. cbn [filter].
    apply isSig_spec in Hs. rewrite Hs. simpl. rewrite app_nil_r. reflexivity.
  Qed.

  Lemma sign_update_spec data key out :
    ReadsSignature D -> Mac32 mac -> NoCRCR data -> SignUpdate D mac data key = Ok out ->
    exists res c s sg,
      parseRawString D data = Ok res /\ Content res c /\ (32 <= slen key)%N /\
      parseRawString D out = Ok (unsigned res ++ [s]) /\
      rr_kind s = "signature" /\ rr_data s = sig_text (hexEncode (mac key c)) /\
      dec_signature D (rr_data s) = Some sg /\ si_hmac sg = hexEncode (mac key c).
  Proof.
    intros Hrs Hm Hcr H. apply SignUpdate_ok in H as (res & c & H1 & Hc & Hk & ->).
    destruct (parse_upsert data res (hexEncode (mac key c)) Hrs (hexEncode_IsHex _)) as (s & sg & H2 & H3 & H4 & H5 & H6);
      [rewrite hexEncode_slen, Hm; reflexivity|exact Hcr|exact H1|].
    exists res, c, s, sg. auto 10.
  Qed.

  Lemma sign_then_verify data key out :
    ReadsSignature D -> Mac32 mac -> NoCRCR data ->
    SignUpdate D mac data key = Ok out -> Verify D mac out key = Ok true.
  Proof.
    intros Hrs Hm Hcr H. destruct (sign_update_spec _ _ _ Hrs Hm Hcr H) as (res & c & s & sg & H1 & Hc & Hk & H2 & H3 & H4 & H5 & H6).
    apply Verify_true. exists (unsigned res ++ [s]), c, (unsigned res), s, [], sg. repeat split; auto.
    - apply Content_unsigned_sig; assumption.
    - apply unsigned_NotSig.
    - rewrite H6. apply hexEncode_HexOf.
  Qed.

  Lemma sign_update_idem data key out :
    ReadsSignature D -> Mac32 mac -> NoCRCR data ->
    SignUpdate D mac data key = Ok out -> SignUpdate D mac out key = Ok out.
  Proof.
    intros Hrs Hm Hcr H. pose proof H as H0.
    destruct (sign_update_spec _ _ _ Hrs Hm Hcr H) as (res & c & s & sg & H1 & Hc & Hk & H2 & H3 & H4 & H5 & H6).
    apply SignUpdate_ok. exists (unsigned res ++ [s]), c. split; [exact H2|].
    split; [apply Content_unsigned_sig; assumption|]. split; [exact Hk|].
    apply SignUpdate_ok in H0 as (res' & c' & H1' & Hc' & _ & ->).
    rewrite H1 in H1'. injection H1' as <-. rewrite (Content_det _ _ _ Hc Hc').
    unfold upsert, write_docs. fold (unsigned res). fold (unsigned (unsigned res ++ [s])).
    rewrite unsigned_app, unsigned_idem. unfold unsigned at 3. cbn [filter]. apply isSig_spec in H3. rewrite H3.
    cbn [negb]. rewrite app_nil_r. reflexivity.
  Qed.
  Lemma sign_same_after data key out h :
    ReadsSignature D -> Mac32 mac -> NoCRCR data ->
    SignUpdate D mac data key = Ok out -> (Sign D mac out key = Ok h <-> Sign D mac data key = Ok h).
  Proof.
    intros Hrs Hm Hcr H.
    destruct (sign_update_spec _ _ _ Hrs Hm Hcr H) as (res & c & s & sg & H1 & Hc & Hk & H2 & H3 & H4 & H5 & H6).
    rewrite !Sign_ok. split; intros (r & c' & E & Hc' & _ & ->).
    - rewrite H2 in E. injection E as <-. apply Content_unsigned_sig in Hc'; [|exact H3]. exists res, c'. auto.
    - rewrite H1 in E. injection E as <-. exists (unsigned res ++ [s]), c'. split; [exact H2|].
      split; [apply Content_unsigned_sig; assumption|]. auto.
  Qed.
  Lemma write_to_sign data key h out :
    Sign D mac data key = Ok h -> (WriteTo D data h = (out, None) <-> SignUpdate D mac data key = Ok out).
  Proof.
    intro H. apply Sign_ok in H as (res & c & H1 & Hc & Hk & ->). unfold WriteTo. rewrite H1, SignUpdate_ok. split.
    - intro E. injection E as <-. exists res, c. auto.
    - intros (res' & c' & E & Hc' & _ & ->). rewrite H1 in E. injection E as <-.
      rewrite (Content_det _ _ _ Hc Hc'). reflexivity.
  Qed.
  (** [Sign] and [SignUpdate] succeed together. *)
  Lemma sign_iff_update data key :
    (exists h, Sign D mac data key = Ok h) <-> (exists out, SignUpdate D mac data key = Ok out).
  Proof.
    split.
    - intros [h H]. apply Sign_ok in H as (res & c & H1 & Hc & Hk & ->).
      eexists. apply SignUpdate_ok. exists res, c. auto.
    - intros [out H]. apply SignUpdate_ok in H as (res & c & H1 & Hc & Hk & ->).
      eexists. apply Sign_ok. exists res, c. auto.
  Qed.
  Lemma short_key data key :
    (slen key < 32)%N ->
    (forall h, Sign D mac data key <> Ok h) /\ (forall out, SignUpdate D mac data key <> Ok out) /\
    Verify D mac data key <> Ok true.
  Proof.
    intro Hk. repeat split.
    - intros h H. apply Sign_ok in H as (res & c & _ & _ & Hk' & _). lia.
    - intros out H. apply SignUpdate_ok in H as (res & c & _ & _ & Hk' & _). lia.
    - intro H. apply Verify_true in H as (res & c & pre & s & post & sg & _ & _ & Hk' & _). lia.
  Qed.
  Lemma long_key_ok data key :
    (32 <= slen key)%N ->
    (forall res, parseRawString D data = Ok res ->
       (exists h, Sign D mac data key = Ok h) /\ (exists out, SignUpdate D mac data key = Ok out) /\
       (exists b, Verify D mac data key = Ok b)).
  Proof.
    intros Hk res H. destruct (Content_exists res) as [c Hc]. repeat split.
    - eexists. apply Sign_ok. exists res, c. auto.
    - eexists. apply SignUpdate_ok. exists res, c. auto.
    - unfold Verify. rewrite H. simpl. destruct (extract D res) as [m|e|] eqn:E.
      + assert (Hs : sign mac res key = Ok (mac key c)) by (apply (sign_ok _ _ _ _ Hc); auto).
        rewrite Hs. simpl. eauto.
      + eauto.
      + exfalso. exact (extract_panic _ E).
  Qed.
End Facts.
