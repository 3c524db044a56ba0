(** * YamlStrings.v: yaml reads back what encodeString writes. *)
From Coq Require Import Lia ZifyN.
From Verif Require Import Model.Go Model.Types Model.Decode Model.Quote Model.Pretty.
From Verif Require Import Spec.DecodeSpec Spec.YamlSpec Spec.PrettySpec.
From Verif Require Import Proofs.GoFacts Proofs.ScriptFacts Proofs.YamlFacts.
From Verif Require Spec.ScriptSpec.
Import ScriptSpec (utf8).
Ltac Zify.zify_post_hook ::= Z.to_euclidean_division_equations.

Definition Scalar (r : N) : Prop := (r < 55296 \/ 57344 <= r < 1114112)%N.

Lemma contByte_ok : forall lo hi n s, (n < 256)%N -> (lo <= n <= hi)%N -> contByte lo hi (String (byte n) s) = Some ((n - 128)%N, s).
Proof.
  intros lo hi n s H B. cbn [contByte]. assert (E : between lo hi (byte n) = true) by (apply between_iff; rewrite code_byte by exact H; exact B).
  rewrite E, code_byte by exact H. reflexivity.
Qed.
Lemma between_byte : forall lo hi n, (n < 256)%N -> between lo hi (byte n) = (N.leb lo n && N.leb n hi)%bool.
Proof. intros lo hi n H. unfold between. rewrite code_byte by exact H. reflexivity. Qed.
Lemma leb_t : forall a b, (a <= b)%N -> N.leb a b = true. Proof. intros. apply N.leb_le. assumption. Qed.
Lemma leb_f : forall a b, (b < a)%N -> N.leb a b = false. Proof. intros. apply N.leb_gt. assumption. Qed.
Lemma decodeRune_utf8 : forall r x, (128 <= r)%N -> Scalar r -> exists c s w, utf8 r = String c s /\ (128 <= code c)%N /\
  decodeRune c (s +++ x) = Some (r, S w) /\ String.length s = w.
Proof.
  intros r x H V. unfold Scalar in V. unfold utf8. replace (N.ltb r 128) with false by (symmetry; apply N.ltb_ge; lia).
  destruct (N.ltb r 2048) eqn:A; [apply N.ltb_lt in A|apply N.ltb_ge in A; destruct (N.ltb r 65536) eqn:B; [apply N.ltb_lt in B|apply N.ltb_ge in B]];
  unfold ScriptSpec.bytes; cbn [map string_of_list_ascii]; do 3 eexists.
  - split; [reflexivity|]. split; [rewrite code_byte by lia; lia|]. split; [|reflexivity]. unfold decodeRune.
    rewrite between_byte by lia. rewrite !leb_t by lia. cbn [andb String.append]. rewrite contByte_ok by lia. rewrite code_byte by lia.
    apply f_equal, f_equal2; [lia|reflexivity].
  - split; [reflexivity|]. split; [rewrite code_byte by lia; lia|]. split; [|reflexivity]. unfold decodeRune.
    rewrite !between_byte by lia. rewrite (leb_f (224 + r / 4096) 223) by lia. rewrite andb_false_r. rewrite !leb_t by lia. cbn [andb String.append].
    rewrite code_byte by lia. rewrite contByte_ok; [|lia|].
    + rewrite contByte_ok by lia. apply f_equal, f_equal2; [lia|reflexivity].
    + destruct (N.eqb_spec (224 + r / 4096) 224), (N.eqb_spec (224 + r / 4096) 237); lia.
  - split; [reflexivity|]. split; [rewrite code_byte by lia; lia|]. split; [|reflexivity]. unfold decodeRune.
    rewrite !between_byte by lia. rewrite (leb_f (240 + r / 262144) 223), (leb_f (240 + r / 262144) 239) by lia. rewrite !andb_false_r. rewrite !leb_t by lia. cbn [andb String.append].
    rewrite code_byte by lia. rewrite contByte_ok; [|lia|].
    + rewrite contByte_ok by lia. rewrite contByte_ok by lia. apply f_equal, f_equal2; [lia|reflexivity].
    + destruct (N.eqb_spec (240 + r / 262144) 240), (N.eqb_spec (240 + r / 262144) 244); lia.
Qed.

(** ** Quoted strings, character by character *)
Lemma utf8_ascii : forall r, (r < 128)%N -> utf8 r = String (byte r) "".
Proof. intros r H. unfold utf8. apply N.ltb_lt in H. rewrite H. reflexivity. Qed.
Lemma quoteBody_skip : forall iph s x, quoteBody iph (String.length s) (s +++ x) = quoteBody iph 0 x.
Proof. induction s as [|c s IH]; intro x; [reflexivity|]. cbn [String.length String.append quoteBody]. apply IH. Qed.
Lemma stake_app : forall s x, stake (String.length s) (s +++ x) = s.
Proof. induction s as [|c s IH]; intro x; [destruct x; reflexivity|]. cbn. rewrite IH. reflexivity. Qed.
Lemma quote_rune : forall iph r x, Scalar r -> quoteBody iph 0 (utf8 r +++ x) = (escapeRune iph r (utf8 r) +++ quoteBody iph 0 x)%string.
Proof.
  intros iph r x V. destruct (N.ltb_spec r 128) as [L|L].
  - rewrite utf8_ascii by exact L. cbn [String.append quoteBody]. rewrite code_byte by lia.
    replace (N.ltb r 128) with true by (symmetry; apply N.ltb_lt; exact L). reflexivity.
  - destruct (decodeRune_utf8 r x L V) as (c & s & w & E & C & D & Lw). rewrite E. cbn [String.append quoteBody].
    replace (N.ltb (code c) 128) with false by (symmetry; apply N.ltb_ge; exact C). rewrite D. cbn [stake]. subst w. rewrite stake_app.
    replace (S (String.length s) - 1) with (String.length s) by lia. rewrite quoteBody_skip. reflexivity.
Qed.
Lemma yprepend_app : forall a b o, prepend (a +++ b) o = prepend a (prepend b o).
Proof. intros a b [[t u]|]; cbn; [rewrite sapp_assoc|]; reflexivity. Qed.
Lemma read_raw : forall t x, (forall c, In c (list_ascii_of_string t) -> c <> """"%char /\ c <> "\"%char) ->
  readQuoted (t +++ x) = prepend t (readQuoted x).
Proof.
  induction t as [|c t IH]; intros x H; [cbn [String.append]; destruct (readQuoted x) as [[]|]; reflexivity|]. cbn [String.append readQuoted].
  destruct (H c) as [N1 N2]; [left; reflexivity|]. apply Ascii.eqb_neq in N1, N2. rewrite N1, N2.
  rewrite IH by (intros d I; apply H; right; exact I). rewrite <- yprepend_app. reflexivity.
Qed.
Lemma scalar_character : forall r, Scalar r -> isCharacter r = true.
Proof.
  intros r H. unfold Scalar in H. unfold isCharacter. destruct (N.ltb_spec r 55296); [reflexivity|]. cbn [orb].
  destruct (N.ltb_spec 57343 r); [|lia]. destruct (N.ltb_spec r 1114112); [reflexivity|lia].
Qed.
Lemma read_u : forall r x, Scalar r -> (r < 65536)%N -> readQuoted (uHex r +++ x) = prepend (utf8 r) (readQuoted x).
Proof.
  intros r x C H. pose proof (hexVals_val 4 r H) as V. unfold uHex. revert V.
  cbn [hexFixed String.append list_ascii_of_string readQuoted Ascii.eqb Bool.eqb simpleEscape simpleEscapes find fst snd option_map].
  unfold numbered. intros ->. rewrite (scalar_character r C). reflexivity.
Qed.
Lemma read_U : forall r x, Scalar r -> (r < 4294967296)%N -> readQuoted (UHex r +++ x) = prepend (utf8 r) (readQuoted x).
Proof.
  intros r x C H. pose proof (hexVals_val 8 r H) as V. unfold UHex. revert V.
  cbn [hexFixed String.append list_ascii_of_string readQuoted Ascii.eqb Bool.eqb simpleEscape simpleEscapes find fst snd option_map].
  unfold numbered. intros ->. rewrite (scalar_character r C). reflexivity.
Qed.
Lemma read_ascii : forall iph c x, (code c < 128)%N ->
  readQuoted (escapeRune iph (code c) (String c "") +++ x) = prepend (String c "") (readQuoted x).
Proof.
  intros iph c x H. destruct c as [[][][][][][][][]]; try (exfalso; revert H; vm_compute; intro H; discriminate H); reflexivity.
Qed.
Lemma high_char : forall c, (128 <= code c)%N -> forall d, (code d < 128)%N -> c <> d.
Proof. intros c H d L ->. lia. Qed.
Lemma read_rune : forall iph r x, Scalar r -> readQuoted (escapeRune iph r (utf8 r) +++ x) = prepend (utf8 r) (readQuoted x).
Proof.
  intros iph r x V. destruct (N.ltb_spec r 128) as [L|L].
  - rewrite utf8_ascii by exact L. rewrite <- (code_byte r) at 1 by lia. apply read_ascii. rewrite code_byte; lia.
  - pose proof V as V'. unfold Scalar in V. rewrite escape_high by exact L. destruct (iph r).
    + apply read_raw. intros c I. apply utf8_bytes in I; [|lia]. split; apply high_char; try exact I; reflexivity.
    + destruct (N.ltb_spec r 65536); [apply read_u; assumption|apply read_U; [exact V'|lia]].
Qed.
Definition decoded (rs : list N) : string := concats (map utf8 rs).
Lemma read_quote : forall iph rs x, Forall Scalar rs -> readQuoted (quoteBody iph 0 (decoded rs) +++ String """" x) = Some (decoded rs, x).
Proof.
  intros iph rs x F. induction F as [|r rs V F IH]; [reflexivity|]. unfold decoded in *. cbn [map concats].
  rewrite quote_rune by exact V. rewrite sapp_assoc, read_rune by exact V. rewrite IH. reflexivity.
Qed.

(** ** Texts of yaml characters *)
Definition Visible (s : string) : Prop := exists rs, s = decoded rs /\ Forall YamlChar rs.
Lemma visible_app : forall a b, Visible a -> Visible b -> Visible (a +++ b).
Proof.
  intros a b (ra & -> & A) (rb & -> & B). exists (ra ++ rb). split; [|apply Forall_app; split; assumption].
  unfold decoded. rewrite map_app, concats_app. reflexivity.
Qed.
Lemma visible_rune : forall r, YamlChar r -> Visible (utf8 r).
Proof. intros r H. exists [r]. split; [unfold decoded; cbn; rewrite sapp_nil_r; reflexivity|constructor; [exact H|constructor]]. Qed.
Definition printable (c : ascii) : bool := between 32 126 c.
Lemma visible_ascii : forall s, sforallb printable s = true -> Visible s.
Proof.
  induction s as [|c s IH]; intro H; [exists []; split; [reflexivity|constructor]|]. cbn in H. apply andb_prop in H. destruct H as [H1 H2].
  apply between_iff in H1. change (String c s) with (String c "" +++ s)%string. apply visible_app; [|apply IH, H2].
  rewrite <- (byte_code c), <- utf8_ascii by lia. apply visible_rune. unfold YamlChar. lia.
Qed.
Lemma yaml_scalar : forall r, YamlChar r -> Scalar r.
Proof. unfold YamlChar, Scalar. intros. lia. Qed.
Lemma utf8_no_control : forall r n, YamlChar r -> (n < 32)%N -> hasChar (byte n) (utf8 r) = false.
Proof.
  intros r n H L. destruct (N.ltb_spec r 128) as [R|R].
  - rewrite utf8_ascii by exact R. cbn. rewrite orb_false_r. apply Ascii.eqb_neq. intro E. apply (f_equal code) in E.
    rewrite !code_byte in E by (unfold YamlChar in H; lia). unfold YamlChar in H. lia.
  - apply not_true_iff_false. intro E. apply hasChar_In in E. apply utf8_bytes in E; [|unfold YamlChar in H; lia]. rewrite code_byte in E by lia. lia.
Qed.
Lemma visible_control : forall s n, Visible s -> (n < 32)%N -> hasChar (byte n) s = false.
Proof.
  intros s n (rs & -> & F) L. induction F as [|r rs H F IH]; [reflexivity|]. unfold decoded in *. cbn [map concats].
  rewrite hasChar_app, IH, utf8_no_control by assumption. reflexivity.
Qed.
Lemma visible_oneLine : forall s, Visible s -> oneLine s = true.
Proof. intros s V. unfold oneLine. change NL with (byte 10). change CR with (byte 13). rewrite !visible_control by (try exact V; reflexivity). reflexivity. Qed.

Definition Written (r : N) : Prop := YamlChar r \/ (7 <= r <= 13)%N.
Lemma written_scalar : forall r, Written r -> Scalar r.
Proof. unfold Written, YamlChar, Scalar. intros. lia. Qed.
Lemma printable_hex : forall d n, sforallb printable (hexFixed d n) = true.
Proof.
  assert (A : forall a b, sforallb printable (a +++ b) = sforallb printable a && sforallb printable b).
  { induction a as [|c a IH]; intro b; [reflexivity|]. cbn. rewrite IH. apply andb_assoc. }
  induction d as [|d IH]; intro n; [reflexivity|]. cbn [hexFixed]. rewrite A, IH. cbn. rewrite andb_true_r.
  pose proof (below_all 16 (fun n => printable (hexDigit n)) ltac:(vm_compute; reflexivity) (n mod 16)%N) as X. apply X. apply N.mod_lt. discriminate.
Qed.
Lemma escape_ascii_visible : forall iph c, (code c < 128)%N -> sforallb printable (escapeRune iph (code c) (String c "")) = true.
Proof.
  intros iph c H. destruct c as [[][][][][][][][]]; try (exfalso; revert H; vm_compute; intro H; discriminate H); reflexivity.
Qed.
Lemma escape_visible : forall iph r, Written r -> Visible (escapeRune iph r (utf8 r)).
Proof.
  intros iph r W. destruct (N.ltb_spec r 128) as [L|L].
  - rewrite utf8_ascii by exact L. rewrite <- (code_byte r) at 1 by lia. apply visible_ascii, escape_ascii_visible. rewrite code_byte; lia.
  - rewrite escape_high by exact L. destruct (iph r).
    + apply visible_rune. destruct W as [W|W]; [exact W|lia].
    + destruct (N.ltb r 65536); apply visible_ascii; unfold uHex, UHex; cbn [String.append sforallb]; rewrite printable_hex; reflexivity.
Qed.
Lemma hexFixed_length : forall d n, String.length (hexFixed d n) = d.
Proof. induction d as [|d IH]; intro n; [reflexivity|]. cbn [hexFixed]. rewrite slength_app, IH. cbn. lia. Qed.
Lemma utf8_length : forall r, (128 <= r)%N -> (if N.ltb r 65536 then 2 else 4) <= String.length (utf8 r).
Proof.
  intros r H. unfold utf8. replace (N.ltb r 128) with false by (symmetry; apply N.ltb_ge; lia).
  destruct (N.ltb_spec r 2048); [replace (N.ltb r 65536) with true by (symmetry; apply N.ltb_lt; lia); cbn; lia|].
  destruct (N.ltb_spec r 65536); cbn; lia.
Qed.
Lemma escape_ascii_length : forall iph c, printable c = true \/ between 7 13 c = true -> String.length (escapeRune iph (code c) (String c "")) <= 3.
Proof.
  intros iph c. destruct c as [[][][][][][][][]]; intros [H|H]; try (exfalso; revert H; vm_compute; intro H; discriminate H); vm_compute; lia.
Qed.
Lemma escape_length : forall iph r, Written r -> String.length (escapeRune iph r (utf8 r)) <= 3 * String.length (utf8 r).
Proof.
  intros iph r W. destruct (N.ltb_spec r 128) as [L|L].
  - rewrite utf8_ascii by exact L. rewrite <- (code_byte r) at 1 by lia. etransitivity; [apply escape_ascii_length|reflexivity].
    unfold printable. rewrite !between_iff, !code_byte by lia. unfold Written, YamlChar in W. lia.
  - pose proof (utf8_length r L) as U. rewrite escape_high by exact L. destruct (iph r); [lia|].
    destruct (N.ltb r 65536); unfold uHex, UHex; rewrite slength_app, hexFixed_length; cbn [String.length]; lia.
Qed.
Lemma quote_visible : forall iph rs, Forall Written rs -> Visible (quoteBody iph 0 (decoded rs)).
Proof.
  intros iph rs F. induction F as [|r rs W F IH]; [exists []; split; [reflexivity|constructor]|]. unfold decoded in *. cbn [map concats].
  rewrite quote_rune by (apply written_scalar, W). apply visible_app; [apply escape_visible, W|exact IH].
Qed.
Lemma quote_length : forall iph rs, Forall Written rs -> String.length (quoteBody iph 0 (decoded rs)) <= 3 * String.length (decoded rs).
Proof.
  intros iph rs F. induction F as [|r rs W F IH]; [cbn; lia|]. unfold decoded in *. cbn [map concats].
  rewrite quote_rune by (apply written_scalar, W). rewrite !slength_app. pose proof (escape_length iph r W). lia.
Qed.
Lemma written_scalars : forall rs, Forall Written rs -> Forall Scalar rs.
Proof. intros rs F. eapply Forall_impl; [|exact F]. exact written_scalar. Qed.

(** ** Plain strings *)
Lemma inside_contains : forall s p, quotedInside p s = false -> contains s ": " = false /\ contains s " #" = false /\
  (forall c, In c (list_ascii_of_string s) -> isEscapeCode c = false).
Proof.
  induction s as [|c s IH]; intros p H; [split; [|split]; try reflexivity; intros d []|]. cbn [quotedInside] in H.
  destruct (isEscapeCode c) eqn:E; [discriminate|]. destruct (Ascii.eqb c " " && Ascii.eqb p ":")%char; [discriminate|].
  destruct (Ascii.eqb c "#" && Ascii.eqb p " ")%char; [discriminate|]. destruct (IH c H) as (A & B & C).
  split; [|split].
  - cbn [contains]. rewrite A, orb_false_r. cbn [String.prefix]. destruct (ascii_dec ":" c) as [<-|]; [|reflexivity].
    destruct s as [|d s]; [reflexivity|]. cbn [String.prefix]. destruct (ascii_dec " " d) as [<-|]; [|reflexivity].
    cbn [quotedInside] in H. discriminate H.
  - cbn [contains]. rewrite B, orb_false_r. cbn [String.prefix]. destruct (ascii_dec " " c) as [<-|]; [|reflexivity].
    destruct s as [|d s]; [reflexivity|]. cbn [String.prefix]. destruct (ascii_dec "#" d) as [<-|]; [|reflexivity].
    cbn [quotedInside] in H. discriminate H.
  - intros d [<-|I]; [exact E|exact (C d I)].
Qed.
Lemma lastChar_suffix : forall s c, lastChar s = Some c -> hasSuffix s (String c "") = true.
Proof.
  intros s c H. assert (E : exists t, s = (t +++ String c "")%string).
  { revert H. induction s as [|d s IH]; [discriminate|]. destruct s as [|e s].
    - cbn. intro H. injection H as ->. exists "". reflexivity.
    - intro H. destruct (IH H) as [t ->]. exists (String d t). reflexivity. }
  destruct E as [t ->]. apply hasSuffix_spec. exists t. reflexivity.
Qed.
Lemma lastChar_some : forall c s, exists d, lastChar (String c s) = Some d.
Proof. intros c s. revert c. induction s as [|e s IH]; intro c; [exists c; reflexivity|]. exact (IH e). Qed.
Lemma trim_space : forall s, trimChanges s = false -> hasPrefix s " " = false /\ hasSuffix s " " = false.
Proof.
  intros s H. unfold trimChanges in H. apply orb_false_iff. apply not_true_iff_false. intro E. apply not_true_iff_false in H. apply H.
  apply existsb_exists. exists " ". split; [right; right; right; right; right; left; reflexivity|exact E].
Qed.
Lemma plain_written : forall s, isQuoted s = false -> Legible s -> Visible s.
Proof.
  intros s Q (rs & -> & F). unfold isQuoted in Q. destruct (isEmpty _); [discriminate|]. destruct (trimChanges _); [discriminate|]. cbv zeta in Q.
  destruct (alwaysQuoted _); [discriminate|]. destruct (_ && _) in Q; [discriminate|]. destruct (quotedInside zero _) eqn:I; [discriminate|].
  apply inside_contains in I. destruct I as (_ & _ & I). exists rs. split; [reflexivity|]. clear Q.
  induction F as [|r rs [W|W] F IH]; constructor.
  - exact W.
  - apply IH. intros c H. apply I. cbn [map concats]. rewrite laos_app. apply in_or_app. right. exact H.
  - exfalso. specialize (I (byte r)). assert (isEscapeCode (byte r) = true).
    { pose proof (below_all 14 (fun r => if N.leb 7 r then isEscapeCode (byte r) else true) ltac:(vm_compute; reflexivity) r) as X. cbv beta in X.
      replace (N.leb 7 r) with true in X by (symmetry; apply N.leb_le; lia). apply X. lia. }
    rewrite I in H; [discriminate|]. cbn [map concats]. rewrite laos_app. apply in_or_app. left. rewrite utf8_ascii by lia. left. reflexivity.
  - apply IH. intros c H. apply I. cbn [map concats]. rewrite laos_app. apply in_or_app. right. exact H.
Qed.
Lemma plain_isPlain : forall s, isQuoted s = false -> Readable s -> isPlain s = true.
Proof.
  intros s Q (_ & _ & N1 & N2 & N3). unfold isQuoted in Q. destruct s as [|c s]; [discriminate|]. cbn [isEmpty] in Q.
  destruct (trimChanges (String c s)) eqn:T; [discriminate|]. cbv zeta in Q. destruct (alwaysQuoted c) eqn:A; [discriminate|].
  destruct (quotedBeforeSpace c && Ascii.eqb (match s with String c0 _ => c0 | "" => zero end) " ") eqn:B; [discriminate|].
  destruct (quotedInside zero (String c s)) eqn:I; [discriminate|]. apply inside_contains in I. destruct I as (I1 & I2 & _).
  apply trim_space in T. destruct T as [T1 T2]. unfold isPlain, plainBody. rewrite I1, I2. cbn [negb andb].
  destruct (lastChar_some c s) as [d Hd]. rewrite Hd.
  assert (D : Ascii.eqb d ":" || isBlank d = false).
  { apply orb_false_iff. unfold isBlank. split; apply Ascii.eqb_neq; intros ->; apply lastChar_suffix in Hd; congruence. }
  rewrite D, andb_true_r. cbn [plainStart]. destruct (hasChar c "-?:") eqn:C.
  - destruct s as [|e s].
    + exfalso. apply hasChar_In in C. cbn in C. destruct C as [C|[C|[C|[]]]]; subst c; try congruence. cbn in Q. discriminate Q.
    + unfold isBlank. assert (QB : quotedBeforeSpace c = true).
      { apply hasChar_In in C. cbn in C. destruct C as [C|[C|[C|[]]]]; subst c; reflexivity. }
      rewrite QB in B. cbn [andb] in B. rewrite B. reflexivity.
  - apply negb_true_iff, hasChar_false. intro H. unfold alwaysQuoted in A. apply hasChar_false in A. cbn in H, A.
    destruct N3 as [N3 N4].
    repeat (match type of H with False => fail 1 | _ => idtac end; destruct H as [H|H];
      [exfalso; subst c; first [congruence | solve [apply A; tauto] | (destruct s; discriminate T1)]|]). destruct H.
Qed.

Lemma cutColon_none : forall s, contains s ": " = false -> (forall d, lastChar s = Some d -> d <> ":"%char) -> cutColon s = None.
Proof.
  induction s as [|c s IH]; intros C L; [reflexivity|]. cbn [contains] in C. apply orb_false_iff in C. destruct C as [C1 C2].
  cbn [cutColon]. assert (A : afterColon (String c s) = None).
  { destruct (Ascii.eqb_spec c ":") as [->|N].
    - destruct s as [|d s]; [exfalso; exact (L _ eq_refl eq_refl)|]. cbn [afterColon]. unfold isBlank. cbn [String.prefix] in C1.
      destruct (ascii_dec ":" ":") as [_|]; [|congruence]. destruct (ascii_dec " " d) as [<-|X]; [destruct s; discriminate C1|].
      destruct (Ascii.eqb_spec d " "); [congruence|reflexivity].
    - cbn [afterColon]. destruct c as [[][][][][][][][]]; try reflexivity. exfalso. apply N. reflexivity. }
  rewrite A. rewrite IH; [reflexivity|exact C2|]. intros d H. apply L. destruct s; [discriminate H|exact H].
Qed.
Lemma cutColon_some : forall s v, contains s ": " = false -> (forall d, lastChar s = Some d -> d <> ":"%char) ->
  cutColon (s +++ ":" +++ spaced v)%string = Some (s, v).
Proof.
  induction s as [|c s IH]; intros v C L; [destruct v; reflexivity|]. cbn [contains] in C. apply orb_false_iff in C. destruct C as [C1 C2].
  cbn [String.append cutColon]. assert (A : afterColon (String c (s +++ ":" +++ spaced v)) = None).
  { destruct (Ascii.eqb_spec c ":") as [->|N].
    - destruct s as [|d s]; [exfalso; exact (L _ eq_refl eq_refl)|]. cbn [afterColon String.append]. unfold isBlank. cbn [String.prefix] in C1.
      destruct (ascii_dec ":" ":") as [_|]; [|congruence]. destruct (ascii_dec " " d) as [<-|X]; [destruct s; discriminate C1|].
      destruct (Ascii.eqb_spec d " "); [congruence|reflexivity].
    - cbn [afterColon]. destruct c as [[][][][][][][][]]; try reflexivity. exfalso. apply N. reflexivity. }
  cbn [String.append] in A. rewrite A. cbn [String.append] in IH. rewrite IH; [reflexivity|exact C2|].
  intros d H. apply L. destruct s; [discriminate H|exact H].
Qed.
Lemma plain_parts : forall s, isPlain s = true -> plainStart s = true /\ contains s ": " = false /\ (forall d, lastChar s = Some d -> d <> ":"%char).
Proof.
  intros s H. unfold isPlain, plainBody in H. apply andb_true_iff in H. destruct H as [A H]. apply andb_true_iff in H. destruct H as [H B].
  apply andb_true_iff in H. destruct H as [H _]. apply negb_true_iff in H. split; [exact A|split; [exact H|]]. intros d E ->. rewrite E in B. discriminate B.
Qed.
Lemma plain_first : forall c s, plainStart (String c s) = true -> hasChar c " ,[]{}#&*!|>'""%@`" = false.
Proof.
  intros c s H. cbn [plainStart] in H. destruct (hasChar c "-?:") eqn:E; [|apply negb_true_iff, H].
  apply hasChar_In in E. cbn in E. destruct E as [<-|[<-|[<-|[]]]]; reflexivity.
Qed.
Lemma plain_dash : forall s x, plainStart s = true -> isDash (s +++ x) = false.
Proof.
  intros [|c s] x H; [discriminate|]. destruct (Ascii.eqb_spec c "-") as [->|N].
  - cbn [plainStart] in H. destruct s as [|d s]; [discriminate H|]. cbn [String.append isDash]. apply negb_true_iff. exact H.
  - cbn [String.append isDash]. destruct c as [[][][][][][][][]]; try reflexivity. exfalso. apply N. reflexivity.
Qed.
Lemma plain_clean : forall s, plainStart s = true -> oneLine s = true -> Clean s.
Proof.
  intros [|c s] P O; [discriminate|]. split; [discriminate|]. split; [|exact O]. cbn. unfold isBlank. apply Ascii.eqb_neq. intros ->.
  apply plain_first in P. discriminate P.
Qed.
Lemma plain_scalar : forall resolve s, plainStart s = true -> isPlain s = true -> YamlSpec.readScalar resolve s = Some (resolve s).
Proof.
  intros resolve s PS P. unfold YamlSpec.readScalar. destruct s as [|c s]; [discriminate|]. pose proof (plain_first c s PS) as F.
  destruct (String.eqb_spec (String c s) "[]") as [E|_]; [injection E as -> ->; discriminate F|].
  destruct (String.eqb_spec (String c s) "{}") as [E|_]; [injection E as -> ->; discriminate F|].
  destruct (Ascii.eqb_spec c """") as [->|_]; [discriminate F|]. rewrite P. reflexivity.
Qed.
Lemma plain_good : forall resolve s, isPlain s = true -> oneLine s = true -> GoodScalar resolve s /\ scalarNode resolve s = resolve s.
Proof.
  intros resolve s P O. destruct (plain_parts s P) as (PS & C & L). pose proof (plain_scalar resolve s PS P) as R.
  split; [|unfold scalarNode; rewrite R; reflexivity]. split; [apply plain_clean; assumption|]. split.
  { intros ->. discriminate P. } split.
  { pose proof (plain_dash s "" PS) as D. rewrite sapp_nil_r in D. exact D. } split; [|rewrite R; discriminate].
  unfold YamlSpec.readKey. destruct s as [|c s]; [reflexivity|]. pose proof (plain_first c s PS) as F.
  destruct (Ascii.eqb_spec c """") as [->|_]; [discriminate F|]. rewrite (cutColon_none _ C L). reflexivity.
Qed.
Lemma plain_key : forall resolve s, isPlain s = true -> oneLine s = true -> s <> "<<" -> String.length s <= 1022 -> GoodKey resolve s.
Proof.
  intros resolve s P O M H. destruct (plain_parts s P) as (PS & C & L). pose proof (plain_scalar resolve s PS P) as R.
  split; [apply plain_clean; assumption|]. split; [rewrite R; discriminate|]. intro v. split; [|apply plain_dash, PS].
  unfold YamlSpec.readKey. destruct s as [|c s]; [discriminate|]. pose proof (plain_first c s PS) as F. cbn [String.append].
  destruct (Ascii.eqb_spec c """") as [->|_]; [discriminate F|].
  pose proof (cutColon_some (String c s) v C L) as X. cbn [String.append] in X. rewrite X. rewrite P.
  destruct (String.eqb_spec (String c s) "<<"); [contradiction|]. cbn [negb andb].
  unfold scalarNode. rewrite R.
  match goal with |- context [Nat.leb ?a ?b] => replace (Nat.leb a b) with true; [reflexivity|] end.
  symmetry. apply Nat.leb_le. cbn [String.length]. rewrite slength_app. cbn [String.length]. cbn [String.length] in H.
  unfold spaced. destruct v; cbn [isEmpty String.append String.length]; lia.
Qed.

Section Enc.
  Variable iph : N -> bool.
  Variable resolve : string -> node.
  Notation enc := (encodeString iph).

  Lemma enc_quoted : forall s, isQuoted s = true -> enc s = (String """" "" +++ quoteBody iph 0 s +++ String """" "")%string.
  Proof. intros s Q. unfold encodeString. destruct s as [|c s]; [reflexivity|]. cbn [isEmpty]. rewrite Q. reflexivity. Qed.
  Lemma enc_plain : forall s, isQuoted s = false -> enc s = s.
  Proof. intros s Q. unfold encodeString. destruct s as [|c s]; [discriminate|]. cbn [isEmpty]. rewrite Q. reflexivity. Qed.
  Lemma enc_visible : forall s, Legible s -> Visible (enc s).
  Proof.
    intros s L. destruct (isQuoted s) eqn:Q.
    - rewrite enc_quoted by exact Q. destruct L as (rs & -> & F).
      apply visible_app; [apply visible_ascii; reflexivity|]. apply visible_app; [apply quote_visible, F|apply visible_ascii; reflexivity].
    - rewrite enc_plain by exact Q. apply plain_written; assumption.
  Qed.
  Lemma read_enc_quoted : forall s x, Legible s -> readQuoted (quoteBody iph 0 s +++ String """" x) = Some (s, x).
  Proof. intros s x (rs & -> & F). apply read_quote, written_scalars, F. Qed.
  Lemma enc_scalar : forall s, Readable s ->
    GoodScalar resolve (enc s) /\ scalarNode resolve (enc s) = if isQuoted s then NStr s else resolve s.
  Proof.
    intros s R. pose proof (enc_visible s (proj1 R)) as V. apply visible_oneLine in V. destruct (isQuoted s) eqn:Q.
    - assert (RS : YamlSpec.readScalar resolve (enc s) = Some (NStr s)).
      { rewrite enc_quoted by exact Q. unfold YamlSpec.readScalar. cbn [String.append].
        rewrite (read_enc_quoted s "" (proj1 R)). cbn. reflexivity. }
      split; [|unfold scalarNode; rewrite RS; reflexivity]. split; [split; [|split; [|exact V]]|].
      + rewrite enc_quoted by exact Q. discriminate.
      + rewrite enc_quoted by exact Q. reflexivity.
      + split; [rewrite enc_quoted by exact Q; discriminate|]. split; [rewrite enc_quoted by exact Q; reflexivity|]. split; [|rewrite RS; discriminate].
        rewrite enc_quoted by exact Q. unfold YamlSpec.readKey. cbn [String.append]. change (Ascii.eqb """" """") with true. cbn iota.
        rewrite (read_enc_quoted s "" (proj1 R)). reflexivity.
    - rewrite enc_plain in * by exact Q. apply plain_good; [apply plain_isPlain; assumption|exact V].
  Qed.
  Lemma enc_key : forall s, ReadableKey s -> GoodKey resolve (enc s).
  Proof.
    intros s (R & M & H). pose proof (enc_visible s (proj1 R)) as V. apply visible_oneLine in V. destruct (isQuoted s) eqn:Q.
    - assert (RS : YamlSpec.readScalar resolve (enc s) = Some (NStr s)).
      { rewrite enc_quoted by exact Q. unfold YamlSpec.readScalar. cbn [String.append].
        rewrite (read_enc_quoted s "" (proj1 R)). cbn. reflexivity. }
      split; [split; [|split; [|exact V]]|].
      + rewrite enc_quoted by exact Q. discriminate.
      + rewrite enc_quoted by exact Q. reflexivity.
      + split; [rewrite RS; discriminate|]. intro v. split; [|rewrite enc_quoted by exact Q; reflexivity].
        unfold scalarNode. rewrite RS. rewrite enc_quoted by exact Q. unfold YamlSpec.readKey.
        replace ((String """" "" +++ quoteBody iph 0 s +++ String """" "") +++ ":" +++ spaced v)%string
          with (String """" (quoteBody iph 0 s +++ String """" (":" +++ spaced v)))%string.
        2:{ cbn [String.append]. rewrite sapp_assoc. reflexivity. }
        change (Ascii.eqb """" """") with true. cbn iota. rewrite (read_enc_quoted s _ (proj1 R)).
        assert (A : afterColon (":" +++ spaced v)%string = Some v) by (destruct v; reflexivity). rewrite A.
        match goal with |- context [Nat.leb ?a ?b] => replace (Nat.leb a b) with true; [reflexivity|] end.
        symmetry. apply Nat.leb_le. destruct R as ((rs & -> & F) & _). pose proof (quote_length iph rs F) as X. unfold decoded in X.
        cbn [String.length]. rewrite slength_app. cbn [String.length String.append]. unfold spaced. destruct v; cbn [isEmpty String.append String.length]; lia.
    - rewrite enc_plain in * by exact Q. apply plain_key; [apply plain_isPlain; assumption|exact V|exact M|lia].
  Qed.
  Lemma enc_text : Resolver resolve -> forall s, Readable s -> IsText (scalarNode resolve (enc s)) s /\ scalarNode resolve (enc s) <> NNull.
  Proof.
    intros HR s R. rewrite (proj2 (enc_scalar s R)). destruct (isQuoted s) eqn:Q; [split; [constructor|discriminate]|].
    apply (resolve_text _ HR). apply R. intros ->. discriminate Q.
  Qed.
End Enc.
