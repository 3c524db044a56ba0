(** * ScriptFacts.v: what the text of a script reads as. *)
From Coq Require Import Lia ZifyN.
From Verif Require Import Model.Go Model.Quote Model.Script Spec.ScriptSpec Proofs.GoFacts.

Ltac Zify.zify_post_hook ::= Z.to_euclidean_division_equations.

Lemma code_lt : forall c, (code c < 256)%N.
Proof. intro c. unfold code. apply N_ascii_bounded. Qed.
Lemma code_byte : forall n, (n < 256)%N -> code (byte n) = n.
Proof. intros n H. unfold code, byte. apply N_ascii_embedding. exact H. Qed.
Lemma byte_code : forall c, byte (code c) = c.
Proof. intro c. unfold code, byte. apply ascii_N_embedding. Qed.
Lemma below_In : forall (k : nat) n, (n < N.of_nat k)%N -> In n (map N.of_nat (seq 0 k)).
Proof.
  intros k n H. apply in_map_iff. exists (N.to_nat n). split; [apply N2Nat.id|]. apply in_seq. lia.
Qed.
Lemma below_all : forall (k : nat) (P : N -> bool), forallb P (map N.of_nat (seq 0 k)) = true ->
  forall n, (n < N.of_nat k)%N -> P n = true.
Proof. intros k P H n L. rewrite forallb_forall in H. apply H, below_In, L. Qed.

(** ** base64 *)
Lemma sextet_digit : forall n, (n < 64)%N -> sextet (b64Digit n) = Some n.
Proof.
  intros n H. pose proof (below_all 64 (fun n => match sextet (b64Digit n) with Some m => N.eqb m n | None => false end)) as X.
  specialize (X ltac:(vm_compute; reflexivity) n H). cbv beta in X. destruct (sextet (b64Digit n)) as [m|]; [|discriminate].
  apply N.eqb_eq in X. congruence.
Qed.
Lemma bytes3 : forall a b c, bytes [code a; code b; code c] = String a (String b (String c "")).
Proof. intros. unfold bytes. cbn [map string_of_list_ascii]. rewrite !byte_code. reflexivity. Qed.
Lemma bytes2 : forall a b, bytes [code a; code b] = String a (String b "").
Proof. intros. unfold bytes. cbn [map string_of_list_ascii]. rewrite !byte_code. reflexivity. Qed.
Lemma bytes1 : forall a, bytes [code a] = String a "".
Proof. intros. unfold bytes. cbn [map string_of_list_ascii]. rewrite !byte_code. reflexivity. Qed.
Lemma unbase64_base64 : forall s, unbase64 (base64 s) = Some s.
Proof.
  fix IH 1. intros [|a [|b [|c s]]]; [reflexivity| | |].
  - cbn [base64 unbase64]. cbv zeta. pose proof (code_lt a).
    rewrite !sextet_digit by lia. cbn [sextet]. change (sextet "=") with (@None N). cbv iota.
    replace (Ascii.eqb "=" "=" && Ascii.eqb "=" "=" && isEmpty "")%bool with true by reflexivity.
    replace (((code a mod 4 * 16) mod 16 =? 0)%N) with true by (symmetry; apply N.eqb_eq; lia). cbn [andb].
    replace (code a / 4 * 4 + code a mod 4 * 16 / 16)%N with (code a) by lia. rewrite bytes1. reflexivity.
  - cbn [base64 unbase64]. cbv zeta. pose proof (code_lt a). pose proof (code_lt b).
    rewrite !sextet_digit by lia. change (sextet "=") with (@None N). cbv iota.
    replace (Ascii.eqb "=" "=" && isEmpty "")%bool with true by reflexivity.
    replace (((code b mod 16 * 4) mod 4 =? 0)%N) with true by (symmetry; apply N.eqb_eq; lia). cbn [andb].
    replace (code a / 4 * 4 + (code a mod 4 * 16 + code b / 16) / 16)%N with (code a) by lia.
    replace ((code a mod 4 * 16 + code b / 16) mod 16 * 16 + code b mod 16 * 4 / 4)%N with (code b) by lia. rewrite bytes2. reflexivity.
  - cbn [base64 unbase64]. cbv zeta. pose proof (code_lt a). pose proof (code_lt b). pose proof (code_lt c).
    rewrite !sextet_digit by lia. rewrite IH. cbn [prepend option_map].
    replace (code a / 4 * 4 + (code a mod 4 * 16 + code b / 16) / 16)%N with (code a) by lia.
    replace ((code a mod 4 * 16 + code b / 16) mod 16 * 16 + (code b mod 16 * 4 + code c / 64) / 4)%N with (code b) by lia.
    replace ((code b mod 16 * 4 + code c / 64) mod 4 * 64 + code c mod 64)%N with (code c) by lia. rewrite bytes3. reflexivity.
Qed.

(** ** UTF-8 *)
Lemma between_iff : forall lo hi c, between lo hi c = true <-> (lo <= code c <= hi)%N.
Proof. intros. unfold between. rewrite andb_true_iff, !N.leb_le. reflexivity. Qed.
Lemma contByte_some : forall lo hi s b r, contByte lo hi s = Some (b, r) -> exists c, s = String c r /\ (lo <= code c <= hi)%N /\ b = (code c - 128)%N.
Proof.
  intros lo hi [|c s] b r; cbn; [discriminate|]. destruct (between lo hi c) eqn:E; [|discriminate].
  intro H. injection H as <- <-. exists c. rewrite between_iff in E. auto.
Qed.
Lemma bytes_eq : forall l s, map code (list_ascii_of_string s) = l -> bytes l = s.
Proof.
  intros l s <-. unfold bytes. rewrite map_map. rewrite (map_ext _ (fun c => c)) by apply byte_code. rewrite map_id.
  apply string_of_list_ascii_of_string.
Qed.
Lemma decodeRune_spec : forall c s r w, decodeRune c s = Some (r, w) ->
  utf8 r = stake w (String c s) /\ (128 <= r < 1114112)%N /\ (exists k, w = S k /\ k <= String.length s).
Proof.
  intros c s r w. unfold decodeRune.
  destruct (between 194 223 c) eqn:B1; [|destruct (between 224 239 c) eqn:B2; [|destruct (between 240 244 c) eqn:B3; [|discriminate]]];
  rewrite between_iff in *.
  - destruct (contByte 128 191 s) as [[b q]|] eqn:C1; [|discriminate]. intro H. injection H as <- <-.
    apply contByte_some in C1. destruct C1 as (c1 & -> & R1 & ->). split; [|split; [lia|exists 1; cbn; lia]].
    unfold utf8. replace (_ <? 128)%N with false by (symmetry; apply N.ltb_ge; lia).
    replace (_ <? 2048)%N with true by (symmetry; apply N.ltb_lt; lia).
    apply bytes_eq. cbn [stake list_ascii_of_string map]. repeat (f_equal; try lia).
  - destruct (contByte _ _ s) as [[b q]|] eqn:C1; [|discriminate]. apply contByte_some in C1. destruct C1 as (c1 & -> & R1 & ->).
    destruct (contByte _ _ q) as [[b2 q2]|] eqn:C2; [|discriminate]. apply contByte_some in C2. destruct C2 as (c2 & -> & R2 & ->).
    intro H. injection H as <- <-.
    assert (L : (2048 <= ((code c - 224) * 64 + (code c1 - 128)) * 64 + (code c2 - 128) < 65536)%N).
    { destruct (N.eqb_spec (code c) 224); destruct (N.eqb_spec (code c) 237); lia. }
    assert (R1' : (128 <= code c1 <= 191)%N) by (destruct (N.eqb (code c) 224), (N.eqb (code c) 237); lia).
    split; [|split; [lia|exists 2; cbn; lia]].
    unfold utf8. replace (_ <? 128)%N with false by (symmetry; apply N.ltb_ge; lia).
    replace (_ <? 2048)%N with false by (symmetry; apply N.ltb_ge; lia).
    replace (_ <? 65536)%N with true by (symmetry; apply N.ltb_lt; lia).
    apply bytes_eq. cbn [stake list_ascii_of_string map]. clear L R1. repeat (f_equal; try lia).
  - destruct (contByte _ _ s) as [[b q]|] eqn:C1; [|discriminate]. apply contByte_some in C1. destruct C1 as (c1 & -> & R1 & ->).
    destruct (contByte _ _ q) as [[b2 q2]|] eqn:C2; [|discriminate]. apply contByte_some in C2. destruct C2 as (c2 & -> & R2 & ->).
    destruct (contByte _ _ q2) as [[b3 q3]|] eqn:C3; [|discriminate]. apply contByte_some in C3. destruct C3 as (c3 & -> & R3 & ->).
    intro H. injection H as <- <-.
    assert (L : (65536 <= (((code c - 240) * 64 + (code c1 - 128)) * 64 + (code c2 - 128)) * 64 + (code c3 - 128) < 1114112)%N).
    { destruct (N.eqb_spec (code c) 240); destruct (N.eqb_spec (code c) 244); lia. }
    assert (R1' : (128 <= code c1 <= 191)%N) by (destruct (N.eqb (code c) 240), (N.eqb (code c) 244); lia).
    split; [|split; [lia|exists 3; cbn; lia]].
    unfold utf8. replace (_ <? 128)%N with false by (symmetry; apply N.ltb_ge; lia).
    replace (_ <? 2048)%N with false by (symmetry; apply N.ltb_ge; lia).
    replace (_ <? 65536)%N with false by (symmetry; apply N.ltb_ge; lia).
    apply bytes_eq. cbn [stake list_ascii_of_string map]. clear L R1. repeat (f_equal; try lia).
Qed.

(** ** Quoted text in pieces. *)
Definition uHex (r : N) : string := ("\u" +++ hexFixed 4 r)%string.
Definition UHex (r : N) : string := ("\U" +++ hexFixed 8 r)%string.
Definition xHex (r : N) : string := ("\x" +++ hexFixed 2 r)%string.
Inductive Chunk (iph : N -> bool) : string -> string -> Prop :=
| ChAscii c : (code c < 128)%N -> Chunk iph (String c "") (escapeRune iph (code c) (String c ""))
| ChHigh r : (128 <= r < 1114112)%N -> Chunk iph (utf8 r) (utf8 r)
| Chu r : (128 <= r < 65536)%N -> Chunk iph (utf8 r) (uHex r)
| ChU r : (65536 <= r < 1114112)%N -> Chunk iph (utf8 r) (UHex r)
| Chx c : (128 <= code c)%N -> Chunk iph (String c "") (xHex (code c)).
Definition Chunks (iph : N -> bool) (l : list (string * string)) : Prop := Forall (fun p => Chunk iph (fst p) (snd p)) l.

Lemma escape_high : forall iph r raw, (128 <= r)%N ->
  escapeRune iph r raw = if iph r then raw else if (r <? 65536)%N then uHex r else UHex r.
Proof.
  intros iph r raw H. unfold escapeRune.
  assert (E : forall n, (n < 128)%N -> N.eqb r n = false) by (intros n L; apply N.eqb_neq; lia).
  rewrite !E by reflexivity. replace (r <? 128)%N with false by (symmetry; apply N.ltb_ge; lia).
  replace (r <? 32)%N with false by (symmetry; apply N.ltb_ge; lia). cbn [orb]. reflexivity.
Qed.
Lemma stake_sdrop : forall k s, (stake k s +++ sdrop k s)%string = s.
Proof. induction k as [|k IH]; intros [|c s]; cbn; try reflexivity. rewrite IH. reflexivity. Qed.
Lemma body_chunks : forall iph s k, exists l, Chunks iph l /\ sdrop k s = concats (map fst l) /\ quoteBody iph k s = concats (map snd l).
Proof.
  intro iph. induction s as [|c s IH]; intro k.
  - exists []. split; [constructor|]. destruct k; auto.
  - destruct k as [|k]; [|apply IH]. cbn [quoteBody sdrop]. destruct (code c <? 128)%N eqn:A.
    + apply N.ltb_lt in A. destruct (IH 0) as (l & F & E1 & E2). exists ((String c "", escapeRune iph (code c) (String c "")) :: l).
      split; [constructor; [constructor; exact A|exact F]|]. cbn [map fst snd concats]. rewrite <- E1, <- E2. split; reflexivity.
    + apply N.ltb_ge in A. destruct (decodeRune c s) as [[r w]|] eqn:D.
      * apply decodeRune_spec in D. destruct D as (U & R & k & -> & Lk). destruct (IH k) as (l & F & E1 & E2).
        rewrite escape_high by lia. exists ((utf8 r, if iph r then utf8 r else if (r <? 65536)%N then uHex r else UHex r) :: l).
        split; [|split].
        -- constructor; [|exact F]. cbn [fst snd]. destruct (iph r); [constructor; exact R|].
           destruct (r <? 65536)%N eqn:X; [apply N.ltb_lt in X|apply N.ltb_ge in X]; constructor; lia.
        -- cbn [map fst concats]. rewrite <- E1, U. cbn [stake String.append]. rewrite stake_sdrop. reflexivity.
        -- cbn [map snd concats]. rewrite <- E2, U. replace (S k - 1) with k by lia. reflexivity.
      * destruct (IH 0) as (l & F & E1 & E2). exists ((String c "", xHex (code c)) :: l).
        split; [constructor; [constructor; exact A|exact F]|]. cbn [map fst snd concats]. rewrite <- E1, <- E2. split; [reflexivity|].
        unfold xHex. rewrite sapp_assoc. reflexivity.
Qed.

(** ** Reading a Go literal *)
Definition GoReads (ch raw : string) : Prop := forall x, goRead (ch +++ x) = prepend raw (goRead x).
Lemma prepend_app : forall a b o, prepend (a +++ b) o = prepend a (prepend b o).
Proof. intros a b [t|]; cbn; [rewrite sapp_assoc|]; reflexivity. Qed.
Lemma goReads_plain : forall t, (forall c, In c (list_ascii_of_string t) -> c <> """"%char /\ c <> "\"%char) -> GoReads t t.
Proof.
  intros t. induction t as [|c t IH]; intros H x; [cbn [String.append]; destruct (goRead x); reflexivity|]. cbn [String.append goRead].
  destruct (H c) as [N1 N2]; [left; reflexivity|]. apply Ascii.eqb_neq in N1, N2. rewrite N1, N2.
  rewrite IH by (intros d I; apply H; right; exact I). rewrite <- prepend_app. reflexivity.
Qed.
Lemma byte_ge : forall n, (128 <= n < 256)%N -> forall d, (code d < 128)%N -> byte n <> d.
Proof. intros n H d L E. subst d. rewrite code_byte in L by lia. lia. Qed.
Lemma utf8_bytes : forall r, (128 <= r < 1114112)%N -> forall c, In c (list_ascii_of_string (utf8 r)) -> (128 <= code c)%N.
Proof.
  intros r H c. unfold utf8. replace (r <? 128)%N with false by (symmetry; apply N.ltb_ge; lia).
  destruct (r <? 2048)%N eqn:A; [apply N.ltb_lt in A|apply N.ltb_ge in A; destruct (r <? 65536)%N eqn:B; [apply N.ltb_lt in B|apply N.ltb_ge in B]];
  unfold bytes; cbn [map]; rewrite list_ascii_of_string_of_list_ascii; cbn [In]; intros I;
  repeat (destruct I as [I|I]; [subst c; rewrite code_byte by lia; lia|]); destruct I.
Qed.
Lemma hexDigit_val : forall n, (n < 16)%N -> hexVal (hexDigit n) = Some n.
Proof.
  intros n H. pose proof (below_all 16 (fun n => match hexVal (hexDigit n) with Some m => N.eqb m n | None => false end)) as X.
  specialize (X ltac:(vm_compute; reflexivity) n H). cbv beta in X. destruct (hexVal (hexDigit n)) as [m|]; [|discriminate].
  apply N.eqb_eq in X. congruence.
Qed.
Lemma hexVals_fixed : forall d n acc l, hexVals acc (list_ascii_of_string (hexFixed d n) ++ l) =
  hexVals (acc * 16 ^ N.of_nat d + n mod 16 ^ N.of_nat d)%N l.
Proof.
  induction d as [|d IH]; intros n acc l.
  - cbn [hexFixed list_ascii_of_string app]. f_equal. rewrite N.pow_0_r, N.mod_1_r. lia.
  - cbn [hexFixed]. rewrite laos_app, <- app_assoc, IH. cbn [list_ascii_of_string app hexVals].
    rewrite hexDigit_val by (apply N.mod_lt; discriminate). f_equal.
    rewrite Nat2N.inj_succ, N.pow_succ_r', N.mod_mul_r by (try discriminate; apply N.pow_nonzero; discriminate).
    generalize (n / 16 mod 16 ^ N.of_nat d)%N, (n mod 16)%N, (16 ^ N.of_nat d)%N. clear. intros. lia.
Qed.
Lemma hexVals_val : forall d n, (n < 16 ^ N.of_nat d)%N -> hexVals 0 (list_ascii_of_string (hexFixed d n)) = Some n.
Proof.
  intros d n H. rewrite <- (app_nil_r (list_ascii_of_string _)), hexVals_fixed, N.mod_small by exact H. reflexivity.
Qed.
Lemma goReads_u : forall r, (r < 65536)%N -> GoReads (uHex r) (utf8 r).
Proof.
  intros r H x. pose proof (hexVals_val 4 r H) as V. unfold uHex. revert V.
  cbn [hexFixed String.append list_ascii_of_string goRead Ascii.eqb Bool.eqb simpleEscape simpleEscapes find fst snd option_map].
  intros ->. reflexivity.
Qed.
Lemma goReads_U : forall r, (r < 4294967296)%N -> GoReads (UHex r) (utf8 r).
Proof.
  intros r H x. pose proof (hexVals_val 8 r H) as V. unfold UHex. revert V.
  cbn [hexFixed String.append list_ascii_of_string goRead Ascii.eqb Bool.eqb simpleEscape simpleEscapes find fst snd option_map].
  intros ->. reflexivity.
Qed.
Lemma goReads_x : forall c, GoReads (xHex (code c)) (String c "").
Proof.
  intros c x. pose proof (hexVals_val 2 (code c) (code_lt c)) as V. unfold xHex. revert V.
  cbn [hexFixed String.append list_ascii_of_string goRead Ascii.eqb Bool.eqb simpleEscape simpleEscapes find fst snd option_map].
  intros ->. rewrite bytes1. reflexivity.
Qed.
Lemma goReads_ascii : forall iph c, (code c < 128)%N -> GoReads (escapeRune iph (code c) (String c "")) (String c "").
Proof.
  intros iph c H x. destruct c as [[][][][][][][][]]; try (exfalso; revert H; vm_compute; intro H; discriminate H); reflexivity.
Qed.
Lemma chunk_go : forall iph raw ch, Chunk iph raw ch -> GoReads ch raw.
Proof.
  intros iph raw ch [c H|r H|r H|r H|c H].
  - apply goReads_ascii. exact H.
  - apply goReads_plain. intros c I. apply utf8_bytes in I; [|exact H].
    split; intros ->; revert I; vm_compute; intro I; apply I; reflexivity.
  - apply goReads_u. lia.
  - apply goReads_U. lia.
  - apply goReads_x.
Qed.
Lemma goRead_quote : forall iph s, goRead (quoteBody iph 0 s) = Some s.
Proof.
  intros iph s. destruct (body_chunks iph s 0) as (l & F & E1 & E2). cbn [sdrop] in E1. rewrite E2.
  transitivity (Some (concats (map fst l))); [clear E1 E2|congruence].
  induction l as [|[raw ch] l IH]; [reflexivity|]. inversion F as [|? ? C F']; subst. cbn [map fst snd concats] in *.
  rewrite (chunk_go _ _ _ C), IH by exact F'. reflexivity.
Qed.
Lemma quote_literal : forall iph s, GoLiteral (quote iph s) s.
Proof. intros iph s. exists (quoteBody iph 0 s). split; [reflexivity|apply goRead_quote]. Qed.
Lemma quote_inj : forall iph a b, quote iph a = quote iph b -> a = b.
Proof.
  intros iph a b E. unfold quote in E. apply sapp_inv_head in E. apply sapp_inv_tail in E.
  apply (f_equal goRead) in E. rewrite !goRead_quote in E. congruence.
Qed.

(** ** The printed word *)
Lemma replace_dollar : forall s, replaceAll s "$" "\$" = escapeDollars s.
Proof.
  unfold replaceAll, escapeDollars. induction s as [|c s IH]; [reflexivity|].
  cbn [list_ascii_of_string map concats replace_skip]. destruct (Ascii.eqb_spec c "$") as [->|N].
  - assert (P : String.prefix "$" (String "$" s) = true) by (destruct s; reflexivity). rewrite P. cbn [String.length Nat.sub]. rewrite IH. reflexivity.
  - assert (P : String.prefix "$" (String c s) = false).
    { cbn [String.prefix]. destruct (ascii_dec "$" c) as [X|X]; [congruence|reflexivity]. }
    rewrite P, IH. reflexivity.
Qed.
Lemma concats_app : forall a b, concats (a ++ b) = (concats a +++ concats b)%string.
Proof. induction a as [|x a IH]; intro b; cbn; [reflexivity|]. rewrite IH, sapp_assoc. reflexivity. Qed.
Lemma escapeDollars_app : forall a b, escapeDollars (a +++ b) = (escapeDollars a +++ escapeDollars b)%string.
Proof. intros. unfold escapeDollars. rewrite laos_app, map_app, concats_app. reflexivity. Qed.
Lemma escapeDollars_none : forall s, ~ In "$"%char (list_ascii_of_string s) -> escapeDollars s = s.
Proof.
  unfold escapeDollars. induction s as [|c s IH]; intro H; [reflexivity|]. cbn [list_ascii_of_string map concats] in *.
  destruct (Ascii.eqb_spec c "$") as [->|N]; [exfalso; apply H; left; reflexivity|]. rewrite IH by (intro I; apply H; right; exact I). reflexivity.
Qed.
Lemma escapeDollars_concats : forall l, escapeDollars (concats l) = concats (map escapeDollars l).
Proof. induction l as [|x l IH]; [reflexivity|]. cbn [concats map]. rewrite escapeDollars_app, IH. reflexivity. Qed.

Definition Reads (ch sh : string) : Prop := forall x t r, dquoted x = Some (t, r) -> dquoted (ch +++ x) = Some ((sh +++ t)%string, r).
Lemma reads_app : forall a b sa sb, Reads a sa -> Reads b sb -> Reads (a +++ b) (sa +++ sb).
Proof. intros a b sa sb A B x t r H. rewrite !sapp_assoc. apply A, B, H. Qed.
Definition PlainChar (c : ascii) : Prop := ~ In c ["""";"$";backquote;"\"]%char.
Lemma reads_plain : forall s, (forall c, In c (list_ascii_of_string s) -> PlainChar c) -> Reads s s.
Proof.
  induction s as [|c s IH]; intros H x t r E; [exact E|]. cbn [String.append dquoted].
  assert (P : PlainChar c) by (apply H; left; reflexivity). unfold PlainChar in P. cbn [In] in P.
  destruct (Ascii.eqb_spec c """"); [exfalso; apply P; auto|]. destruct (Ascii.eqb_spec c "$"); [exfalso; apply P; auto|].
  destruct (Ascii.eqb_spec c backquote); [exfalso; apply P; auto|]. destruct (Ascii.eqb_spec c "\"); [exfalso; apply P; auto 6|].
  cbn [orb]. rewrite (IH (fun c I => H c (or_intror I)) x t r E). reflexivity.
Qed.
Lemma hexDigit_plain : forall n, (n < 16)%N -> PlainChar (hexDigit n) /\ hexDigit n <> NL /\ hexDigit n <> "'"%char.
Proof.
  intros n H. pose proof (below_all 16 (fun n => negb (existsb (Ascii.eqb (hexDigit n)) ["""";"$";backquote;"\";NL;"'"]%char))) as X.
  specialize (X ltac:(vm_compute; reflexivity) n H). apply negb_true_iff in X. cbn [existsb] in X. rewrite !orb_false_iff in X.
  destruct X as (A & B & C & D & E & F & _). apply Ascii.eqb_neq in A, B, C, D, E, F. unfold PlainChar. cbn [In]. intuition congruence.
Qed.
Lemma hexFixed_chars : forall d n c, In c (list_ascii_of_string (hexFixed d n)) -> exists m, (m < 16)%N /\ c = hexDigit m.
Proof.
  induction d as [|d IH]; intros n c I; [destruct I|]. cbn [hexFixed] in I. rewrite laos_app in I. apply in_app_iff in I.
  destruct I as [I|[I|[]]]; [eapply IH; exact I|]. exists (n mod 16)%N. split; [apply N.mod_lt; discriminate|congruence].
Qed.
Lemma hexFixed_plain : forall d n c, In c (list_ascii_of_string (hexFixed d n)) -> PlainChar c /\ c <> NL /\ c <> "'"%char.
Proof. intros d n c I. apply hexFixed_chars in I. destruct I as (m & L & ->). apply hexDigit_plain, L. Qed.
Lemma hex_dollar : forall d n, ~ In "$"%char (list_ascii_of_string (hexFixed d n)).
Proof. intros d n I. apply hexFixed_plain in I. destruct I as [P _]. apply P. cbn. auto. Qed.
Lemma high_plain : forall c, (128 <= code c)%N -> PlainChar c /\ c <> NL /\ c <> "'"%char.
Proof.
  intros c H. unfold PlainChar. cbn [In]. split; [|split].
  - intros I. repeat (destruct I as [I|I]; [subst c; apply H; reflexivity|]). destruct I.
  - intros ->. apply H. reflexivity.
  - intros ->. apply H. reflexivity.
Qed.
Lemma utf8_dollar : forall r, (128 <= r < 1114112)%N -> ~ In "$"%char (list_ascii_of_string (utf8 r)).
Proof. intros r H I. apply utf8_bytes in I; [|exact H]. apply I. reflexivity. Qed.
(** One piece: what the shell shows for it, on one line. *)
Definition GoodPiece (raw ch : string) : Prop :=
  (~ In backquote (list_ascii_of_string raw) -> exists sh, Reads (escapeDollars ch) sh /\ (Printable raw -> sh = raw)) /\
  hasChar NL (escapeDollars ch) = false /\
  (~ In "'"%char (list_ascii_of_string raw) -> ~ In "'"%char (list_ascii_of_string (escapeDollars ch))).
Lemma piece_hex : forall raw e h, (forall c, In c (list_ascii_of_string h) -> PlainChar c /\ c <> NL /\ c <> "'"%char) ->
  PlainChar e -> e <> NL -> e <> "'"%char -> ~ Printable raw -> GoodPiece raw (String "\" (String e h)).
Proof.
  intros raw e h H P N Q NP.
  assert (E : escapeDollars (String "\" (String e h)) = String "\" (String e h)).
  { apply escapeDollars_none. intros [I|[I|I]]; [discriminate|subst e; apply P; cbn; auto|]. apply H in I. destruct I as [X _]. apply X. cbn. auto. }
  unfold GoodPiece. rewrite E. split; [|split].
  - intros _. exists (String "\" (String e h)). split; [|intro X; contradiction].
    intros x t r Ex. pose proof (reads_plain h (fun c I => proj1 (H c I)) x t r Ex) as Eh. cbn [String.append dquoted].
    change (Ascii.eqb "\" """") with false. change (Ascii.eqb "\" "$" || Ascii.eqb "\" backquote)%bool with false. change (Ascii.eqb "\" "\") with true. cbv iota.
    rewrite Eh. unfold PlainChar in P. cbn [In] in P. 
    destruct (Ascii.eqb_spec e "$"); [exfalso; apply P; auto|]. destruct (Ascii.eqb_spec e backquote); [exfalso; apply P; auto|].
    destruct (Ascii.eqb_spec e """"); [exfalso; apply P; auto|]. destruct (Ascii.eqb_spec e "\"); [exfalso; apply P; auto 6|].
    destruct (Ascii.eqb_spec e NL); [contradiction|]. reflexivity.
  - apply hasChar_false. intros [I|[I|I]]; [discriminate|congruence|]. apply H in I. tauto.
  - intros _ [I|[I|I]]; [discriminate|congruence|]. apply H in I. tauto.
Qed.
Lemma high_not_printable : forall raw c, In c (list_ascii_of_string raw) -> (128 <= code c)%N -> ~ Printable raw.
Proof. intros raw c I H P. apply P in I. lia. Qed.
Lemma utf8_nonempty : forall r, exists c, In c (list_ascii_of_string (utf8 r)).
Proof.
  intro r. unfold utf8, bytes. destruct (r <? 128)%N; [|destruct (r <? 2048)%N; [|destruct (r <? 65536)%N]];
  cbn [map]; rewrite list_ascii_of_string_of_list_ascii; eexists; left; reflexivity.
Qed.
Lemma utf8_not_printable : forall r, (128 <= r < 1114112)%N -> ~ Printable (utf8 r).
Proof. intros r H. destruct (utf8_nonempty r) as (c & I). eapply high_not_printable; [exact I|]. eapply utf8_bytes; eassumption. Qed.
Lemma plain_e : forall e, existsb (Ascii.eqb e) ["""";"$";backquote;"\";NL;"'"]%char = false -> PlainChar e /\ e <> NL /\ e <> "'"%char.
Proof.
  intros e H. cbn [existsb] in H. rewrite !orb_false_iff in H. destruct H as (A & B & C & D & E & F & _).
  apply Ascii.eqb_neq in A, B, C, D, E, F. unfold PlainChar. cbn [In]. intuition congruence.
Qed.
Lemma chunk_good : forall iph raw ch, Chunk iph raw ch -> GoodPiece raw ch.
Proof.
  intros iph raw ch [c H|r H|r H|r H|c H].
  - unfold GoodPiece. split; [|split].
    + intro B. exists (if (32 <=? code c)%N && (code c <=? 126)%N then String c "" else escapeRune iph (code c) (String c "")).
      split.
      * intros x t r E. destruct c as [[][][][][][][][]]; try (exfalso; revert H; vm_compute; intro H; discriminate H);
        first [ exfalso; apply B; left; reflexivity | cbn; rewrite E; reflexivity ].
      * intro P. specialize (P c (or_introl eq_refl)). destruct P as [P1 P2]. apply N.leb_le in P1, P2. rewrite P1, P2. reflexivity.
    + destruct c as [[][][][][][][][]]; try (exfalso; revert H; vm_compute; intro H; discriminate H); reflexivity.
    + intro Q. destruct c as [[][][][][][][][]]; try (exfalso; revert H; vm_compute; intro H; discriminate H);
      first [ exfalso; apply Q; left; reflexivity | cbn; intuition discriminate ].
  - unfold GoodPiece. rewrite (escapeDollars_none _ (utf8_dollar r H)). split; [|split].
    + intros _. exists (utf8 r). split; [|reflexivity]. apply reads_plain. intros c I. apply high_plain. eapply utf8_bytes; eassumption.
    + apply hasChar_false. intro I. apply utf8_bytes in I; [|exact H]. apply I. reflexivity.
    + auto.
  - destruct (plain_e "u" eq_refl) as (A & B & C). apply piece_hex; auto using utf8_not_printable; [apply hexFixed_plain|apply utf8_not_printable; lia].
  - destruct (plain_e "U" eq_refl) as (A & B & C). apply piece_hex; auto using utf8_not_printable; [apply hexFixed_plain|apply utf8_not_printable; lia].
  - destruct (plain_e "x" eq_refl) as (A & B & C). apply piece_hex; auto; [apply hexFixed_plain|]. eapply high_not_printable; [left; reflexivity|exact H].
Qed.
Lemma escaped_eq : forall iph cmd, escaped iph cmd = String """" (escapeDollars (quoteBody iph 0 cmd) +++ """").
Proof.
  intros. unfold escaped, quote. rewrite replace_dollar, !escapeDollars_app. reflexivity.
Qed.
Lemma chunks_read : forall iph l, Chunks iph l -> ~ In backquote (list_ascii_of_string (concats (map fst l))) ->
  exists t, dquoted (escapeDollars (concats (map snd l)) +++ """") = Some (t, "") /\ (Printable (concats (map fst l)) -> t = concats (map fst l)).
Proof.
  intros iph l F. induction l as [|[raw ch] l IH]; intro B; [exists ""; split; reflexivity|].
  inversion F as [|? ? C F']; subst. cbn [map fst snd concats] in *. rewrite laos_app in B.
  destruct IH as (t & E & P); [exact F'|intro I; apply B, in_or_app; right; exact I|].
  apply chunk_good in C. destruct C as [C _]. destruct C as (sh & R & S); [intro I; apply B, in_or_app; left; exact I|].
  exists (sh +++ t)%string. split; [rewrite escapeDollars_app, sapp_assoc; apply R, E|].
  intro Q. rewrite S, P; [reflexivity| |]; intros c I; apply Q; rewrite laos_app; apply in_or_app; auto.
Qed.
Lemma escaped_word : forall iph cmd, hasChar backquote cmd = false -> exists t, ShellWord (escaped iph cmd) t /\ (Printable cmd -> t = cmd).
Proof.
  intros iph cmd B. apply hasChar_false in B. rewrite escaped_eq. destruct (body_chunks iph cmd 0) as (l & F & E1 & E2).
  cbn [sdrop] in E1. destruct (chunks_read iph l F) as (t & E & P); [rewrite <- E1; exact B|].
  exists t. split; [eexists; split; [reflexivity|rewrite E2; exact E]|]. rewrite E1. exact P.
Qed.
Lemma escaped_trace : forall iph cmd, TraceWord cmd (escaped iph cmd).
Proof.
  intros iph cmd. exists (quote iph cmd). split; [apply quote_literal|]. unfold escaped. rewrite replace_dollar. split; [reflexivity|].
  unfold quote. rewrite !escapeDollars_app, !hasChar_app. cbn [orb]. rewrite orb_false_r.
  destruct (body_chunks iph cmd 0) as (l & F & _ & ->). replace (hasChar NL (escapeDollars (String """" ""))) with false by reflexivity. cbn [orb].
  rewrite escapeDollars_concats. clear -F. induction F as [|[raw ch] l C F IH]; [reflexivity|]. cbn [map concats snd]. rewrite hasChar_app, IH, orb_false_r.
  apply chunk_good in C. apply C.
Qed.
Lemma escaped_inj : forall iph a b, escaped iph a = escaped iph b -> a = b.
Proof.
  intros iph a b E. unfold escaped in E. rewrite !replace_dollar in E. apply (quote_inj iph).
  revert E. generalize (quote iph a) (quote iph b). clear. unfold escapeDollars.
  induction s as [|c s IH]; intros [|d r]; cbn [list_ascii_of_string map concats].
  - reflexivity.
  - destruct (Ascii.eqb d "$"); discriminate.
  - destruct (Ascii.eqb c "$"); discriminate.
  - destruct (Ascii.eqb_spec c "$") as [->|N]; destruct (Ascii.eqb_spec d "$") as [->|M]; cbn [String.append]; intro E.
    + injection E as E. f_equal. apply IH. exact E.
    + injection E as <- E. exfalso. revert E. destruct (list_ascii_of_string r) as [|x l] eqn:Er; cbn; [discriminate|].
      destruct (Ascii.eqb x "$") eqn:X; cbn; intro E; injection E; [discriminate|]. intros; subst; discriminate X.
    + injection E as -> E. exfalso. revert E. destruct (list_ascii_of_string s) as [|x l] eqn:Er; cbn; [discriminate|].
      destruct (Ascii.eqb x "$") eqn:X; cbn; intro E; injection E; [discriminate|]. intros; subst; discriminate X.
    + injection E as -> E. f_equal. apply IH. exact E.
Qed.
(** PowerShell *)
Lemma squoted_plain : forall s x, ~ In "'"%char (list_ascii_of_string s) -> (forall r, x <> String "'" r) ->
  squoted (s +++ String "'" x) = Some (s, x).
Proof.
  induction s as [|c s IH]; intros x H N; cbn [String.append squoted].
  - change (Ascii.eqb "'" "'") with true. cbv iota. destruct x as [|d x]; [reflexivity|].
    destruct (Ascii.eqb_spec d "'") as [->|]; [exfalso; eapply N; reflexivity|reflexivity].
  - destruct (Ascii.eqb_spec c "'") as [->|]; [exfalso; apply H; left; reflexivity|]. rewrite IH by (try exact N; intro I; apply H; right; exact I). reflexivity.
Qed.
Lemma escaped_no_squote : forall iph cmd, hasChar "'" cmd = false -> ~ In "'"%char (list_ascii_of_string (escaped iph cmd)).
Proof.
  intros iph cmd B. apply hasChar_false in B. rewrite escaped_eq. destruct (body_chunks iph cmd 0) as (l & F & E1 & ->).
  cbn [sdrop] in E1. rewrite E1 in B. clear E1. rewrite escapeDollars_concats. intros [I|I]; [discriminate|]. rewrite laos_app in I. apply in_app_iff in I.
  destruct I as [I|[I|[]]]; [|discriminate]. revert I. induction F as [|[raw ch] l C F IH]; [intros []|].
  cbn [map fst snd concats] in *. rewrite laos_app in *. intro I. apply in_app_iff in I. destruct I as [I|I].
  - apply chunk_good in C. apply C in I; [exact I|]. intro J. apply B, in_or_app. left. exact J.
  - revert I. apply IH. intro J. apply B, in_or_app. right. exact J.
Qed.
Lemma escaped_win : forall iph cmd x, hasChar "'" cmd = false -> (forall r, x <> String "'" r) ->
  squoted ("+ " +++ escaped iph cmd +++ String "'" x) = Some (("+ " +++ escaped iph cmd)%string, x).
Proof.
  intros iph cmd x B N. rewrite <- sapp_assoc. apply squoted_plain; [|exact N]. rewrite laos_app. intro I. apply in_app_iff in I.
  destruct I as [I|I]; [cbn in I; intuition discriminate|revert I; apply escaped_no_squote, B].
Qed.

(** ** The whole text *)
Lemma script_text : forall iph commands, script iph commands = scriptText posixHead (posixLines (escaped iph)) commands.
Proof.
  intros iph commands. unfold script, scriptText. change buildScriptHead with posixHead. f_equal. f_equal.
  induction commands as [|c cs IH]; [reflexivity|]. cbn [traceAll map concats]. rewrite <- IH. f_equal.
  unfold traceScript, posixLines, unlines. cbn [map concats]. rewrite sapp_nil_r, !sapp_assoc. reflexivity.
Qed.
Lemma scriptWin_text : forall iph commands, scriptWin iph commands = scriptText winHead (winLines (escaped iph)) commands.
Proof.
  intros iph commands. unfold scriptWin, scriptText. change buildScriptWinHead with winHead. f_equal. f_equal.
  induction commands as [|c cs IH]; [reflexivity|]. cbn [traceAllWin map concats]. rewrite <- IH. f_equal.
  unfold traceScriptWin, winLines, unlines. cbn [map concats]. rewrite sapp_nil_r, !sapp_assoc. reflexivity.
Qed.
