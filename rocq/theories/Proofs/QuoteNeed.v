(** * QuoteNeed.v: which strings are written in quotes. *)
From Coq Require Import Lia.
From Verif Require Import Model.Go Model.Quote Model.Pretty Proofs.GoFacts Proofs.YamlStrings Spec.ScriptSpec Spec.FormatSpec.

Lemma starts_spec : forall s p, hasPrefix s p = true <-> Starts s p.
Proof.
  intros s p. exact (prefix_spec p s).
Qed.
Lemma white_chars : forall p, In p spaceChars <-> exists r, White r /\ p = utf8 r.
Proof.
  assert (L : spaceChars = map utf8 [9; 10; 11; 12; 13; 32; 133; 160; 5760; 8192; 8193; 8194; 8195; 8196; 8197; 8198; 8199; 8200; 8201; 8202; 8232; 8233; 8239; 8287; 12288]%N)
    by (vm_compute; reflexivity).
  intro p. rewrite L, in_map_iff. unfold White. split.
  - intros (r & <- & I). exists r. split; [|reflexivity]. cbn [In] in I. lia.
  - intros (r & W & ->). exists r. split; [reflexivity|]. cbn [In]. lia.
Qed.
Lemma trim_white : forall s, trimChanges s = true <-> exists r, White r /\ (Starts s (utf8 r) \/ Ends s (utf8 r)).
Proof.
  intro s. unfold trimChanges. rewrite existsb_exists. split.
  - intros (p & I & H). apply white_chars in I as (r & W & ->). exists r. split; [exact W|]. apply orb_true_iff in H. rewrite starts_spec, hasSuffix_spec in H. exact H.
  - intros (r & W & H). exists (utf8 r). split; [apply white_chars; eauto|]. apply orb_true_iff. rewrite starts_spec, hasSuffix_spec. exact H.
Qed.
Lemma escape_control : forall c, isEscapeCode c = true <-> exists r, (7 <= r <= 13)%N /\ String c "" = utf8 r.
Proof.
  intro c. unfold isEscapeCode. rewrite smem_In. change (map Pretty.bytes [[7]; [8]; [12]; [10]; [13]; [9]; [11]]%N) with (map utf8 [7; 8; 12; 10; 13; 9; 11]%N).
  rewrite in_map_iff. split; intros (r & A & B); exists r; cbn [In] in *; (split; [lia|auto]) || (split; [auto|lia]).
Qed.
Lemma inside_true : forall s p, quotedInside p s = true ->
  (exists c, isEscapeCode c = true /\ Contains (String p s) (String c "")) \/ Contains (String p s) ": " \/ Contains (String p s) " #".
Proof.
  induction s as [|c s IH]; intros p H; [discriminate|]. cbn [quotedInside] in H.
  destruct (isEscapeCode c) eqn:E; [left; exists c; split; [exact E|exists (String p ""), s; reflexivity]|].
  destruct (Ascii.eqb c " " && Ascii.eqb p ":")%char eqn:X.
  { apply andb_true_iff in X as (X & Y). apply Ascii.eqb_eq in X, Y. subst. right. left. exists "", s. reflexivity. }
  destruct (Ascii.eqb c "#" && Ascii.eqb p " ")%char eqn:Y.
  { apply andb_true_iff in Y as (Z & Y). apply Ascii.eqb_eq in Z, Y. subst. right. right. exists "", s. reflexivity. }
  assert (W : forall q, Contains (String c s) q -> Contains (String p (String c s)) q).
  { intros q (a & b & ->). exists (String p a), b. reflexivity. }
  destruct (IH c H) as [(d & D & C)|[C|C]]; [left; exists d; split; [exact D|]|right; left|right; right]; apply W, C.
Qed.
Lemma inside_zero : forall s, quotedInside zero s = true <->
  (exists c, isEscapeCode c = true /\ Contains s (String c "")) \/ Contains s ": " \/ Contains s " #".
Proof.
  intro s. split.
  - intro H. assert (D : forall c q, Ascii.eqb c zero = false -> Contains (String zero s) (String c q) -> Contains s (String c q)).
    { intros c q N (a & b & E). destruct a as [|z a]; cbn [append] in E; injection E as E1 E2.
      - subst c. discriminate N.
      - exists a, b. exact E2. }
    destruct (inside_true s zero H) as [(c & E & C)|[C|C]].
    + left. exists c. split; [exact E|]. apply D; [|exact C]. destruct (Ascii.eqb_spec c zero) as [->|]; [discriminate E|reflexivity].
    + right. left. apply D; [reflexivity|exact C].
    + right. right. apply D; [reflexivity|exact C].
  - intro H. apply not_false_iff_true. intro F. apply inside_contains in F as (A & B & C). unfold Contains in H.
    destruct H as [(c & E & a & b & ->)|[H|H]].
    + rewrite (C c) in E; [discriminate|]. rewrite laos_app. apply in_or_app. right. left. reflexivity.
    + apply contains_spec in H. congruence.
    + apply contains_spec in H. congruence.
Qed.
Theorem quoted_need : forall s, isQuoted s = true <-> NeedsQuotes s.
Proof.
  intro s. unfold isQuoted. destruct s as [|c s]; [split; [intros _; apply quote_empty|reflexivity]|]. cbn [isEmpty]. cbv zeta.
  set (t := String c s). split.
  - destruct (trimChanges t) eqn:T; [intros _; apply trim_white in T as (r & W & H); exact (quote_white t r W H)|].
    destruct (alwaysQuoted c) eqn:A; [intros _; apply hasChar_In in A; apply (quote_start t c A); exists s; reflexivity|].
    match goal with |- context [quotedBeforeSpace c && ?b] => destruct (quotedBeforeSpace c && b) eqn:B end.
    { intros _. apply andb_true_iff in B as (B & S). apply hasChar_In in B. apply (quote_mark t c B). subst t. destruct s as [|d s]; [discriminate S|].
      apply Ascii.eqb_eq in S as ->. exists s. reflexivity. }
    destruct (quotedInside zero t) eqn:I.
    { intros _. apply inside_zero in I as [(d & D & C)|[C|C]]; [|exact (quote_colon t C)|exact (quote_comment t C)].
      apply escape_control in D as (r & R & E). rewrite E in C. exact (quote_control t r R C). }
    intro H. apply hasSuffix_spec in H. exact (quote_end t H).
  - intro H.
    destruct (trimChanges t) eqn:T; [reflexivity|]. destruct (alwaysQuoted c) eqn:A; [reflexivity|].
    match goal with |- context [quotedBeforeSpace c && ?b] => destruct (quotedBeforeSpace c && b) eqn:B end; [reflexivity|].
    destruct (quotedInside zero t) eqn:I; [reflexivity|].
    assert (NT : forall r, White r -> Starts t (utf8 r) \/ Ends t (utf8 r) -> False) by (intros r W X; apply not_true_iff_false in T; apply T, trim_white; eauto).
    assert (NI : ~ ((exists c, isEscapeCode c = true /\ Contains t (String c "")) \/ Contains t ": " \/ Contains t " #")) by (rewrite <- inside_zero, I; discriminate).
    inversion H as [E|u r W X E|u d D (r & X) E|u d D (r & X) E|u r R C E|u C E|u C E|u C E]; try (subst u).
    + exfalso. exact (NT r W X).
    + exfalso. injection X as -> _. apply hasChar_In in D. unfold alwaysQuoted in A. congruence.
    + exfalso. injection X as -> ->. apply hasChar_In in D. unfold quotedBeforeSpace in B. rewrite D in B. discriminate B.
    + exfalso. apply NI. left. exists (byte r). split; [apply escape_control; exists r; split; [exact R|symmetry; apply utf8_ascii; lia]|rewrite <- utf8_ascii by lia; exact C].
    + exfalso. apply NI. right. left. exact C.
    + exfalso. apply NI. right. right. exact C.
    + apply hasSuffix_spec. exact C.
Qed.
