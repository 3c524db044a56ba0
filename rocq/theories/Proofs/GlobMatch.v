(** * GlobMatch.v: a pattern, chunk by chunk. *)
From Coq Require Import Lia ZifyN.
From Verif Require Import Model.Go Model.Quote Model.Glob.
From Verif Require Import Spec.GlobSpec.
From Verif Require Import Proofs.GoFacts Proofs.GlobFacts Proofs.GlobItems.
From Verif Require Spec.ScriptSpec Proofs.ScriptFacts.
Import ScriptSpec (utf8).

(** ** Scanning *)
Definition pre (a : string) (p : string * string) : string * string := ((a +++ fst p)%string, snd p).
Lemma pre_app : forall a b p, pre (a +++ b) p = pre a (pre b p).
Proof. intros a b p. unfold pre. cbn. rewrite sapp_assoc. reflexivity. Qed.
Lemma scan_byte : forall b c x, Ascii.eqb c "\" = false -> Ascii.eqb c "*" && negb b = false ->
  scanLoop b (String c x) = pre (String c "") (scanLoop (if Ascii.eqb c "[" then true else if Ascii.eqb c "]" then false else b) x).
Proof. intros b c x H H'. cbn [scanLoop]. rewrite H, H'. destruct (scanLoop _ x). reflexivity. Qed.
Lemma scan_escape : forall b c x, scanLoop b (String "\" (String c x)) = pre (String "\" (String c "")) (scanLoop b x).
Proof. intros b c x. cbn [scanLoop Ascii.eqb Bool.eqb]. destruct (scanLoop b x). reflexivity. Qed.
Lemma scan_cont : forall b k x, (forall d, In d (list_ascii_of_string k) -> cont d) -> scanLoop b (k +++ x) = pre k (scanLoop b x).
Proof.
  intro b. induction k as [|c k IH]; intros x C; [cbn; unfold pre; destruct (scanLoop b x); reflexivity|].
  assert (Cc : cont c) by (apply C; left; reflexivity). cbn [String.append]. rewrite scan_byte; rewrite ?(cont_not c _ Cc) by reflexivity; try reflexivity.
  rewrite IH by (intros d I; apply C; right; exact I). unfold pre. reflexivity.
Qed.
Lemma scan_char : forall b r x, Valid r -> r <> backslash -> r <> asterisk \/ b = true -> r <> bracket \/ b = true -> r <> closing \/ b = false ->
  scanLoop b (utf8 r +++ x) = pre (utf8 r) (scanLoop b x).
Proof.
  intros b r x V N1 N2 N3 N4. destruct (utf8_shape r V) as (c & k & E & C & _). rewrite E. cbn [String.append].
  rewrite scan_byte; [|exact (valid_head r c k "\" V E N1 eq_refl)|].
  - rewrite scan_cont by exact C. replace (if Ascii.eqb c "[" then _ else _) with b; [reflexivity|].
    destruct N3 as [N3| ->]; [rewrite (valid_head r c k "[" V E N3 eq_refl)|destruct (Ascii.eqb c "["); [reflexivity|]];
    (destruct N4 as [N4|N4]; [rewrite (valid_head r c k "]" V E N4 eq_refl); reflexivity|]); [|discriminate].
    subst b. destruct (Ascii.eqb c "]"); reflexivity.
  - destruct N2 as [N2| ->]; [rewrite (valid_head r c k "*" V E N2 eq_refl); reflexivity|apply andb_false_r].
Qed.
Lemma scan_escaped : forall b r x, Valid r -> scanLoop b ("\" +++ utf8 r +++ x) = pre ("\" +++ utf8 r) (scanLoop b x).
Proof.
  intros b r x V. destruct (utf8_shape r V) as (c & k & E & C & _). rewrite E. cbn [String.append]. rewrite scan_escape, scan_cont by exact C. reflexivity.
Qed.
Lemma scan_class_char : forall l r x, ClassChar l r -> Forall Valid l -> scanLoop true (utf8Text l +++ x) = pre (utf8Text l) (scanLoop true x).
Proof.
  intros l r x C F. destruct C as [r N|r]; inversion F as [|? ? V F']; subst; rewrite !text_cons; change (utf8Text []) with ""; rewrite !sapp_nil_r.
  - apply scan_char; auto; [|left]; intro H; apply N; rewrite H; vm_compute; auto.
  - inversion F' as [|? ? V' _]; subst. change (utf8 backslash) with "\". rewrite sapp_assoc. apply scan_escaped. exact V'.
Qed.
Lemma scan_classes : forall ls rs x, Forall2 ClassRange ls rs -> Forall Valid (concat ls) ->
  scanLoop true (utf8Text (concat ls) +++ x) = pre (utf8Text (concat ls)) (scanLoop true x).
Proof.
  intros ls rs x. induction 1 as [|l lh ls rs C CC IH]; intro F; [change (utf8Text (concat [])) with ""; unfold pre; cbn; destruct (scanLoop true x); reflexivity|].
  cbn [concat] in *. apply Forall_app in F. destruct F as [Fl F]. rewrite text_app, sapp_assoc, pre_app, <- (IH F). destruct C as [l r C|l lo l' hi C C'].
  - exact (scan_class_char l r _ C Fl).
  - apply Forall_app in Fl. destruct Fl as [Fl Fl']. inversion Fl' as [|? ? Vd Fl'']; subst. rewrite text_app, text_cons, !sapp_assoc, !pre_app.
    rewrite (scan_class_char l lo _ C Fl), scan_char by (auto; try (left; discriminate); discriminate). rewrite (scan_class_char l' hi _ C' Fl''). reflexivity.
Qed.
Lemma scan_items : forall ps its, Parses ps its -> Forall Valid ps -> exists ps1 its1 ps2 its2,
  ps = ps1 ++ ps2 /\ its = its1 ++ its2 /\ Parses ps1 its1 /\ Parses ps2 its2 /\ ~ In Star its1 /\
  (its2 = [] \/ exists its3, its2 = Star :: its3) /\ scanLoop false (utf8Text ps) = (utf8Text ps1, utf8Text ps2).
Proof.
  induction 1 as [|ps its P IH|ps its P IH|r ps its N P IH|r ps its P IH|negated ls rs ps its Nl C Hd P IH]; intro F.
  - exists [], [], [], []. repeat split; auto; constructor.
  - exists [], [], (asterisk :: ps), (Star :: its). repeat split; [constructor|constructor; exact P|auto|right; exists its; reflexivity].
  - inversion F as [|? ? V F']; subst. destruct (IH F') as (ps1 & its1 & ps2 & its2 & -> & -> & P1 & P2 & NS & E2 & E).
    exists (question :: ps1), (Any :: its1), ps2, its2. repeat split; auto; [constructor; exact P1|intros [H|H]; [discriminate|auto]|].
    rewrite !text_cons, scan_char by (auto; try (left; discriminate); discriminate). rewrite E. reflexivity.
  - inversion F as [|? ? V F']; subst. destruct (IH F') as (ps1 & its1 & ps2 & its2 & -> & -> & P1 & P2 & NS & E2 & E).
    exists (r :: ps1), (Lit r :: its1), ps2, its2. repeat split; auto; [constructor; [exact N|exact P1]|intros [H|H]; [discriminate|auto]|].
    rewrite !text_cons, scan_char; [rewrite E; reflexivity|exact V|..|auto]; [|left|left]; intro H; apply N; rewrite H; vm_compute; auto.
  - inversion F as [|? ? V0 F0]; subst. inversion F0 as [|? ? V F']; subst. destruct (IH F') as (ps1 & its1 & ps2 & its2 & -> & -> & P1 & P2 & NS & E2 & E).
    exists (backslash :: r :: ps1), (Lit r :: its1), ps2, its2. repeat split; auto; [constructor; exact P1|intros [H|H]; [discriminate|auto]|].
    rewrite !text_cons. change (utf8 backslash) with "\". rewrite scan_escaped by exact V. rewrite E. unfold pre. cbn [fst snd]. rewrite sapp_assoc. reflexivity.
  - inversion F as [|? ? V F0]; subst. apply Forall_app in F0. destruct F0 as [F1 F0]. apply Forall_app in F0. destruct F0 as [Fl F0]. inversion F0 as [|? ? Vc F']; subst.
    destruct (IH F') as (ps1 & its1 & ps2 & its2 & -> & -> & P1 & P2 & NS & E2 & E).
    exists (bracket :: (if negated then [caret] else []) ++ concat ls ++ closing :: ps1), (OneOf negated rs :: its1), ps2, its2.
    split; [cbn [app]; rewrite <- !app_assoc; reflexivity|]. split; [reflexivity|]. split; [constructor; assumption|]. split; [exact P2|].
    split; [intros [H|H]; [discriminate|auto]|]. split; [exact E2|].
    rewrite !text_cons, !text_app, !text_cons, !text_app. change (utf8 bracket) with "[". change (utf8 closing) with "]". cbn [String.append].
    rewrite scan_byte by reflexivity. cbn [Ascii.eqb Bool.eqb].
    assert (Cl : scanLoop true (utf8Text (concat ls) +++ String "]" (utf8Text ps1 +++ utf8Text ps2)) = ((utf8Text (concat ls) +++ String "]" (utf8Text ps1))%string, utf8Text ps2)).
    { rewrite (scan_classes ls rs _ C Fl), scan_byte by reflexivity. cbn [Ascii.eqb Bool.eqb]. rewrite text_app in E. rewrite E. reflexivity. }
    destruct negated.
    + change (utf8Text [caret]) with "^". cbn [String.append]. rewrite scan_byte by reflexivity. cbn [Ascii.eqb Bool.eqb]. rewrite Cl. reflexivity.
    + change (utf8Text []) with "". cbn [String.append]. rewrite Cl. reflexivity.
Qed.
Lemma drop_stars : forall ps its, Parses ps its -> Forall Valid ps -> exists n ps' its',
  ps = repeat asterisk n ++ ps' /\ its = repeat Star n ++ its' /\ Parses ps' its' /\ (forall l, its' <> Star :: l) /\
  dropStars (utf8Text ps) = utf8Text ps' /\ hasPrefix (utf8Text ps) "*" = negb (Nat.eqb n 0).
Proof.
  intros ps its P. induction P as [|ps its P IH|ps its P _|r ps its N P _|r ps its P _|negated ls rs ps its Nl C Hd P _]; intro F.
  - exists 0, [], []. repeat split; [constructor|discriminate].
  - inversion F as [|? ? V F']; subst. destruct (IH F') as (n & ps' & its' & -> & -> & P' & NS & E & _). exists (S n), ps', its'.
    repeat split; auto. rewrite text_cons. change (utf8 asterisk) with "*". cbn [String.append]. rewrite prefix_char. reflexivity.
  - exists 0, (question :: ps), (Any :: its). split; [reflexivity|]. split; [reflexivity|]. split; [apply parse_any; exact P|]. split; [discriminate|]. split; [reflexivity|]. rewrite text_cons. change (utf8 question) with "?". cbn [String.append]. rewrite prefix_char. reflexivity.
  - inversion F as [|? ? V F']; subst. exists 0, (r :: ps), (Lit r :: its). split; [reflexivity|]. split; [reflexivity|]. split; [constructor; assumption|]. split; [discriminate|].
    destruct (utf8_shape r V) as (c & k & E & _). rewrite text_cons, E. cbn [String.append dropStars]. rewrite prefix_char.
    assert (Ec : Ascii.eqb c "*" = false) by (apply (valid_head r c k "*" V E); [intro H; apply N; left; symmetry; exact H|reflexivity]). rewrite Ec. auto.
  - exists 0, (backslash :: r :: ps), (Lit r :: its). split; [reflexivity|]. split; [reflexivity|]. split; [constructor; assumption|]. split; [discriminate|].
    rewrite text_cons. change (utf8 backslash) with "\". cbn [String.append]. rewrite prefix_char. auto.
  - eexists 0, _, (OneOf negated rs :: its). split; [reflexivity|]. split; [reflexivity|]. split; [constructor; assumption|]. split; [discriminate|].
    rewrite text_cons. change (utf8 bracket) with "[". cbn [String.append]. rewrite prefix_char. auto.
Qed.
Lemma text_empty : forall rs, Forall Valid rs -> isEmpty (utf8Text rs) = match rs with [] => true | _ => false end.
Proof. intros rs F. destruct F as [|r rs V F]; [reflexivity|]. rewrite text_cons. destruct (utf8_shape r V) as (c & k & E & _). rewrite E. reflexivity. Qed.
Lemma parses_nil : forall ps its, Parses ps its -> (ps = [] <-> its = []).
Proof. intros ps its P. destruct P; split; intro; (reflexivity || discriminate). Qed.

(** ** One round of Match *)
Definition attempt (chunk : string) (last : bool) (name : string) : chunkResult :=
  match matchChunk chunk name with
  | Rest t => if isEmpty t || negb last then Rest t else skipTo chunk last name
  | Bad => Bad
  | No => skipTo chunk last name
  end.
Lemma skip_attempt : forall chunk last c name, skipTo chunk last (String c name) = if Ascii.eqb c "/" then No else attempt chunk last name.
Proof.
  intros chunk last c name. cbn [skipTo]. destruct (Ascii.eqb c "/"); [reflexivity|]. unfold attempt. destruct (matchChunk chunk name) as [| |t]; try reflexivity.
  destruct last, (isEmpty t); reflexivity.
Qed.
(** The parts of a pattern. *)
Record parts (ps : list N) (its : list item) (n : nat) (ps1 : list N) (its1 : list item) (ps2 : list N) (its2 : list item) : Prop :=
  { parts_ps : ps = repeat asterisk n ++ ps1 ++ ps2; parts_its : its = repeat Star n ++ its1 ++ its2;
    parts_1 : Parses ps1 its1; parts_2 : Parses ps2 its2; parts_star : ~ In Star its1; parts_rest : its2 = [] \/ exists its3, its2 = Star :: its3;
    parts_v1 : Forall Valid ps1; parts_v2 : Forall Valid ps2; parts_empty : its1 = [] -> its2 = [];
    parts_length : length ps2 < length ps }.
Lemma parts_exist : forall ps its, Parses ps its -> Forall Valid ps -> ps <> [] -> exists n ps1 its1 ps2 its2, parts ps its n ps1 its1 ps2 its2 /\
  scanChunk (utf8Text ps) = (negb (Nat.eqb n 0), utf8Text ps1, utf8Text ps2).
Proof.
  intros ps its P F NE. destruct (drop_stars ps its P F) as (n & ps' & its' & -> & -> & P' & NS & Ed & Eh).
  apply Forall_app in F. destruct F as [_ F']. destruct (scan_items ps' its' P' F') as (ps1 & its1 & ps2 & its2 & -> & -> & P1 & P2 & NS1 & R & Es).
  apply Forall_app in F'. destruct F' as [F1 F2]. exists n, ps1, its1, ps2, its2. split.
  - constructor; auto.
    + intros ->. destruct R as [R|[its3 ->]]; [exact R|]. exfalso. exact (NS its3 eq_refl).
    + rewrite !app_length, repeat_length. destruct n; [|lia]. destruct ps1; [|cbn; lia]. exfalso.
      assert (its1 = []) by (apply (parses_nil [] its1 P1); reflexivity). subst its1. destruct R as [->|[its3 ->]]; [|exact (NS its3 eq_refl)].
      apply (parses_nil _ _ P2) in R || idtac. destruct ps2; [apply NE; reflexivity|]. inversion P2.
  - unfold scanChunk. rewrite Ed, Es, Eh. reflexivity.
Qed.
Lemma match_step : forall f ps its n ps1 its1 ps2 its2 name, ps <> [] -> Forall Valid ps -> parts ps its n ps1 its1 ps2 its2 ->
  scanChunk (utf8Text ps) = (negb (Nat.eqb n 0), utf8Text ps1, utf8Text ps2) ->
  matchFrom (S f) (utf8Text ps) name =
    if Nat.eqb n 0 then match cm its1 name with Some t => if isEmpty t || negb (isEmpty (utf8Text ps2)) then matchFrom f (utf8Text ps2) t else Some false | None => Some false end
    else if match its1 with [] => true | _ => false end then Some (negb (hasChar "/" name))
    else match attempt (utf8Text ps1) (isEmpty (utf8Text ps2)) name with Rest t => matchFrom f (utf8Text ps2) t | Bad => None | No => Some false end.
Proof.
  intros f ps its n ps1 its1 ps2 its2 name NE F [Eps Eits P1 P2 NS R F1 F2 Em Ln] Sc. cbn [matchFrom].
  rewrite (text_empty ps F). destruct ps as [|p ps]; [contradiction|]. rewrite Sc.
  assert (Ec : isEmpty (utf8Text ps1) = match its1 with [] => true | _ => false end).
  { rewrite (text_empty ps1 F1). pose proof (parses_nil ps1 its1 P1) as [A B]. destruct ps1, its1; try reflexivity; [specialize (A eq_refl)|specialize (B eq_refl)]; discriminate. }
  destruct (Nat.eqb n 0); cbn [negb andb].
  - rewrite (chunk_items ps1 its1 name P1 F1 NS). destruct (cm its1 name); reflexivity.
  - rewrite Ec. destruct its1 as [|it its1]; [reflexivity|]. unfold attempt.
    destruct (matchChunk (utf8Text ps1) name) as [| |t]; try reflexivity. destruct (isEmpty t || negb (isEmpty (utf8Text ps2))); reflexivity.
Qed.
Lemma attempt_bad : forall ps1 its1 last name, Parses ps1 its1 -> Forall Valid ps1 -> ~ In Star its1 -> attempt (utf8Text ps1) last name <> Bad.
Proof.
  intros ps1 its1 last name P F NS. unfold attempt.
  assert (S : skipTo (utf8Text ps1) last name <> Bad).
  { induction name as [|c name IH]; [discriminate|]. cbn [skipTo]. destruct (Ascii.eqb c "/"); [discriminate|].
    rewrite (chunk_items ps1 its1 name P F NS). destruct (cm its1 name) as [t|]; cbn [ofItems]; [destruct (last && negb (isEmpty t)); [exact IH|discriminate]|exact IH]. }
  rewrite (chunk_items ps1 its1 name P F NS). destruct (cm its1 name) as [t|]; cbn [ofItems]; [destruct (isEmpty t || negb last); [discriminate|exact S]|exact S].
Qed.
Theorem glob_no_error : forall ps its name, Parses ps its -> Forall Valid ps -> globMatch (utf8Text ps) name <> None.
Proof.
  intros ps its name P F. unfold globMatch. pose proof (text_length ps F) as L. assert (Lf : length ps < S (String.length (utf8Text ps))) by lia. clear L.
  revert Lf. generalize (S (String.length (utf8Text ps))). intro f. revert ps its name P F. induction f as [|f IH]; intros ps its name P F L; [lia|].
  destruct ps as [|p ps0] eqn:Eps; [cbn; discriminate|]. rewrite <- Eps in *. assert (NE : ps <> []) by (rewrite Eps; discriminate).
  destruct (parts_exist ps its P F NE) as (n & ps1 & its1 & ps2 & its2 & PT & Sc). rewrite (match_step f ps its n ps1 its1 ps2 its2 name NE F PT Sc).
  destruct PT as [_ _ P1 P2 NS _ F1 F2 _ Ln]. destruct (Nat.eqb n 0).
  - destruct (cm its1 name) as [t|]; [|discriminate]. destruct (isEmpty t || _); [|discriminate]. apply (IH ps2 its2); [assumption..|lia].
  - destruct its1; [discriminate|]. pose proof (attempt_bad ps1 _ (isEmpty (utf8Text ps2)) name P1 F1 NS) as B.
    destruct (attempt _ _ _); [contradiction|discriminate|]. apply (IH ps2 its2); [assumption..|lia].
Qed.
