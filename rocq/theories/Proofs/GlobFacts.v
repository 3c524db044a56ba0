(** * GlobFacts.v: path.Match and the meaning of its patterns. *)
From Coq Require Import Lia ZifyN.
From Verif Require Import Model.Go Model.Quote Model.Glob.
From Verif Require Import Spec.GlobSpec.
From Verif Require Import Proofs.GoFacts.
From Verif Require Spec.ScriptSpec Proofs.ScriptFacts Proofs.YamlStrings Proofs.JsonWrite.
Import ScriptSpec (utf8).
Ltac Zify.zify_post_hook ::= Z.to_euclidean_division_equations.

(** ** Runes *)
Definition cont (c : ascii) : Prop := (128 <= code c < 192)%N.
Lemma slashes_app : forall a b, slashes (a +++ b) = slashes a + slashes b.
Proof. intros a b. unfold slashes. rewrite laos_app. apply count_occ_app. Qed.
Lemma slashes_cons : forall c s, slashes (String c s) = (if Ascii.eqb c "/" then 1 else 0) + slashes s.
Proof. intros c s. unfold slashes. cbn [list_ascii_of_string count_occ]. destruct (ascii_dec c "/") as [->|N]; [reflexivity|].
  destruct (Ascii.eqb_spec c "/"); [contradiction|reflexivity]. Qed.
Lemma slashes_none : forall s, (forall c, In c (list_ascii_of_string s) -> cont c) -> slashes s = 0.
Proof.
  intros s H. apply count_occ_not_In. intro I. specialize (H _ I). unfold cont in H. vm_compute in H. destruct H as [H _]. apply H. reflexivity.
Qed.
Lemma hasChar_slashes : forall s, slashes s = 0 -> hasChar "/" s = false.
Proof. intros s H. apply hasChar_false. apply (count_occ_not_In ascii_dec). exact H. Qed.
Lemma slashes_hasChar : forall s, hasChar "/" s = false -> slashes s = 0.
Proof. intros s H. apply hasChar_false in H. apply count_occ_not_In. exact H. Qed.

Lemma utf8_shape : forall r, Valid r -> exists c k, utf8 r = String c k /\
  (forall d, In d (list_ascii_of_string k) -> cont d) /\
  ((r < 128)%N -> code c = r /\ k = "") /\ ((128 <= r)%N -> (192 <= code c)%N).
Proof.
  intros r V. unfold Valid in V. unfold utf8.
  destruct (N.ltb_spec r 128); [|destruct (N.ltb_spec r 2048); [|destruct (N.ltb_spec r 65536)]];
  unfold ScriptSpec.bytes; cbn [map string_of_list_ascii]; do 2 eexists; (split; [reflexivity|]); split.
  1,3,5,7: cbn [list_ascii_of_string In]; intros d I; unfold cont; intuition (subst; rewrite ?ScriptFacts.code_byte by lia; lia).
  all: rewrite ?ScriptFacts.code_byte by lia; split; intro; try lia; try (split; [reflexivity|reflexivity]).
Qed.
Lemma next_utf8 : forall r c k x, Valid r -> utf8 r = String c k -> nextRune c (k +++ x) = Some (r, x).
Proof.
  intros r c k x V E. unfold nextRune. destruct (utf8_shape r V) as (c' & k' & E' & _ & A & B).
  rewrite E in E'. injection E' as <- <-. destruct (N.lt_ge_cases r 128) as [L|L].
  - destruct (A L) as [Ec ->]. rewrite Ec. apply N.ltb_lt in L. rewrite L. reflexivity.
  - specialize (B L). replace (N.ltb (code c) 128) with false by (symmetry; apply N.ltb_ge; lia).
    destruct (YamlStrings.decodeRune_utf8 r x L V) as (c' & s & w & E' & _ & D & W).
    rewrite E in E'. injection E' as <- <-. rewrite D. replace (S w - 1) with w by lia. subst w. rewrite sdrop_app. reflexivity.
Qed.
Lemma next_shape : forall c s r t, nextRune c s = Some (r, t) -> exists k, s = (k +++ t)%string /\ utf8 r = String c k /\ Valid r.
Proof.
  intros c s r t. unfold nextRune. destruct (N.ltb_spec (code c) 128) as [L|L].
  - intro H. injection H as <- <-. exists "". split; [reflexivity|]. split; [|unfold Valid; lia].
    rewrite YamlStrings.utf8_ascii by exact L. unfold byte, code. rewrite ascii_N_embedding. reflexivity.
  - destruct (decodeRune c s) as [[r' w]|] eqn:D; [|discriminate]. intro H. injection H as <- <-.
    destruct (ScriptFacts.decodeRune_spec _ _ _ _ D) as (E & _ & k & -> & Lk).
    cbn [stake] in E. replace (S k - 1) with k by lia. exists (stake k s). split; [symmetry; apply stake_sdrop|].
    split; [exact E|exact (JsonWrite.decodeRune_character _ _ _ _ D)].
Qed.
Lemma utf8_cont : forall r c k, Valid r -> utf8 r = String c k -> forall d, In d (list_ascii_of_string k) -> cont d.
Proof. intros r c k V E. destruct (utf8_shape r V) as (c' & k' & E' & C & _). rewrite E in E'. injection E' as <- <-. exact C. Qed.
Lemma utf8_slashes : forall r, Valid r -> slashes (utf8 r) = if N.eqb r slash then 1 else 0.
Proof.
  intros r V. destruct (utf8_shape r V) as (c & k & E & C & A & B). rewrite E, slashes_cons, (slashes_none k C), Nat.add_0_r.
  destruct (Ascii.eqb_spec c "/") as [->|Nc]; destruct (N.eqb_spec r slash) as [Er|Nr]; try reflexivity.
  - exfalso. destruct (N.lt_ge_cases r 128) as [L|L]; [destruct (A L) as [X _]; apply Nr; rewrite <- X; reflexivity|specialize (B L); vm_compute in B; auto].
  - exfalso. subst r. destruct A as [X _]; [reflexivity|]. apply Nc. rewrite <- (ascii_N_embedding c). unfold code in X. rewrite X. reflexivity.
Qed.

(** ** Text *)
Lemma text_cons : forall r rs, utf8Text (r :: rs) = (utf8 r +++ utf8Text rs)%string.
Proof. reflexivity. Qed.
Lemma text_app : forall a b, utf8Text (a ++ b) = (utf8Text a +++ utf8Text b)%string.
Proof. intros a b. unfold utf8Text. rewrite map_app. apply concats_app. Qed.
Lemma text_length : forall rs, Forall Valid rs -> length rs <= String.length (utf8Text rs).
Proof.
  induction 1 as [|r rs V F IH]; [apply Nat.le_0_l|]. rewrite text_cons, slength_app. destruct (utf8_shape r V) as (c & k & E & _). rewrite E. cbn. lia.
Qed.
(** Text starts with no continuation byte. *)
Definition Starts (v : string) : Prop := match v with "" => True | String c _ => ~ cont c end.
Lemma text_starts : forall rs x, Forall Valid rs -> Starts x -> Starts (utf8Text rs +++ x).
Proof.
  intros rs x F S. destruct F as [|r rs V F]; [exact S|]. rewrite text_cons. destruct (utf8_shape r V) as (c & k & E & _ & A & B). rewrite E. cbn. unfold cont.
  destruct (N.lt_ge_cases r 128) as [L|L]; [destruct (A L) as [-> _]; lia|specialize (B L); lia].
Qed.
Lemma text_starts' : forall rs, Forall Valid rs -> Starts (utf8Text rs).
Proof. intros rs F. rewrite <- (sapp_nil_r (utf8Text rs)). apply text_starts; [exact F|exact I]. Qed.
Lemma app_split : forall a b c d, (a +++ b = c +++ d)%string ->
  (exists m, a = (c +++ m)%string /\ d = (m +++ b)%string) \/ (exists m, m <> "" /\ c = (a +++ m)%string /\ b = (m +++ d)%string).
Proof.
  induction a as [|x a IH]; intros b c d E.
  - destruct c as [|y c]; [left; exists ""; split; [reflexivity|exact (eq_sym E)]|]. right. exists (String y c). split; [discriminate|]. split; [reflexivity|exact E].
  - destruct c as [|y c]; [left; exists (String x a); split; [reflexivity|exact (eq_sym E)]|]. cbn in E. injection E as <- E.
    destruct (IH _ _ _ E) as [(m & -> & ->)|(m & Nm & -> & ->)]; [left|right]; exists m; auto.
Qed.
Lemma text_slashes : forall rs, Forall Valid rs -> slashes (utf8Text rs) = count_occ N.eq_dec rs slash.
Proof.
  induction 1 as [|r rs V F IH]; [reflexivity|]. rewrite text_cons, slashes_app, IH, (utf8_slashes r V). cbn [count_occ].
  destruct (N.eq_dec r slash) as [->|Nr]; [reflexivity|]. apply N.eqb_neq in Nr. rewrite Nr. reflexivity.
Qed.
Lemma text_noslash : forall rs, Forall Valid rs -> ~ In slash rs -> slashes (utf8Text rs) = 0.
Proof. intros rs F H. rewrite text_slashes by exact F. apply count_occ_not_In. exact H. Qed.
(** A split before a byte that is no continuation is between characters. *)
Lemma text_split : forall rs pre v, Forall Valid rs -> utf8Text rs = (pre +++ v)%string -> Starts v ->
  exists a b, rs = a ++ b /\ pre = utf8Text a /\ v = utf8Text b.
Proof.
  induction rs as [|r rs IH]; intros pre v F E S.
  - change (utf8Text []) with "" in E. symmetry in E. apply sapp_eq_nil in E. destruct E as [-> ->]. exists [], []. auto.
  - inversion F as [|? ? V F']; subst. rewrite text_cons in E. destruct (app_split _ _ _ _ E) as [(m & Em & ->)|(m & Nm & -> & E')].
    + destruct pre as [|p pre].
      * exists [], (r :: rs). cbn in Em. subst m. rewrite text_cons. auto.
      * destruct (utf8_shape r V) as (c & k & Ek & C & _). rewrite Ek in Em. injection Em as <- Em.
        destruct m as [|x m].
        -- rewrite sapp_nil_r in Em. subst k. exists [r], rs. rewrite text_cons. change (utf8Text []) with "". rewrite sapp_nil_r, Ek. auto.
        -- exfalso. apply S. apply C. rewrite Em, laos_app. apply in_or_app. right. left. reflexivity.
    + destruct (IH m v F' E' S) as (a & b & -> & -> & ->). exists (r :: a), b. rewrite text_cons. auto.
Qed.
Lemma utf8_inj : forall r r' x y, Valid r -> Valid r' -> (utf8 r +++ x = utf8 r' +++ y)%string -> r = r' /\ x = y.
Proof.
  intros r r' x y V V' E. destruct (utf8_shape r V) as (c & k & Ek & _). destruct (utf8_shape r' V') as (c' & k' & Ek' & _).
  assert (X := next_utf8 r c k x V Ek). assert (Y := next_utf8 r' c' k' y V' Ek'). rewrite Ek, Ek' in E. cbn in E. injection E as -> E. rewrite E, Y in X.
  injection X as -> ->. auto.
Qed.
(** Decoding in front of valid text stays in front of it. *)
Lemma first_left : forall d u v r t, Starts v -> firstRune d (u +++ v) = (r, t) ->
  exists u', t = (u' +++ v)%string /\ slashes u' = slashes u /\ (d = "/"%char -> r = slash).
Proof.
  intros d u v r t S. unfold firstRune. destruct (nextRune d (u +++ v)) as [[r' t']|] eqn:E; intro H; injection H as <- <-.
  - destruct (next_shape _ _ _ _ E) as (k & Ek & U & V). pose proof (utf8_cont _ _ _ V U) as C.
    assert (Sl : d = "/"%char -> r' = slash).
    { intros ->. destruct (utf8_shape r' V) as (c' & k' & E' & _ & A & B). rewrite U in E'. injection E' as <- <-.
      destruct (N.lt_ge_cases r' 128) as [L|L]; [destruct (A L) as [X _]; rewrite <- X; reflexivity|]. specialize (B L). vm_compute in B. exfalso. auto. }
    destruct (app_split _ _ _ _ Ek) as [(m & -> & ->)|(m & Nm & -> & ->)].
    + exists m. rewrite slashes_app, (slashes_none k C). auto.
    + exfalso. destruct m as [|x m]; [apply Nm; reflexivity|]. apply S. apply C. rewrite laos_app. apply in_or_app. right. left. reflexivity.
  - exists u. split; [reflexivity|]. split; [reflexivity|]. intros ->. unfold nextRune in E. discriminate.
Qed.
