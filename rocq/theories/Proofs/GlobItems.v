(** * GlobItems.v: chunks of a pattern, item by item. *)
From Coq Require Import Lia ZifyN.
From Verif Require Import Model.Go Model.Quote Model.Glob.
From Verif Require Import Spec.GlobSpec.
From Verif Require Import Proofs.GoFacts Proofs.GlobFacts.
From Verif Require Spec.ScriptSpec Proofs.ScriptFacts.
Import ScriptSpec (utf8).

(** ** Characters of a pattern *)
Lemma valid_head : forall r c k n, Valid r -> utf8 r = String c k -> r <> code n -> (code n < 128)%N -> Ascii.eqb c n = false.
Proof.
  intros r c k n V E Nr L. destruct (utf8_shape r V) as (c' & k' & E' & _ & A & B). rewrite E in E'. injection E' as <- <-.
  apply Ascii.eqb_neq. intros ->. destruct (N.lt_ge_cases r 128) as [L'|L']; [destruct (A L') as [X _]; apply Nr; symmetry; exact X|specialize (B L'); lia].
Qed.
Lemma cont_not : forall c n, cont c -> (code n < 128)%N -> Ascii.eqb c n = false.
Proof. intros c n [H _] L. apply Ascii.eqb_neq. intros ->. lia. Qed.
Lemma prefix_char : forall c s n, hasPrefix (String c s) (String n "") = Ascii.eqb c n.
Proof.
  intros c s n. unfold hasPrefix. cbn. destruct (ascii_dec n c) as [->|N]; [rewrite Ascii.eqb_refl; destruct s; reflexivity|].
  symmetry. apply Ascii.eqb_neq. congruence.
Qed.
Lemma getEsc_char : forall l r x, ClassChar l r -> Forall Valid l -> x <> "" -> getEsc (utf8Text l +++ x) = Some (r, x).
Proof.
  intros l r x C F X. destruct C as [r N|r]; inversion F as [|? ? V F']; subst.
  - destruct (utf8_shape r V) as (c & k & E & _). rewrite text_cons. change (utf8Text []) with "". rewrite sapp_nil_r, E. cbn [String.append getEsc].
    rewrite !(valid_head r c k _ V E); try reflexivity; try (intro H; apply N; vm_compute; rewrite H; auto; fail).
    cbn [orb]. rewrite (next_utf8 r c k x V E). destruct x; [contradiction|reflexivity].
  - inversion F' as [|? ? V' F'']; subst. destruct (utf8_shape r V') as (c & k & E & _). rewrite !text_cons. change (utf8Text []) with "". rewrite sapp_nil_r, E.
    change (utf8 backslash) with "\". cbn [String.append getEsc Ascii.eqb Bool.eqb orb andb].
    rewrite (next_utf8 r c k x V' E). destruct x; [contradiction|reflexivity].
Qed.
Lemma class_char_head : forall l r x n, ClassChar l r -> Forall Valid l -> In n ["-"; "]"]%char -> hasPrefix (utf8Text l +++ x) (String n "") = false.
Proof.
  intros l r x n C F In. destruct C as [r N|r]; inversion F as [|? ? V F']; subst.
  - destruct (utf8_shape r V) as (c & k & E & _). rewrite text_cons, sapp_assoc, E. cbn [String.append]. rewrite prefix_char. apply (valid_head r c k n V E).
    + intro H. apply N. cbn in In. destruct In as [<-|[<-|[]]]; rewrite H; vm_compute; auto.
    + cbn in In. destruct In as [<-|[<-|[]]]; reflexivity.
  - rewrite text_cons. change (utf8 backslash) with "\". cbn [String.append]. rewrite prefix_char. cbn in In. destruct In as [<-|[<-|[]]]; reflexivity.
Qed.
Lemma class_range_head : forall l lh x n, ClassRange l lh -> Forall Valid l -> In n ["-"; "]"]%char -> hasPrefix (utf8Text l +++ x) (String n "") = false.
Proof.
  intros l lh x n C F In. destruct C as [l r C|l lo l' hi C C']; [exact (class_char_head l r x n C F In)|].
  apply Forall_app in F. destruct F as [F _]. rewrite text_app, sapp_assoc. exact (class_char_head l lo _ n C F In).
Qed.
Definition within (r : N) (lh : N * N) : bool := N.leb (fst lh) r && N.leb r (snd lh).
Lemma classRanges_ok : forall ls rs, Forall2 ClassRange ls rs -> Forall Valid (concat ls) -> forall f first r m x,
  length ls < f -> (first = true -> ls <> []) ->
  classRanges f first r m (utf8Text (concat ls) +++ String "]" x) = Some (m || existsb (within r) rs, x).
Proof.
  induction 1 as [|l lh ls rs C CC IH]; intros F f first r m x Lf First; (destruct f as [|f]; [cbn in Lf; lia|]); cbn [classRanges].
  - destruct first; [exfalso; apply First; reflexivity|]. cbn [concat utf8Text map concats String.append]. rewrite prefix_char. cbn. rewrite orb_false_r. reflexivity.
  - cbn [concat] in F |- *. apply Forall_app in F. destruct F as [Fl F]. rewrite text_app, sapp_assoc.
    rewrite (class_range_head l lh _ "]" C Fl) by (cbn; auto). cbn [andb existsb]. set (y := (utf8Text (concat ls) +++ String "]" x)%string).
    assert (Ny : y <> "") by (unfold y; intro H; apply sapp_eq_nil in H; destruct H; discriminate).
    assert (Hy : hasPrefix y "-" = false).
    { unfold y. destruct CC as [|l2 lh2 ls rs C2 CC]; [reflexivity|]. cbn [concat] in F |- *. apply Forall_app in F. rewrite text_app, sapp_assoc.
      apply (class_range_head _ _ _ _ C2 (proj1 F)). cbn; auto. }
    cbn [length] in Lf. destruct C as [l s C|l lo l' hi C C'].
    + rewrite (getEsc_char l s y C Fl Ny), Hy. unfold y. rewrite (IH F f) by (lia || discriminate). unfold within at 2. cbn [fst snd]. rewrite orb_assoc. reflexivity.
    + apply Forall_app in Fl. destruct Fl as [Fl Fl']. inversion Fl' as [|? ? _ Fl'']; subst. rewrite text_app, sapp_assoc, text_cons. change (utf8 dash) with "-". rewrite sapp_assoc. cbn [String.append].
      rewrite (getEsc_char l lo _ C Fl) by discriminate. rewrite prefix_char. cbn [Ascii.eqb Bool.eqb andb sdrop].
      rewrite (getEsc_char l' hi y C' Fl'' Ny). unfold y. rewrite (IH F f) by (lia || discriminate). unfold within at 2. cbn [fst snd]. rewrite orb_assoc. reflexivity.
Qed.
Lemma classes_length : forall ls rs, Forall2 ClassRange ls rs -> length ls <= length (concat ls).
Proof.
  induction 1 as [|l lh ls rs C _ IH]; [apply Nat.le_refl|]. cbn [concat]. rewrite app_length. cbn [length].
  assert (1 <= length l); [|lia]. destruct C as [l r [r' N|r']|l lo l' hi C C']; [cbn; lia..|rewrite app_length; cbn; lia].
Qed.

(** ** Chunks *)
Definition accepts (negated : bool) (rs : list (N * N)) (r : N) : bool := xorb negated (existsb (within r) rs).
Lemma accepts_ok : forall negated rs r, accepts negated rs r = true <-> Accepts negated rs r.
Proof.
  intros negated rs r. unfold accepts, Accepts. assert (W : existsb (within r) rs = true <-> Within rs r).
  { rewrite existsb_exists. unfold Within, within. split.
    - intros ([lo hi] & I & H). apply andb_true_iff in H. destruct H as [H H']. apply N.leb_le in H, H'. exists lo, hi. auto.
    - intros (lo & hi & I & H & H'). exists (lo, hi). split; [exact I|]. cbn. apply N.leb_le in H, H'. rewrite H, H'. reflexivity. }
  destruct negated; cbn [xorb]; destruct (existsb (within r) rs); rewrite <- ?W; intuition congruence.
Qed.
Fixpoint cm (its : list item) (s : string) : option string :=
  match its with
  | [] => Some s
  | Star :: _ => None
  | Lit r :: its' => if hasPrefix s (utf8 r) then cm its' (sdrop (String.length (utf8 r)) s) else None
  | Any :: its' =>
      match s with
      | "" => None
      | String d s1 => if Ascii.eqb d "/" then None else cm its' (snd (firstRune d s1))
      end
  | OneOf negated ranges :: its' =>
      match s with
      | "" => None
      | String d s1 => let '(r, s2) := firstRune d s1 in if accepts negated ranges r then cm its' s2 else None
      end
  end.
Definition special (c : ascii) : bool := Ascii.eqb c "[" || Ascii.eqb c "?" || Ascii.eqb c "\".
Lemma match_plain : forall k x s f, (forall c, In c (list_ascii_of_string k) -> special c = false) ->
  matchChunkFrom (String.length k + f) (k +++ x) s = if hasPrefix s k then matchChunkFrom f x (sdrop (String.length k) s) else No.
Proof.
  induction k as [|c k IH]; intros x s f H.
  - replace (hasPrefix s "") with true by (destruct s; reflexivity). reflexivity.
  - cbn [String.length Nat.add String.append matchChunkFrom]. destruct s as [|d s]; [reflexivity|].
    assert (S := H c (or_introl eq_refl)). unfold special in S. apply orb_false_iff in S. destruct S as [S S3]. apply orb_false_iff in S. destruct S as [S1 S2].
    rewrite S1, S2, S3. unfold hasPrefix. cbn [String.prefix sdrop]. destruct (ascii_dec c d) as [->|N].
    + rewrite Ascii.eqb_refl. apply IH. intros c' I. apply H. right. exact I.
    + apply Ascii.eqb_neq in N. rewrite N. reflexivity.
Qed.
Lemma cont_special : forall k, (forall d, In d (list_ascii_of_string k) -> cont d) -> forall d, In d (list_ascii_of_string k) -> special d = false.
Proof. intros k C d I. unfold special. rewrite !cont_not; try reflexivity; exact (C d I). Qed.
Definition ofItems (o : option string) : chunkResult := match o with Some t => Rest t | None => No end.
Lemma matchChunk_items : forall ps its, Parses ps its -> Forall Valid ps -> ~ In Star its -> forall f s, String.length (utf8Text ps) < f ->
  matchChunkFrom f (utf8Text ps) s = ofItems (cm its s).
Proof.
  induction 1 as [|ps its P IH|ps its P IH|r ps its N P IH|r ps its P IH|negated ls rs ps its Nl C Hd P IH]; intros F NS f s L.
  - destruct f; [cbn in L; lia|reflexivity].
  - exfalso. apply NS. left. reflexivity.
  - inversion F as [|? ? _ F']; subst. assert (NS' : ~ In Star its) by (intro; apply NS; right; assumption).
    rewrite text_cons in *. change (utf8 question) with "?" in *. cbn [String.append String.length] in *. destruct f; [lia|]. cbn [matchChunkFrom cm].
    destruct s as [|d s]; [reflexivity|]. cbn [Ascii.eqb Bool.eqb]. destruct (Ascii.eqb d "/"); [reflexivity|]. apply IH; [assumption..|lia].
  - inversion F as [|? ? V F']; subst. assert (NS' : ~ In Star its) by (intro; apply NS; right; assumption).
    rewrite text_cons in *. rewrite slength_app in L. destruct (utf8_shape r V) as (c & k & E & C & _).
    replace f with (String.length (utf8 r) + (f - String.length (utf8 r))) by lia. rewrite match_plain.
    + cbn [cm]. destruct (hasPrefix s (utf8 r)); [|reflexivity]. apply IH; [assumption..|lia].
    + rewrite E. cbn [list_ascii_of_string]. intros d [<-|I]; [|exact (cont_special k C d I)]. unfold special.
      rewrite !(valid_head r c k _ V E); try reflexivity; intro H; apply N; rewrite H; vm_compute; auto.
  - inversion F as [|? ? _ F0]; subst. inversion F0 as [|? ? V F']; subst. assert (NS' : ~ In Star its) by (intro; apply NS; right; assumption).
    rewrite !text_cons in *. change (utf8 backslash) with "\" in *. destruct (utf8_shape r V) as (c & k & E & C & _). cbn [cm]. rewrite E in *.
    cbn [String.append String.length] in *. destruct f; [lia|]. cbn [matchChunkFrom]. unfold hasPrefix. destruct s as [|d s]; [reflexivity|].
    cbn [Ascii.eqb Bool.eqb String.prefix sdrop]. destruct (ascii_dec c d) as [->|Ncd]; [|apply Ascii.eqb_neq in Ncd; rewrite Ncd; reflexivity].
    rewrite Ascii.eqb_refl. rewrite slength_app in L. replace f with (String.length k + (f - String.length k)) by lia. rewrite match_plain by exact (cont_special k C).
    unfold hasPrefix. destruct (String.prefix k s); [|reflexivity]. apply IH; [assumption..|lia].
  - assert (NS' : ~ In Star its) by (intro; apply NS; right; assumption). inversion F as [|? ? _ F0]; subst. apply Forall_app in F0. destruct F0 as [_ F0].
    apply Forall_app in F0. destruct F0 as [Fl F0]. inversion F0 as [|? ? _ F']; subst.
    rewrite text_cons in *. change (utf8 bracket) with "[" in *. rewrite !text_app, text_cons in *. change (utf8 closing) with "]" in *. cbn [String.append String.length] in *.
    destruct f; [lia|]. cbn [matchChunkFrom cm]. destruct s as [|d s]; [reflexivity|]. cbn [Ascii.eqb Bool.eqb].
    destruct (firstRune d s) as [r s2].
    assert (R : forall b x, classRanges (S (String.length (utf8Text (concat ls) +++ String "]" x))) true r b (utf8Text (concat ls) +++ String "]" x) = Some (b || existsb (within r) rs, x)).
    { intros b x. apply classRanges_ok; [exact C|exact Fl| |intros _; exact Nl]. rewrite slength_app. pose proof (classes_length _ _ C). pose proof (text_length _ Fl). lia. }
    assert (Lp : String.length (utf8Text ps) < f) by (rewrite !slength_app in L; cbn [String.length] in L; lia).
    destruct negated.
    + change (utf8Text [caret]) with "^". cbn [String.append Ascii.eqb Bool.eqb]. rewrite R. unfold accepts. cbn [orb xorb].
      destruct (existsb (within r) rs); cbn [Bool.eqb negb]; [reflexivity|]. apply IH; assumption.
    + change (utf8Text []) with "". cbn [String.append]. destruct (utf8Text (concat ls) +++ String "]" (utf8Text ps))%string as [|e y] eqn:Ey.
      { apply sapp_eq_nil in Ey. destruct Ey. discriminate. }
      assert (He : Ascii.eqb e "^" = false).
      { destruct (concat ls) as [|h q] eqn:El; [pose proof (classes_length _ _ C) as Z; rewrite El in Z; destruct ls; [contradiction|cbn in Z; lia]|].
        inversion Fl as [|? ? V _]; subst. destruct (utf8_shape h V) as (c & k & E & _). rewrite text_cons, E in Ey. cbn in Ey. injection Ey as <- _.
        apply (valid_head h c k "^" V E); [|reflexivity]. exact (Hd eq_refl). }
      rewrite He, <- Ey, R. unfold accepts. cbn [orb xorb]. destruct (existsb (within r) rs); cbn [Bool.eqb]; [|reflexivity]. apply IH; assumption.
Qed.
Lemma chunk_items : forall ps its s, Parses ps its -> Forall Valid ps -> ~ In Star its -> matchChunk (utf8Text ps) s = ofItems (cm its s).
Proof. intros ps its s P F NS. apply matchChunk_items; [assumption..|lia]. Qed.
