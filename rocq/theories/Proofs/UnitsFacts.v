(** * UnitsFacts.v: sizes with a unit. *)
From Coq Require Import Lia Decimal DecimalString DecimalZ ZArith.
From Verif Require Import Model.Go Model.Units Spec.UnitsSpec Proofs.GoFacts Proofs.CompileMore.
Open Scope Z_scope.

(** ** Digits and numerals *)
Lemma isDigit_in : forall c, isDigit c = true <-> In c (list_ascii_of_string "0123456789").
Proof.
  intro c. split.
  - destruct c as [[] [] [] [] [] [] [] []]; cbn; intro H; try discriminate H; tauto.
  - cbn. intuition (subst; reflexivity).
Qed.
Lemma digits_cons : forall c s, Digits (String c s) <-> isDigit c = true /\ Digits s.
Proof.
  intros c s. unfold Digits. cbn [list_ascii_of_string]. rewrite isDigit_in. split.
  - intro H. split; [apply H; left; reflexivity|]. intros x I. apply H. right. exact I.
  - intros (A & B) x [<-|I]; auto.
Qed.
Lemma digits_nil : Digits "".
Proof. intros c []. Qed.
Lemma digits_app : forall a b, Digits (a +++ b)%string <-> Digits a /\ Digits b.
Proof.
  induction a as [|c a IH]; intro b; cbn [String.append].
  - split; [intro H; split; [apply digits_nil|exact H]|intros (_ & H); exact H].
  - rewrite !digits_cons, IH. tauto.
Qed.
Lemma digitValue_code : forall c, isDigit c = true -> digitValue c = Z.of_N (code c) - 48.
Proof. intros c H. apply isDigit_in in H. cbn in H. intuition (subst; reflexivity). Qed.
Lemma digitValue_range : forall c, isDigit c = true -> 0 <= digitValue c <= 9.
Proof. intros c H. apply isDigit_in in H. cbn in H. intuition (subst; vm_compute; discriminate). Qed.
Lemma digitsValue_numeral : forall s acc, Digits s ->
  digitsValue acc s = acc * 10 ^ Z.of_nat (String.length s) + numeral s.
Proof.
  induction s as [|c s IH]; intros acc H; cbn [digitsValue String.length numeral].
  - change (10 ^ Z.of_nat 0) with 1. lia.
  - apply digits_cons in H. destruct H as (C & H). rewrite IH by exact H. rewrite <- digitValue_code by exact C.
    rewrite Nat2Z.inj_succ, Z.pow_succ_r by lia. ring.
Qed.
Lemma numeral_range : forall s, Digits s -> 0 <= numeral s < 10 ^ Z.of_nat (String.length s).
Proof.
  induction s as [|c s IH]; intro H; cbn [String.length numeral].
  - cbn. lia.
  - apply digits_cons in H. destruct H as (C & H). specialize (IH H). pose proof (digitValue_range c C) as R.
    rewrite Nat2Z.inj_succ, Z.pow_succ_r by lia. nia.
Qed.
Lemma numeral_app : forall a b, numeral (a +++ b)%string = numeral a * 10 ^ Z.of_nat (String.length b) + numeral b.
Proof.
  induction a as [|c a IH]; intro b; cbn [String.append numeral]; [ring|].
  rewrite IH, slength_app, Nat2Z.inj_add, Z.pow_add_r by lia. ring.
Qed.

Lemma string_of_uint_digits : forall d, Digits (NilEmpty.string_of_uint d).
Proof. induction d; cbn; try (apply digits_nil); apply digits_cons; split; auto. Qed.
Lemma of_uint_acc_numeral : forall d p, Z.pos (Pos.of_uint_acc d p) =
  Z.pos p * 10 ^ Z.of_nat (String.length (NilEmpty.string_of_uint d)) + numeral (NilEmpty.string_of_uint d).
Proof.
  induction d; intro p; cbn [Pos.of_uint_acc NilEmpty.string_of_uint String.length numeral];
    [change (10 ^ Z.of_nat 0) with 1; lia|..];
    rewrite IHd, Nat2Z.inj_succ, Z.pow_succ_r by lia; rewrite ?Pos2Z.inj_add, ?Pos2Z.inj_mul;
    match goal with |- context [digitValue ?c] => let v := eval vm_compute in (digitValue c) in change (digitValue c) with v end; ring.
Qed.
Lemma of_uint_numeral : forall d, Z.of_uint d = numeral (NilEmpty.string_of_uint d).
Proof.
  unfold Z.of_uint. induction d; cbn [Pos.of_uint NilEmpty.string_of_uint numeral Z.of_N]; try reflexivity;
    rewrite ?of_uint_acc_numeral;
    match goal with |- context [digitValue ?c] => let v := eval vm_compute in (digitValue c) in change (digitValue c) with v end; try ring.
  rewrite IHd. ring.
Qed.
Lemma itoa_digits : forall z, 0 <= z -> Digits (itoa z) /\ itoa z <> "" /\ numeral (itoa z) = z.
Proof.
  intros z P. unfold itoa. pose proof (DecimalZ.of_to z) as Q.
  destruct (Z.to_int z) as [d|d] eqn:E.
  - cbn in Q. cbn [NilZero.string_of_int].
    assert (K : d = Nil \/ NilZero.string_of_uint d = NilEmpty.string_of_uint d) by (destruct d; auto).
    destruct K as [->|K].
    + cbn in Q. subst z. split; [apply digits_cons; split; [reflexivity|apply digits_nil]|]. split; [discriminate|reflexivity].
    + rewrite K. split; [apply string_of_uint_digits|]. split; [|rewrite <- of_uint_numeral; exact Q].
      rewrite <- K. destruct d; discriminate.
  - destruct z as [|p|p]; cbn in E; try discriminate. lia.
Qed.
Lemma itoa_no_zero : forall z w, itoa z = String "0" w -> w = "".
Proof. intros z w E. exact (proj1 (proj2 (itoa_numeral z)) w E). Qed.

(** ** Rounding *)
Lemma round_nearest : forall num den, 0 < den -> Nearest num den (roundHalfEven num den).
Proof.
  intros num den P. unfold roundHalfEven, Nearest.
  pose proof (Z.div_mod num den ltac:(lia)) as D. pose proof (Z.mod_pos_bound num den P) as R.
  set (q := num / den) in *. set (r := num mod den) in *.
  destruct (Z.ltb_spec (2 * r) den) as [A|A].
  - replace (q * den - num) with (- r) by lia. split; [lia|lia].
  - destruct (Z.ltb_spec den (2 * r)) as [B|B].
    + replace ((q + 1) * den - num) with (den - r) by lia. split; [lia|lia].
    + destruct (Z.even q) eqn:E.
      * replace (q * den - num) with (- r) by lia. split; [lia|intros _; exact E].
      * replace ((q + 1) * den - num) with (den - r) by lia. split; [lia|]. intros _. rewrite Z.even_add, E. reflexivity.
Qed.
Lemma nearest_unique : forall num den a b, 0 < den -> Nearest num den a -> Nearest num den b -> a = b.
Proof.
  intros num den a b P (A & EA) (B & EB).
  assert (K : - den <= (a - b) * den <= den) by lia.
  assert (L : -1 <= a - b <= 1) by nia.
  destruct (Z.eq_dec a b) as [E|N]; [exact E|exfalso].
  assert (C : a = b + 1 \/ b = a + 1) by lia.
  destruct C as [C|C]; subst.
  - assert (2 * Z.abs (b * den - num) = den) by nia. assert (2 * Z.abs ((b + 1) * den - num) = den) by nia.
    specialize (EA H0). specialize (EB H). rewrite Z.even_add, EB in EA. discriminate.
  - assert (2 * Z.abs (a * den - num) = den) by nia. assert (2 * Z.abs ((a + 1) * den - num) = den) by nia.
    specialize (EA H). specialize (EB H0). rewrite Z.even_add, EA in EB. discriminate.
Qed.
Lemma pow2_pos : forall n, 0 <= n -> 0 < 2 ^ n.
Proof. intros. apply Z.pow_pos_nonneg; lia. Qed.
Lemma nearestDouble_spec : forall num den, 0 < num -> 0 < den ->
  NearestDouble num den (fst (nearestDouble num den)) (snd (nearestDouble num den)).
Proof.
  intros num den P Q. unfold nearestDouble. set (e := Z.log2 num - Z.log2 den).
  pose proof (Z.log2_spec num P) as (LN & UN). pose proof (Z.log2_spec den Q) as (LD & UD).
  rewrite Z.pow_succ_r in UN, UD by apply Z.log2_nonneg.
  set (a := Z.log2 num) in *. set (b := Z.log2 den) in *.
  pose proof (Z.log2_nonneg num) as A0. pose proof (Z.log2_nonneg den) as B0. fold a in A0. fold b in B0.
  (* 2^e den < 2 num and num < 2^(e+1) den *)
  assert (PA := pow2_pos (Z.max 0 (- e)) ltac:(lia)). assert (PB := pow2_pos (Z.max 0 e) ltac:(lia)).
  assert (SH : 2 ^ a * 2 ^ Z.max 0 (- e) = 2 ^ b * 2 ^ Z.max 0 e).
  { rewrite <- !Z.pow_add_r by lia. f_equal. unfold e. lia. }
  assert (U : num * 2 ^ Z.max 0 (- e) < 2 * (den * 2 ^ Z.max 0 e)) by nia.
  assert (L : den * 2 ^ Z.max 0 e < 2 * (num * 2 ^ Z.max 0 (- e))) by nia.
  set (e' := if num * 2 ^ Z.max 0 (- e) <? den * 2 ^ Z.max 0 e then e - 1 else e).
  assert (M : den * 2 ^ Z.max 0 e' <= num * 2 ^ Z.max 0 (- e') < 2 * (den * 2 ^ Z.max 0 e')).
  { unfold e'. destruct (Z.ltb_spec (num * 2 ^ Z.max 0 (- e)) (den * 2 ^ Z.max 0 e)) as [H|H]; [|lia].
    destruct (Z_le_gt_dec e 0) as [N|N].
    - replace (Z.max 0 (e - 1)) with 0 by lia. replace (Z.max 0 (- (e - 1))) with (Z.max 0 (- e) + 1) by lia.
      replace (Z.max 0 e) with 0 in * by lia. rewrite Z.pow_add_r by lia. change (2 ^ 1) with 2. change (2 ^ 0) with 1 in *. lia.
    - replace (Z.max 0 (- (e - 1))) with 0 by lia. replace (Z.max 0 (- e)) with 0 in * by lia.
      replace (Z.max 0 e) with (Z.max 0 (e - 1) + 1) in * by lia. rewrite Z.pow_add_r in * by lia. change (2 ^ 1) with 2 in *. change (2 ^ 0) with 1 in *. lia. }
  clearbody e'. clear - M P Q. cbn [fst snd].
  exists (2 ^ Z.max 0 (e' - 52)), (2 ^ Z.max 0 (- (e' - 52))). split; [split; reflexivity|].
  assert (X1 := pow2_pos (Z.max 0 (e' - 52)) ltac:(lia)). assert (X2 := pow2_pos (Z.max 0 (- (e' - 52))) ltac:(lia)).
  assert (Y1 := pow2_pos (Z.max 0 e') ltac:(lia)). assert (Y2 := pow2_pos (Z.max 0 (- e')) ltac:(lia)).
  assert (S : 2 ^ Z.max 0 (- (e' - 52)) * 2 ^ Z.max 0 e' = 2 ^ 52 * 2 ^ Z.max 0 (e' - 52) * 2 ^ Z.max 0 (- e')).
  { rewrite <- !Z.pow_add_r by lia. f_equal. lia. }
  split; [|apply round_nearest; nia].
  change (2 ^ 53) with (2 * 2 ^ 52). remember (2 ^ 52) as T eqn:ET. assert (0 < T) by (subst; reflexivity). clear ET.
  set (p := 2 ^ Z.max 0 (e' - 52)) in *. set (q := 2 ^ Z.max 0 (- (e' - 52))) in *.
  set (p' := 2 ^ Z.max 0 e') in *. set (q' := 2 ^ Z.max 0 (- e')) in *.
  (* q p' = T p q' ; den p' <= num q' < 2 den p' *)
  split.
  - apply (Z.mul_le_mono_pos_r _ _ q'); [exact Y2|]. replace (T * (den * p) * q') with (den * (T * p * q')) by ring. rewrite <- S.
    replace (den * (q * p')) with (den * p' * q) by ring. replace (num * q * q') with (num * q' * q) by ring. nia.
  - apply (Z.mul_lt_mono_pos_r q'); [exact Y2|]. replace (2 * T * (den * p) * q') with (2 * den * (T * p * q')) by ring. rewrite <- S.
    replace (2 * den * (q * p')) with (2 * (den * p') * q) by ring. replace (num * q * q') with (num * q' * q) by ring. nia.
Qed.
Lemma pow2_cross : forall x p q y p' q', PowerOfTwo x p q -> PowerOfTwo y p' q' -> 0 <= y - x ->
  p' * q = 2 ^ (y - x) * (p * q').
Proof.
  intros x p q y p' q' (-> & ->) (-> & ->) L. rewrite <- !Z.pow_add_r by lia. f_equal. lia.
Qed.
Lemma power_pos : forall x p q, PowerOfTwo x p q -> 0 < p /\ 0 < q.
Proof. intros x p q (-> & ->). split; apply pow2_pos; lia. Qed.
Lemma nearestDouble_unique : forall num den m x m' x', 0 < num -> 0 < den ->
  NearestDouble num den m x -> NearestDouble num den m' x' -> m = m' /\ x = x'.
Proof.
  intros num den m x m' x' P Q (p & q & W & B & N) (p' & q' & W' & B' & N').
  pose proof (power_pos _ _ _ W) as (Pp & Pq). pose proof (power_pos _ _ _ W') as (Pp' & Pq').
  assert (E : x = x').
  { change (2 ^ 53) with (2 * 2 ^ 52) in *. remember (2 ^ 52) as T eqn:ET. assert (T0 : 0 < T) by (subst; reflexivity). clear ET.
    assert (K : forall x y p q p' q', PowerOfTwo x p q -> PowerOfTwo y p' q' -> 0 < p -> 0 < q -> 0 < p' -> 0 < q' ->
      T * (den * p') <= num * q' -> num * q < 2 * T * (den * p) -> ~ x < y).
    { clear - T0 P Q. intros x y p q p' q' W W' Pp Pq Pp' Pq' H1 H2 L.
      pose proof (pow2_cross _ _ _ _ _ _ W W' ltac:(lia)) as C.
      assert (G : 2 <= 2 ^ (y - x)). { replace (y - x) with (1 + (y - x - 1)) by lia. rewrite Z.pow_add_r by lia. pose proof (pow2_pos (y - x - 1) ltac:(lia)). change (2 ^ 1) with 2. lia. }
      assert (A1 : T * (den * p') * q <= num * q' * q) by nia. assert (A2 : num * q * q' < 2 * T * (den * p) * q') by nia.
      assert (A3 : T * den * (p' * q) < 2 * T * den * (p * q')) by nia. rewrite C in A3.
      assert (0 < T * den) by nia. assert (0 < p * q') by nia. nia. }
    destruct (Z.lt_trichotomy x x') as [L|[E|L]]; [exfalso|exact E|exfalso].
    - exact (K x x' p q p' q' W W' Pp Pq Pp' Pq' (proj1 B') (proj2 B) L).
    - exact (K x' x p' q' p q W' W Pp' Pq' Pp Pq (proj1 B) (proj2 B') L). }
  subst x'. destruct W as (-> & ->), W' as (-> & ->). split; [|reflexivity]. eapply nearest_unique; [|exact N|exact N']. nia.
Qed.
Lemma truncated_spec : forall m x, IntegerPart m x (truncated m x).
Proof.
  intros m x. unfold truncated, IntegerPart. exists (2 ^ Z.max 0 x), (2 ^ Z.max 0 (- x)). split; [split; reflexivity|].
  destruct (Z.ltb_spec x 0) as [L|L].
  - replace (Z.max 0 x) with 0 by lia. replace (Z.max 0 (- x)) with (- x) by lia. change (2 ^ 0) with 1.
    pose proof (pow2_pos (- x) ltac:(lia)) as P. pose proof (Z.div_mod m (2 ^ - x) ltac:(lia)) as D. pose proof (Z.mod_pos_bound m (2 ^ - x) P). nia.
  - replace (Z.max 0 x) with x by lia. replace (Z.max 0 (- x)) with 0 by lia. change (2 ^ 0) with 1. lia.
Qed.
Lemma integerPart_unique : forall m x a b, IntegerPart m x a -> IntegerPart m x b -> a = b.
Proof.
  intros m x a b (p & q & W & A) (p' & q' & W' & B). pose proof (power_pos _ _ _ W) as (_ & Pq).
  destruct W as (-> & ->), W' as (-> & ->). set (q := 2 ^ Z.max 0 (- x)) in *. nia.
Qed.

(** ** Reading *)
Lemma span_sound : forall s d r, spanDigits s = (d, r) ->
  s = (d +++ r)%string /\ Digits d /\ (forall c r', r = String c r' -> isDigit c = false).
Proof.
  induction s as [|c s IH]; intros d r E; cbn in E.
  - injection E as <- <-. split; [reflexivity|]. split; [apply digits_nil|discriminate].
  - destruct (isDigit c) eqn:C.
    + destruct (spanDigits s) as [d' r'] eqn:S. injection E as <- <-. destruct (IH _ _ eq_refl) as (-> & D & R).
      split; [reflexivity|]. split; [apply digits_cons; auto|exact R].
    + injection E as <- <-. split; [reflexivity|]. split; [apply digits_nil|]. intros c' r' E. injection E as <- _. exact C.
Qed.
Lemma span_complete : forall d r, Digits d -> (forall c r', r = String c r' -> isDigit c = false) ->
  spanDigits (d +++ r)%string = (d, r).
Proof.
  induction d as [|c d IH]; intros r D R; cbn [String.append].
  - destruct r as [|c r]; [reflexivity|]. cbn [spanDigits]. rewrite (R c r eq_refl). reflexivity.
  - apply digits_cons in D. destruct D as (C & D). cbn [spanDigits]. rewrite C, IH by assumption. reflexivity.
Qed.
Lemma opt_sound : forall cl s o r, optChar cl s = (o, r) -> s = (o +++ r)%string /\ (o = "" \/ exists c, o = String c "" /\ hasChar c cl = true).
Proof.
  intros cl [|c s] o r E; cbn in E.
  - injection E as <- <-. auto.
  - destruct (hasChar c cl) eqn:C; injection E as <- <-; cbn; [|auto]. split; [reflexivity|]. right. exists c. auto.
Qed.
Lemma hasChar_in : forall c s, hasChar c s = true -> In c (list_ascii_of_string s).
Proof.
  unfold hasChar. induction s as [|a s IH]; cbn; intro H; [discriminate|]. apply Bool.orb_true_iff in H. destruct H as [H|H]; [left|right; auto].
  apply Ascii.eqb_eq in H. auto.
Qed.
Lemma opt_in : forall cl s o r, optChar cl s = (o, r) -> In o ("" :: map (fun c => String c "") (list_ascii_of_string cl)).
Proof.
  intros cl s o r E. destruct (opt_sound _ _ _ _ E) as (_ & [->|(c & -> & H)]); [left; reflexivity|].
  right. apply hasChar_in in H. apply (in_map (fun c => String c "") _ _ H).
Qed.

Definition tailOf (r : string) : option string :=
  let (_, r) := optChar " " r in
  let (unit, r) := optChar "kKmMgGtTpP" r in
  let (_, r) := optChar "iI" r in
  let (_, r) := optChar "bB" r in
  if isEmpty r then Some unit else None.
Definition spaces : list string := [""; " "].
Definition is_ : list string := [""; "i"; "I"].
Definition bs_ : list string := [""; "b"; "B"].
Lemma tail_sound : forall r unit, tailOf r = Some unit ->
  exists space i b, r = (space +++ unit +++ i +++ b)%string /\ In space spaces /\
    In unit (map fst unitTable) /\ In i is_ /\ In b bs_.
Proof.
  intros r unit H. unfold tailOf in H.
  destruct (optChar " " r) as [o1 r1] eqn:E1. destruct (optChar _ r1) as [o2 r2] eqn:E2.
  destruct (optChar _ r2) as [o3 r3] eqn:E3. destruct (optChar _ r3) as [o4 r4] eqn:E4.
  destruct r4; [|discriminate]. injection H as <-.
  pose proof (opt_in _ _ _ _ E1) as I1. pose proof (opt_in _ _ _ _ E2) as I2. pose proof (opt_in _ _ _ _ E3) as I3. pose proof (opt_in _ _ _ _ E4) as I4.
  apply opt_sound in E1, E2, E3, E4. destruct E1 as (-> & _), E2 as (-> & _), E3 as (-> & _), E4 as (-> & _).
  exists o1, o3, o4. split; [rewrite sapp_nil_r; reflexivity|]. split; [exact I1|]. split; [|split; [exact I3|exact I4]].
  cbn in I2 |- *. intuition.
Qed.
Lemma tail_complete : forall space unit i b, In space spaces -> In unit (map fst unitTable) -> In i is_ -> In b bs_ ->
  tailOf (space +++ unit +++ i +++ b)%string = Some unit /\
  (forall c r', (space +++ unit +++ i +++ b)%string = String c r' -> isDigit c = false /\ c <> "."%char).
Proof.
  intros space unit i b A B C D. cbn in A, B, C, D.
  repeat match goal with H : _ \/ _ |- _ => destruct H end; try contradiction; subst;
  (split; [reflexivity|]; let H := fresh in intros ? ? H; cbn in H; first [discriminate H|injection H as <- _; split; [reflexivity|discriminate]]).
Qed.
Lemma sizeMatch_tail : forall s, sizeMatch s =
  let (whole, r) := spanDigits s in
  if isEmpty whole then None else
  match (match r with
         | String "." r' => let (f, r'') := spanDigits r' in if isEmpty f then None else Some (f, r'')
         | _ => Some ("", r) end) with
  | None => None
  | Some (frac, r) => match tailOf r with Some u => Some (whole, frac, u) | None => None end
  end.
Proof.
  intro s. unfold sizeMatch, tailOf. destruct (spanDigits s) as [whole r]. destruct (isEmpty whole); [reflexivity|].
  match goal with |- context [match ?x with Some _ => _ | None => _ end] => destruct x as [[frac r1]|] end; [|reflexivity].
  destruct (optChar " " r1) as [o1 r2]. destruct (optChar _ r2) as [o2 r3]. destruct (optChar _ r3) as [o3 r4].
  destruct (optChar _ r4) as [o4 r5]. destruct (isEmpty r5); reflexivity.
Qed.
Lemma isEmpty_iff : forall s, isEmpty s = true <-> s = "".
Proof. destruct s; cbn; split; congruence. Qed.
Lemma number_match : forall whole frac number r, Number whole frac number ->
  (forall c r', r = String c r' -> isDigit c = false /\ c <> "."%char) ->
  sizeMatch (number +++ r)%string = match tailOf r with Some u => Some (whole, frac, u) | None => None end.
Proof.
  intros whole frac number r (W & D & Df & N) NT. rewrite sizeMatch_tail.
  assert (Ew : isEmpty whole = false) by (destruct whole; [congruence|reflexivity]).
  destruct N as [(-> & ->)|(Nf & ->)].
  - rewrite span_complete; [|exact D|intros c r' E; exact (proj1 (NT c r' E))]. rewrite Ew.
    assert (K : (match r with String "." r' => let (f, r'') := spanDigits r' in if isEmpty f then None else Some (f, r'') | _ => Some ("", r) end) = Some ("", r)).
    { destruct r as [|c r']; [reflexivity|]. destruct (NT c r' eq_refl) as (_ & Nc). destruct c as [[] [] [] [] [] [] [] []]; try reflexivity. congruence. }
    rewrite K. reflexivity.
  - rewrite sapp_assoc. rewrite span_complete; [|exact D|intros c r' E; cbn in E; injection E as <- _; reflexivity]. rewrite Ew.
    cbn [String.append]. rewrite span_complete; [|exact Df|intros c r' E; exact (proj1 (NT c r' E))].
    assert (Ef : isEmpty frac = false) by (destruct frac; [congruence|reflexivity]). rewrite Ef. reflexivity.
Qed.
Lemma sizeMatch_iff : forall s whole frac unit, sizeMatch s = Some (whole, frac, unit) <->
  exists number space i b, s = (number +++ space +++ unit +++ i +++ b)%string /\ Number whole frac number /\
    In space spaces /\ In unit (map fst unitTable) /\ In i is_ /\ In b bs_.
Proof.
  intros s whole frac unit. rewrite sizeMatch_tail. split.
  - intro H. destruct (spanDigits s) as [w r] eqn:S. destruct (span_sound _ _ _ S) as (-> & D & R).
    destruct (isEmpty w) eqn:Ew; [discriminate|]. assert (W : w <> "") by (intro; subst; discriminate).
    assert (K : exists f r1, (match r with
         | String "." r' => let (f, r'') := spanDigits r' in if isEmpty f then None else Some (f, r'')
         | _ => Some ("", r) end) = Some (f, r1) /\ Digits f /\ (f = "" /\ r = r1 \/ f <> "" /\ r = ("." +++ f +++ r1)%string)).
    { destruct (match r with String "." r' => _ | _ => _ end) as [[f r1]|] eqn:E; [|discriminate H]. exists f, r1. split; [reflexivity|].
      assert (G : (exists r', r = String "." r' /\ (let (f, r'') := spanDigits r' in if isEmpty f then None else Some (f, r'')) = Some (f, r1)) \/ (f = "" /\ r = r1)).
      { destruct r as [|[[] [] [] [] [] [] [] []] r']; try (right; injection E as <- <-; split; reflexivity). left. exists r'. split; [reflexivity|exact E]. }
      destruct G as [(r' & -> & G)|(-> & ->)]; [|split; [apply digits_nil|left; auto]].
      destruct (spanDigits r') as [f' r''] eqn:S'. destruct (span_sound _ _ _ S') as (-> & D' & _).
      destruct (isEmpty f') eqn:Ef; [discriminate|]. injection G as <- <-. split; [exact D'|]. right. split; [intro; subst; discriminate|reflexivity]. }
    destruct K as (f & r1 & E & Df & K). rewrite E in H. destruct (tailOf r1) as [u|] eqn:T; [|discriminate]. injection H as <- <- <-.
    destruct (tail_sound _ _ T) as (space & i & b & -> & I).
    destruct K as [(-> & ->)|(Nf & ->)].
    + exists w, space, i, b. split; [reflexivity|]. split; [split; [exact W|]; split; [exact D|]; split; [apply digits_nil|]; left; auto|exact I].
    + exists (w +++ "." +++ f)%string, space, i, b. split; [rewrite !sapp_assoc; reflexivity|].
      split; [split; [exact W|]; split; [exact D|]; split; [exact Df|]; right; auto|exact I].
  - intros (number & space & i & b & -> & N & I1 & I2 & I3 & I4).
    destruct (tail_complete _ _ _ _ I1 I2 I3 I4) as (T & NT). rewrite <- sizeMatch_tail, (number_match whole frac) by assumption. rewrite T. reflexivity.
Qed.
Lemma unit_exponent : forall unit k, In (unit, k) unitTable <-> In unit (map fst unitTable) /\ k = unitExponent unit.
Proof.
  intros unit k. split.
  - intro I. split; [exact (in_map fst _ _ I)|]. cbn in I. repeat destruct I as [I|I]; try contradiction; injection I as <- <-; reflexivity.
  - intros (I & ->). cbn in I. repeat destruct I as [I|I]; try contradiction; subst; cbn; tauto.
Qed.
Theorem sizes : forall s z, ramInBytes s = Some z <-> IsSize s z.
Proof.
  intros s z. unfold IsSize.
  assert (V : forall whole frac unit, Digits whole -> Digits frac ->
    (let num := digitsValue 0 (whole +++ frac) in
      let den := 10 ^ Z.of_nat (String.length frac) in
      if num =? 0 then Some 0 else
      let (m, x) := nearestDouble num den in
      if 2 ^ 1024 <=? truncated m x then None else
      let size := truncated m (x + 10 * unitExponent unit) in
      Some (if size <? 2 ^ 63 then size else - 2 ^ 63)) = Some z <->
    Worth (numeral (whole +++ frac)) (10 ^ Z.of_nat (String.length frac)) (unitExponent unit) z).
  { intros whole frac unit Dw Df. cbv zeta. assert (D : Digits (whole +++ frac)%string) by (apply digits_app; auto).
    rewrite digitsValue_numeral by exact D. rewrite Z.mul_0_l, Z.add_0_l. set (num := numeral _) in *.
    set (den := 10 ^ _). assert (Pd : 0 < den) by (apply Z.pow_pos_nonneg; lia).
    pose proof (numeral_range _ D) as (Pn & _). fold num in Pn. unfold Worth.
    remember (2 ^ 1024) as HUGE eqn:EH. clear EH. remember (2 ^ 63) as BIG eqn:EB. clear EB.
    destruct (Z.eqb_spec num 0) as [E|E].
    - split; [intro H; injection H as <-; left; auto|]. intros [(_ & ->)|(N & _)]; [reflexivity|lia].
    - pose proof (nearestDouble_spec num den ltac:(lia) Pd) as ND. destruct (nearestDouble num den) as [m x]. cbn [fst snd] in ND.
      pose proof (truncated_spec m x) as T1. pose proof (truncated_spec m (x + 10 * unitExponent unit)) as T2.
      remember (10 * unitExponent unit) as y eqn:Ey. clear Ey. split.
      + intro H. right. split; [lia|]. destruct (Z.leb_spec HUGE (truncated m x)) as [L|L]; [discriminate|]. injection H as <-.
        exists m, x, (truncated m x), (truncated m (x + y)). split; [exact ND|]. split; [exact T1|]. split; [exact L|]. split; [exact T2|].
        destruct (Z.ltb_spec (truncated m (x + y)) BIG); [left|right]; auto.
      + intros [(N & _)|(_ & m' & x' & w & size & ND' & I1 & L & I2 & R)]; [lia|].
        destruct (nearestDouble_unique num den m x m' x' ltac:(lia) Pd ND ND') as (<- & <-).
        rewrite (integerPart_unique _ _ _ _ I1 T1) in L. rewrite (integerPart_unique _ _ _ _ I2 T2) in R.
        destruct (Z.leb_spec HUGE (truncated m x)) as [L'|_]; [lia|]. f_equal.
        destruct (Z.ltb_spec (truncated m (x + y)) BIG); lia. }
  unfold ramInBytes. split.
  - intro H. destruct (sizeMatch s) as [[[whole frac] unit]|] eqn:E; [|discriminate].
    apply sizeMatch_iff in E. destruct E as (number & space & i & b & -> & N & I1 & I2 & I3 & I4).
    exists whole, frac, number, space, unit, (unitExponent unit), i, b. split; [reflexivity|]. split; [exact N|]. split; [exact I1|].
    split; [apply unit_exponent; auto|]. split; [exact I3|]. split; [exact I4|]. apply V; [apply N|apply N|exact H].
  - intros (whole & frac & number & space & unit & k & i & b & -> & N & I1 & I2 & I3 & I4 & W). apply unit_exponent in I2. destruct I2 as (I2 & ->).
    assert (E : sizeMatch (number +++ space +++ unit +++ i +++ b)%string = Some (whole, frac, unit)).
    { apply sizeMatch_iff. exists number, space, i, b. auto 10. }
    rewrite E. apply V; [apply N|apply N|exact W].
Qed.
