(** * UnitsPrint.v: sizes as text. *)
From Coq Require Import Lia ZArith.
From Verif Require Import Model.Go Model.Units Spec.UnitsSpec Proofs.GoFacts Proofs.UnitsFacts.
Open Scope Z_scope.

(** ** Integers in double precision *)
Lemma double_spec : forall z, DoubleOf z (doubleOf z).
Proof.
  intro z. unfold DoubleOf, doubleOf. destruct (Z.eqb_spec z 0) as [E|E]; [left; auto|]. right. split; [exact E|].
  pose proof (nearestDouble_spec (Z.abs z) 1 ltac:(lia) ltac:(lia)) as N. destruct (nearestDouble (Z.abs z) 1) as [m x]. cbn [fst snd] in N.
  exists m, x, (truncated m x). split; [exact N|]. split; [apply truncated_spec|reflexivity].
Qed.
Lemma double_unique : forall z d d', DoubleOf z d -> DoubleOf z d' -> d = d'.
Proof.
  intros z d d' [(E & ->)|(E & m & x & a & N & I & ->)] [(E' & ->)|(E' & m' & x' & a' & N' & I' & ->)]; try congruence.
  destruct (nearestDouble_unique (Z.abs z) 1 m x m' x' ltac:(lia) ltac:(lia) N N') as (<- & <-).
  rewrite (integerPart_unique _ _ _ _ I I'). reflexivity.
Qed.
(** The distance is at most half of the last bit. *)
Lemma double_near : forall z d, 0 < z -> DoubleOf z d ->
  z < 2 ^ 53 /\ d = z \/
  exists m x, 1 <= x /\ 2 ^ 52 <= m <= 2 ^ 53 /\ d = m * 2 ^ x /\ 2 ^ 52 * 2 ^ x <= z < 2 ^ 53 * 2 ^ x /\ 2 * Z.abs (d - z) <= 2 ^ x.
Proof.
  intros z d P [(E & _)|(_ & m & x & a & (p & q & W & B & N) & (p' & q' & W' & I) & ->)]; [lia|].
  rewrite Z.abs_eq in B, N by lia. replace (Z.sgn z) with 1 by lia. rewrite Z.mul_1_l in *. destruct N as (N & _).
  pose proof (power_pos _ _ _ W) as (Pp & Pq). destruct W as (-> & ->), W' as (-> & ->).
  destruct (Z_le_gt_dec x 0) as [L|L].
  - left. replace (Z.max 0 x) with 0 in * by lia. replace (Z.max 0 (- x)) with (- x) in * by lia. change (2 ^ 0) with 1 in *.
    set (q := 2 ^ - x) in *. assert (m = z * q) by lia. assert (1 <= q) by lia. change (2 ^ 52) with 4503599627370496 in *. change (2 ^ 53) with 9007199254740992 in *. split; nia.
  - right. exists m, x. replace (Z.max 0 x) with x in * by lia. replace (Z.max 0 (- x)) with 0 in * by lia. change (2 ^ 0) with 1 in *.
    assert (a = m * 2 ^ x) by lia. subst a. set (p := 2 ^ x) in *. change (2 ^ 52) with 4503599627370496 in *. change (2 ^ 53) with 9007199254740992 in *.
    split; [lia|]. split; [nia|]. split; [reflexivity|]. split; [lia|]. lia.
Qed.
Lemma double_close : forall z d, 0 < z -> DoubleOf z d -> 0 < d /\ 2 ^ 53 * Z.abs (d - z) <= z.
Proof.
  intros z d P D. destruct (double_near z d P D) as [(_ & ->)|(m & x & X & M & -> & B & N)].
  - rewrite Z.sub_diag. cbn [Z.abs]. lia.
  - pose proof (pow2_pos x ltac:(lia)) as Px. set (p := 2 ^ x) in *. change (2 ^ 52) with 4503599627370496 in *. change (2 ^ 53) with 9007199254740992 in *. split; nia.
Qed.
Lemma double_exact : forall z, 0 < z < 2 ^ 53 -> doubleOf z = z.
Proof.
  intros z (P & L). destruct (double_near z _ P (double_spec z)) as [(_ & E)|(m & x & X & M & -> & B & N)]; [exact E|].
  pose proof (Z.pow_le_mono_r 2 1 x ltac:(lia) X) as G. change (2 ^ 1) with 2 in G. change (2 ^ 52) with 4503599627370496 in *. change (2 ^ 53) with 9007199254740992 in *. nia.
Qed.
Lemma double_neg : forall z, doubleOf (- z) = - doubleOf z.
Proof.
  intro z. unfold doubleOf. replace (- z =? 0) with (z =? 0) by (destruct (Z.eqb_spec z 0), (Z.eqb_spec (- z) 0); lia).
  destruct (z =? 0); [reflexivity|]. rewrite Z.abs_opp, Z.sgn_opp. destruct (nearestDouble (Z.abs z) 1). ring.
Qed.
Lemma double_sign : forall z, Z.sgn (doubleOf z) = Z.sgn z.
Proof.
  intro z. destruct (Z.lt_trichotomy z 0) as [L|[->|L]].
  - replace z with (- - z) at 1 by lia. rewrite double_neg. destruct (double_close (- z) _ ltac:(lia) (double_spec (- z))) as (P & _). lia.
  - reflexivity.
  - destruct (double_close z _ L (double_spec z)). lia.
Qed.

(** ** The unit *)
Lemma unit_spec : forall d, 0 < d < 2 ^ 70 -> exists i u, sizeAndUnit d 1 "B" binaryAbbrs = (1024 ^ Z.of_nat i, u) /\
  nth_error sizeUnits i = Some u /\ (i = 0%nat \/ 1024 ^ Z.of_nat i <= d) /\ d < 1024 ^ (Z.of_nat i + 1).
Proof.
  intros d (P & U). unfold binaryAbbrs. cbn [sizeAndUnit].
  change (1 * 1024) with (1024 ^ 1). change (1024 ^ 1 * 1024) with (1024 ^ 2). change (1024 ^ 2 * 1024) with (1024 ^ 3).
  change (1024 ^ 3 * 1024) with (1024 ^ 4). change (1024 ^ 4 * 1024) with (1024 ^ 5). change (1024 ^ 5 * 1024) with (1024 ^ 6).
  change (1024 ^ 6 * 1024) with (1024 ^ 7). change (2 ^ 70) with (1024 ^ 7) in U.
  destruct (Z.leb_spec (1024 ^ 1) d) as [L1|L1]; [|exists 0%nat, "B"; split; [reflexivity|]; split; [reflexivity|]; split; [left; reflexivity|exact L1]].
  destruct (Z.leb_spec (1024 ^ 2) d) as [L2|L2]; [|exists 1%nat, "KiB"; split; [reflexivity|]; split; [reflexivity|]; split; [right; exact L1|exact L2]].
  destruct (Z.leb_spec (1024 ^ 3) d) as [L3|L3]; [|exists 2%nat, "MiB"; split; [reflexivity|]; split; [reflexivity|]; split; [right; exact L2|exact L3]].
  destruct (Z.leb_spec (1024 ^ 4) d) as [L4|L4]; [|exists 3%nat, "GiB"; split; [reflexivity|]; split; [reflexivity|]; split; [right; exact L3|exact L4]].
  destruct (Z.leb_spec (1024 ^ 5) d) as [L5|L5]; [|exists 4%nat, "TiB"; split; [reflexivity|]; split; [reflexivity|]; split; [right; exact L4|exact L5]].
  destruct (Z.leb_spec (1024 ^ 6) d) as [L6|L6]; [|exists 5%nat, "PiB"; split; [reflexivity|]; split; [reflexivity|]; split; [right; exact L5|exact L6]].
  destruct (Z.leb_spec (1024 ^ 7) d) as [L7|L7]; [lia|exists 6%nat, "EiB"; split; [reflexivity|]; split; [reflexivity|]; split; [right; exact L6|exact L7]].
Qed.
Lemma unit_small : forall d, d < 1024 -> sizeAndUnit d 1 "B" binaryAbbrs = (1, "B").
Proof. intros d L. unfold binaryAbbrs. cbn [sizeAndUnit]. destruct (Z.leb_spec (1 * 1024) d); [lia|reflexivity]. Qed.
Lemma unit_index : forall d i j, 0 < d -> (i = 0%nat \/ 1024 ^ Z.of_nat i <= d) -> d < 1024 ^ (Z.of_nat i + 1) ->
  (j = 0%nat \/ 1024 ^ Z.of_nat j <= d) -> d < 1024 ^ (Z.of_nat j + 1) -> i = j.
Proof.
  assert (K : forall d i j, (j = 0%nat \/ 1024 ^ Z.of_nat j <= d) -> d < 1024 ^ (Z.of_nat i + 1) -> ~ (i < j)%nat).
  { intros d i j [->|B] A L; [lia|]. pose proof (Z.pow_le_mono_r 1024 (Z.of_nat i + 1) (Z.of_nat j) ltac:(lia) ltac:(lia)). lia. }
  intros d i j P A B C D. pose proof (K d i j C B). pose proof (K d j i A D). lia.
Qed.

(** ** Decimal digits *)
Lemma byte_digit : forall r, 0 <= r <= 9 -> isDigit (byte (Z.to_N (48 + r))) = true /\ digitValue (byte (Z.to_N (48 + r))) = r.
Proof.
  intros r R. assert (C : In r [0; 1; 2; 3; 4; 5; 6; 7; 8; 9]) by (cbn; lia). cbn in C.
  repeat destruct C as [C|C]; try contradiction; subst; split; reflexivity.
Qed.
Lemma digitsOf_spec : forall w z, 0 <= z < 10 ^ Z.of_nat w ->
  Digits (digitsOf w z) /\ String.length (digitsOf w z) = w /\ numeral (digitsOf w z) = z.
Proof.
  induction w as [|w IH]; intros z R; cbn [digitsOf].
  - cbn in R. split; [apply digits_nil|]. split; [reflexivity|]. cbn. lia.
  - rewrite Nat2Z.inj_succ, Z.pow_succ_r in R by lia.
    pose proof (Z.div_mod z 10 ltac:(lia)) as D. pose proof (Z.mod_pos_bound z 10 ltac:(lia)) as B.
    destruct (IH (z / 10)) as (A & L & N). { split; [apply Z.div_pos; lia|]. apply Z.div_lt_upper_bound; lia. }
    destruct (byte_digit (z mod 10) ltac:(lia)) as (I & V).
    split; [apply digits_app; split; [exact A|apply digits_cons; split; [exact I|apply digits_nil]]|].
    split; [rewrite slength_app, L; cbn; lia|]. rewrite numeral_app, N. cbn [String.length numeral]. rewrite V. change (10 ^ Z.of_nat 1) with 10. change (10 ^ Z.of_nat 0) with 1. lia.
Qed.
Fixpoint zeros (n : nat) : string := match n with O => "" | S n => String "0" (zeros n) end.
Lemma zeros_end : forall n f, (f +++ zeros (S n))%string = ((f +++ zeros n) +++ "0")%string.
Proof.
  intros n f. rewrite sapp_assoc. f_equal. induction n as [|n IH]; [reflexivity|]. cbn [zeros String.append] in *. rewrite IH at 1. reflexivity.
Qed.
Lemma zeros_spec : forall n, String.length (zeros n) = n /\ numeral (zeros n) = 0 /\ Digits (zeros n).
Proof.
  induction n as [|n (L & N & D)]; [split; [reflexivity|split; [reflexivity|apply digits_nil]]|]. cbn [zeros String.length numeral]. rewrite L, N.
  split; [reflexivity|]. split; [change (digitValue "0") with 0; lia|apply digits_cons; split; [reflexivity|exact D]].
Qed.
Lemma trim_spec : forall s, (exists n, s = (trimZeros s +++ zeros n)%string) /\ (forall f, trimZeros s <> (f +++ "0")%string).
Proof.
  induction s as [|c s ((n & E) & T)]; cbn [trimZeros].
  - split; [exists 0%nat; reflexivity|]. intros [|? ?]; discriminate.
  - destruct (Ascii.eqb_spec c "0") as [->|N]; cbn [andb].
    + destruct (trimZeros s) as [|c' s'] eqn:Et; cbn [isEmpty].
      * split; [exists (S n); cbn; rewrite E at 1; reflexivity|]. intros [|? ?]; discriminate.
      * split; [exists n; cbn; rewrite E at 1; reflexivity|]. intros [|c f] H; cbn in H; injection H as H; [discriminate|]. subst. eapply T; eassumption.
    + split; [exists n; cbn; rewrite E at 1; reflexivity|]. intros [|c' f] H; cbn in H; injection H as H; [congruence|]. subst. eapply T; eassumption.
Qed.
Lemma decimal_text : forall c k, 0 <= c -> 0 <= k ->
  DecimalText c k (itoa (c / 10 ^ k) +++ pointed (trimZeros (digitsOf (Z.to_nat k) (c mod 10 ^ k))))%string.
Proof.
  intros c k C K. pose proof (Z.pow_pos_nonneg 10 k ltac:(lia) K) as P.
  pose proof (Z.div_mod c (10 ^ k) ltac:(lia)) as D. pose proof (Z.mod_pos_bound c (10 ^ k) P) as B.
  destruct (itoa_digits (c / 10 ^ k)) as (DW & NW & VW); [apply Z.div_pos; lia|].
  destruct (digitsOf_spec (Z.to_nat k) (c mod 10 ^ k)) as (DF & LF & VF); [rewrite Z2Nat.id by lia; exact B|].
  set (f := digitsOf (Z.to_nat k) (c mod 10 ^ k)) in *. destruct (trim_spec f) as ((n & E) & T). set (t := trimZeros f) in *. clearbody t f.
  exists (itoa (c / 10 ^ k)), t. rewrite E in DF, LF, VF. apply digits_app in DF. destruct DF as (DT & _).
  rewrite slength_app in LF. destruct (zeros_spec n) as (ZL & ZV & _). rewrite numeral_app, ZL, ZV in VF. rewrite ZL in LF.
  split; [|split; [intros w Ew; eapply itoa_no_zero; exact Ew|split; [exact T|split; [lia|]]]].
  - split; [exact NW|]. split; [exact DW|]. split; [exact DT|]. unfold pointed. destruct t as [|a t]; cbn [isEmpty]; [left; rewrite sapp_nil_r; auto|right; split; [discriminate|reflexivity]].
  - rewrite VW. replace (k - Z.of_nat (String.length t)) with (Z.of_nat n) by lia. lia.
Qed.

(** A numeral is determined by its value and its length. *)
Lemma numeral_inj : forall a b, Digits a -> Digits b -> String.length a = String.length b -> numeral a = numeral b -> a = b.
Proof.
  induction a as [|c a IH]; intros [|c' b] DA DB L N; try discriminate; [reflexivity|]. cbn [String.length numeral] in *. injection L as L.
  apply digits_cons in DA, DB. destruct DA as (CA & DA), DB as (CB & DB). pose proof (numeral_range a DA) as RA. pose proof (numeral_range b DB) as RB. rewrite L in *.
  set (t := 10 ^ Z.of_nat (String.length b)) in *. assert (V : digitValue c = digitValue c') by nia. assert (numeral a = numeral b) by nia.
  f_equal; [|apply IH; auto]. apply isDigit_in in CA, CB. cbn in CA, CB.
  repeat match goal with H : _ \/ _ |- _ => destruct H end; try contradiction; subst; first [reflexivity|discriminate V].
Qed.
Lemma numeral_low : forall a, Digits a -> a <> "" -> (forall w, a = String "0" w -> w = "") -> a <> "0" -> 10 ^ (Z.of_nat (String.length a) - 1) <= numeral a.
Proof.
  intros [|c a] D NE Z0 N1; [congruence|]. cbn [String.length numeral]. apply digits_cons in D. destruct D as (C & D).
  pose proof (numeral_range a D). replace (Z.of_nat (S (String.length a)) - 1) with (Z.of_nat (String.length a)) by lia.
  assert (1 <= digitValue c).
  { apply isDigit_in in C. cbn in C. destruct C as [<-|C]; [rewrite (Z0 a eq_refl) in N1; congruence|].
    repeat destruct C as [<-|C]; try contradiction; vm_compute; discriminate. }
  pose proof (Z.pow_pos_nonneg 10 (Z.of_nat (String.length a)) ltac:(lia) ltac:(lia)). nia.
Qed.
Lemma plain_inj : forall a b, Digits a -> Digits b -> a <> "" -> b <> "" -> (forall w, a = String "0" w -> w = "") -> (forall w, b = String "0" w -> w = "") ->
  numeral a = numeral b -> a = b.
Proof.
  intros a b DA DB NA NB ZA ZB E. destruct (string_dec a "0") as [->|A0]; destruct (string_dec b "0") as [->|B0]; [reflexivity| | |].
  - exfalso. pose proof (numeral_low b DB NB ZB B0) as L. change (numeral "0") with 0 in E.
    pose proof (Z.pow_pos_nonneg 10 (Z.of_nat (String.length b) - 1) ltac:(lia)) as P. destruct b; [congruence|]. cbn [String.length] in *. lia.
  - exfalso. pose proof (numeral_low a DA NA ZA A0) as L. change (numeral "0") with 0 in E.
    pose proof (Z.pow_pos_nonneg 10 (Z.of_nat (String.length a) - 1) ltac:(lia)) as P. destruct a; [congruence|]. cbn [String.length] in *. lia.
  - apply numeral_inj; auto. pose proof (numeral_low a DA NA ZA A0) as LA. pose proof (numeral_low b DB NB ZB B0) as LB.
    pose proof (numeral_range a DA) as UA. pose proof (numeral_range b DB) as UB.
    assert (PA : (1 <= String.length a)%nat) by (destruct a; [congruence|cbn; lia]). assert (PB : (1 <= String.length b)%nat) by (destruct b; [congruence|cbn; lia]).
    destruct (Nat.lt_trichotomy (String.length a) (String.length b)) as [L|[L|L]]; [exfalso|exact L|exfalso].
    + pose proof (Z.pow_le_mono_r 10 (Z.of_nat (String.length a)) (Z.of_nat (String.length b) - 1) ltac:(lia) ltac:(lia)). lia.
    + pose proof (Z.pow_le_mono_r 10 (Z.of_nat (String.length b)) (Z.of_nat (String.length a) - 1) ltac:(lia) ltac:(lia)). lia.
Qed.
Lemma fraction_inj : forall f g, Digits f -> Digits g -> (forall h, f <> (h +++ "0")%string) -> (forall h, g <> (h +++ "0")%string) ->
  (String.length f <= String.length g)%nat ->
  numeral f * 10 ^ (Z.of_nat (String.length g) - Z.of_nat (String.length f)) = numeral g -> f = g.
Proof.
  intros f g DF DG TF TG L E. pose (n := (String.length g - String.length f)%nat).
  destruct (zeros_spec n) as (ZL & ZV & ZD).
  assert (K : (f +++ zeros n)%string = g).
  { apply numeral_inj; [apply digits_app; auto|exact DG|rewrite slength_app, ZL; unfold n; lia|]. rewrite numeral_app, ZL, ZV. rewrite Z.add_0_r, <- E. do 2 f_equal. unfold n. lia. }
  destruct n as [|n]; [rewrite sapp_nil_r in K; exact K|]. exfalso. rewrite zeros_end in K. exact (TG _ (eq_sym K)).
Qed.
Lemma decimal_unique : forall c k t t', 0 <= k -> DecimalText c k t -> DecimalText c k t' -> t = t'.
Proof.
  intros c k t t' K (w & f & (NW & DW & DF & S) & ZW & TF & LF & V) (w' & f' & (NW' & DW' & DF' & S') & ZW' & TF' & LF' & V').
  assert (R : forall f, Digits f -> Z.of_nat (String.length f) <= k -> 0 <= numeral f * 10 ^ (k - Z.of_nat (String.length f)) < 10 ^ k).
  { intros g D L. pose proof (numeral_range g D) as R. pose proof (Z.pow_pos_nonneg 10 (k - Z.of_nat (String.length g)) ltac:(lia) ltac:(lia)) as P.
    replace (10 ^ k) with (10 ^ Z.of_nat (String.length g) * 10 ^ (k - Z.of_nat (String.length g))) by (rewrite <- Z.pow_add_r by lia; f_equal; lia). nia. }
  pose proof (R f DF LF) as RF. pose proof (R f' DF' LF') as RF'. pose proof (Z.pow_pos_nonneg 10 k ltac:(lia) K) as P.
  set (T := 10 ^ k) in *. assert (EW : numeral w = numeral w') by nia. assert (EF : numeral f * 10 ^ (k - Z.of_nat (String.length f)) = numeral f' * 10 ^ (k - Z.of_nat (String.length f'))) by nia.
  assert (w = w') by (apply plain_inj; auto). subst w'.
  assert (f = f').
  { assert (G : forall f g, Digits f -> Digits g -> (forall h, f <> (h +++ "0")%string) -> (forall h, g <> (h +++ "0")%string) -> Z.of_nat (String.length f) <= k -> Z.of_nat (String.length g) <= k ->
      (String.length f <= String.length g)%nat -> numeral f * 10 ^ (k - Z.of_nat (String.length f)) = numeral g * 10 ^ (k - Z.of_nat (String.length g)) -> f = g).
    { clear. intros f g DF DG TF TG LF LG L E. apply fraction_inj; auto.
      replace (k - Z.of_nat (String.length f)) with ((Z.of_nat (String.length g) - Z.of_nat (String.length f)) + (k - Z.of_nat (String.length g))) in E by lia.
      rewrite Z.pow_add_r, Z.mul_assoc in E by lia. eapply Z.mul_reg_r; [|exact E]. pose proof (Z.pow_pos_nonneg 10 (k - Z.of_nat (String.length g)) ltac:(lia) ltac:(lia)). lia. }
    destruct (Nat.le_ge_cases (String.length f) (String.length f')) as [L|L]; [apply G; auto|symmetry; apply G; auto]. }
  subst f'. destruct S as [(A & ->)|(A & ->)], S' as [(A' & ->)|(A' & ->)]; congruence.
Qed.

(** ** Four significant digits *)
Lemma pow10_pos : forall n, 0 <= n -> 0 < 10 ^ n.
Proof. intros. apply Z.pow_pos_nonneg; lia. Qed.
Lemma exponent_spec : forall fuel num den, 0 < den -> den <= num < 10 ^ Z.of_nat fuel * den ->
  let e := exponent10 fuel num den in 0 <= e < Z.of_nat fuel /\ 10 ^ e * den <= num < 10 ^ (e + 1) * den.
Proof.
  induction fuel as [|fuel IH]; intros num den P (L & U); cbn [exponent10].
  - change (10 ^ Z.of_nat 0) with 1 in U. lia.
  - destruct (Z.ltb_spec num (10 * den)) as [S|S]; cbv zeta.
    + change (0 + 1) with 1. change (10 ^ 0) with 1. change (10 ^ 1) with 10. lia.
    + rewrite Nat2Z.inj_succ, Z.pow_succ_r in U by lia.
      destruct (IH num (den * 10)) as (A & B & C); [lia|split; [lia|]; nia|]. set (e := exponent10 fuel num (den * 10)) in *.
      replace (1 + e + 1) with (Z.succ (e + 1)) by lia. replace (1 + e) with (Z.succ e) by lia. rewrite (Z.pow_succ_r 10 (e + 1)), (Z.pow_succ_r 10 e) by lia.
      split; [lia|]. split; nia.
Qed.
Lemma four_range : forall num den c0 e0, 0 < den -> 0 <= e0 -> 10 ^ e0 * den <= num < 10 ^ (e0 + 1) * den -> Nearest (num * 1000) (den * 10 ^ e0) c0 ->
  1000 <= c0 <= 10000.
Proof.
  intros num den c0 e0 P E (L & U) (N & _). pose proof (pow10_pos e0 E) as T. rewrite Z.pow_add_r in U by lia. change (10 ^ 1) with 10 in U.
  set (t := 10 ^ e0) in *. split; nia.
Qed.
Lemma four_unique : forall num den c e c' e', 0 < den -> FourDigits num den c e -> FourDigits num den c' e' -> c = c' /\ e = e'.
Proof.
  intros num den c e c' e' P (c0 & e0 & E0 & B & N & K) (c1 & e1 & E1 & B1 & N1 & K1).
  assert (e0 = e1).
  { assert (G : forall a b, 0 <= a -> num < 10 ^ (a + 1) * den -> 10 ^ b * den <= num -> ~ a < b).
    { intros a b A U L Q. pose proof (Z.pow_le_mono_r 10 (a + 1) b ltac:(lia) ltac:(lia)). nia. }
    pose proof (G e0 e1 E0 (proj2 B) (proj1 B1)). pose proof (G e1 e0 E1 (proj2 B1) (proj1 B)). lia. }
  subst e1. assert (c0 = c1). { eapply nearest_unique; [|exact N|exact N1]. pose proof (pow10_pos e0 E0). nia. }
  subst c1. lia.
Qed.
Lemma four_bound : forall num den c e, 0 < den -> FourDigits num den c e -> 1000 <= c < 10000 /\ 0 <= e.
Proof.
  intros num den c e P (c0 & e0 & E0 & B & N & K). pose proof (four_range num den c0 e0 P E0 B N). lia.
Qed.
Lemma written_unique : forall num den t t', 0 < den -> Written num den t -> Written num den t' -> t = t'.
Proof.
  intros num den t t' P (c & e & F & W) (c' & e' & F' & W').
  destruct (four_unique _ _ _ _ _ _ P F F') as (<- & <-). destruct (four_bound _ _ _ _ P F) as (_ & E).
  destruct W as [(L & D)|(L & n & x & D & LX & DX & V & ->)], W' as [(L' & D')|(L' & n' & x' & D' & LX' & DX' & V' & ->)]; try lia.
  - eapply decimal_unique; [|exact D|exact D']. lia.
  - rewrite (decimal_unique c 3 _ _ ltac:(lia) D D'). rewrite (numeral_inj x x' DX DX' ltac:(lia) ltac:(lia)). reflexivity.
Qed.
Lemma format_written : forall num den, 0 < den -> den <= num < 10 ^ 20 * den -> Written num den (format4g num den).
Proof.
  intros num den P (L & U). unfold format4g.
  destruct (exponent_spec 20 num den P (conj L U)) as (E & B). set (e0 := exponent10 20 num den) in *. clearbody e0.
  pose proof (pow10_pos e0 ltac:(lia)) as T.
  pose proof (round_nearest (num * 1000) (den * 10 ^ e0) ltac:(nia)) as N. set (c0 := roundHalfEven (num * 1000) (den * 10 ^ e0)) in *. clearbody c0.
  pose proof (four_range num den c0 e0 P ltac:(lia) B N) as R.
  assert (K : exists c e, (if c0 <? 10000 then (c0, e0) else (1000, e0 + 1)) = (c, e) /\ FourDigits num den c e /\ 1000 <= c < 10000 /\ 0 <= e <= 20).
  { destruct (Z.ltb_spec c0 10000) as [S|S].
    - exists c0, e0. split; [reflexivity|]. split; [|lia]. exists c0, e0. split; [lia|]. split; [exact B|]. split; [exact N|]. left. auto.
    - exists 1000, (e0 + 1). split; [reflexivity|]. split; [|lia]. exists c0, e0. split; [lia|]. split; [exact B|]. split; [exact N|]. right. lia. }
  destruct K as (c & e & K & F & C & Ee). rewrite K. exists c, e. split; [exact F|].
  destruct (Z.ltb_spec e 4) as [S|S].
  - left. split; [exact S|]. apply decimal_text; lia.
  - right. split; [exact S|]. exists (itoa (c / 10 ^ 3) +++ pointed (trimZeros (digitsOf (Z.to_nat 3) (c mod 10 ^ 3))))%string, (digitsOf 2 e).
    split; [apply decimal_text; lia|]. destruct (digitsOf_spec 2 e) as (D & LL & V); [change (10 ^ Z.of_nat 2) with 100; lia|].
    split; [exact LL|]. split; [exact D|]. split; [exact V|]. rewrite !sapp_assoc. reflexivity.
Qed.
Theorem size_text : forall z t, - 2 ^ 63 <= z < 2 ^ 63 -> bytesSize z = t <-> PrintedSize z t.
Proof.
  intros z t R.
  assert (EX : PrintedSize z (bytesSize z)).
  { exists (doubleOf z). split; [apply double_spec|]. unfold bytesSize.
    assert (B : Z.abs (doubleOf z) < 2 ^ 64).
    { change (2 ^ 64) with (2 * 2 ^ 63). destruct (Z.lt_trichotomy z 0) as [L|[->|L]].
      - destruct (double_close (- z) _ ltac:(lia) (double_spec (- z))) as (A & C). rewrite double_neg in *. change (2 ^ 53) with 9007199254740992 in C. lia.
      - change (doubleOf 0) with 0. lia.
      - destruct (double_close z _ L (double_spec z)) as (A & C). change (2 ^ 53) with 9007199254740992 in C. lia. }
    set (d := doubleOf z) in *. clearbody d. destruct (Z.lt_trichotomy d 0) as [L|[->|L]].
    - right. left. split; [exact L|]. rewrite unit_small by lia. destruct (Z.eqb_spec d 0); [lia|]. destruct (Z.ltb_spec d 0); [|lia].
      exists (format4g (- d) 1). split; [apply format_written; lia|rewrite sapp_assoc; reflexivity].
    - left. split; reflexivity.
    - right. right. split; [exact L|]. destruct (unit_spec d) as (i & u & E & NI & A & C). { change (2 ^ 70) with (2 ^ 64 * 64). lia. }
      exists i, u, (format4g d (1024 ^ Z.of_nat i)). rewrite E. destruct (Z.eqb_spec d 0); [lia|]. destruct (Z.ltb_spec d 0); [lia|].
      split; [exact NI|]. split; [exact A|]. split; [exact C|]. split; [|reflexivity].
      pose proof (Z.pow_pos_nonneg 1024 (Z.of_nat i) ltac:(lia) ltac:(lia)) as P. rewrite Z.pow_add_r in C by lia. change (1024 ^ 1) with 1024 in C.
      apply format_written; [exact P|]. split; [destruct A as [->|A]; [cbn; lia|exact A]|]. change (10 ^ 20) with 100000000000000000000. lia. }
  split; [intros <-; exact EX|]. intro PR. destruct EX as (d & D & K), PR as (d' & D' & K'). rewrite (double_unique _ _ _ D' D) in K'. clear D D' d'. revert K. generalize (bytesSize z). intros s K.
  destruct K as [(E & ->)|[(L & n & W & ->)|(L & i & u & n & NI & A & B & W & ->)]], K' as [(E' & ->)|[(L' & n' & W' & ->)|(L' & i' & u' & n' & NI' & A' & B' & W' & ->)]]; try lia.
  - reflexivity.
  - rewrite (written_unique (- d) 1 _ _ ltac:(lia) W W'). reflexivity.
  - assert (i = i') by (eapply unit_index; eassumption). subst i'. rewrite NI in NI'. injection NI' as <-.
    rewrite (written_unique d (1024 ^ Z.of_nat i) n n'); auto. apply Z.pow_pos_nonneg; lia.
Qed.
