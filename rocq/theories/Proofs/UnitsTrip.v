(** * UnitsTrip.v: sizes that are written and read again. *)
From Coq Require Import Lia ZArith.
From Verif Require Import Model.Go Model.Units Spec.UnitsSpec Proofs.GoFacts Proofs.UnitsFacts Proofs.UnitsPrint.
Open Scope Z_scope.

(** ** Numbers that need no rounding *)
Lemma nearest_exact : forall num den c, 0 < den -> c * den = num -> Nearest num den c.
Proof. intros num den c P E. split; rewrite E, Z.sub_diag; cbn [Z.abs]; lia. Qed.
Lemma exact_double : forall n j, 0 < n < 2 ^ 53 -> 0 <= j -> exists m x,
  NearestDouble (n * 2 ^ j) 1 m x /\ forall y, 0 <= y -> IntegerPart m (x + y) (n * 2 ^ (j + y)).
Proof.
  intros n j (P & U) J. set (e := Z.log2 n). pose proof (Z.log2_spec n P) as (L & R). fold e in L, R. rewrite Z.pow_succ_r in R by apply Z.log2_nonneg.
  pose proof (Z.log2_nonneg n) as E0. fold e in E0.
  assert (E : e <= 52). { destruct (Z_le_gt_dec e 52) as [A|A]; [exact A|]. pose proof (Z.pow_le_mono_r 2 53 e ltac:(lia) ltac:(lia)). lia. }
  exists (n * 2 ^ (52 - e)), (e - 52 + j).
  assert (S : forall x p q, PowerOfTwo x p q -> p = 2 ^ x * q \/ q = 2 ^ (- x) * p).
  { intros x p q (-> & ->). destruct (Z_le_gt_dec 0 x) as [A|A]; [left|right].
    - replace (Z.max 0 (- x)) with 0 by lia. replace (Z.max 0 x) with x by lia. change (2 ^ 0) with 1. lia.
    - replace (Z.max 0 (- x)) with (- x) by lia. replace (Z.max 0 x) with 0 by lia. change (2 ^ 0) with 1. lia. }
  assert (KEY : forall y, 0 <= y -> forall p q, PowerOfTwo (e - 52 + j + y) p q -> n * 2 ^ (52 - e) * p = n * 2 ^ (j + y) * q).
  { intros y Y p q (-> & ->). rewrite <- !Z.mul_assoc, <- !Z.pow_add_r by lia. do 2 f_equal. lia. }
  split.
  - exists (2 ^ Z.max 0 (e - 52 + j)), (2 ^ Z.max 0 (- (e - 52 + j))). split; [split; reflexivity|]. rewrite Z.mul_1_l.
    pose proof (KEY 0 ltac:(lia) _ _ ltac:(rewrite Z.add_0_r; split; reflexivity)) as K. rewrite Z.add_0_r in K.
    set (p := 2 ^ Z.max 0 (e - 52 + j)) in *. set (q := 2 ^ Z.max 0 (- (e - 52 + j))) in *. assert (Pp : 0 < p) by (apply pow2_pos; lia).
    rewrite <- K. split; [|apply nearest_exact; [exact Pp|reflexivity]].
    assert (V : 2 ^ 52 = 2 ^ (52 - e) * 2 ^ e) by (rewrite <- Z.pow_add_r by lia; f_equal; lia). change (2 ^ 53) with (2 * 2 ^ 52). rewrite V.
    pose proof (pow2_pos (52 - e) ltac:(lia)) as Pt. set (t := 2 ^ (52 - e)) in *. set (g := 2 ^ e) in *. split; nia.
  - intros y Y. exists (2 ^ Z.max 0 (e - 52 + j + y)), (2 ^ Z.max 0 (- (e - 52 + j + y))). split; [split; reflexivity|].
    rewrite (KEY y Y _ _ (conj eq_refl eq_refl)). pose proof (pow2_pos (Z.max 0 (- (e - 52 + j + y))) ltac:(lia)). nia.
Qed.
Lemma pow1024 : forall k, 0 <= k -> 1024 ^ k = 2 ^ (10 * k).
Proof. intros k K. rewrite Z.pow_mul_r by lia. reflexivity. Qed.
(** A whole number with a unit is worth what it says. *)
Theorem whole_size : forall n space unit k i b, 0 <= n < 2 ^ 53 -> n * 1024 ^ k < 2 ^ 63 ->
  In space [""; " "] -> In (unit, k) unitTable -> In i [""; "i"; "I"] -> In b [""; "b"; "B"] ->
  ramInBytes (itoa n +++ space +++ unit +++ i +++ b)%string = Some (n * 1024 ^ k).
Proof.
  intros n space unit k i b R S I1 I2 I3 I4. apply sizes. destruct (itoa_digits n ltac:(lia)) as (D & NE & V).
  exists (itoa n), "", (itoa n), space, unit, k, i, b. split; [reflexivity|].
  split; [split; [exact NE|]; split; [exact D|]; split; [apply digits_nil|]; left; auto|].
  split; [exact I1|]. split; [exact I2|]. split; [exact I3|]. split; [exact I4|]. rewrite sapp_nil_r, V. change (10 ^ Z.of_nat (String.length "")) with 1.
  assert (K0 : 0 <= k) by (cbn in I2; repeat destruct I2 as [I2|I2]; try contradiction; injection I2 as _ <-; lia).
  destruct (Z.eq_dec n 0) as [->|N]; [left; split; [reflexivity|lia]|]. right. split; [lia|].
  destruct (exact_double n 0 ltac:(lia) ltac:(lia)) as (m & x & ND & IP). change (2 ^ 0) with 1 in ND. rewrite Z.mul_1_r in ND.
  exists m, x, n, (n * 1024 ^ k). split; [exact ND|].
  pose proof (IP 0 ltac:(lia)) as IP0. rewrite Z.add_0_r in IP0. change (2 ^ (0 + 0)) with 1 in IP0. rewrite Z.mul_1_r in IP0. split; [exact IP0|].
  split. { apply Z.lt_trans with (2 ^ 53); [lia|]. apply Z.pow_lt_mono_r; lia. }
  split; [|left; split; [exact S|reflexivity]]. pose proof (IP (10 * k) ltac:(lia)) as IPk. rewrite Z.add_0_l in IPk. rewrite pow1024 by exact K0. exact IPk.
Qed.

(** ** Multiples of a unit *)
Lemma double_scaled : forall n j, 0 < n < 2 ^ 53 -> 0 <= j -> DoubleOf (n * 2 ^ j) (n * 2 ^ j).
Proof.
  intros n j R J. pose proof (pow2_pos j J) as P. right. split; [nia|]. destruct (exact_double n j R J) as (m & x & ND & IP).
  exists m, x, (n * 2 ^ j). pose proof (IP 0 ltac:(lia)) as I. rewrite !Z.add_0_r in I. rewrite Z.abs_eq by nia. split; [exact ND|]. split; [exact I|]. nia.
Qed.
Lemma small_exponent : forall m, 1 <= m < 1024 -> exists e, 0 <= e <= 3 /\ 10 ^ e <= m < 10 ^ (e + 1).
Proof.
  intros m R. destruct (Z_lt_ge_dec m 10); [exists 0; cbn; lia|]. destruct (Z_lt_ge_dec m 100); [exists 1; cbn; lia|].
  destruct (Z_lt_ge_dec m 1000); [exists 2; cbn; lia|exists 3; cbn; lia].
Qed.
Lemma whole_text : forall m p, 0 <= m -> 0 <= p -> DecimalText (m * 10 ^ p) p (itoa m).
Proof.
  intros m p M P. destruct (itoa_digits m M) as (D & NE & V). exists (itoa m), "".
  split; [split; [exact NE|]; split; [exact D|]; split; [apply digits_nil|]; left; auto|].
  split; [intros w E; eapply itoa_no_zero; exact E|]. split; [intros [|? ?]; discriminate|]. cbn [String.length numeral]. split; [lia|]. rewrite V. lia.
Qed.
Theorem multiple_text : forall m i u, 1 <= m < 1024 -> (i <= 5)%nat -> nth_error sizeUnits i = Some u ->
  bytesSize (m * 1024 ^ Z.of_nat i) = (itoa m +++ u)%string.
Proof.
  intros m i u R I NI. set (d := m * 1024 ^ Z.of_nat i).
  assert (P : 1 <= 1024 ^ Z.of_nat i <= 1024 ^ 5). { split; [pose proof (Z.pow_pos_nonneg 1024 (Z.of_nat i)); lia|apply Z.pow_le_mono_r; lia]. }
  assert (Q : 1 <= d < 2 ^ 60). { unfold d. change (2 ^ 60) with (1024 * 1024 ^ 5). nia. }
  apply size_text; [change (2 ^ 63) with (8 * 2 ^ 60); lia|]. exists d.
  split. { unfold d. rewrite pow1024 by lia. apply double_scaled; lia. }
  right. right. split; [lia|]. exists i, u, (itoa m). split; [exact NI|]. split; [right; unfold d; nia|].
  split; [unfold d; rewrite Z.pow_add_r by lia; change (1024 ^ 1) with 1024; nia|]. split; [|reflexivity].
  destruct (small_exponent m R) as (e & E & B). exists (m * 10 ^ (3 - e)), e. unfold d. set (t := 1024 ^ Z.of_nat i) in *.
  assert (T3 : 10 ^ (3 - e) * 10 ^ e = 1000) by (rewrite <- Z.pow_add_r by lia; replace (3 - e + e) with 3 by lia; reflexivity).
  pose proof (pow10_pos e ltac:(lia)) as Pe. pose proof (pow10_pos (3 - e) ltac:(lia)) as Pe'.
  split.
  - exists (m * 10 ^ (3 - e)), e. split; [lia|]. split; [nia|]. split.
    + apply nearest_exact; [nia|]. replace (m * 10 ^ (3 - e) * (t * 10 ^ e)) with (m * t * (10 ^ (3 - e) * 10 ^ e)) by ring. rewrite T3. reflexivity.
    + left. split; [|auto]. rewrite Z.pow_add_r in B by lia. change (10 ^ 1) with 10 in B. nia.
  - left. split; [lia|]. apply whole_text; lia.
Qed.
Theorem multiple_back : forall m i, 0 <= m < 1024 -> (i <= 5)%nat -> ramInBytes (bytesSize (m * 1024 ^ Z.of_nat i)) = Some (m * 1024 ^ Z.of_nat i).
Proof.
  intros m i R I. destruct (Z.eq_dec m 0) as [->|N]; [rewrite Z.mul_0_l; vm_compute; reflexivity|].
  assert (NI : exists u, nth_error sizeUnits i = Some u) by (do 6 (destruct i as [|i]; [eexists; reflexivity|]); lia). destruct NI as (u & NI).
  rewrite (multiple_text m i u ltac:(lia) I NI).
  assert (P : 1 <= 1024 ^ Z.of_nat i <= 1024 ^ 5). { split; [pose proof (Z.pow_pos_nonneg 1024 (Z.of_nat i)); lia|apply Z.pow_le_mono_r; lia]. }
  assert (B : m * 1024 ^ Z.of_nat i < 2 ^ 63). { change (2 ^ 63) with (8192 * 1024 ^ 5). nia. }
  assert (M : 0 <= m < 2 ^ 53) by (change (2 ^ 53) with 9007199254740992; lia).
  assert (C : In (i, u) [(0, "B"); (1, "KiB"); (2, "MiB"); (3, "GiB"); (4, "TiB"); (5, "PiB")]%nat).
  { revert NI. clear - I. do 6 (destruct i as [|i]; [intro NI; injection NI as <-; cbn; tauto|]). lia. }
  clear NI I P. cbn in C. destruct C as [C|[C|[C|[C|[C|[C|[]]]]]]]; injection C as <- <-.
  - exact (whole_size m "" "" 0 "" "B" M B ltac:(cbn; tauto) ltac:(cbn; tauto) ltac:(cbn; tauto) ltac:(cbn; tauto)).
  - exact (whole_size m "" "K" 1 "i" "B" M B ltac:(cbn; tauto) ltac:(cbn; tauto) ltac:(cbn; tauto) ltac:(cbn; tauto)).
  - exact (whole_size m "" "M" 2 "i" "B" M B ltac:(cbn; tauto) ltac:(cbn; tauto) ltac:(cbn; tauto) ltac:(cbn; tauto)).
  - exact (whole_size m "" "G" 3 "i" "B" M B ltac:(cbn; tauto) ltac:(cbn; tauto) ltac:(cbn; tauto) ltac:(cbn; tauto)).
  - exact (whole_size m "" "T" 4 "i" "B" M B ltac:(cbn; tauto) ltac:(cbn; tauto) ltac:(cbn; tauto) ltac:(cbn; tauto)).
  - exact (whole_size m "" "P" 5 "i" "B" M B ltac:(cbn; tauto) ltac:(cbn; tauto) ltac:(cbn; tauto) ltac:(cbn; tauto)).
Qed.

(** ** How far a size moves *)
Lemma written_number : forall d den n, 0 < den -> d < 1024 * den -> Written d den n ->
  exists c0 e0 w f, Number w f n /\ 0 <= e0 /\ 10 ^ e0 * den <= d /\ Nearest (d * 1000) (den * 10 ^ e0) c0 /\
    1000 * numeral (w +++ f) = c0 * 10 ^ e0 * 10 ^ Z.of_nat (String.length f) /\ c0 * 10 ^ e0 <= 10000 * 1000.
Proof.
  intros d den n P U (c & e & (c0 & e0 & E0 & B & N & K) & W).
  pose proof (four_range d den c0 e0 P E0 B N) as R.
  assert (E3 : e0 <= 3). { destruct (Z_le_gt_dec e0 3) as [A|A]; [exact A|]. pose proof (Z.pow_le_mono_r 10 4 e0 ltac:(lia) ltac:(lia)) as M. change (10 ^ 4) with 10000 in M. nia. }
  assert (S : e <= 3).
  { destruct K as [(_ & _ & ->)|(C0 & _ & ->)]; [exact E3|]. destruct (Z_le_gt_dec e0 2) as [A|A]; [lia|]. assert (e0 = 3) by lia. subst e0.
    exfalso. change (10 ^ 3) with 1000 in *. destruct N as (N & _). subst c0. nia. }
  destruct W as [(_ & D)|(F & _)]; [|lia]. destruct D as (w & f & NU & _ & _ & LF & V).
  exists c0, e0, w, f. split; [exact NU|]. split; [exact E0|]. split; [exact (proj1 B)|]. split; [exact N|].
  assert (CE : c * 10 ^ e = c0 * 10 ^ e0). { destruct K as [(_ & -> & ->)|(-> & -> & ->)]; [reflexivity|]. rewrite Z.pow_add_r by lia. change (10 ^ 1) with 10. lia. }
  assert (Ee : 0 <= e) by (destruct K as [(_ & _ & ->)|(_ & _ & ->)]; lia).
  assert (T : 10 ^ (3 - e) * 10 ^ e = 1000) by (rewrite <- Z.pow_add_r by lia; replace (3 - e + e) with 3 by lia; reflexivity).
  split.
  - rewrite numeral_app, <- CE, <- V, <- T. replace (10 ^ (3 - e)) with (10 ^ Z.of_nat (String.length f) * 10 ^ (3 - e - Z.of_nat (String.length f))) by (rewrite <- Z.pow_add_r by lia; f_equal; lia). ring.
  - assert (10 ^ e0 <= 1000) by (change 1000 with (10 ^ 3); apply Z.pow_le_mono_r; lia). pose proof (pow10_pos e0 E0). nia.
Qed.
Lemma worth_near : forall num den k, 0 < num < 2 ^ 900 -> 0 < den -> 0 <= k -> num * 1024 ^ k < den * 2 ^ 61 ->
  exists size X G, Worth num den k size /\ 0 < G /\ 2 ^ 53 * Z.abs (X - num * 1024 ^ k * G) <= num * 1024 ^ k * G /\ size * (den * G) <= X < (size + 1) * (den * G).
Proof.
  intros num den k (P & UN) Q K U. pose proof (nearestDouble_spec num den P Q) as ND. destruct (nearestDouble num den) as [m x]. cbn [fst snd] in ND.
  destruct ND as (p & q & W & B & N). pose proof (power_pos _ _ _ W) as (Pp & Pq).
  pose proof (truncated_spec m (x + 10 * k)) as (p' & q' & W' & I). set (size := truncated m (x + 10 * k)) in *.
  pose proof (power_pos _ _ _ W') as (Pp' & Pq').
  pose proof (pow2_cross _ _ _ _ _ _ W W' ltac:(lia)) as C. replace (x + 10 * k - x) with (10 * k) in C by lia. rewrite <- pow1024 in C by exact K.
  set (t := 1024 ^ k) in *. assert (T : 0 < t) by (apply Z.pow_pos_nonneg; lia).
  set (X := m * den * p * t). 
  assert (B1 : size * (den * q) <= X < (size + 1) * (den * q)).
  { unfold X. assert (QD : 0 < q * den) by (apply Z.mul_pos_pos; assumption). assert (A1 : size * q' * (q * den) <= m * p' * (q * den)) by (apply Z.mul_le_mono_nonneg_r; lia). assert (A2 : m * p' * (q * den) < (size + 1) * q' * (q * den)) by (apply Z.mul_lt_mono_pos_r; lia).
    replace (m * p' * (q * den)) with (m * den * (p' * q)) in A1, A2 by ring. rewrite C in A1, A2.
    replace (m * den * (t * (p * q'))) with (m * den * p * t * q') in A1, A2 by ring. replace (size * q' * (q * den)) with (size * (den * q) * q') in A1 by ring.
    replace ((size + 1) * q' * (q * den)) with ((size + 1) * (den * q) * q') in A2 by ring. split; [exact (proj2 (Z.mul_le_mono_pos_r _ _ q' Pq') A1)|exact (proj2 (Z.mul_lt_mono_pos_r q' _ _ Pq') A2)]. }
  assert (B2 : 2 ^ 53 * Z.abs (X - num * t * q) <= num * t * q).
  { unfold X. replace (m * den * p * t - num * t * q) with ((m * (den * p) - num * q) * t) by ring. rewrite Z.abs_mul, (Z.abs_eq t) by lia.
    destruct N as (N & _). change (2 ^ 53) with (2 * 2 ^ 52). remember (2 ^ 52) as T52 eqn:E52. clear E52. replace (num * t * q) with (num * q * t) by ring.
    rewrite Z.mul_assoc. apply Z.mul_le_mono_nonneg_r; [lia|]. remember (Z.abs (m * (den * p) - num * q)) as ab. remember (den * p) as dp. assert (0 < T52 \/ T52 <= 0) as [Z0|Z0] by lia; nia. }
  exists size, X, q. split; [|split; [exact Pq|split; [exact B2|exact B1]]].
  right. split; [exact P|].
  assert (S63 : size < 2 ^ 63).
  { apply Z.nle_gt. intro L. assert (A : num * t * q < den * 2 ^ 61 * q) by nia. 
    assert (V : X <= 2 * (num * t * q)) by (change (2 ^ 53) with 9007199254740992 in B2; lia).
    assert (Y : size * (den * q) <= 2 * (den * 2 ^ 61 * q)) by lia. replace (2 * (den * 2 ^ 61 * q)) with (2 ^ 62 * (den * q)) in Y by (change (2 ^ 62) with (2 * 2 ^ 61); ring).
    apply Z.mul_le_mono_pos_r in Y; [|nia]. pose proof (Z.pow_lt_mono_r 2 62 63 ltac:(lia) ltac:(lia) ltac:(lia)). lia. }
  exists m, x, (truncated m x), size. split; [exists p, q; auto|]. split; [apply truncated_spec|]. split.
  - destruct (truncated_spec m x) as (p2 & q2 & W2 & I2). destruct W as (-> & ->), W2 as (-> & ->). set (w := truncated m x) in *. set (p := 2 ^ Z.max 0 x) in *. set (q := 2 ^ Z.max 0 (- x)) in *.
    assert (M : m * (den * p) <= 2 * (num * q)). { destruct N as (N & _). change (2 ^ 52) with 4503599627370496 in B. lia. }
    assert (w * q * den <= 2 * num * q) by nia. assert (w * den <= 2 * num) by nia. assert (w <= 2 * num \/ w < 0) by nia.
    apply Z.le_lt_trans with (2 * 2 ^ 900); [pose proof (pow2_pos 900); lia|]. change (2 * 2 ^ 900) with (2 ^ 901). apply Z.pow_lt_mono_r; lia.
  - split; [exists p', q'; auto|]. left. auto.
Qed.
Lemma unit_suffix : forall i u, nth_error sizeUnits i = Some u -> (i <= 5)%nat ->
  exists unit j, u = (unit +++ j +++ "B")%string /\ In (unit, Z.of_nat i) unitTable /\ In j [""; "i"; "I"].
Proof.
  intros i u H L. do 6 (destruct i as [|i]; [injection H as <-; first [exists "", ""; cbn; tauto|exists "K", "i"; cbn; tauto|exists "M", "i"; cbn; tauto|exists "G", "i"; cbn; tauto|exists "T", "i"; cbn; tauto|exists "P", "i"; cbn; tauto]|]). lia.
Qed.
Lemma double_below : forall z, 0 < z < 2 ^ 60 - 64 -> doubleOf z < 2 ^ 60.
Proof.
  intros z R. destruct (double_near z _ ltac:(lia) (double_spec z)) as [(L & ->)|(m & x & X & M & E & B & N)].
  - lia.
  - assert (x <= 7). { destruct (Z_le_gt_dec x 7) as [A|A]; [exact A|]. pose proof (Z.pow_le_mono_r 2 8 x ltac:(lia) ltac:(lia)) as G. change (2 ^ 52) with 4503599627370496 in B. change (2 ^ 8) with 256 in G. change (2 ^ 60) with 1152921504606846976 in R. nia. }
    pose proof (Z.pow_le_mono_r 2 x 7 ltac:(lia) ltac:(lia)) as G. change (2 ^ 7) with 128 in G. lia.
Qed.
Theorem close : forall z, 0 <= z < 2 ^ 60 - 64 -> exists z', ramInBytes (bytesSize z) = Some z' /\ 1999 * Z.abs (z' - z) <= z + 1999.
Proof.
  intros z R. destruct (Z.eq_dec z 0) as [->|NZ]; [exists 0; split; [vm_compute; reflexivity|cbn; lia]|].
  assert (PR : PrintedSize z (bytesSize z)). { apply size_text; [|reflexivity]. change (2 ^ 63) with 9223372036854775808. change (2 ^ 60) with 1152921504606846976 in R. lia. }
  pose proof (double_below z ltac:(lia)) as DB. destruct PR as (d & D & K). rewrite <- (double_unique _ _ _ D (double_spec z)) in DB.
  destruct (double_close z d ltac:(lia) D) as (Pd & DC).
  destruct K as [(E & _)|[(L & _)|(_ & i & u & n & NI & A & B & W & ->)]]; [lia|lia|].
  assert (I5 : (i <= 5)%nat). { destruct A as [->|A]; [lia|]. destruct (Nat.le_gt_cases i 5) as [S|S]; [exact S|]. pose proof (Z.pow_le_mono_r 1024 6 (Z.of_nat i) ltac:(lia) ltac:(lia)) as G. change (1024 ^ 6) with (2 ^ 60) in G. lia. }
  assert (DEN : 0 < 1024 ^ Z.of_nat i) by (apply Z.pow_pos_nonneg; lia).
  rewrite Z.pow_add_r in B by lia. change (1024 ^ 1) with 1024 in B.
  destruct (written_number d (1024 ^ Z.of_nat i) n DEN ltac:(lia) W) as (c0 & e0 & w & f & NU & E0 & L0 & N & V & CB).
  set (den := 1024 ^ Z.of_nat i) in *. set (C := c0 * 10 ^ e0) in *. set (D10 := 10 ^ Z.of_nat (String.length f)) in *.
  assert (PD : 0 < D10) by (apply pow10_pos; lia).
  pose proof (pow10_pos e0 E0) as PE. destruct N as (N & _).
  replace (c0 * (den * 10 ^ e0) - d * 1000) with (C * den - 1000 * d) in N by (unfold C; ring).
  assert (N2 : 2 * Z.abs (C * den - 1000 * d) <= d) by lia.
  set (num := numeral (w +++ f)) in *.
  assert (PN : 0 < num) by nia.
  assert (LF : num < 2 ^ 900).
  { destruct W as (cc & ee & F4 & W). destruct (four_bound _ _ _ _ DEN F4) as (CC & EE).
    assert (LL : Z.of_nat (String.length f) <= 3 \/ ~ Z.of_nat (String.length f) <= 3) by lia.
    destruct LL as [LL|LL].
    - assert (D10 <= 1000) by (unfold D10; change 1000 with (10 ^ 3); apply Z.pow_le_mono_r; lia).
      apply Z.lt_trans with (2 ^ 40); [change (2 ^ 40) with 1099511627776; nia|apply Z.pow_lt_mono_r; lia].
    - exfalso. destruct W as [(E4 & (w' & f' & NU' & _ & _ & LF' & _))|(E4 & n' & x' & (w' & f' & NU' & _ & _ & LF' & _) & _ & _ & _ & E)].
      + assert (f' = f).
        { assert (Q1 := number_match w f n "" NU ltac:(discriminate)). assert (Q2 := number_match w' f' n "" NU' ltac:(discriminate)). rewrite Q1 in Q2. cbn in Q2. congruence. }
        subst f'. lia.
      + destruct F4 as (c9 & e9 & E9 & B9 & N9 & K9). assert (e9 <= 3). { destruct (Z_le_gt_dec e9 3) as [S|S]; [exact S|]. pose proof (Z.pow_le_mono_r 10 4 e9 ltac:(lia) ltac:(lia)) as M. change (10 ^ 4) with 10000 in M. nia. }
        assert (e9 = 3) by lia. subst e9. change (10 ^ 3) with 1000 in *. destruct N9 as (N9 & _). destruct K9 as [(_ & _ & K9)|(-> & _ & _)]; [lia|]. nia. }
  destruct (worth_near num D10 (Z.of_nat i) (conj PN LF) PD ltac:(lia)) as (size & X & G & WO & PG & X1 & X2).
  { fold den. assert (C * den <= 1001 * d) by lia. assert (1000 * num * den <= 1001 * d * D10) by nia.
    change (2 ^ 61) with (2 * 2 ^ 60). nia. }
  fold den in X1.
  destruct (unit_suffix i u NI I5) as (unit & j & -> & IU & IJ).
  exists size. split.
  - apply sizes. exists w, f, n, "", unit, (Z.of_nat i), j, "B". split; [reflexivity|]. split; [exact NU|]. split; [cbn; tauto|]. split; [exact IU|]. split; [exact IJ|]. split; [cbn; tauto|exact WO].
  - set (Y := D10 * G) in *. assert (PY : 0 < Y) by (unfold Y; nia).
    assert (V2 : 1000 * (num * den * G) = C * den * Y) by (unfold Y; nia).
    assert (N3 : 2 * Z.abs (C * den * Y - 1000 * (d * Y)) <= d * Y).
    { replace (C * den * Y - 1000 * (d * Y)) with ((C * den - 1000 * d) * Y) by ring. rewrite Z.abs_mul, (Z.abs_eq Y) by lia. nia. }
    rewrite <- V2 in N3.
    assert (D3 : 2 ^ 53 * Z.abs (d * Y - z * Y) <= z * Y). { rewrite <- Z.mul_sub_distr_r, Z.abs_mul, (Z.abs_eq Y) by lia. rewrite Z.mul_assoc. apply Z.mul_le_mono_nonneg_r; lia. }
    assert (F : 1999 * Z.abs (size * Y - z * Y) <= z * Y + 1999 * Y).
    { remember (num * den * G) as a eqn:Ea. remember (d * Y) as b eqn:Eb. remember (z * Y) as c eqn:Ec. replace ((size + 1) * Y) with (size * Y + Y) in X2 by ring. remember (size * Y) as s eqn:Es.
      change (2 ^ 53) with 9007199254740992 in *. clear - X1 X2 N3 D3 PY. lia. }
    rewrite <- Z.mul_sub_distr_r, Z.abs_mul, (Z.abs_eq Y) in F by lia. apply (Z.mul_le_mono_pos_r _ _ Y PY). rewrite Z.mul_add_distr_r, <- Z.mul_assoc. exact F.
Qed.

Lemma double_above : forall z, 2 ^ 60 - 64 <= z < 2 ^ 63 -> 2 ^ 60 <= doubleOf z < 1024 ^ 7.
Proof.
  intros z R. change (2 ^ 60) with 1152921504606846976 in *. change (2 ^ 63) with 9223372036854775808 in R. change (1024 ^ 7) with 1180591620717411303424.
  destruct (Z_lt_ge_dec z 1152921504606846976) as [L|L].
  - assert (D : DoubleOf z 1152921504606846976); [|rewrite (double_unique _ _ _ (double_spec z) D); lia].
    right. split; [lia|]. exists (2 ^ 53), 7, 1152921504606846976. rewrite Z.abs_eq by lia. split; [|split; [|lia]].
    + exists 128, 1. split; [split; reflexivity|]. split; [change (2 ^ 52) with 4503599627370496; change (2 ^ 53) with 9007199254740992; lia|].
      split; [change (2 ^ 53) with 9007199254740992; lia|reflexivity].
    + exists 128, 1. split; [split; reflexivity|]. change (2 ^ 53) with 9007199254740992. lia.
  - pose proof (double_spec z) as DS. destruct (double_close z _ ltac:(lia) DS) as (_ & C). change (2 ^ 53) with 9007199254740992 in C. split; [|lia].
    destruct (double_near z _ ltac:(lia) DS) as [(S & _)|(m & x & X & M & E & B & _)]; [change (2 ^ 53) with 9007199254740992 in S; lia|].
    assert (8 <= x). { destruct (Z_le_gt_dec 8 x) as [A|A]; [exact A|]. pose proof (Z.pow_le_mono_r 2 x 7 ltac:(lia) ltac:(lia)) as G. change (2 ^ 7) with 128 in G. change (2 ^ 53) with 9007199254740992 in B. nia. }
    pose proof (Z.pow_le_mono_r 2 8 x ltac:(lia) ltac:(lia)) as G. change (2 ^ 8) with 256 in G. change (2 ^ 52) with 4503599627370496 in M. rewrite E. nia.
Qed.
Theorem unreadable : forall z, - 2 ^ 63 <= z < 2 ^ 63 -> z < 0 \/ 2 ^ 60 - 64 <= z -> ramInBytes (bytesSize z) = None.
Proof.
  intros z R S. pose proof (proj1 (size_text z _ R) eq_refl) as PR. destruct PR as (d & D & K). pose proof (double_unique _ _ _ D (double_spec z)) as E.
  pose proof (double_sign z) as SG. rewrite <- E in SG. unfold ramInBytes.
  destruct K as [(E0 & ->)|[(L & n & W & ->)|(L & i & u & n & NI & A & B & W & ->)]].
  - change (2 ^ 60) with 1152921504606846976 in S. lia.
  - reflexivity.
  - assert (U : 2 ^ 60 <= d < 1024 ^ 7). { rewrite E. apply double_above. lia. }
    assert (i = 6%nat). { apply (unit_index d i 6 L A B); [right; exact (proj1 U)|exact (proj2 U)]. } subst i. injection NI as <-.
    assert (NU : exists w f, Number w f n).
    { destruct (written_number d (1024 ^ Z.of_nat 6) n) as (c0 & e0 & w & f & NU & _); [reflexivity| |exact W|exists w, f; exact NU].
      change (1024 * 1024 ^ Z.of_nat 6) with (1024 ^ 7). lia. }
    destruct NU as (w & f & NU). rewrite (number_match w f); [reflexivity|exact NU|]. intros c r' H. injection H as <- _. split; [reflexivity|discriminate].
Qed.
Theorem readable : forall z, - 2 ^ 63 <= z < 2 ^ 63 -> (exists z', ramInBytes (bytesSize z) = Some z') <-> 0 <= z < 2 ^ 60 - 64.
Proof.
  intros z R. split.
  - intros (z' & E). destruct (Z_lt_ge_dec z 0) as [L|L]; [rewrite unreadable in E by (auto; lia); discriminate|].
    destruct (Z_le_gt_dec (2 ^ 60 - 64) z) as [G|G]; [rewrite unreadable in E by (auto; lia); discriminate|]. lia.
  - intro B. destruct (close z B) as (z' & E & _). exists z'. exact E.
Qed.
