(** * CpuFacts.v: CPU limits in thousandths. *)
From Coq Require Import ZArith Lia Floats.SpecFloat.
From Verif Require Import Model.Go Model.Types Model.Engine Model.Encode.
Local Open Scope Z_scope.

Lemma pow_pos_pos : forall n, 0 <= n -> 0 < 2 ^ n.
Proof. intros. apply Z.pow_pos_nonneg; lia. Qed.

Lemma digits_bounds : forall p, 2 ^ (Zpos (digits2_pos p) - 1) <= Zpos p < 2 ^ Zpos (digits2_pos p).
Proof.
  induction p as [p IH|p IH|]; cbn [digits2_pos].
  - rewrite Pos2Z.inj_succ. replace (Z.succ (Zpos (digits2_pos p)) - 1) with (Z.succ (Zpos (digits2_pos p) - 1)) by lia.
    rewrite !Z.pow_succ_r by lia. lia.
  - rewrite Pos2Z.inj_succ. replace (Z.succ (Zpos (digits2_pos p)) - 1) with (Z.succ (Zpos (digits2_pos p) - 1)) by lia.
    rewrite !Z.pow_succ_r by lia. lia.
  - cbn. lia.
Qed.
Lemma digits_unique : forall z n, 0 < n -> 2 ^ (n - 1) <= z < 2 ^ n -> Zdigits2 z = n.
Proof.
  intros z n N H. assert (P : 0 < 2 ^ (n - 1)) by (apply pow_pos_pos; lia). destruct z as [|p|p]; try lia. cbn [Zdigits2].
  pose proof (digits_bounds p) as B. destruct (Z.lt_trichotomy (Zpos (digits2_pos p)) n) as [L|[E|L]]; [|exact E|]; exfalso.
  - assert (2 ^ Zpos (digits2_pos p) <= 2 ^ (n - 1)) by (apply Z.pow_le_mono_r; lia). lia.
  - assert (2 ^ n <= 2 ^ (Zpos (digits2_pos p) - 1)) by (apply Z.pow_le_mono_r; lia). lia.
Qed.

(** Shifting right by [n] places: the quotient, and whether anything was lost. *)
Definition Shifted (m n : Z) (r : shr_record) : Prop :=
  shr_m r = m / 2 ^ n /\ (m mod 2 ^ n = 0 -> shr_r r = false /\ shr_s r = false).
Lemma shr_1_shifted : forall m n r, 0 <= m -> 0 <= n -> Shifted m n r -> Shifted m (n + 1) (shr_1 r).
Proof.
  intros m n [q a b] M N [Q L]. cbn [shr_m shr_r shr_s] in *. pose proof (pow_pos_pos n N) as P.
  assert (Hq : 0 <= q) by (subst q; apply Z.div_pos; lia).
  assert (E : 2 ^ (n + 1) = 2 ^ n * 2) by (rewrite Z.pow_add_r by lia; reflexivity).
  assert (Q2 : m / 2 ^ (n + 1) = q / 2) by (rewrite E, <- Z.div_div by lia; congruence).
  assert (L2 : m mod 2 ^ (n + 1) = 0 -> q mod 2 = 0 /\ m mod 2 ^ n = 0).
  { rewrite E. intro Z0. rewrite Z.rem_mul_r in Z0 by lia. rewrite <- Q in Z0.
    pose proof (Z.mod_pos_bound m (2 ^ n) P). pose proof (Z.mod_pos_bound q 2). nia. }
  unfold Shifted. rewrite Q2. split.
  - unfold shr_1. destruct q as [|[p|p|]|p]; cbn [shr_m]; first [reflexivity|apply Z.div_unique with 1; lia|apply Z.div_unique with 0; lia|lia].
  - intro Z0. destruct (L2 Z0) as [H1 H2]. destruct (L H2) as [-> ->]. unfold shr_1.
    destruct q as [|[p|p|]|p]; cbn [shr_r shr_s orb]; auto; try lia; exfalso.
    + rewrite Pos2Z.inj_xI, Z.add_comm, Z.mul_comm, Z.mod_add in H1 by lia. discriminate.
    + discriminate.
Qed.
Lemma iter_shifted : forall p m n r, 0 <= m -> 0 <= n -> Shifted m n r -> Shifted m (n + Zpos p) (SpecFloat.iter_pos shr_1 p r).
Proof.
  induction p as [p IH|p IH|]; intros m n r M N H; cbn [SpecFloat.iter_pos].
  - replace (n + Zpos p~1) with (n + 1 + Zpos p + Zpos p) by lia. apply IH; [lia|lia|]. apply IH; [lia|lia|]. apply shr_1_shifted; assumption.
  - replace (n + Zpos p~0) with (n + Zpos p + Zpos p) by lia. apply IH; [lia|lia|]. apply IH; assumption.
  - apply shr_1_shifted; assumption.
Qed.
Lemma shr_shifted : forall m e n, 0 <= m -> 0 <= n ->
  exists r, shr (shr_record_of_loc m loc_Exact) e n = (r, e + n) /\ Shifted m n r.
Proof.
  intros m e n M N. destruct n as [|p|p]; [| |lia]; cbn [shr shr_record_of_loc].
  - eexists. rewrite Z.add_0_r. split; [reflexivity|]. split; [cbn [shr_m]; rewrite Z.div_1_r; reflexivity|auto].
  - eexists. split; [reflexivity|]. apply (iter_shifted p m 0); [exact M|lia|]. split; [cbn [shr_m]; rewrite Z.div_1_r; reflexivity|auto].
Qed.
Lemma nearest_close : forall m n r, Shifted m n r ->
  let z := round_nearest_even (shr_m r) (loc_of_shr_record r) in
  m / 2 ^ n <= z <= m / 2 ^ n + 1 /\ (m mod 2 ^ n = 0 -> z = m / 2 ^ n).
Proof.
  intros m n [q a b] [Q L]. cbn [shr_m shr_r shr_s] in *. cbv zeta. rewrite <- Q. split.
  - destruct a, b; cbn [loc_of_shr_record round_nearest_even]; try destruct (Z.even q); lia.
  - intro Z0. destruct (L Z0) as [-> ->]. reflexivity.
Qed.

(** Rounding a product of [53 + n] bits to 53 bits. *)
Lemma round_product : forall p x n, 1 <= n -> 2 ^ (52 + n) <= Zpos p < 2 ^ (53 + n) -> -1074 <= x + n -> x + n + 1 <= 971 ->
  exists z m' e', binary_round_aux 53 1024 false (Zpos p) x loc_Exact = S754_finite false m' e' /\
    Zpos p / 2 ^ n <= z <= Zpos p / 2 ^ n + 1 /\ (Zpos p mod 2 ^ n = 0 -> z = Zpos p / 2 ^ n) /\
    x + n <= e' /\ z = Zpos m' * 2 ^ (e' - (x + n)).
Proof.
  intros p x n N B L H. unfold binary_round_aux, shr_fexp. unfold fexp at 1.
  rewrite (digits_unique (Zpos p) (53 + n)) by (replace (53 + n - 1) with (52 + n) by lia; lia).
  unfold emin. replace (Z.max (53 + n + x - 53) (3 - 1024 - 53) - x) with n by lia.
  destruct (shr_shifted (Zpos p) x n) as (r & -> & S); [lia|lia|]. apply nearest_close in S. cbv zeta in S.
  set (z := round_nearest_even (shr_m r) (loc_of_shr_record r)) in *. destruct S as [S1 S2]. clearbody z.
  assert (P : 0 < 2 ^ n) by (apply pow_pos_pos; lia).
  assert (Q : 2 ^ 52 <= Zpos p / 2 ^ n < 2 ^ 53).
  { split; [apply Z.div_le_lower_bound; [exact P|]|apply Z.div_lt_upper_bound; [exact P|]]; rewrite <- Z.pow_add_r by lia; rewrite Z.add_comm; lia. }
  destruct (Z.eq_dec z (2 ^ 53)) as [E|NE].
  - rewrite E. replace (fexp 53 1024 (Zdigits2 (2 ^ 53) + (x + n)) - (x + n)) with 1
      by (change (Zdigits2 (2 ^ 53)) with 54; unfold fexp, emin; lia).
    change (shr (shr_record_of_loc (2 ^ 53) loc_Exact) (x + n) 1) with ({| shr_m := 2 ^ 52; shr_r := false; shr_s := false |}, x + n + 1).
    cbn [shr_m]. change (2 ^ 52) with 4503599627370496. cbn iota. replace (x + n + 1 <=? 1024 - 53) with true by (symmetry; apply Z.leb_le; lia).
    exists z, 4503599627370496%positive, (x + n + 1). split; [reflexivity|]. split; [lia|]. split; [exact S2|]. split; [lia|].
    rewrite E. replace (x + n + 1 - (x + n)) with 1 by lia. reflexivity.
  - rewrite (digits_unique z 53) by (try change (53 - 1) with 52; lia).
    replace (fexp 53 1024 (53 + (x + n)) - (x + n)) with 0 by (unfold fexp, emin; lia).
    cbn [shr shr_record_of_loc shr_m]. destruct z as [|m'|m'] eqn:Ez; [lia| |lia].
    replace (x + n <=? 1024 - 53) with true by (symmetry; apply Z.leb_le; lia).
    exists (Zpos m'), m', (x + n). split; [reflexivity|]. split; [lia|]. split; [exact S2|]. split; [lia|].
    rewrite Z.sub_diag. cbn. lia.
Qed.
Lemma magnitude_floor : forall m e d, 0 <= d -> 0 <= e + d ->
  magnitude m e * 2 ^ d <= Zpos m * 2 ^ (e + d) < (magnitude m e + 1) * 2 ^ d.
Proof.
  intros m e d D ED. pose proof (pow_pos_pos d D) as P. unfold magnitude. destruct e as [|e|e].
  - cbn [Z.add]. nia.
  - rewrite Z.pow_add_r by lia. nia.
  - assert (E : 2 ^ d = 2 ^ Zpos e * 2 ^ (Zneg e + d)) by (rewrite <- Z.pow_add_r by lia; f_equal; lia). rewrite E.
    pose proof (pow_pos_pos (Zpos e) ltac:(lia)) as PE. pose proof (pow_pos_pos (Zneg e + d) ED) as PF.
    pose proof (Z.div_mod (Zpos m) (2 ^ Zpos e) ltac:(lia)) as DM. pose proof (Z.mod_pos_bound (Zpos m) (2 ^ Zpos e) PE).
    rewrite !Z.mul_assoc. split; [apply Z.mul_le_mono_nonneg_r; nia|apply Z.mul_lt_mono_pos_r; nia].
Qed.

(** For a normal number m / 2^d. *)
Section Cpu.
  Variables (m : positive) (d : Z).
  Hypothesis Hm : 2 ^ 52 <= Zpos m < 2 ^ 53.
  Hypothesis Hd : 0 < d <= 1074.
  Let f : float64 := S754_finite false m (- d).

  (** The rounded product z / 2^c, and the result as its integral part. *)
  Lemma cpu_parts : exists n z, 52 <= n <= 53 /\ 2 ^ (52 + n) <= Zpos m * 8796093022208000 < 2 ^ (53 + n) /\
    Zpos m * 8796093022208000 / 2 ^ n <= z <= Zpos m * 8796093022208000 / 2 ^ n + 1 /\
    (Zpos m * 8796093022208000 mod 2 ^ n = 0 -> z = Zpos m * 8796093022208000 / 2 ^ n) /\
    toCPUMillis f * 2 ^ (d + 43) <= z * 2 ^ n < (toCPUMillis f + 1) * 2 ^ (d + 43).
  Proof using Hm Hd.
    assert (B : exists n, 52 <= n <= 53 /\ 2 ^ (52 + n) <= Zpos m * 8796093022208000 < 2 ^ (53 + n)).
    { destruct (Z_lt_le_dec (Zpos m * 8796093022208000) (2 ^ 105)) as [L|L]; [exists 52|exists 53]; (split; [lia|]).
      - change (52 + 52) with 104. change (53 + 52) with 105. lia.
      - change (52 + 53) with 105. change (53 + 53) with 106. lia. }
    destruct B as (n & N & B). exists n.
    destruct (round_product (m * 8796093022208000) (- d + -43) n) as (z & m' & e' & R & Z1 & Z2 & E1 & E2); [lia|exact B|lia|lia|].
    exists z. split; [exact N|]. split; [exact B|]. split; [exact Z1|]. split; [exact Z2|].
    unfold toCPUMillis, f. change (SFltb (S754_zero false) (S754_finite false m (- d))) with true. cbn iota.
    unfold float1000, SFmul. cbn [xorb]. rewrite R. cbn [int64_of_float].
    pose proof (magnitude_floor m' e' (d + 43)) as F. assert (G : 0 <= e' + (d + 43)) by lia. specialize (F ltac:(lia) G).
    assert (V : Zpos m' * 2 ^ (e' + (d + 43)) = z * 2 ^ n).
    { rewrite E2, <- Z.mul_assoc, <- Z.pow_add_r by lia. f_equal. f_equal. lia. }
    rewrite V in F.
    assert (T : toInt64 (magnitude m' e') = magnitude m' e').
    { unfold toInt64. assert (0 <= magnitude m' e').
      { unfold magnitude. destruct e'; [lia|pose proof (pow_pos_pos (Zpos p)); lia|apply Z.div_pos; [lia|apply pow_pos_pos; lia]]. }
      assert (magnitude m' e' < 2 ^ 63).
      { assert (U : magnitude m' e' * 2 ^ 44 <= 2 ^ 106 + 2 ^ 53).
        { assert (2 ^ 44 <= 2 ^ (d + 43)) by (apply Z.pow_le_mono_r; lia).
          assert (z * 2 ^ n <= Zpos m * 8796093022208000 + 2 ^ n).
          { pose proof (pow_pos_pos n ltac:(lia)) as P. pose proof (Z.mul_div_le (Zpos m * 8796093022208000) (2 ^ n) P). nia. }
          assert (2 ^ n <= 2 ^ 53) by (apply Z.pow_le_mono_r; lia). assert (2 ^ (53 + n) <= 2 ^ 106) by (apply Z.pow_le_mono_r; lia).
          nia. }
        assert (2 ^ 106 + 2 ^ 53 < 2 ^ 63 * 2 ^ 44) by reflexivity. nia. }
      replace ((int64Min <=? magnitude m' e') && (magnitude m' e' <? 2 ^ 63))%bool with true; [reflexivity|].
      symmetry. apply andb_true_intro. split; [apply Z.leb_le; unfold int64Min; lia|apply Z.ltb_lt; lia]. }
    rewrite T. exact F.
  Qed.

  (** The result is the integral part of 1000 m / 2^d up to a relative error of one in 2^52. *)
  Theorem cpu_close :
    toCPUMillis f * 2 ^ d * 2 ^ 52 <= 1000 * Zpos m * (2 ^ 52 + 1) /\
    1000 * Zpos m * (2 ^ 52 - 1) < (toCPUMillis f + 1) * 2 ^ d * 2 ^ 52.
  Proof using Hm Hd.
    destruct cpu_parts as (n & z & N & B & Z1 & _ & F). rewrite Z.pow_add_r in F by lia. change (2 ^ 43) with 8796093022208 in F.
    pose proof (pow_pos_pos n ltac:(lia)) as P. pose proof (Z.mul_div_le (Zpos m * 8796093022208000) (2 ^ n) P) as Q1.
    pose proof (Z.mul_succ_div_gt (Zpos m * 8796093022208000) (2 ^ n) P) as Q2.
    assert (E : 2 ^ (52 + n) = 2 ^ 52 * 2 ^ n) by (rewrite Z.pow_add_r by lia; reflexivity). rewrite E in B.
    set (q := Zpos m * 8796093022208000 / 2 ^ n) in *. change (2 ^ 52) with 4503599627370496 in *.
    assert (Lo : Zpos m * 8796093022208000 - 2 ^ n < z * 2 ^ n) by nia.
    assert (Hi : z * 2 ^ n <= Zpos m * 8796093022208000 + 2 ^ n) by nia.
    generalize dependent (toCPUMillis f). intros r F. generalize dependent (2 ^ n). intros. generalize dependent (2 ^ d). intros. nia.
  Qed.
  (** It is exact when 1000 m / 2^d is an integer of at most 53 bits. *)
  Theorem cpu_exact : forall R, R < 2 ^ 53 -> 1000 * Zpos m = R * 2 ^ d -> toCPUMillis f = R.
  Proof using Hm Hd.
    intros R HR E. destruct cpu_parts as (n & z & N & B & _ & Z2 & F).
    assert (PD : 0 < 2 ^ d) by (apply pow_pos_pos; lia). assert (HR0 : 0 < R) by nia.
    assert (EP : Zpos m * 8796093022208000 = R * 2 ^ (d + 43)).
    { rewrite Z.pow_add_r by lia. change (2 ^ 43) with 8796093022208. lia. }
    assert (NL : n <= d + 43).
    { destruct (Z_le_gt_dec n (d + 43)) as [L|G]; [exact L|]. exfalso.
      assert (2 ^ (53 + (d + 43)) <= 2 ^ (52 + n)) by (apply Z.pow_le_mono_r; lia). rewrite Z.pow_add_r in H by lia.
      pose proof (pow_pos_pos (d + 43) ltac:(lia)). nia. }
    pose proof (pow_pos_pos n ltac:(lia)) as P.
    assert (ES : Zpos m * 8796093022208000 = R * 2 ^ (d + 43 - n) * 2 ^ n).
    { rewrite EP, <- Z.mul_assoc, <- Z.pow_add_r by lia. f_equal. f_equal. lia. }
    rewrite Z2 in F by (rewrite ES; apply Z.mod_mul; lia). rewrite ES, Z.div_mul, <- ES, EP in F by lia.
    pose proof (pow_pos_pos (d + 43) ltac:(lia)). nia.
  Qed.
End Cpu.
