(** * MatrixFacts.v: calc enumerates the cartesian product. *)
From Coq Require Import Lia Sorting.Permutation.
From Verif Require Import Model.Go Model.Types Model.Decode Model.Matrix Spec.MatrixSpec Spec.DecodeSpec Proofs.DecodeFacts.

Lemma size_pos : forall m, (forall k, ~ In (k, []) m) -> (0 < size m)%Z.
Proof.
  induction m as [|[k vs] m IH]; intro H; cbn [size]; [lia|].
  assert (0 < size m)%Z by (apply IH; intros k' I; apply (H k'); right; exact I).
  destruct vs as [|v vs]; [exfalso; apply (H k); left; reflexivity|]. cbn [length]. nia.
Qed.
Lemma product_length : forall m, Z.of_nat (length (product m)) = size m.
Proof.
  induction m as [|[k vs] m IH]; [reflexivity|]. cbn [product size]. rewrite <- IH. clear IH.
  induction vs as [|v vs IH]; [reflexivity|]. cbn [flat_map length]. rewrite app_length, map_length.
  unfold smap in *. rewrite Nat2Z.inj_add, IH, Nat2Z.inj_succ. ring.
Qed.
Lemma nth_flat : forall A B (f : A -> B -> B) (L : list B) vs a b x y,
  nth_error vs a = Some x -> nth_error L b = Some y ->
  nth_error (flat_map (fun v => map (f v) L) vs) (a * length L + b) = Some (f x y).
Proof.
  intros A B f L. induction vs as [|v vs IH]; intros a b x y Ha Hb.
  - destruct a; discriminate.
  - cbn [flat_map]. destruct a as [|a].
    + cbn in Ha. injection Ha as ->. cbn. assert (b < length L) by (apply nth_error_Some; congruence).
      rewrite nth_error_app1 by (rewrite map_length; assumption). apply map_nth_error. exact Hb.
    + cbn in Ha. rewrite nth_error_app2 by (rewrite map_length; cbn; lia). rewrite map_length.
      replace (S a * length L + b - length L) with (a * length L + b) by (cbn; lia). apply IH; assumption.
Qed.
Lemma nth_exists : forall A (l : list A) n, n < length l -> exists x, nth_error l n = Some x.
Proof.
  intros A l n H. destruct (nth_error l n) as [x|] eqn:E; [exists x; reflexivity|]. apply nth_error_None in E. lia.
Qed.
Lemma mset_new : forall V k (v : V) m, ~ In k (map fst m) -> mset k v m = m ++ [(k, v)].
Proof.
  intros V k v m. induction m as [|[k' v'] m IH]; cbn; intro N; [reflexivity|].
  destruct (String.eqb_spec k k') as [->|_]; [exfalso; auto|]. f_equal. apply IH. tauto.
Qed.

Lemma goDiv_pos : forall a b, (0 < b)%Z -> (0 <= a)%Z -> goDiv a b = Ok (a / b)%Z.
Proof. intros a b B A. unfold goDiv. destruct (Z.eqb_spec b 0); [lia|]. rewrite Z.quot_div_nonneg by lia. reflexivity. Qed.
Lemma goRem_pos : forall a b, (0 < b)%Z -> (0 <= a)%Z -> goRem a b = Ok (a mod b)%Z.
Proof. intros a b B A. unfold goRem. destruct (Z.eqb_spec b 0); [lia|]. rewrite Z.rem_mod_nonneg by lia. reflexivity. Qed.

Lemma axisOf_spec : forall m i p acc, (forall k, ~ In (k, []) m) -> NoDup (map fst m) ->
  (forall k, In k (map fst m) -> ~ In k (map fst acc)) -> (0 <= p)%Z -> i <= 11 ->
  exists c, nth_error (product m) (Z.to_nat (p mod size m)) = Some c /\
    axisOf m i p (size m) acc = Ok (acc ++ firstn (12 - i) c).
Proof.
  induction m as [|[k vs] m IH]; intros i p acc E N A P I.
  - exists []. split; [cbn [size product]; rewrite Z.mod_1_r; reflexivity|]. cbn [axisOf]. rewrite firstn_nil, app_nil_r. reflexivity.
  - assert (Em : forall k, ~ In (k, []) m) by (intros k' J; apply (E k'); right; exact J).
    assert (S := size_pos m Em).
    assert (V : (0 < len vs)%Z).
    { unfold len. destruct vs; [exfalso; apply (E k); left; reflexivity|]. cbn [length]. lia. }
    inversion N as [|? ? Nk Nm]; subst. cbn [size axisOf]. fold (len vs).
    rewrite goDiv_pos by (try assumption; nia). cbn [obind].
    rewrite (Z.mul_comm (len vs)), Z.div_mul by lia.
    rewrite goDiv_pos by assumption. cbn [obind].
    rewrite goRem_pos by (try assumption; apply Z.div_pos; assumption). cbn [obind].
    set (a := ((p / size m) mod len vs)%Z).
    assert (Ra : (0 <= a < len vs)%Z) by (apply Z.mod_pos_bound; exact V).
    destruct (nth_exists _ vs (Z.to_nat a)) as [e He]; [unfold len in Ra; lia|]. rewrite He.
    assert (Rp : (0 <= p mod size m < size m)%Z) by (apply Z.mod_pos_bound; exact S).
    assert (X : forall y, nth_error (product m) (Z.to_nat (p mod size m)) = Some y ->
      nth_error (product ((k, vs) :: m)) (Z.to_nat (p mod (size m * len vs))) = Some ((k, e) :: y)).
    { intros y Hy. rewrite Z.rem_mul_r by lia. fold a. cbn [product].
      replace (Z.to_nat (p mod size m + size m * a)) with (Z.to_nat a * length (product m) + Z.to_nat (p mod size m))
        by (rewrite <- product_length; rewrite <- product_length in Rp; nia).
      exact (nth_flat _ _ (fun v rest => (k, v) :: rest) (product m) vs _ _ _ _ He Hy). }
    rewrite mset_new by (apply A; left; reflexivity).
    destruct (Nat.ltb_spec limitTags i) as [L|L]; unfold limitTags in L.
    + destruct (nth_exists _ (product m) (Z.to_nat (p mod size m))) as [y Hy]; [pose proof (product_length m); lia|].
      exists ((k, e) :: y). split; [apply X; exact Hy|]. replace (12 - i) with 1 by lia. reflexivity.
    + destruct (IH (Datatypes.S i) p (acc ++ [(k, e)])%list Em Nm) as (y & Hy & Ey); try assumption; [|lia|].
      * intros k' J. rewrite map_app, in_app_iff. cbn. intros [B|[B|[]]].
        -- apply (A k'); [right; exact J|exact B].
        -- subst k'. contradiction.
      * exists ((k, e) :: y). split; [apply X; exact Hy|]. rewrite Ey, <- app_assoc.
        replace (12 - i) with (Datatypes.S (12 - Datatypes.S i)) by lia. reflexivity.
Qed.

Lemma wrap64_small : forall z, (- 2 ^ 63 <= z < 2 ^ 63)%Z -> wrap64 z = z.
Proof. intros z H. unfold wrap64. rewrite Z.mod_small by lia. lia. Qed.
Lemma count_spec : forall m perm, (forall k, ~ In (k, []) m) -> (0 < perm)%Z -> (perm * size m < 2 ^ 63)%Z ->
  count m perm = (perm * size m)%Z.
Proof.
  induction m as [|[k vs] m IH]; intros perm E P B; cbn [count size]; [lia|].
  assert (Em : forall k, ~ In (k, []) m) by (intros k' J; apply (E k'); right; exact J).
  assert (S := size_pos m Em).
  assert (V : (0 < len vs)%Z).
  { unfold len. destruct vs; [exfalso; apply (E k); left; reflexivity|]. cbn [length]. lia. }
  cbn [size] in B. fold (len vs) in *. rewrite wrap64_small by nia.
  destruct (Z.eqb_spec (perm * len vs) 0); [nia|]. rewrite IH; [|assumption|nia|nia]. nia.
Qed.
Lemma count_start : forall m, m <> [] -> (forall k, ~ In (k, []) m) -> (size m < 2 ^ 63)%Z -> count m 0 = size m.
Proof.
  intros [|[k vs] m] N E B; [contradiction|]. cbn [count].
  assert (Em : forall k, ~ In (k, []) m) by (intros k' J; apply (E k'); right; exact J).
  assert (S := size_pos m Em).
  assert (V : (0 < len vs)%Z).
  { unfold len. destruct vs; [exfalso; apply (E k); left; reflexivity|]. cbn [length]. lia. }
  cbn [size] in *. fold (len vs) in *. rewrite (count_spec m); [|assumption| |].
  - destruct (Z.eqb_spec (wrap64 (0 * len vs)) 0) as [_|X]; [reflexivity|]. exfalso. apply X. reflexivity.
  - destruct (Z.eqb_spec (wrap64 (0 * len vs)) 0) as [_|X]; [exact V|]. exfalso. apply X. reflexivity.
  - destruct (Z.eqb_spec (wrap64 (0 * len vs)) 0) as [_|X]; [exact B|]. exfalso. apply X. reflexivity.
Qed.

Lemma firstn_skip : forall A (l : list A) n x, nth_error l n = Some x -> skipn n l = x :: skipn (S n) l.
Proof.
  intros A l. induction l as [|y l IH]; intros [|n] x H; try discriminate.
  - cbn in H. injection H as ->. reflexivity.
  - cbn in H. cbn [skipn]. apply IH. exact H.
Qed.
Lemma axes_spec : forall m fuel p, (forall k, ~ In (k, []) m) -> NoDup (map fst m) ->
  fuel = limitAxis + 2 - p -> p <= limitAxis + 2 ->
  axes m (size m) fuel p = Ok (map (firstn 12) (firstn fuel (skipn p (product m)))).
Proof.
  intros m fuel. induction fuel as [|fuel IH]; intros p E N F P.
  - reflexivity.
  - cbn [axes]. pose proof (product_length m) as PL. destruct (Z.ltb_spec (Z.of_nat p) (size m)) as [L|L].
    + destruct (axisOf_spec m 0 (Z.of_nat p) [] E N (fun k _ X => X)) as (c & Hc & Ec); [lia|lia|].
      rewrite Z.mod_small in Hc by lia. rewrite Nat2Z.id in Hc. rewrite Ec. cbn [obind app].
      rewrite (firstn_skip _ _ _ _ Hc). cbn [firstn map].
      destruct (Nat.ltb_spec limitAxis p) as [A|A].
      * unfold limitAxis in *. replace fuel with 0 by lia. reflexivity.
      * rewrite (IH (S p)) by (assumption || lia). reflexivity.
    + rewrite skipn_all2 by lia. rewrite firstn_nil. reflexivity.
Qed.
Lemma calc_spec : forall m, Proper m -> m <> [] ->
  calc m = Ok (map (firstn 12) (firstn 27 (product m))).
Proof.
  intros m (N & E & B) M. unfold calc. rewrite count_start by assumption.
  rewrite (axes_spec m (limitAxis + 2) 0) by (assumption || (unfold limitAxis; lia)). reflexivity.
Qed.
Lemma calc_all : forall m, Proper m -> m <> [] -> length m <= 12 -> (size m <= 27)%Z -> calc m = Ok (product m).
Proof.
  intros m P M L S. rewrite calc_spec by assumption. apply (f_equal (@Ok _)). pose proof (product_length m).
  rewrite firstn_all2 by lia. rewrite <- (map_id (product m)) at 2. apply map_ext_in. intros a I.
  apply firstn_all2.
  assert (Q : length a = length m); [|lia].
  clear -I. revert a I. induction m as [|[k vs] m IH]; cbn [product]; intros a I.
  - destruct I as [<-|[]]. reflexivity.
  - apply in_flat_map in I. destruct I as (v & _ & I). apply in_map_iff in I. destruct I as (r & <- & I).
    cbn. f_equal. apply IH. exact I.
Qed.
Lemma product_In : forall m a, In a (product m) <-> Combination m a.
Proof.
  unfold Combination. induction m as [|[k vs] m IH]; intro a; cbn [product].
  - split.
    + intros [<-|[]]. constructor.
    + intro F. inversion F. left. reflexivity.
  - rewrite in_flat_map. split.
    + intros (v & Iv & I). apply in_map_iff in I. destruct I as (r & <- & I).
      constructor; [cbn; auto|]. apply IH. exact I.
    + intro F. inversion F as [|? [k' v] ? r [Ek Iv] Fr]; subst. cbn in Ek, Iv. subst k'.
      exists v. split; [exact Iv|]. apply in_map_iff. exists r. split; [reflexivity|]. apply IH. exact Fr.
Qed.
Lemma NoDup_join : forall A (l l' : list A), NoDup l -> NoDup l' -> (forall x, In x l -> ~ In x l') -> NoDup (l ++ l').
Proof.
  intros A l l' N N' H. induction N as [|x l Nx N IH]; [exact N'|]. cbn. constructor.
  - rewrite in_app_iff. intros [I|I]; [contradiction|]. exact (H x (or_introl eq_refl) I).
  - apply IH. intros y I. apply H. right. exact I.
Qed.
Lemma product_NoDup : forall m, (forall k vs, In (k, vs) m -> NoDup vs) -> NoDup (product m).
Proof.
  induction m as [|[k vs] m IH]; intro H; cbn [product]; [constructor; [intros []|constructor]|].
  assert (Nv := H k vs (or_introl eq_refl)). assert (Np := IH (fun k' vs' I => H k' vs' (or_intror I))). clear IH H.
  induction Nv as [|v vs Nin Nv IHv]; cbn [flat_map]; [constructor|].
  assert (Nm : NoDup (map (fun rest => (k, v) :: rest) (product m))).
  { clear -Np. induction Np as [|a l Na Nl IH]; cbn [map]; constructor; [|exact IH].
    intro I. apply in_map_iff in I. destruct I as (b & E & I). injection E as ->. contradiction. }
  apply NoDup_join; [exact Nm|exact IHv|]. intros x I1 I2.
  apply in_map_iff in I1. destruct I1 as (r1 & <- & _).
  apply in_flat_map in I2. destruct I2 as (w & Iw & I). apply in_map_iff in I. destruct I as (r & E & _).
  injection E as -> _. contradiction.
Qed.
(** Another map order gives the same combinations. *)
Lemma combination_permutation : forall m m' a, Permutation m m' -> Combination m a ->
  exists a', Combination m' a' /\ Permutation a a'.
Proof.
  intros m m' a P. revert a. induction P as [|x m m' P IH|x y m|m1 m2 m3 P1 IH1 P2 IH2]; intros a C.
  - inversion C. exists []. split; constructor.
  - inversion C as [|? e ? r Hx Cr]; subst. destruct (IH r Cr) as (r' & C' & Q). exists (e :: r').
    split; [constructor; assumption|constructor; exact Q].
  - inversion C as [|? e ? r Hx Cr]; subst. inversion Cr as [|? e' ? r' Hy Cr']; subst.
    exists (e' :: e :: r'). split; [constructor; [assumption|constructor; assumption]|apply perm_swap].
  - destruct (IH1 _ C) as (a2 & C2 & Q2). destruct (IH2 _ C2) as (a3 & C3 & Q3).
    exists a3. split; [exact C3|]. exact (Permutation_trans Q2 Q3).
Qed.
Lemma size_permutation : forall m m', Permutation m m' -> size m = size m'.
Proof.
  intros m m' P. induction P as [|[k vs] m m' P IH|[k vs] [k' vs'] m|m1 m2 m3 P1 IH1 P2 IH2]; cbn [size]; lia.
Qed.
Lemma proper_permutation : forall m m', Permutation m m' -> Proper m -> Proper m'.
Proof.
  intros m m' P (N & E & B). repeat split.
  - eapply Permutation_NoDup; [apply Permutation_map; exact P|exact N].
  - intros k I. apply (E k). eapply Permutation_in; [apply Permutation_sym; exact P|exact I].
  - rewrite <- (size_permutation _ _ P). exact B.
Qed.
Lemma calc_order : forall m m' l, Permutation m m' -> Proper m -> m <> [] -> length m <= 12 -> (size m <= 27)%Z ->
  calc m = Ok l -> exists l', calc m' = Ok l' /\ length l' = length l /\
    forall a, In a l -> exists a', In a' l' /\ Permutation a a'.
Proof.
  intros m m' l P Pm M L S E. assert (Pm' := proper_permutation _ _ P Pm).
  assert (M' : m' <> []) by (intros ->; apply M; apply Permutation_sym, Permutation_nil in P; exact P).
  rewrite calc_all in E by assumption. injection E as <-. exists (product m'). split.
  - apply calc_all; try assumption; [rewrite <- (Permutation_length P); exact L|rewrite <- (size_permutation _ _ P); exact S].
  - split.
    + pose proof (product_length m). pose proof (product_length m'). rewrite (size_permutation _ _ P) in *. lia.
    + intros a I. apply product_In in I. destruct (combination_permutation _ _ _ P I) as (a' & C & Q).
      exists a'. split; [apply product_In; exact C|exact Q].
Qed.
Lemma calc_no_panic : forall m, Proper m -> calc m <> Panic.
Proof.
  intros [|x m] P; [discriminate|]. rewrite calc_spec; [discriminate|exact P|discriminate].
Qed.

(** ** Decoding *)
Lemma exact_matrix : Exact decMatrix IsMatrix.
Proof. apply exact_struct; [|reflexivity]. intros f G x. apply exact_field; [auto with exact|exact G]. Qed.
Lemma exact_includes : Exact decIncludes IsIncludes.
Proof. apply exact_struct; [|reflexivity]. intros f G x. apply exact_field; [auto with exact|exact G]. Qed.
Lemma exact_include : Exact decInclude IsInclude.
Proof.
  apply exact_struct; [|reflexivity]. intros f G x. apply exact_fieldStruct; [exact exact_includes|reflexivity|exact G].
Qed.
Lemma parse_include : forall ord n l, Distinct n -> IsInclude n l -> l <> [] -> parseMatrix ord n = Ok l.
Proof.
  intros ord n l D I N. apply exact_include in I; [|exact D]. unfold parseMatrix. rewrite I. destruct l; [contradiction|reflexivity].
Qed.
Lemma no_include : forall n, Distinct n -> (forall l, IsInclude n l -> l = []) -> decInclude n = None \/ decInclude n = Some [].
Proof.
  intros n D H. destruct (decInclude n) as [l|] eqn:E; [|left; reflexivity]. right.
  apply exact_include in E; [|exact D]. rewrite (H l E). reflexivity.
Qed.
Lemma parse_axes : forall ord n m, Distinct n -> (forall l, IsInclude n l -> l = []) -> IsMatrix n m -> m <> [] ->
  Permutation (ord m) m -> Proper m -> parseMatrix ord n = Ok (map (firstn 12) (firstn 27 (product (ord m)))).
Proof.
  intros ord n m D H I N P Pm. apply exact_matrix in I; [|exact D]. unfold parseMatrix.
  assert (X : (match m with [] => Ok [] | _ :: _ => calc (ord m) end) =
    Ok (map (firstn 12) (firstn 27 (product (ord m))))).
  { destruct m as [|x m]; [contradiction|]. apply calc_spec.
    - eapply proper_permutation; [apply Permutation_sym; exact P|exact Pm].
    - intro E. rewrite E in P. apply Permutation_nil in P. discriminate. }
  destruct (no_include n D H) as [->| ->]; rewrite I; destruct m; exact X.
Qed.
Lemma parse_none : forall ord n, Distinct n -> (forall l, IsInclude n l -> l = []) -> IsMatrix n [] -> parseMatrix ord n = Ok [].
Proof.
  intros ord n D H I. apply exact_matrix in I; [|exact D]. unfold parseMatrix.
  destruct (no_include n D H) as [->| ->]; rewrite I; reflexivity.
Qed.
Lemma parse_bad : forall ord n, Distinct n -> (forall l, IsInclude n l -> l = []) -> (forall m, ~ IsMatrix n m) ->
  exists e, parseMatrix ord n = Err e.
Proof.
  intros ord n D H I. unfold parseMatrix.
  assert (X : decMatrix n = None).
  { destruct (decMatrix n) as [m|] eqn:E; [|reflexivity]. apply exact_matrix in E; [|exact D]. exfalso. exact (I m E). }
  destruct (no_include n D H) as [->| ->]; rewrite X; eexists; reflexivity.
Qed.

(** ** Overflow *)
Definition wideMatrix : smap (list string) :=
  map (fun i => (String (ascii_of_nat i) "", ["0"; "1"])) (seq 0 64).
Lemma overflow_panics : exists m : smap (list string), NoDup (map fst m) /\ (forall k, ~ In (k, []) m) /\ calc m = Panic.
Proof.
  exists wideMatrix. split; [|split].
  - assert (X : forall n a, n + a <= 256 -> NoDup (map (fun i => String (ascii_of_nat i) "") (seq a n))).
    { induction n as [|n IH]; intros a L; cbn [seq map]; constructor; [|apply IH; lia].
      intro I. apply in_map_iff in I. destruct I as (i & E & I). apply in_seq in I. injection E as E.
      apply (f_equal nat_of_ascii) in E. rewrite !nat_ascii_embedding in E by lia. lia. }
    unfold wideMatrix. rewrite map_map. cbn [fst]. apply X. lia.
  - intros k I. apply in_map_iff in I. destruct I as (i & E & _). discriminate.
  - vm_compute. reflexivity.
Qed.
