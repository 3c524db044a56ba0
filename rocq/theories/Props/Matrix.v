(** * Matrix.v: theorems C54 and C55. *)
From Coq Require Import Sorting.Permutation.
From Verif Require Import Model.Go Model.Decode Model.Matrix Spec.DecodeSpec Spec.MatrixSpec Proofs.MatrixFacts.

(** ** C54 *)
Theorem C54_first_combinations : forall m, Proper m -> m <> [] ->
  calc m = Ok (map (firstn 12) (firstn 27 (product m))).
Proof. exact calc_spec. Qed.
Print Assumptions C54_first_combinations.
Theorem C54_all_combinations : forall m, Proper m -> m <> [] -> length m <= 12 -> (size m <= 27)%Z -> calc m = Ok (product m).
Proof. exact calc_all. Qed.
Print Assumptions C54_all_combinations.
Theorem C54_product_is_combinations : forall m a, In a (product m) <-> Combination m a.
Proof. exact product_In. Qed.
Print Assumptions C54_product_is_combinations.
Theorem C54_each_once : forall m, (forall k vs, In (k, vs) m -> NoDup vs) -> NoDup (product m).
Proof. exact product_NoDup. Qed.
Print Assumptions C54_each_once.
Theorem C54_number : forall m, Z.of_nat (length (product m)) = size m.
Proof. exact product_length. Qed.
Print Assumptions C54_number.
Theorem C54_any_map_order : forall m m' l, Permutation m m' -> Proper m -> m <> [] -> length m <= 12 -> (size m <= 27)%Z ->
  calc m = Ok l -> exists l', calc m' = Ok l' /\ length l' = length l /\
    forall a, In a l -> exists a', In a' l' /\ Permutation a a'.
Proof. exact calc_order. Qed.
Print Assumptions C54_any_map_order.
Theorem C54_include_list : forall ord n l, Distinct n -> IsInclude n l -> l <> [] -> parseMatrix ord n = Ok l.
Proof. exact parse_include. Qed.
Print Assumptions C54_include_list.
Theorem C54_document : forall ord n m, Distinct n -> (forall l, IsInclude n l -> l = []) -> IsMatrix n m -> m <> [] ->
  Permutation (ord m) m -> Proper m -> parseMatrix ord n = Ok (map (firstn 12) (firstn 27 (product (ord m)))).
Proof. exact parse_axes. Qed.
Print Assumptions C54_document.
Theorem C54_no_matrix : forall ord n, Distinct n -> (forall l, IsInclude n l -> l = []) -> IsMatrix n [] -> parseMatrix ord n = Ok [].
Proof. exact parse_none. Qed.
Print Assumptions C54_no_matrix.
Theorem C54_unreadable : forall ord n, Distinct n -> (forall l, IsInclude n l -> l = []) -> (forall m, ~ IsMatrix n m) ->
  exists e, parseMatrix ord n = Err e.
Proof. exact parse_bad. Qed.
Print Assumptions C54_unreadable.
Example C54_case :
  calc [("go", ["1"; "2"]); ("db", ["a"; "b"])] =
    Ok [[("go", "1"); ("db", "a")]; [("go", "1"); ("db", "b")]; [("go", "2"); ("db", "a")]; [("go", "2"); ("db", "b")]] /\
  Proper [("go", ["1"; "2"]); ("db", ["a"; "b"])] /\
  parseMatrix (fun m => m) (NMap [(NStr "matrix", NMap [(NStr "include", NSeq [NMap [(NStr "go", NInt "1" 1)]])])]) =
    Ok [[("go", "1")]].
Proof.
  repeat split.
  - repeat constructor; cbn; intuition discriminate.
  - cbn. intros k [E|[E|[]]]; discriminate.
Qed.
(** More than twenty-seven combinations are cut off, and so is the thirteenth axis. *)
Theorem C54_limits_refuted :
  (exists m, Proper m /\ size m = 30%Z /\ exists l, calc m = Ok l /\ length l = 27) /\
  (exists m, Proper m /\ size m = 1%Z /\ exists a, calc m = Ok [a] /\ length a = 12 /\ length m = 13).
Proof.
  split.
  - exists [("A", ["0"; "1"; "2"; "3"; "4"; "5"]); ("B", ["0"; "1"; "2"; "3"; "4"])]. split; [|split; [reflexivity|]].
    + repeat split; [|cbn; intros k [E|[E|[]]]; discriminate]. repeat constructor; cbn; intuition discriminate.
    + eexists. split; [vm_compute; reflexivity|reflexivity].
  - exists (map (fun k => (k, ["x"])) ["A"; "B"; "C"; "D"; "E"; "F"; "G"; "H"; "I"; "J"; "K"; "L"; "M"]).
    split; [|split; [reflexivity|]].
    + repeat split.
      * repeat constructor; cbn; intuition discriminate.
      * cbn. intros k I. intuition discriminate.
    + eexists. split; [vm_compute; reflexivity|split; reflexivity].
Qed.
Print Assumptions C54_limits_refuted.

(** ** C55 *)
Theorem C55_empty_axis_refuted : exists m m', Permutation m m' /\ calc m = Ok [] /\ calc m' = Panic.
Proof.
  exists [("A", ["x"]); ("B", [])], [("B", []); ("A", ["x"])]. split; [apply perm_swap|split; reflexivity].
Qed.
Print Assumptions C55_empty_axis_refuted.
Theorem C55_no_panic : forall m, Proper m -> calc m <> Panic.
Proof. exact calc_no_panic. Qed.
Print Assumptions C55_no_panic.
(** Sixty-four axes of two values: the number of combinations wraps to zero. *)
Theorem C55_overflow_refuted : exists m, NoDup (map fst m) /\ (forall k, ~ In (k, []) m) /\ calc m = Panic.
Proof. exact overflow_panics. Qed.
Print Assumptions C55_overflow_refuted.
Example C55_case : Proper [("A", ["x"]); ("B", ["y"; "z"])].
Proof.
  repeat split; [|cbn; intros k [E|[E|[]]]; discriminate]. repeat constructor; cbn; intuition discriminate.
Qed.
