(** * Matrix.v: the build matrix of the legacy format (yaml/converter/legacy/matrix/matrix.go). *)
From Verif Require Import Model.Go Model.Types Model.Decode.

(** yaml/converter/legacy/matrix/matrix.go 13-16. *)
Definition limitTags : nat := 10.
Definition limitAxis : nat := 25.

(** Arithmetic of the type int on a 64-bit machine. *)
Definition wrap64 (z : Z) : Z := ((z + 2 ^ 63) mod 2 ^ 64 - 2 ^ 63)%Z.

Definition len {A} (l : list A) : Z := Z.of_nat (length l).

(** matrix.go 63-71: the number of permutations. [m] lists the map in iteration order. *)
Fixpoint count (m : smap (list string)) (perm : Z) : Z :=
  match m with
  | [] => perm
  | (_, v) :: m' =>
      let perm := wrap64 (perm * len v) in
      count m' (if Z.eqb perm 0 then len v else perm)
  end.

(** Go's integer division and remainder panic when dividing by zero. *)
Definition goDiv (a b : Z) : outcome Z := if Z.eqb b 0 then Panic else Ok (Z.quot a b).
Definition goRem (a b : Z) : outcome Z := if Z.eqb b 0 then Panic else Ok (Z.rem a b).

(** matrix.go 80-90, one entry: [i] is the index of the first tag of [m]. *)
Fixpoint axisOf (m : smap (list string)) (i : nat) (p decr : Z) (axis : smap string) : outcome (smap string) :=
  match m with
  | [] => Ok axis
  | (tag, elems) :: m' =>
      decr <- goDiv decr (len elems) ;;
      q <- goDiv p decr ;;
      elem <- goRem q (len elems) ;;
      match nth_error elems (Z.to_nat elem) with
      | None => Panic
      | Some e =>
          let axis := mset tag e axis in
          if Nat.ltb limitTags i then Ok axis else axisOf m' (S i) p decr axis
      end
  end.

(** matrix.go 77-99: the loop over p, which is left after the entry with p > limitAxis. *)
Fixpoint axes (m : smap (list string)) (perm : Z) (fuel : nat) (p : nat) : outcome (list (smap string)) :=
  match fuel with
  | 0 => Ok []
  | S fuel' =>
      if Z.ltb (Z.of_nat p) perm then
        axis <- axisOf m 0 (Z.of_nat p) perm [] ;;
        if Nat.ltb limitAxis p then Ok [axis]
        else rest <- axes m perm fuel' (S p) ;; Ok (axis :: rest)
      else Ok []
  end.

(** matrix.go 58-102. *)
Definition calc (m : smap (list string)) : outcome (list (smap string)) :=
  axes m (count m 0) (limitAxis + 2) 0.

(** matrix.go 104-110 and 112-121: decoding. *)
Definition decMatrix (n : node) : option (smap (list string)) :=
  decStruct [] (field (decMap (decSlice decString)) [] "matrix") n.
Definition decIncludes (n : node) : option (list (smap string)) :=
  decStruct [] (field (decSlice (decMap decString)) [] "include") n.
Definition decInclude (n : node) : option (list (smap string)) :=
  decStruct [] (field decIncludes [] "matrix") n.

(** matrix.go 34-52. [ord] is the iteration order of the decoded map. *)
Definition parseMatrix (ord : smap (list string) -> smap (list string)) (n : node) : outcome (list (smap string)) :=
  match decInclude n with
  | Some (a :: l) => Ok (a :: l)
  | _ =>
      match decMatrix n with
      | None => Err "yaml"
      | Some [] => Ok []
      | Some m => calc (ord m)
      end
  end.
