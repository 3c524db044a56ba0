(** * MatrixSpec.v: the cartesian product. *)
From Verif Require Import Model.Go Model.Decode Spec.DecodeSpec.

(** The combinations of one value per axis, the first axis varying slowest. *)
Fixpoint product (m : smap (list string)) : list (smap string) :=
  match m with
  | [] => [[]]
  | (k, vs) :: m' => flat_map (fun v => map (fun rest => (k, v) :: rest) (product m')) vs
  end.
(** A combination, whatever the order: one value per axis. *)
Definition Combination (m : smap (list string)) (a : smap string) : Prop :=
  Forall2 (fun kv e => fst e = fst kv /\ In (snd e) (snd kv)) m a.
Fixpoint size (m : smap (list string)) : Z :=
  match m with [] => 1%Z | (_, vs) :: m' => (Z.of_nat (length vs) * size m')%Z end.
(** A matrix: distinct axis names, no empty axis, and a product that is a 64-bit integer. *)
Definition Proper (m : smap (list string)) : Prop :=
  NoDup (map fst m) /\ (forall k, ~ In (k, []) m) /\ (size m < 2 ^ 63)%Z.

(** A document's matrix, and the list of combinations it may give instead. *)
Definition IsMatrix (n : node) (m : smap (list string)) : Prop := exists f, Fields n f /\
  Has f "matrix" (IsMap (IsList IsText)) [] m.
Definition IsIncludes (n : node) (l : list (smap string)) : Prop := exists f, Fields n f /\
  Has f "include" (IsList (IsMap IsText)) [] l.
Definition IsInclude (n : node) (l : list (smap string)) : Prop := exists f, Fields n f /\
  HasStruct f "matrix" IsIncludes l.
