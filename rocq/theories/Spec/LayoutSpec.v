(** * LayoutSpec.v: what a printer may do to the state of the writer. *)
From Verif Require Import Model.Go Model.Pretty.

Fixpoint blanks (n : nat) : string := match n with 0 => "" | S n' => String " " (blanks n') end.
(** Lines, each after a line break, that are empty or indented by at least [n] blanks. *)
Definition Indented (n : nat) (t : string) : Prop :=
  exists ls, t = concats (map (fun l => nl +++ l)%string ls) /\
    Forall (fun l => l = "" \/ exists r, l = (blanks n +++ r)%string) ls.
(** A writer that leaves out zero values. In a sequence it is one level in. *)
Definition Steady (w : writer) : Prop :=
  (0 <= w_depth w)%Z /\
  match w_index w with
  | [] => w_zero w = false
  | (_, excluded) :: _ => excluded = false /\ (1 <= w_depth w)%Z
  end.
(** The first line of an item of a sequence hangs to the left of the others. *)
Definition indentation (w : writer) : nat :=
  2 * Z.to_nat (match w_index w with (0%nat, _) :: _ => Z.sub (w_depth w) 1 | _ => w_depth w end).
Definition Balanced (f : writing) : Prop :=
  forall w w', Steady w -> f w = Ok w' ->
    w_depth w' = w_depth w /\ w_zero w' = w_zero w /\ List.length (w_index w') = List.length (w_index w) /\
    Steady w' /\ exists t, w_out w' = (w_out w +++ t)%string /\ Indented (indentation w) t.
