(** * TreeSpec.v: the layout of the files the formatter writes. *)
From Verif Require Import Model.Go.

(** ** Trees and their layout. A missing entry or item is an empty line. *)
Inductive tree : Type :=
| TScalar (s : string)
| TBelow (by_ : nat) (s : string)
| TFold (l : list string)
| TSeq (l : list (option tree))
| TMap (l : list (option (string * tree))).
Notation item := (option (string * tree)) (only parsing).
(** Lines with their indentation. *)
Notation rline := (option (nat * string)) (only parsing).
(** The first line of an item has its dash. *)
Fixpoint hang (n : nat) (ls : list rline) : list rline :=
  match ls with
  | [] => []
  | None :: r => None :: hang n r
  | Some (_, s) :: r => Some (n, "- " +++ s)%string :: r
  end.
(** Mappings are indented by two, sequences are not. *)
Fixpoint render (n : nat) (t : tree) : list rline :=
  match t with
  | TScalar s | TBelow _ s => [Some (n, s)]
  | TFold l => map (fun s => Some (n, s)) l
  | TSeq l => flat_map (fun o => match o with None => [None] | Some t => hang n (render (2 + n) t) end) l
  | TMap l =>
      flat_map (fun o : option (string * tree) =>
        match o with
        | None => [None]
        | Some (k, t) =>
            match t with
            | TScalar s => [Some (n, k +++ ": " +++ s)%string]
            | TBelow b s => [Some (n, k +++ ":")%string; Some (b + n, s)]
            | TFold _ => Some (n, k +++ ": >")%string :: render (2 + n) t
            | TSeq _ => Some (n, k +++ ":")%string :: render n t
            | TMap _ => Some (n, k +++ ":")%string :: render (2 + n) t
            end
        end) l
  end.
Fixpoint pad (n : nat) : string := match n with 0 => "" | S n' => String " " (pad n') end.
Definition rtext (l : rline) : string :=
  match l with None => nl | Some (n, s) => (nl +++ pad n +++ s)%string end.
Definition text (ls : list rline) : string := concats (map rtext ls).
