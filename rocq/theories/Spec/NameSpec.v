(** * NameSpec.v: random names and paths. *)
From Verif Require Import Model.Go.

(** ** Random names (C41) *)
Definition alphabet : list ascii := list_ascii_of_string "abcdefghijklmnopqrstuvwxyz0123456789".
(** The first 7 * 36 byte values are used, the others are thrown away. *)
Definition usable (b : ascii) : bool := Nat.ltb (nat_of_ascii b) 252.
Definition letter (b : ascii) : ascii := nth (nat_of_ascii b mod 36) alphabet " "%char.
(** The first [k] reads succeed with [blocks]. *)
Definition Blocks (read : nat -> option (list ascii)) (k : nat) (blocks : list (list ascii)) : Prop :=
  map read (seq 0 k) = map Some blocks.
Definition usableBytes (blocks : list (list ascii)) : list ascii := filter usable (concat blocks).
Definition allBytes : list ascii := map ascii_of_nat (seq 0 256).

(** ** Paths (C42) *)
Definition rooted (p : string) : bool := match p with String "/" _ => true | _ => false end.
(** [l] are the components of [p]. *)
Definition Components (p : string) (l : list string) : Prop :=
  l <> [] /\ Forall (fun c => ~ In "/"%char (list_ascii_of_string c)) l /\ p = join "/" l.
(** Where a walk along the components ends: so many levels above the start, then down along the
    names. There is nothing above the root. *)
Definition move (root : bool) (at_ : nat * list string) (c : string) : nat * list string :=
  let '(up, names) := at_ in
  if String.eqb c "" || String.eqb c "." then (up, names)
  else if String.eqb c ".." then
    match names with
    | [] => (if root then 0 else S up, [])
    | _ => (up, removelast names)
    end
  else (up, (names ++ [c])%list).
Definition walk (root : bool) (l : list string) : nat * list string := fold_left (move root) l (0, []).
(** The one way to write down where a walk ends. *)
Definition written (root : bool) (at_ : nat * list string) : string :=
  let '(up, names) := at_ in
  if root then ("/" +++ join "/" names)%string
  else match (repeat ".." up ++ names)%list with [] => "." | l => join "/" l end.
Definition plainName (c : string) : Prop := c <> "" /\ c <> "." /\ c <> ".." /\ ~ In "/"%char (list_ascii_of_string c).
(** [f] is [b] or something below it. *)
Definition Below (b f : string) : Prop :=
  f = b \/ exists rest, f = (if String.eqb b "/" then "/" +++ rest else b +++ "/" +++ rest)%string.
(** The path with backslashes on drive c. *)
Fixpoint backslashes (s : string) : string :=
  match s with
  | "" => ""
  | String c s' => String (if Ascii.eqb c "/" then "\"%char else c) (backslashes s')
  end.
