(** * Rand.v: random names (yaml/compiler/internal/rand/rand.go). *)
From Verif Require Import Model.Go.

(** yaml/compiler/internal/rand/rand.go 21. *)
Definition chars : string := "abcdefghijklmnopqrstuvwxyz0123456789".
(** yaml/compiler/internal/rand/rand.go 24. *)
Definition nameLength : nat := 32.
(** yaml/compiler/internal/rand/rand.go 28-29. *)
Definition clen : N := 36.
Definition maxrb : N := 255 - (256 mod clen).
(** yaml/compiler/internal/rand/rand.go 31: bytes asked for at a time. *)
Definition blockLength : nat := nameLength + nameLength / 4.

Section Rand.
  (** What the i-th call of crypto/rand.Read gives: [blockLength] bytes, or an error. *)
  Variable read : nat -> option (list ascii).

  (** yaml/compiler/internal/rand/rand.go 37-47: the loop over the bytes of one block; [b] are
      the characters so far. The second component tells whether the name is complete. *)
  Fixpoint takeBytes (bytes : list ascii) (b : string) : string * bool :=
    match bytes with
    | [] => (b, false)
    | rb :: bytes' =>
        if N.ltb maxrb (code rb) then takeBytes bytes' b
        else
          let b := (b +++ match String.get (N.to_nat (code rb mod clen)) chars with
                          | Some c => String c "" | None => "" end)%string in
          if Nat.eqb (String.length b) nameLength then (b, true) else takeBytes bytes' b
    end.
  (** yaml/compiler/internal/rand/rand.go 33-48. The loop need not end; [fuel] bounds the
      number of blocks looked at and [None] means that it was too small. *)
  Fixpoint readLoop (fuel i : nat) (b : string) : option (outcome string) :=
    match fuel with
    | 0 => None
    | S fuel' =>
        match read i with
        | None => Some Panic
        | Some bytes =>
            let '(b, complete) := takeBytes bytes b in
            if complete then Some (Ok b) else readLoop fuel' (S i) b
        end
    end.
  (** yaml/compiler/internal/rand/rand.go 27-50. *)
  Definition randString (fuel : nat) : option (outcome string) := readLoop fuel 0 "".
End Rand.
