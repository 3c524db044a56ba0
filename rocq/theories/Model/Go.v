(** * Go.v: the fragment of Go the rest of the model is written in.

    Nothing in this file models a file of /repo; it fixes how Go strings, errors,
    panics, maps and the random source are represented, and models the standard
    library functions the code of /repo calls ([strings], [strconv.Itoa], ...). *)
From Coq Require Export String Ascii List Bool Arith NArith ZArith.
From Coq Require Import Decimal DecimalString.
Export ListNotations.
Open Scope string_scope.
Open Scope list_scope.

(** Go strings and byte slices: Coq strings, i.e. lists of bytes. *)
Infix "+++" := String.append (at level 60, right associativity) : string_scope.

(** ** Results: a value, an error, or a panic. *)
Inductive outcome (A : Type) : Type :=
| Ok (a : A)
| Err (e : string)
| Panic.
Arguments Ok {A} a.
Arguments Err {A} e.
Arguments Panic {A}.

Definition obind {A B} (m : outcome A) (k : A -> outcome B) : outcome B :=
  match m with Ok a => k a | Err e => Err e | Panic => Panic end.
Notation "x <- m ;; k" := (obind m (fun x => k))
  (at level 61, m at next level, right associativity).
Notation "' p <- m ;; k" := (obind m (fun p => k))
  (at level 61, p pattern, m at next level, right associativity).
Notation "m ;;; k" := (obind m (fun _ => k)) (at level 61, right associativity).

Definition omap {A B} (f : A -> B) (m : outcome A) : outcome B :=
  match m with Ok a => Ok (f a) | Err e => Err e | Panic => Panic end.

(** A nil-able pointer is an [option]; dereferencing nil panics. *)
Definition deref {A} (p : option A) : outcome A :=
  match p with Some a => Ok a | None => Panic end.

(** A Go loop that stops at the first error or panic. *)
Fixpoint otraverse {A B} (f : A -> outcome B) (l : list A) : outcome (list B) :=
  match l with
  | [] => Ok []
  | a :: l' => b <- f a ;; bs <- otraverse f l' ;; Ok (b :: bs)
  end.
Fixpoint oiter {A} (f : A -> outcome unit) (l : list A) : outcome unit :=
  match l with
  | [] => Ok tt
  | a :: l' => f a ;;; oiter f l'
  end.
Fixpoint ofold {A S} (f : S -> A -> outcome S) (l : list A) (s : S) : outcome S :=
  match l with
  | [] => Ok s
  | a :: l' => s' <- f s a ;; ofold f l' s'
  end.

(** ** Code that draws random names: the state is the number of names drawn. *)
Definition M (A : Type) : Type := nat -> outcome (A * nat).
Definition mret {A} (a : A) : M A := fun n => Ok (a, n).
Definition mbind {A B} (m : M A) (k : A -> M B) : M B :=
  fun n => match m n with Ok (a, n') => k a n' | Err e => Err e | Panic => Panic end.
Definition mlift {A} (o : outcome A) : M A :=
  fun n => match o with Ok a => Ok (a, n) | Err e => Err e | Panic => Panic end.
Notation "x <~ m ;; k" := (mbind m (fun x => k))
  (at level 61, m at next level, right associativity).
Notation "' p <~ m ;; k" := (mbind m (fun p => k))
  (at level 61, p pattern, m at next level, right associativity).

(** [fresh rnd] is one call of rand.String (yaml/compiler/internal/rand/rand.go 27-50):
    [rnd i] is the name returned by the i-th call of an execution. *)
Definition fresh (rnd : nat -> string) : M string := fun n => Ok (rnd n, S n).

Fixpoint mfold {A S} (f : S -> A -> M S) (l : list A) (s : S) : M S :=
  match l with
  | [] => mret s
  | a :: l' => s' <~ f s a ;; mfold f l' s'
  end.

(** ** Maps: association lists, first binding of a key counts, iteration in list order. *)
Definition smap (V : Type) : Type := list (string * V).

Fixpoint mget {V} (k : string) (m : smap V) : option V :=
  match m with
  | [] => None
  | (k', v) :: m' => if String.eqb k k' then Some v else mget k m'
  end.
(** [m[k] = v]: replace the binding in place or add it at the end. *)
Fixpoint mset {V} (k : string) (v : V) (m : smap V) : smap V :=
  match m with
  | [] => [(k, v)]
  | (k', v') :: m' => if String.eqb k k' then (k, v) :: m' else (k', v') :: mset k v m'
  end.
Definition mkeys {V} (m : smap V) : list string := map fst m.
Definition mhas {V} (k : string) (m : smap V) : bool :=
  match mget k m with Some _ => true | None => false end.
(** Assigning all entries of one map to another, in iteration order. *)
Fixpoint msets {V} (new : smap V) (m : smap V) : smap V :=
  match new with
  | [] => m
  | (k, v) :: new' => msets new' (mset k v m)
  end.

(** Sets of strings (map[string]struct{}). *)
Definition smem (s : string) (l : list string) : bool := existsb (String.eqb s) l.

(** ** Package strings, on bytes. *)
Definition isEmpty (s : string) : bool := match s with "" => true | _ => false end.

Fixpoint sdrop (n : nat) (s : string) : string :=
  match n, s with
  | 0, _ => s
  | S n', String _ s' => sdrop n' s'
  | S _, "" => ""
  end.
Fixpoint stake (n : nat) (s : string) : string :=
  match n, s with
  | 0, _ => ""
  | S n', String c s' => String c (stake n' s')
  | S _, "" => ""
  end.

(** strings.HasPrefix(s, p). *)
Definition hasPrefix (s p : string) : bool := String.prefix p s.
(** strings.HasSuffix(s, p). *)
Definition hasSuffix (s p : string) : bool :=
  Nat.leb (String.length p) (String.length s)
  && String.eqb (sdrop (String.length s - String.length p) s) p.
(** strings.TrimPrefix and strings.TrimSuffix. *)
Definition trimPrefix (s p : string) : string :=
  if hasPrefix s p then sdrop (String.length p) s else s.
Definition trimSuffix (s p : string) : string :=
  if hasSuffix s p then stake (String.length s - String.length p) s else s.

(** strings.Contains(s, p). *)
Fixpoint contains (s p : string) : bool :=
  String.prefix p s
  || match s with "" => false | String _ s' => contains s' p end.

Fixpoint smap_chars (f : ascii -> ascii) (s : string) : string :=
  match s with "" => "" | String c s' => String (f c) (smap_chars f s') end.
Fixpoint sexistsb (f : ascii -> bool) (s : string) : bool :=
  match s with "" => false | String c s' => f c || sexistsb f s' end.
Fixpoint sforallb (f : ascii -> bool) (s : string) : bool :=
  match s with "" => true | String c s' => f c && sforallb f s' end.
(** Occurrence of one byte. *)
Definition hasChar (c : ascii) (s : string) : bool := sexistsb (Ascii.eqb c) s.

Definition byte (n : N) : ascii := ascii_of_N n.
Definition code (c : ascii) : N := N_of_ascii c.
Definition between (lo hi : N) (c : ascii) : bool := (N.leb lo (code c) && N.leb (code c) hi)%bool.
Definition isLower := between 97 122.
Definition isUpper := between 65 90.
Definition isDigit := between 48 57.
(** strings.ToUpper, strings.ToLower, restricted to ASCII letters; other bytes are kept.
    Simplification: Go also maps non-ASCII letters. *)
Definition upperChar (c : ascii) : ascii := if isLower c then byte (code c - 32) else c.
Definition lowerChar (c : ascii) : ascii := if isUpper c then byte (code c + 32) else c.
Definition toUpper : string -> string := smap_chars upperChar.
Definition toLower : string -> string := smap_chars lowerChar.

(** strings.Replace(s, old, new, -1) for a non-empty [old]: scanning left to right, an
    occurrence of [old] is replaced and skipped. *)
Fixpoint replace_skip (old new : string) (skip : nat) (s : string) : string :=
  match s with
  | "" => ""
  | String c s' =>
      match skip with
      | S k => replace_skip old new k s'
      | 0 => if String.prefix old s
             then new +++ replace_skip old new (String.length old - 1) s'
             else String c (replace_skip old new 0 s')
      end
  end%string.
Definition replaceAll (s old new : string) : string := replace_skip old new 0 s.

(** Splitting at every occurrence of one byte (strings.Split with a one-byte separator). *)
Fixpoint split_on (sep : ascii) (s : string) : list string :=
  match s with
  | "" => [""]
  | String c s' =>
      if Ascii.eqb c sep then "" :: split_on sep s'
      else match split_on sep s' with
           | [] => [String c ""]
           | h :: t => String c h :: t
           end
  end.
(** strings.SplitN(s, sep, n) for a one-byte separator and n >= 1: at most n pieces. *)
Fixpoint splitn (n : nat) (sep : ascii) (s : string) : list string :=
  match n with
  | 0 => []
  | 1 => [s]
  | S n' =>
      (fix go (acc : string) (r : string) : list string :=
         match r with
         | "" => [acc]
         | String c r' =>
             if Ascii.eqb c sep then acc :: splitn n' sep r'
             else go (acc +++ String c "")%string r'
         end) "" s
  end.

(** strings.Join. *)
Fixpoint join (sep : string) (l : list string) : string :=
  match l with
  | [] => ""
  | [x] => x
  | x :: l' => (x +++ sep +++ join sep l')%string
  end.

Fixpoint concats (l : list string) : string :=
  match l with [] => "" | x :: l' => (x +++ concats l')%string end.

(** strconv.Itoa and %d. *)
Definition itoa_nat (n : nat) : string := NilZero.string_of_uint (Nat.to_uint n).
Definition itoa (z : Z) : string := NilZero.string_of_int (Z.to_int z).

(** strings.EqualFold(s, t) when [t] is a lower-case ASCII word without 'k' and 's'
    (Go also folds the Kelvin sign and the long s, which match only k and s). *)
Definition equalFold (s t : string) : bool := String.eqb (toLower s) t.

Definition NL : ascii := "010"%char.
Definition CR : ascii := "013"%char.
Definition nl : string := String NL "".
Definition cr : string := String CR "".
