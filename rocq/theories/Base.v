(** Shared vocabulary: Python results/exceptions, strings, dictionaries, slices.
    Nothing here models ebcc itself; these are the Python primitives it uses. *)
From Coq Require Export List Arith ZArith Lia Bool Permutation.
From Coq Require Import Ascii String.
Export ListNotations.
Set Implicit Arguments.

(** Python exceptions as values. *)
Inductive err :=
| ValueError | KeyError | IndexError | AssertionError | NotImplementedError
| TypeError | AttributeError | NameError | RuntimeError | ModelNotImplemented
| BroadcastError.

Inductive result (A : Type) :=
| Ok (a : A)
| Err (e : err).
Arguments Ok {A} a.
Arguments Err {A} e.

Definition bind {A B} (r : result A) (f : A -> result B) : result B :=
  match r with Ok a => f a | Err e => Err e end.

Declare Scope py_scope.
Delimit Scope py_scope with py.
Notation "x <- r ;; k" := (bind r (fun x => k))
  (at level 61, r at next level, right associativity) : py_scope.

Definition is_ok {A} (r : result A) : bool := match r with Ok _ => true | Err _ => false end.

(** mapM: a Python list comprehension whose body may raise. *)
Fixpoint mapM {A B} (f : A -> result B) (l : list A) : result (list B) :=
  match l with
  | [] => Ok []
  | x :: l' => match f x with
               | Err e => Err e
               | Ok y => match mapM f l' with Err e => Err e | Ok ys => Ok (y :: ys) end
               end
  end.

(** Python [str]: list of code points, so that [chr]/[ord] are the identity and
    comparison of characters is comparison of numbers. *)
Definition pystr := list nat.
Definition str (s : string) : pystr := map nat_of_ascii (list_ascii_of_string s).
Definition pystr_eq_dec : forall a b : pystr, {a = b} + {a <> b} := list_eq_dec Nat.eq_dec.
Definition streqb (a b : pystr) : bool := if pystr_eq_dec a b then true else false.

(** [s.count(c)] *)
Definition count (s : list nat) (c : nat) : nat := count_occ Nat.eq_dec s c.

(** Membership test [x in l] for numbers/characters. *)
Definition memb (x : nat) (l : list nat) : bool := existsb (Nat.eqb x) l.

(** Python [l[a:b]] for non-negative bounds. *)
Definition slice {A} (a b : nat) (l : list A) : list A := firstn (b - a) (skipn a l).

(** Python [l.index(x)]: position of the first occurrence, or ValueError. *)
Fixpoint index_of (x : nat) (l : list nat) : option nat :=
  match l with
  | [] => None
  | y :: l' => if Nat.eqb x y then Some 0 else option_map S (index_of x l')
  end.

(** Insertion-ordered dictionaries (Python dict) as association lists. *)
Section Dict.
  Variables (K V : Type) (eqd : forall x y : K, {x = y} + {x <> y}).
  Definition dict := list (K * V).

  Fixpoint dget (k : K) (d : dict) : option V :=
    match d with
    | [] => None
    | (k', v) :: d' => if eqd k k' then Some v else dget k d'
    end.

  (** [d[k] = v]: overwrite in place if present, otherwise append. *)
  Fixpoint dset (k : K) (v : V) (d : dict) : dict :=
    match d with
    | [] => [(k, v)]
    | (k', v') :: d' => if eqd k k' then (k', v) :: d' else (k', v') :: dset k v d'
    end.

  Fixpoint ddel (k : K) (d : dict) : dict :=
    match d with
    | [] => []
    | (k', v') :: d' => if eqd k k' then d' else (k', v') :: ddel k d'
    end.

  Definition dkeys (d : dict) : list K := map fst d.
  Definition dmem (k : K) (d : dict) : bool := match dget k d with Some _ => true | None => false end.
End Dict.

(** A Python [set] of numbers/characters used only through [sorted(set(l))]
    or membership: duplicates removed keeping first occurrences. *)
Fixpoint dedup (l : list nat) : list nat :=
  match l with
  | [] => []
  | x :: l' => x :: filter (fun y => negb (Nat.eqb x y)) (dedup l')
  end.

(** Insertion sort, [sorted(l)] on numbers/characters. *)
Fixpoint insert_sorted (x : nat) (l : list nat) : list nat :=
  match l with
  | [] => [x]
  | y :: l' => if Nat.leb x y then x :: l else y :: insert_sorted x l'
  end.
Definition sorted_py (l : list nat) : list nat := fold_right insert_sorted [] l.

(** [itertools.product] of lists, first factor slowest (C order). *)
Fixpoint product {A} (ls : list (list A)) : list (list A) :=
  match ls with
  | [] => [[]]
  | l :: ls' => flat_map (fun x => map (cons x) (product ls')) l
  end.
