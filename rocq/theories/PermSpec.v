(** Specification vocabulary for permutations, independent of the model. *)
From Verif Require Import Base.
Set Implicit Arguments.

(** [swaps k l p]: [p] is obtained from [l] by exactly [k] exchanges of two entries. *)
Inductive swaps {A} : nat -> list A -> list A -> Prop :=
| swaps_none : forall l, swaps 0 l l
| swaps_one : forall k l l1 x m y l2,
    swaps k l (l1 ++ x :: m ++ y :: l2) ->
    swaps (S k) l (l1 ++ y :: m ++ x :: l2).

(** (-1)^k *)
Definition minus_one_pow (k : nat) : Z := if Nat.even k then 1%Z else (-1)%Z.

(** Entries strictly (weakly) decreasing from left to right. *)
Definition decreasing (diag : bool) (t : list nat) : Prop :=
  forall i j, i < j -> j < length t ->
    if diag then nth j t 0 <= nth i t 0 else nth j t 0 < nth i t 0.

(** Lexicographic order on tuples of the same length. *)
Inductive lex_lt : list nat -> list nat -> Prop :=
| lex_head : forall x y s t, x < y -> lex_lt (x :: s) (y :: t)
| lex_tail : forall x s t, lex_lt s t -> lex_lt (x :: s) (x :: t).

(** Falling factorial n (n-1) ... (n-k+1). *)
Fixpoint falling (n k : nat) {struct k} : nat :=
  match k with 0 => 1 | S k' => match n with 0 => 0 | S n' => n * falling n' k' end end.
(** Rising factorial n (n+1) ... (n+k-1). *)
Fixpoint rising (n k : nat) : nat :=
  match k with 0 => 1 | S k' => n * rising (S n) k' end.

(** A string of [n] spin labels 'a'/'b'. *)
Definition spin_str (n : nat) (t : list nat) : Prop :=
  length t = n /\ forall c, In c t -> c = 97 \/ c = 98.
(** The two halves (first [n] characters, and the rest) are rearrangements of each other. *)
Definition same_class (n : nat) (s s' : list nat) : Prop :=
  Permutation (firstn n s) (firstn n s') /\ Permutation (skipn n s) (skipn n s').
