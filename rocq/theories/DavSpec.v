(** Vocabulary for the Davidson solver. *)
From Coq Require Import List Arith Bool Permutation.
From Verif Require Import Base Alg DavModel.
Import ListNotations.
Set Implicit Arguments.
Local Open Scope nat_scope.

Section Spec.
  Variable F : fld.
  Local Notation vec := (list F).
  Local Open Scope rng_scope.
  Definition coord (a : vec) (k : nat) : F := nth k a 0.
  Definition inner (n : nat) (a b : vec) : F := rsum (map (fun k => coord a k * coord b k) (seq 0 n)).
  (** Pairwise orthogonal unit vectors of length [n]. *)
  Definition orthonormal_set (n : nat) (l : list vec) : Prop :=
    (forall x, In x l -> length x = n) /\
    forall i j, (i < length l)%nat -> (j < length l)%nat -> inner n (nth i l []) (nth j l []) = if (i =? j)%nat then 1 else 0.
  (** The matrix of the operator in the basis. *)
  Definition represents (n : nat) (matvec : vec -> vec) (l : list vec) (m : nat -> nat -> F) : Prop :=
    forall i j, (i < length l)%nat -> (j < length l)%nat -> m i j = inner n (nth i l []) (matvec (nth j l [])).
  (** A norm: its square is the inner product with itself.  (In a field without square roots it may be zero
      instead, which makes the code drop the vector.) *)
  Definition is_norm (n : nat) (norm : vec -> F) : Prop := forall v, length v = n -> norm v * norm v = inner n v v \/ norm v = 0.
  Definition linear_map (n : nat) (matvec : vec -> vec) : Prop :=
    (forall v, length v = n -> length (matvec v) = n) /\
    (forall u v w, length u = n -> length v = n -> length w = n -> (forall k, (k < n)%nat -> coord w k = coord u k + coord v k) ->
       forall k, (k < n)%nat -> coord (matvec w) k = coord (matvec u) k + coord (matvec v) k) /\
    (forall c u w, length u = n -> length w = n -> (forall k, (k < n)%nat -> coord w k = c * coord u k) ->
       forall k, (k < n)%nat -> coord (matvec w) k = c * coord (matvec u) k).
  Record strict_order (ltb : F -> F -> bool) : Prop := {
    lt_irrefl : forall x, ltb x x = false;
    lt_trans : forall x y z, ltb x y = true -> ltb y z = true -> ltb x z = true;
    lt_total : forall x y, ltb x y = false -> ltb y x = false -> x = y }.
  (** [argsort] returns the positions in an order that makes the values non-decreasing. *)
  Definition sorts (ltb : F -> F -> bool) (argsort : list F -> list nat) : Prop :=
    forall l, Permutation (argsort l) (seq 0 (length l)) /\
      forall i j, (i < j)%nat -> (j < length l)%nat -> ltb (nth (nth j (argsort l) 0%nat) l 0) (nth (nth i (argsort l) 0%nat) l 0) = false.
  (** An eigensolver for an m x m matrix returns m eigenvalues and m columns of length m. *)
  Definition well_shaped (eig : list vec -> list (F * F) * list (list (F * F))) : Prop :=
    forall m, length (fst (eig m)) = length m /\ length (snd (eig m)) = length m /\ forall c, In c (snd (eig m)) -> length c = length m.
End Spec.
Arguments well_shaped {F}.
Arguments coord {F}. Arguments inner {F}. Arguments orthonormal_set {F}. Arguments represents {F}. Arguments is_norm {F}.
Arguments linear_map {F}. Arguments strict_order {F}. Arguments sorts {F}.

(** [o] is the outcome of some cycle of a run from [s0]. *)
Inductive after {F : fld} (one : state F -> result (outcome F)) (s0 : state F) : outcome F -> Prop :=
| after_first : forall o, one s0 = Ok o -> after one s0 o
| after_next : forall s o, after one s0 (Continue s) -> one s = Ok o -> after one s0 o.
Definition state_of {F : fld} (o : outcome F) : state F := match o with Continue s | Break s => s end.
