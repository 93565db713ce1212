(** Spin orbitals: what converting amplitudes has to give. *)
From Coq Require Import Permutation.
From Verif Require Import Base Alg ArrModel PermModel.
Set Implicit Arguments.
Local Open Scope list_scope.

(** [true] is alpha, [false] is beta. *)
Definition spin_char (s : bool) : nat := if s then ch_a else ch_b.

(** Every orbital of class [k] of the general calculation is an alpha or a beta orbital: [slices 'a' k] and
    [slices 'b' k] list the positions of the former and the latter, without repetition. *)
Definition alpha_beta (slices : nat -> nat -> list nat) (size : nat -> nat) (k : nat) : Prop :=
  Permutation (slices ch_a k ++ slices ch_b k) (seq 0 (size k)).
(** Position of the [p]-th orbital of spin [s] and class [k]. *)
Definition spin_orbital_at (slices : nat -> nat -> list nat) (s : bool) (k p : nat) : nat := nth p (slices (spin_char s) k) 0.

Section Spec.
  Variable F : fld.
  Local Open Scope rng_scope.
  Local Notation tensor := (list nat -> F).

  (** Amplitudes of a general calculation in terms of those of an unrestricted one.  Single excitations: *)
  Definition general_singles (aa bb : tensor) (s t : bool) (x : list nat) (i a : nat) : F :=
    match s, t with
    | true, true => aa (x ++ [i; a])
    | false, false => bb (x ++ [i; a])
    | _, _ => 0
    end.
  (** Double excitations: antisymmetric, and zero if spin is not conserved.  Equal-spin blocks are stored with a factor
      1/2, so that the two terms add up to the amplitude if the block is antisymmetric. *)
  Definition general_doubles (aaaa abab bbbb : tensor) (s t u v : bool) (i j a b : nat) : F :=
    match s, t, u, v with
    | true, true, true, true => aaaa [i; j; a; b] + - aaaa [j; i; a; b]
    | false, false, false, false => bbbb [i; j; a; b] + - bbbb [j; i; a; b]
    | true, false, true, false => abab [i; j; a; b]
    | true, false, false, true => - abab [i; j; b; a]
    | false, true, true, false => - abab [j; i; a; b]
    | false, true, false, true => abab [j; i; b; a]
    | _, _, _, _ => 0
    end.
  (** Unrestricted amplitudes in terms of restricted ones: equal spins. *)
  Definition half : F := fdiv 1 (1 + 1).
  Definition same_spin_doubles (t : tensor) (i j a b : nat) : F :=
    half * (half * (t [i; j; a; b] + - t [j; i; a; b] + - t [i; j; b; a] + t [j; i; b; a])).
End Spec.
