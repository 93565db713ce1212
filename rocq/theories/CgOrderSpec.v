(** Orders of the orbitals. *)
From Coq Require Import Permutation.
From Verif Require Import Base Alg ArrModel CgModel CgSpec CgFormSpec.
Set Implicit Arguments.

Section Spec.
  Variable F : fld.
  Variable sz : cls -> nat.

  (** A different order of the orbitals of each kind: orbital [i] is at position [at_ c i] of the other order. *)
  Definition reordering (at_ : cls -> nat -> nat) : Prop := forall c, Permutation (map (at_ c) (seq 0 (sz c))) (seq 0 (sz c)).
  Definition moved (at_ : cls -> nat -> nat) (cs idx : list nat) : list nat := map (fun p => at_ (fst p) (snd p)) (combine cs idx).

  (** Blocks of orbitals whose orbitals are interleaved in any way: orbital [i] of block [b] is at position [pos c b i]
      of the orbitals of kind [c]. *)
  Variable split : cls -> list cls.
  Variable pos : cls -> cls -> nat -> nat.
  Definition positions : Prop := forall c, Permutation (flat_map (fun b => map (pos c b) (seq 0 (sz b))) (split c)) (seq 0 (sz c)).
  Definition located (cs pat idx : list nat) : list nat := map (fun p => pos (fst p) (fst (snd p)) (snd (snd p))) (combine cs (combine pat idx)).
  (** As [given_by], for this order. *)
  Definition given_at (T : table) (e : env F) (x : ref) (cs : list cls) (f : list nat -> F) : Prop :=
    forall pat idx, In pat (patterns split cs) -> inb (map sz pat) idx ->
      f (located cs pat idx) = value sz e (fst (lookup T x pat)) (snd (lookup T x pat)) idx.
End Spec.
