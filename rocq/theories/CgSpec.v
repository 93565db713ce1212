(** Vocabulary for the generated functions. *)
From Coq Require Import PArith.
From Verif Require Import Base Alg ArrModel TensorModel EinsumModel EinsumSpec EinPathModel EinPathSpec CgModel.
Set Implicit Arguments.

(** What is assumed of numpy's path optimiser: the paths it returns are valid. *)
Definition path_ok (path : list (list nat) -> list nat -> list (list nat) -> list contraction) : Prop :=
  forall subs out shps, valid_path (map letter_of out) (map (map letter_of) subs) (path subs out shps).

(** The names of the intermediates cached between calls of a matrix-vector product, [ints.*]. *)
Definition is_cached (x : ref) : bool := match x with xI (xI _) => true | _ => false end.

Section Spec.
  Variable F : fld.
  Local Open Scope rng_scope.

  (** An array with one extent per axis, as given by the kind of the axis. *)
  Definition of_kinds (sz : cls -> nat) (cs : list cls) (a : arr F) : Prop := wf a /\ shp a = map sz cs.
  (** The arguments are arrays of the right extents. *)
  Definition args_ok (sz : cls -> nat) (ins : list (ref * list cls)) (e : env F) : Prop :=
    forall x cs, In (x, cs) ins -> exists a, e x = Some a /\ of_kinds sz cs a.
  (** The elements of the array bound to a name. *)
  Definition tens (o : option (arr F)) (idx : list nat) : F := match o with Some a => aget 0 a idx | None => 0 end.

  (** Element [o] of a contraction, the operands being given by their elements: the sum, over all values
      of the labels that are not in the output, of the product of the operands. *)
  Definition ein (szl : nat -> nat) (subs : list (list nat)) (out : list nat) (fs : list (list nat -> F)) (o : list nat) : F :=
    sum_over F szl (summed subs out) (fun e => rprod (map (fun p => (snd p) (map e (fst p))) (combine subs fs))) (env_of out o).

  (** Element [idx] of the [k]-th result. *)
  Definition entry (rs : list (arr F)) (k : nat) (idx : list nat) : F :=
    match nth_error rs k with Some a => aget 0 a idx | None => 0 end.

  (** Rotations of the orbitals (and auxiliary functions, bosons) of each kind by orthogonal matrices. *)
  Definition orthogonal (sz : cls -> nat) (U : cls -> nat -> nat -> F) : Prop :=
    forall c i j, (i < sz c)%nat -> (j < sz c)%nat ->
      rsum (map (fun k => U c i k * U c j k) (seq 0 (sz c))) = (if (i =? j)%nat then 1 else 0) /\
      rsum (map (fun k => U c k i * U c k j) (seq 0 (sz c))) = (if (i =? j)%nat then 1 else 0).
  (** Element [idx] of a tensor in the rotated orbitals: every axis is rotated. *)
  Definition rotated (sz : cls -> nat) (U : cls -> nat -> nat -> F) (cs : list cls) (f : list nat -> F) (idx : list nat) : F :=
    rsum (map (fun jdx => rprod (map (fun p => U (fst p) (fst (snd p)) (snd (snd p))) (combine cs (combine idx jdx))) * f jdx)
              (all_idx (map sz cs))).
End Spec.
