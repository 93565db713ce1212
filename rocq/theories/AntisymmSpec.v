(** Specification vocabulary for antisymmetrising chosen axes of an array. *)
From Verif Require Import Base Alg ArrModel TensorSpec.
Set Implicit Arguments.

(** The axes antisymmetrise_array works on: all of them when none are given
    (ebcc/util/permutations.py:246-257). *)
Definition chosen_axes {A} (x : arr A) (axes : option (list nat)) : list nat :=
  match axes with None => seq 0 (length (shp x)) | Some l => l end.

(** Distinct axes of the array, all with the same extent. *)
Definition axes_ok {A} (x : arr A) (axes : list nat) : Prop :=
  NoDup axes /\ (forall k, In k axes -> k < length (shp x)) /\
  (forall i j, In i axes -> In j axes -> nth i (shp x) 0 = nth j (shp x) 0).

(** Exchanging any two of the axes changes the sign. *)
Definition antisymmetric_on {K : rng} (axes : list nat) (x : arr K) : Prop :=
  forall idx i j, inb (shp x) idx -> In i axes -> In j axes -> i <> j ->
    aget r0 x (exchange i j idx) = ropp (aget r0 x idx).

(** The index tuple whose entry on axis [perm[j]] is the entry of [idx] on axis [axes[j]];
    entries on other axes stay. *)
Definition moved (axes perm idx : list nat) : list nat :=
  map (fun k => match index_of k perm with Some j => nth (nth j axes 0) idx 0 | None => nth k idx 0 end) (seq 0 (length idx)).
