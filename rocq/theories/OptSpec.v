(** Vocabulary for Brueckner orbitals. *)
From Coq Require Import String.
From Verif Require Import Base Alg ArrModel PermModel EinPathModel EinPathSpec SpaceModel AnsatzModel VecModel CcModel OptModel.
Set Implicit Arguments.
Local Open Scope nat_scope.
Local Open Scope list_scope.

(** numpy's optimiser always returns a proper contraction path. *)
Definition proper_paths {F : fld} (path_of : list (list nat) -> list nat -> list (arr F) -> list contraction) : Prop :=
  forall subs out ops, valid_path (map letter_of out) (map (map letter_of) subs) (path_of subs out ops).

Section Spec.
  Variable F : fld.
  Local Open Scope rng_scope.
  Definition el (a : arr F) (i j : nat) : F := aget 0 a [i; j].
  Definition delta (i j : nat) : F := if (i =? j)%nat then 1 else 0.
  Definition sum_to (n : nat) (f : nat -> F) : F := rsum (map f (seq 0 n)).
  Definition matrix (r c : nat) (a : arr F) : Prop := wf a /\ shp a = [r; c].

  (** [y] is [x] with a change of basis along every axis: [mat k i j] is the matrix for axis [k]. *)
  Definition rotated (mat : nat -> nat -> nat -> F) (x y : arr F) : Prop :=
    wf y /\ shp y = shp x /\
    forall o, inb (shp x) o ->
      aget 0 y o = rsum (map (fun v => aget 0 x v * rprod (map (fun k => mat k (nth k v 0%nat) (nth k o 0%nat)) (seq 0 (length (shp x)))))
                             (all_idx (shp x))).
  (** Of an amplitude of rank [n] the first [n] axes are occupied, the others virtual; the rotation [u] of all
      correlated orbitals has the occupied ones first. *)
  Definition orbital_rotation (no n : nat) (u : arr F) (k i j : nat) : F :=
    if (k <? n)%nat then el u i j else el u (no + i)%nat (no + j)%nat.
  Definition spin_rotation (noa nob n : nat) (ua ub : arr F) (comb : pystr) (k i j : nat) : F :=
    if (nth k comb 0 =? chr_of "a")%nat then orbital_rotation noa n ua k i j else orbital_rotation nob n ub k i j.

  (** [u^T u = 1]. *)
  Definition orthogonal (n : nat) (u : arr F) : Prop :=
    matrix n n u /\ forall i j, (i < n)%nat -> (j < n)%nat -> sum_to n (fun k => el u k i * el u k j) = delta i j.
  Definition antisymmetric (n : nat) (a : arr F) : Prop :=
    matrix n n a /\ forall i j, (i < n)%nat -> (j < n)%nat -> el a i j = - el a j i.
  (** The columns are orthonormal with respect to the overlap matrix [s]. *)
  Definition orthonormal (s : nat -> nat -> F) (nao nmo : nat) (c : arr F) : Prop :=
    forall p q, (p < nmo)%nat -> (q < nmo)%nat ->
      sum_to nao (fun m => sum_to nao (fun n => el c m p * s m n * el c n q)) = delta p q.

  (** What is known of the matrix functions: the exponential of an antisymmetric matrix is orthogonal,
      the real logarithm of an orthogonal one with non-negative determinant is antisymmetric; changing
      the sign of a column changes the sign of the determinant, and that of an empty matrix is not negative. *)
  Record matrix_functions (expm logm : arr F -> arr F) (det_negative : arr F -> bool) : Prop := {
    exp_orthogonal : forall n a, antisymmetric n a -> orthogonal n (expm a);
    det_empty : forall u, matrix 0 0 u -> det_negative u = false;
    log_antisymmetric : forall n u, orthogonal n u -> det_negative u = false -> antisymmetric n (logm u);
    flip_sign : forall n u u', orthogonal n u -> det_negative u = true -> matrix n n u' ->
      (forall i j, (i < n)%nat -> (j < n)%nat -> el u' i j = if (j =? 0)%nat then - el u i j else el u i j) -> det_negative u' = false }.
  (** Exponentials of antisymmetric matrices and products of orthogonal matrices with non-negative determinants have
      non-negative determinants. *)
  Record proper_determinants (expm : arr F -> arr F) (det_negative : arr F -> bool) : Prop := {
    det_exp : forall n a, antisymmetric n a -> det_negative (expm a) = false;
    det_product : forall n u v w, orthogonal n u -> orthogonal n v -> det_negative u = false -> det_negative v = false -> matrix n n w ->
      (forall i j, (i < n)%nat -> (j < n)%nat -> el w i j = sum_to n (fun k => el u i k * el v k j)) -> det_negative w = false;
    det_identity : forall n u, matrix n n u -> (forall i j, (i < n)%nat -> (j < n)%nat -> el u i j = delta i j) -> det_negative u = false }.
  (** Two matrices flattened one after the other. *)
  Definition both_antisymmetric (n m : nat) (v : arr F) : Prop :=
    exists a b, antisymmetric n a /\ antisymmetric m b /\ dat v = dat a ++ dat b.
  (** The accelerator, fed with matrices that have property [P], returns such matrices. *)
  Definition accelerator (D : Type) (damp : D -> arr F -> arr F -> result (D * arr F)) (P : arr F -> Prop) (ok : D -> Prop) : Prop :=
    forall d a e, ok d -> P a -> exists d' a', damp d a e = Ok (d', a') /\ ok d' /\ P a'.
End Spec.
Arguments el {F}. Arguments delta {F}. Arguments sum_to {F}. Arguments matrix {F}. Arguments rotated {F}. Arguments orbital_rotation {F}.
Arguments spin_rotation {F}. Arguments orthogonal {F}. Arguments antisymmetric {F}. Arguments orthonormal {F}. Arguments matrix_functions {F}. Arguments proper_determinants {F}. Arguments both_antisymmetric {F}.
Arguments accelerator {F D}.

(** The shape of a spin block: the first [n] axes are occupied. *)
Definition spin_dims (noa nva nob nvb n : nat) (comb : pystr) : list nat :=
    map (fun k => if (nth k comb 0 =? chr_of "a")%nat then (if (k <? n)%nat then noa else nva) else (if (k <? n)%nat then nob else nvb)) (seq 0 (n * 2)).
(** Orbital [p] is frozen. *)
Definition is_frozen (sp : space) (p : nat) : bool := nth p (sp_frozen sp) false.

(** * The loop. *)
(** [n] cycles one after the other; [stops] tells for each state reached whether its cycle met both tolerances,
    which none but the last one does. *)
Inductive cycles {St R} (one : St -> result (St * R * R)) (small : R -> R -> bool) : nat -> St -> St -> bool -> Prop :=
| none_yet : forall s, cycles one small 0 s s false
| one_more : forall n s s1 s2 de dt, cycles one small n s s1 false -> one s1 = Ok (s2, de, dt) ->
    cycles one small (S n) s s2 (small de dt).
