(** Specification notions for the conversion between cluster amplitudes and CI vectors. *)
From Coq Require Import String ZArith.
From Verif Require Import Base Alg ArrModel PermModel PermSpec TensorModel TensorSpec SpaceModel AnsatzModel VecModel VecSpec CcModel CgModel CgSpec CgFormSpec CgPairs CgExpSpec FciSpec.
Local Open Scope nat_scope.
Local Open Scope list_scope.

(** The block of order [n] and spins [comb] of unrestricted cluster amplitudes. *)
Definition cluster {F : fld} (amps : dict pystr (tval F)) (n : nat) (comb : pystr) : option (arr F) :=
  match dget pystr_eq_dec (str "t" ++ dec n) amps with Some (VSpin d) => dget pystr_eq_dec comb d | _ => None end.
(** All unrestricted cluster amplitudes up to an order: every spin string of the unique list, of the extents of the active
    orbitals, antisymmetric among indices of the same kind and spin. *)
Definition cluster_amplitudes {F : fld} (sa sb : space) (max_order : nat) (amps : dict pystr (tval F)) : Prop :=
  forall n comb, 1 <= n -> n <= max_order -> In comb (generate_spin_combinations n false true) ->
    exists x, cluster amps n comb = Some x /\ wf x /\ spin_sized_by sa sb (excitation_key n) comb (shp x) /\
              spin_antisymmetric (excitation_key n) comb x.
(** The number of orbitals of each kind: 4 and 5 are occupied and virtual alpha orbitals, 6 and 7 beta. *)
Definition spin_sizes (sa sb : space) (sz : cls -> nat) : Prop :=
  sz 4 = naocc sa /\ sz 5 = navir sa /\ sz 6 = naocc sb /\ sz 7 = navir sb.

(** Closed shells: both spins have the orbitals of the space; 0 and 1 are the occupied and virtual spatial orbitals. *)
Definition closed_sizes (sp : space) (sz : cls -> nat) : Prop := spin_sizes sp sp sz /\ sz 0 = naocc sp /\ sz 1 = navir sp /\ splits sz closed_split.
(** The restricted cluster amplitudes up to an order, by name, with the spins of the electrons they excite. *)
Definition restricted_names (max_order : nat) : list (string * list bool) :=
  filter (fun q => length (snd q) <=? max_order)
    [("t1", [false]); ("t2", [false; true]); ("t3", [false; true; false]); ("t4", [false; true; false; true]); ("t4a", [false; true; false; false])]%string.
(** Those of a closed shell: each is the sum, with signs, of the spatial excitations in [eB] in which every electron keeps its spin. *)
Definition closed_shell_amplitudes {F : fld} (sz : cls -> nat) (eB : env F) (max_order : nat) (amps : dict pystr (tval F)) : Prop :=
  forall name p, In (name, p) (restricted_names max_order) ->
    exists x, dget pystr_eq_dec (str name) amps = Some (VArr x) /\ of_kinds F sz (repeat 0 (length p) ++ repeat 1 (length p)) x /\
      forall idx, inb (shp x) idx -> aget r0 x idx = value sz eB (map spatial_label (occupied_of p ++ virtual_of p)) (in_spatial Cluster (occupied_of p) (virtual_of p)) idx.
