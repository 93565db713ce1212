(** Vocabulary for the orbital space properties. *)
From Verif Require Import Base SpaceModel.
Set Implicit Arguments.

(** Orbital [i] is in the mask. *)
Definition isin (i : nat) (m : mask) : Prop := nth_error m i = Some true.

(** The documented meaning of each character, orbital by orbital. *)
Definition denotes (s : space) (c i : nat) : Prop :=
  i < nmo s /\
  let occ := isin i (sp_occupied s) in let fro := isin i (sp_frozen s) in let act := isin i (sp_active s) in
  (c = ch_x /\ ~ fro) \/ (c = ch_o /\ occ /\ ~ fro) \/ (c = ch_O /\ occ /\ act) \/ (c = ch_i /\ occ /\ ~ act) \/
  (c = ch_v /\ ~ occ /\ ~ fro) \/ (c = ch_V /\ ~ occ /\ act) \/ (c = ch_a /\ ~ occ /\ ~ act).
Definition known_char (c : nat) : Prop := In c [ch_x; ch_o; ch_O; ch_i; ch_v; ch_V; ch_a].

(** Number of orbitals satisfying a decidable predicate given as a mask. *)
Definition cardinal (n : nat) (P : nat -> Prop) (k : nat) : Prop :=
  exists l, NoDup l /\ (forall i, In i l <-> i < n /\ P i) /\ length l = k.

(** Orbitals are ordered with the occupied ones first / the frozen occupied ones first. *)
Definition occupied_first (s : space) : Prop := exists a b, sp_occupied s = repeat true a ++ repeat false b.
(** Frozen orbitals: the lowest ones, all occupied, and the highest ones, all virtual. *)
Definition frozen_outer (s : space) : Prop := exists a k b,
  sp_frozen s = repeat true a ++ repeat false k ++ repeat true b /\
  (forall i, i < a -> isin i (sp_occupied s)) /\ (forall i, a + k <= i -> ~ isin i (sp_occupied s)).

(** A space that the constructor accepted. *)
Definition accepted (s : space) : Prop := exists o f a, make_space o f a = Ok s.
(** No orbital is both frozen and active. *)
Definition frozen_active_disjoint (f a : mask) : Prop := forall i, ~ (isin i f /\ isin i a).
