(** Vocabulary for the equation-of-motion solvers. *)
From Coq Require Import String Permutation.
From Verif Require Import Base Alg ArrModel PermModel TensorSpec SpaceModel AnsatzModel VecModel VecSpec CcModel CcSpec EomModel DavSpec.
Set Implicit Arguments.
Local Open Scope nat_scope.
Local Open Scope list_scope.

(** What an amplitude with index letters [key] and rank [n] looks like: restricted, ... *)
Definition r_amplitude {K : rng} (sp : space) (key : pystr) (n : nat) (t : tval K) : Prop :=
  exists y, t = VArr y /\ wf y /\ sized_by sp key (shp y).
(** ... general: antisymmetric under exchange of axes with the same letter, ... *)
Definition g_amplitude {K : rng} (sp : space) (key : pystr) (n : nat) (t : tval K) : Prop :=
  exists y, t = VArr y /\ wf y /\ sized_by sp key (shp y) /\ antisymmetric key y.
(** ... unrestricted: one array for each unique spin string, antisymmetric under exchange of axes with the same letter
    and the same spin. *)
Definition u_amplitude {K : rng} (x : sector) (sa sb : space) (key : pystr) (n : nat) (t : tval K) : Prop :=
  exists d, t = VSpin d /\
    (forall spin, dget pystr_eq_dec spin d <> None <-> In spin (u_spins x n)) /\
    (forall spin y, dget pystr_eq_dec spin d = Some y ->
       wf y /\ spin_sized_by sa sb key spin (shp y) /\ spin_antisymmetric key spin y).
(** Exactly the amplitudes of the list, each as described by [P]. *)
Definition eom_namespace {K : rng} (P : pystr -> nat -> tval K -> Prop) (fs : list entry) (amps : dict pystr (tval K)) : Prop :=
  (forall name key n, In (name, key, n) fs -> exists t, dget pystr_eq_dec name amps = Some t /\ P key n t) /\
  (forall name, dget pystr_eq_dec name amps <> None -> In name (map (fun e => fst (fst e)) fs)).

(** The excitations of the ansatz in this sector: at least one, with distinct names, and no bosonic or coupling ones. *)
Definition excitations (a : ansatz) (rspin : bool) (x : sector) (fs : list entry) : Prop :=
  fermionic_cluster_ranks a rspin (which_of x) = Ok fs /\ fs <> [] /\ NoDup (map (fun e => fst (fst e)) fs) /\
  bosonic_cluster_ranks a (which_of x) = Ok [] /\ (frank a = 0 \/ brank a = 0).

(** The letters of an excitation are as many as its spin strings have: always so in the neutral sector and below quadruples. *)
Definition adapted (x : sector) (fs : list entry) : Prop := forall name key n, In (name, key, n) fs -> n < 4 \/ x = EE.

(** The number of times the most frequent letter occurs. *)
Definition most_frequent (l : pystr) (f : nat) : Prop :=
  (exists s, count_occ Nat.eq_dec l s = f) /\ forall s, count_occ Nat.eq_dec l s <= f.
(** The array [z] is [y] divided entry by entry by [f]. *)
Definition divided {F : fld} (f : nat) (y z : arr F) : Prop :=
  shp z = shp y /\ dat z = map (fun v => fdiv v (rnat f)) (dat y).
(** Every array of [amps'] is that of [amps] divided by the multiplicity of the most frequent spin among the first [n]. *)
Definition divided_by_spin {F : fld} (fs : list entry) (amps amps' : dict pystr (tval F)) : Prop :=
  (forall name, dget pystr_eq_dec name amps' <> None <-> dget pystr_eq_dec name amps <> None) /\
  forall name key n d, In (name, key, n) fs -> dget pystr_eq_dec name amps = Some (VSpin d) ->
    exists d', dget pystr_eq_dec name amps' = Some (VSpin d') /\
      (forall spin, dget pystr_eq_dec spin d' <> None <-> dget pystr_eq_dec spin d <> None) /\
      forall spin y, dget pystr_eq_dec spin d = Some y ->
        exists f z, dget pystr_eq_dec spin d' = Some z /\ most_frequent (firstn n spin) f /\ divided f y z.

(** The orbital classes of the excitations have the stated numbers of orbitals and energies. *)
Definition known_energies {F : fld} (c : cc F) (fs : list entry) (sz : nat -> nat) (eps : nat -> nat -> F) : Prop :=
  forall name key n k, In (name, key, n) fs -> In k key ->
    class_energies (cc_omega c) (cc_fock c) k (sz k) (eps k) /\ sp_size (cc_space c) k = Ok (sz k).
Definition u_known_energies {F : fld} (c : ucc F) (fs : list entry) (sz : nat -> nat -> nat) (eps : nat -> nat -> nat -> F) : Prop :=
  forall name key n k s, In (name, key, n) fs -> In k key -> In s (str "ab") ->
    class_energies (u_omega c) (u_fock c [s; s]) k (sz k s) (eps k s) /\
    sp_size (if s =? chr_of "a" then u_alpha c else u_beta c) k = Ok (sz k s).
(** The array [D] of the given shape holds the values [f], with the sign changed when [minus]. *)
Definition holds_signed {F : fld} (minus : bool) (shape : list nat) (f : list nat -> F) (D : arr F) : Prop :=
  wf D /\ shp D = shape /\ forall idx, inb shape idx -> aget r0 D idx = if minus then ropp (f idx) else f idx.

(** The vector with a one at position [k] and zeros elsewhere. *)
Definition is_unit_vector {F : fld} (m k : nat) (v : list F) : Prop :=
  length v = m /\ k < m /\ nth k v r0 = r1 /\ forall i, i <> k -> nth i v r0 = r0.

(** Absolute value, and the number by which a sector orders the entries of the diagonal. *)
Definition magnitude {F : fld} (ltb : F -> F -> bool) (v : F) : F := if ltb v r0 then ropp v else v.
Definition guess_key {F : fld} (ltb : F -> F -> bool) (x : sector) (diag : list F) (p : nat) : F :=
  match x with EE => nth p diag r0 | IP | EA => magnitude ltb (nth p diag r0) end.
(** Position [p] is preferred to position [q]: a smaller key, or the same key and an earlier position. *)
Definition preferred {F : fld} (ltb : F -> F -> bool) (key : nat -> F) (p q : nat) : Prop :=
  ltb (key p) (key q) = true \/ (key p = key q /\ p < q).
(** How many of the [n] entries of the diagonal are searched: only those of single excitations with the Koopmans option. *)
Definition searched (koopmans : option nat) (n : nat) : nat := match koopmans with None => n | Some n1 => Nat.min n1 n end.
