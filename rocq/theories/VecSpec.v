(** Vocabulary for amplitude namespaces and vectors. *)
From Coq Require Import String.
From Verif Require Import Base Alg ArrModel PermModel TensorSpec SpaceModel AnsatzModel VecModel.
Set Implicit Arguments.
Local Open Scope nat_scope.
Local Open Scope list_scope.

(** Two namespaces hold the same entries. *)
Definition same_entry {A} (x y : option (tval A)) : Prop :=
  match x, y with
  | None, None => True
  | Some (VArr a), Some (VArr b) => a = b
  | Some (VSpin d), Some (VSpin e) => forall s, dget pystr_eq_dec s d = dget pystr_eq_dec s e
  | _, _ => False
  end.
Definition same_namespace {A} (d e : dict pystr (tval A)) : Prop :=
  forall name, same_entry (dget pystr_eq_dec name d) (dget pystr_eq_dec name e).

(** The shape has, for the axes of [key], the sizes of the orbital classes named by its letters. *)
Definition sized_by (sp : space) (key : pystr) (shape : list nat) : Prop :=
  Forall2 (fun k n => sp_size sp k = Ok n) key shape.
(** ... each in the alpha or the beta space according to the letter of [spin]. *)
Definition spin_sized_by (sa sb : space) (key spin : pystr) (shape : list nat) : Prop :=
  Forall2 (fun sk n => sp_size (if fst sk =? chr_of "a" then sa else sb) (snd sk) = Ok n) (combine spin key) shape.

(** All the amplitudes of an ansatz, and nothing else, with their shapes: restricted and general. *)
Record rg_namespace {K : rng} (a : ansatz) (sp : space) (nbos : nat) (rspin : bool) (w : which)
    (amps : dict pystr (tval K)) : Prop := {
  rg_fermionic : forall fs name key n, fermionic_cluster_ranks a rspin w = Ok fs -> In (name, key, n) fs ->
    exists x, dget pystr_eq_dec name amps = Some (VArr x) /\ wf x /\ sized_by sp key (shp x);
  rg_bosonic : forall bs name key n, bosonic_cluster_ranks a w = Ok bs -> In (name, key, n) bs ->
    exists x, dget pystr_eq_dec name amps = Some (VArr x) /\ wf x /\ shp x = repeat nbos n;
  rg_coupling : forall cs name key nf nb, coupling_cluster_ranks a w = Ok cs -> In (name, key, nf, nb) cs ->
    exists x s, dget pystr_eq_dec name amps = Some (VArr x) /\ wf x /\
      shp x = repeat nbos nb ++ s /\ sized_by sp (skipn nb key) s;
  rg_only : forall fs bs cs name x, fermionic_cluster_ranks a rspin w = Ok fs -> bosonic_cluster_ranks a w = Ok bs ->
    coupling_cluster_ranks a w = Ok cs -> dget pystr_eq_dec name amps = Some x ->
    In name (map (fun e => fst (fst e)) fs) \/ In name (map (fun e => fst (fst e)) bs) \/
    In name (map (fun e => fst (fst (fst e))) cs) }.

(** Exchanging two axes with the same letter and the same spin changes the sign. *)
Definition spin_antisymmetric {K : rng} (key spin : pystr) (x : arr K) : Prop :=
  forall idx i j, inb (shp x) idx -> i < length key -> j < length key -> i <> j ->
    nth i key 0 = nth j key 0 -> nth i spin 0 = nth j spin 0 ->
    aget r0 x (exchange i j idx) = ropp (aget r0 x idx).

(** Unrestricted: a namespace over the unique spin strings for each fermionic amplitude, with
    antisymmetric arrays; coupling amplitudes for both spins. *)
Record u_namespace {K : rng} (a : ansatz) (sa sb : space) (nbos : nat) (w : which)
    (amps : dict pystr (tval K)) : Prop := {
  u_fermionic : forall fs name key n, fermionic_cluster_ranks a false w = Ok fs -> In (name, key, n) fs ->
    exists d, dget pystr_eq_dec name amps = Some (VSpin d) /\
      (forall spin, dget pystr_eq_dec spin d <> None <-> In spin (generate_spin_combinations n false true)) /\
      (forall spin x, dget pystr_eq_dec spin d = Some x ->
         wf x /\ spin_sized_by sa sb key spin (shp x) /\ spin_antisymmetric key spin x);
  u_bosonic : forall bs name key n, bosonic_cluster_ranks a w = Ok bs -> In (name, key, n) bs ->
    exists x, dget pystr_eq_dec name amps = Some (VArr x) /\ wf x /\ shp x = repeat nbos n;
  u_coupling : forall cs name key nf nb, coupling_cluster_ranks a w = Ok cs -> In (name, key, nf, nb) cs ->
    exists d xa xb ta tb, dget pystr_eq_dec name amps = Some (VSpin d) /\
      (forall spin, dget pystr_eq_dec spin d =
         if pystr_eq_dec spin (str "aa") then Some xa else if pystr_eq_dec spin (str "bb") then Some xb else None) /\
      wf xa /\ wf xb /\ shp xa = repeat nbos nb ++ ta /\ sized_by sa (skipn nb key) ta /\
      shp xb = repeat nbos nb ++ tb /\ sized_by sb (skipn nb key) tb;
  u_only : forall fs bs cs name x, fermionic_cluster_ranks a false w = Ok fs -> bosonic_cluster_ranks a w = Ok bs ->
    coupling_cluster_ranks a w = Ok cs -> dget pystr_eq_dec name amps = Some x ->
    In name (map (fun e => fst (fst e)) fs) \/ In name (map (fun e => fst (fst e)) bs) \/
    In name (map (fun e => fst (fst (fst e))) cs) }.

(** The names of the fermionic amplitudes, and of the coupling amplitudes, are distinct. *)
Definition distinct_names (a : ansatz) (rspin : bool) (w : which) : Prop :=
  (forall fs, fermionic_cluster_ranks a rspin w = Ok fs -> NoDup (map (fun e => fst (fst e)) fs)) /\
  (forall cs, coupling_cluster_ranks a w = Ok cs -> NoDup (map (fun e => fst (fst (fst e))) cs)).
(** The ansatz has at least one amplitude and its operator strings can be read. *)
Definition has_amplitudes (a : ansatz) (rspin : bool) (w : which) : Prop :=
  exists fs bs cs, fermionic_cluster_ranks a rspin w = Ok fs /\ bosonic_cluster_ranks a w = Ok bs /\
    coupling_cluster_ranks a w = Ok cs /\ (fs <> [] \/ bs <> [] \/ cs <> []).
