(** Vocabulary for the coupled cluster methods. *)
From Coq Require Import String Factorial.
From Verif Require Import Base Alg ArrModel PermModel TensorSpec EinsumModel SpaceModel AnsatzModel VecModel VecSpec CcModel.
Set Implicit Arguments.
Local Open Scope nat_scope.
Local Open Scope list_scope.

(** Does the energy of orbital class [k] enter with a plus sign?  The caller's table comes first;
    otherwise occupied classes are positive, virtual classes and bosons negative. *)
Definition enters_positively (signs : dict nat pystr) (k : nat) : option bool :=
  match dget Nat.eq_dec k signs with
  | Some s => Some (streqb s (str "+"))
  | None => if memb k (str "oOi") then Some true else if memb k (str "vVab") then Some false else None
  end.

Section Spec.
  Variable F : fld.
  Local Open Scope rng_scope.

  (** Class [k] has [n] orbitals (or modes) with energies [eps]: the frequencies for "b", the diagonal
      of the Fock block otherwise. *)
  Definition class_energies (omega : option (arr F)) (fock : pystr -> result (arr F)) (k n : nat) (eps : nat -> F) : Prop :=
    if (k =? chr_of "b")%nat
    then exists w, omega = Some w /\ wf w /\ shp w = [n] /\ forall i, eps i = aget 0 w [i]
    else exists f, fock [k; k] = Ok f /\ wf f /\ shp f = [n; n] /\ forall i, eps i = aget 0 f [i; i].

  (** [D] is the direct sum of signed energies over a list of axes, each with a sign, an extent
      and its energies. *)
  Definition signed_energies (idx : list nat) (axes : list (bool * nat * (nat -> F))) : F :=
    rsum (map (fun p => match p with ((plus, _, eps), i) => if (plus : bool) then eps i else - eps i end) (combine axes idx)).
  Definition direct_sum (axes : list (bool * nat * (nat -> F))) (D : arr F) : Prop :=
    wf D /\ shp D = map (fun a => snd (fst a)) axes /\
    forall idx, inb (shp D) idx -> aget 0 D idx = signed_energies idx axes.
End Spec.
Arguments class_energies {F}. Arguments signed_energies {F}. Arguments direct_sum {F}.

(** An axis of the denominator: orbital class [k] with its sign, extent and energies. *)
Definition axis_of (F : fld) (signs : dict nat pystr) (omega : option (arr F)) (fock : pystr -> result (arr F)) (k : nat)
    (axis : bool * nat * (nat -> F)) : Prop :=
  enters_positively signs k = Some (fst (fst axis)) /\ class_energies omega fock k (snd (fst axis)) (snd axis).
Arguments axis_of {F}.

(** Name and index letters of every amplitude of an ansatz. *)
Definition clusters (a : ansatz) (rspin : bool) (w : which) (l : list (pystr * pystr)) : Prop :=
  exists fs bs cs, fermionic_cluster_ranks a rspin w = Ok fs /\ bosonic_cluster_ranks a w = Ok bs /\
    coupling_cluster_ranks a w = Ok cs /\ l = map fst fs ++ map fst bs ++ map (fun e => fst (fst e)) cs.
(** The namespace [d] has exactly one array for each of these, under the name followed by [suffix],
    with [sz k] entries along an axis of class [k]. *)
Definition holds_blocks {A} (suffix : pystr) (l : list (pystr * pystr)) (sz : nat -> nat) (d : dict pystr (tval A)) : Prop :=
  NoDup (map fst d) /\
  (forall nm, dget pystr_eq_dec nm d <> None -> exists name key, In (name, key) l /\ nm = name ++ suffix) /\
  (forall name key, In (name, key) l ->
     exists x, dget pystr_eq_dec (name ++ suffix) d = Some (VArr x) /\ wf x /\ shp x = map sz key).
(** The entry of block [name] at an index. *)
Definition block_at {F : fld} (d : dict pystr (tval F)) (name : pystr) (idx : list nat) : F :=
  match dget pystr_eq_dec name d with Some (VArr x) => aget r0 x idx | _ => r0 end.
(** The energy denominator of a block: occupied energies minus virtual energies minus frequencies. *)
Definition denominator {F : fld} (sz : nat -> nat) (eps : nat -> nat -> F) (key : pystr) (idx : list nat) : F :=
  signed_energies idx (map (fun k => (memb k (str "oOi"), sz k, eps k)) key).
(** The letters of the keys are orbital classes (or "b") whose energies the calculation holds. *)
Definition energies_known {F : fld} (omega : option (arr F)) (fock : pystr -> result (arr F)) (l : list (pystr * pystr))
    (sz : nat -> nat) (eps : nat -> nat -> F) : Prop :=
  forall name key k, In (name, key) l -> In k key -> In k (str "oOivVab") /\ class_energies omega fock k (sz k) (eps k).

(** * Unrestricted. *)
(** The blocks of an unrestricted namespace: amplitude name, index letters, the spin string under which
    the array is stored (none for a purely bosonic amplitude) and the spin of every axis ("_" for a boson). *)
Definition ublock := (pystr * pystr * option pystr * pystr)%type.
Definition fermionic_blocks (fs : list entry) : list ublock :=
  flat_map (fun e => map (fun comb => (fst (fst e), snd (fst e), Some comb, comb)) (generate_spin_combinations (snd e) false true)) fs.
Definition bosonic_blocks (bs : list entry) : list ublock :=
  map (fun e => (fst (fst e), snd (fst e), None, repeat (chr_of "_") (snd e))) bs.
Definition coupling_blocks (cs : list (pystr * pystr * nat * nat)) : list ublock :=
  flat_map (fun e => map (fun comb => (fst (fst (fst e)), snd (fst (fst e)), Some comb, repeat (chr_of "_") (snd e) ++ comb))
                         [str "aa"; str "bb"]) cs.
(** The array of a block. *)
Definition block_of {A} (d : dict pystr (tval A)) (name : pystr) (stored : option pystr) : option (arr A) :=
  match dget pystr_eq_dec name d, stored with
  | Some (VArr x), None => Some x
  | Some (VSpin e), Some s => dget pystr_eq_dec s e
  | _, _ => None
  end.
Definition spin_shape_of (sz : nat -> nat -> nat) (key spins : pystr) : list nat := map (fun ks => sz (fst ks) (snd ks)) (combine key spins).
(** The namespace [d] has an array of the right shape for every block, under names followed by [suffix]. *)
Definition u_holds {A} (suffix : pystr) (l : list ublock) (sz : nat -> nat -> nat) (d : dict pystr (tval A)) : Prop :=
  NoDup (map fst d) /\
  (forall nm, dget pystr_eq_dec nm d <> None -> exists b, In b l /\ nm = fst (fst (fst b)) ++ suffix) /\
  (forall name key stored spins, In (name, key, stored, spins) l ->
     exists x, block_of d (name ++ suffix) stored = Some x /\ wf x /\ shp x = spin_shape_of sz key spins).
(** The fermionic arrays are antisymmetric in axes of equal letter and spin. *)
Definition u_antisymmetric {F : fld} (suffix : pystr) (l : list ublock) (d : dict pystr (tval F)) : Prop :=
  forall name key stored spins x, In (name, key, stored, spins) l -> block_of d (name ++ suffix) stored = Some x -> spin_antisymmetric key spins x.
Definition u_block_at {F : fld} (d : dict pystr (tval F)) (name : pystr) (stored : option pystr) (idx : list nat) : F :=
  match block_of d name stored with Some x => aget r0 x idx | None => r0 end.
Definition u_denominator {F : fld} (sz : nat -> nat -> nat) (eps : nat -> nat -> nat -> F) (key spins : pystr) (idx : list nat) : F :=
  signed_energies idx (map (fun ks => (memb (fst ks) (str "oOi"), sz (fst ks) (snd ks), eps (fst ks) (snd ks))) (combine key spins)).
Definition u_energies_known {F : fld} (omega : option (arr F)) (fock : pystr -> pystr -> result (arr F)) (l : list ublock)
    (sz : nat -> nat -> nat) (eps : nat -> nat -> nat -> F) : Prop :=
  forall name key stored spins k s, In (name, key, stored, spins) l -> In (k, s) (combine key spins) ->
    In k (str "oOivVab") /\ class_energies omega (fock [s; s]) k (sz k s) (eps k s).
(** The number of axes with each combination of letter and spin. *)
Definition spin_multiplicities (key spins : pystr) : list nat :=
  map (count_occ (list_eq_dec Nat.eq_dec) (map (fun ks => [fst ks; snd ks]) (combine key spins)))
      (nodup (list_eq_dec Nat.eq_dec) (map (fun ks => [fst ks; snd ks]) (combine key spins))).
(** What antisymmetrisation multiplies an antisymmetric array by. *)
Definition antisymmetriser_scale {F : fld} (key spins : pystr) : F :=
  fdiv (rnat (fold_right Nat.mul 1 (map fact (spin_multiplicities key spins))))
       (rpow (radd r1 r1) (fold_right Nat.add 0 (map pred (spin_multiplicities key spins)))).

(** Symmetries of two-particle density matrices (chemists' order): exchange of the two pairs, and
    transposition within both pairs. *)
Definition exchange_symmetric {F : fld} (n : nat) (r : arr F) : Prop :=
  forall i j k l, i < n -> j < n -> k < n -> l < n -> aget r0 r [k; l; i; j] = aget r0 r [i; j; k; l].
Definition braket_symmetric {F : fld} (n m : nat) (r : arr F) : Prop :=
  forall i j k l, i < n -> j < n -> k < m -> l < m -> aget r0 r [j; i; l; k] = aget r0 r [i; j; k; l].
(** A vector of the given length. *)
Definition vec_of {F : fld} (n : nat) (x : arr F) : Prop := wf x /\ shp x = [n].
(** The bare boson drive, if any. *)
Definition bare_at {F : fld} (bare : option (arr F)) (i : nat) : F := match bare with None => r0 | Some b => aget r0 b [i] end.

(** * Starting amplitudes. *)
(** An element of an array that may be missing, and the requirement that it is there. *)
Definition at_index {F : fld} (r : result (arr F)) (idx : list nat) : F := match r with Ok x => aget r0 x idx | Err _ => r0 end.
Definition available {F : fld} (r : result (arr F)) (shape : list nat) : Prop := exists x, r = Ok x /\ wf x /\ shp x = shape.
(** The element of the Hamiltonian which drives an excitation of rank [n] to first order: the Fock
    matrix for singles, (ia|jb) for restricted doubles, <ij||ab> for general doubles, nothing for
    higher ranks. *)
Definition r_driver {F : fld} (c : cc F) (key : pystr) (n : nat) (idx : list nat) : F :=
  match n, key, idx with
  | 1, _, _ => at_index (cc_fock c key) idx
  | 2, [k0; k1; k2; k3], [i; j; a; b] => at_index (cc_eris c [k0; k2; k1; k3]) [i; a; j; b]
  | _, _, _ => r0
  end.
Definition g_driver {F : fld} (c : cc F) (key : pystr) (n : nat) (idx : list nat) : F :=
  match n with 1 => at_index (cc_fock c key) idx | 2 => at_index (cc_eris c key) idx | _ => r0 end.
(** ... an excitation of [n] bosons: the vector G for one boson. *)
Definition b_driver {F : fld} (G : option (arr F)) (n : nat) (idx : list nat) : F :=
  match n, G with 1, Some x => aget r0 x idx | _, _ => r0 end.
(** ... an excitation of one electron and [nb] bosons: the coupling for one boson. *)
Definition eb_driver {F : fld} (g : option (pystr -> result (arr F))) (key : pystr) (nb : nat) (idx : list nat) : F :=
  match nb, g with 1, Some g => at_index (g key) idx | _, _ => r0 end.
(** What the calculation must hold for [init_amps]: sizes of the spaces and of the modes, and the
    integrals for the amplitudes of the ansatz. *)
Definition sizes_known (sp : space) (nbos : nat) (l : list (pystr * pystr)) (sz : nat -> nat) : Prop :=
  forall name key k, In (name, key) l -> In k key -> if k =? chr_of "b" then sz k = nbos else sp_size sp k = Ok (sz k).
Definition bosons_known {F : fld} (omega G : option (arr F)) (g : option (pystr -> result (arr F))) (sz : nat -> nat)
    (bs : list entry) (cs : list (pystr * pystr * nat * nat)) : Prop :=
  (bs <> [] -> exists x, G = Some x /\ wf x /\ shp x = [sz (chr_of "b")]) /\
  (bs <> [] \/ cs <> [] -> exists w, omega = Some w /\ wf w /\ shp w = [sz (chr_of "b")] /\ forall i, i < sz (chr_of "b") -> aget r0 w [i] <> r0) /\
  (cs <> [] -> exists g', g = Some g' /\ forall name key nf, In (name, key, nf, 1) cs -> available (g' key) (map sz key)).
(** ... in the unrestricted class: same-spin doubles are half the antisymmetrised integral. *)
Definition u_driver {F : fld} (c : ucc F) (key : pystr) (n : nat) (comb : pystr) (idx : list nat) : F :=
  match n, comb, key, idx with
  | 1, _, _, _ => at_index (u_fock c comb key) idx
  | 2, [s0; s1; s2; s3], [k0; k1; k2; k3], [i; j; a; b] =>
      let v i j := at_index (u_eris c [s0; s2; s1; s3] [k0; k2; k1; k3]) [i; a; j; b] in
      if s0 =? s1 then rmul half (rsub (v i j) (v j i)) else v i j
  | _, _, _, _ => r0
  end.
Definition u_eb_driver {F : fld} (g : option (pystr -> pystr -> result (arr F))) (key : pystr) (nb : nat) (comb : pystr) (idx : list nat) : F :=
  match nb, g with 1, Some g => at_index (g comb key) idx | _, _ => r0 end.
Definition u_sizes_known (sa sb : space) (nbos : nat) (l : list ublock) (sz : nat -> nat -> nat) : Prop :=
  forall name key stored spins k s, In (name, key, stored, spins) l -> In (k, s) (combine key spins) ->
    if k =? chr_of "b" then sz k s = nbos else sp_size (if s =? chr_of "a" then sa else sb) k = Ok (sz k s).

(** [init_amps] can work: what the ansatz asks for, its denominators and integrals are there.
    Restricted and general classes... *)
Definition init_ready {F : fld} (c : cc F) (rspin : bool) (sz : nat -> nat) (eps : nat -> nat -> F)
    (fs bs : list entry) (cs : list (pystr * pystr * nat * nat)) : Prop :=
  let l := map fst fs ++ map fst bs ++ map (fun e => fst (fst e)) cs in
  frank (cc_ansatz c) <= 1 /\ distinct_names (cc_ansatz c) rspin Wt /\
  fermionic_cluster_ranks (cc_ansatz c) rspin Wt = Ok fs /\ bosonic_cluster_ranks (cc_ansatz c) Wt = Ok bs /\ coupling_cluster_ranks (cc_ansatz c) Wt = Ok cs /\
  (forall name key, In (name, key) l -> length key <= 26) /\ energies_known (cc_omega c) (cc_fock c) l sz eps /\
  sizes_known (cc_space c) (nbos_of (cc_omega c)) l sz /\ bosons_known (cc_omega c) (cc_G c) (cc_g c) sz bs cs /\
  (forall name key, In (name, key, 1) fs -> available (cc_fock c key) (map sz key)).
(** ... and the unrestricted class. *)
Definition u_init_ready {F : fld} (c : ucc F) (sz : nat -> nat -> nat) (eps : nat -> nat -> nat -> F)
    (fs bs : list entry) (cs : list (pystr * pystr * nat * nat)) : Prop :=
  let l := fermionic_blocks fs ++ bosonic_blocks bs ++ coupling_blocks cs in
  frank (u_ansatz c) <= 1 /\ distinct_names (u_ansatz c) false Wt /\
  fermionic_cluster_ranks (u_ansatz c) false Wt = Ok fs /\ bosonic_cluster_ranks (u_ansatz c) Wt = Ok bs /\ coupling_cluster_ranks (u_ansatz c) Wt = Ok cs /\
  (forall name key stored spins, In (name, key, stored, spins) l -> length key <= 26) /\ u_energies_known (u_omega c) (u_fock c) l sz eps /\
  u_sizes_known (u_alpha c) (u_beta c) (nbos_of (u_omega c)) l sz /\
  (forall name comb, In (name, str "ov", 1) fs -> In comb [str "aa"; str "bb"] -> available (u_fock c comb (str "ov")) (spin_shape_of sz (str "ov") comb)) /\
  (forall name s t, In (name, str "oovv", 2) fs -> In (s, t) [(chr_of "a", chr_of "a"); (chr_of "a", chr_of "b"); (chr_of "b", chr_of "b")] ->
     available (u_eris c [s; s; t; t] (str "ovov")) (spin_shape_of sz (str "ovov") [s; s; t; t])) /\
  bosons_known (u_omega c) (u_G c) None (fun k => sz k (chr_of "_")) bs [] /\
  (cs <> [] -> exists g w, u_g c = Some g /\ u_omega c = Some w /\
     forall name key nf comb, In (name, key, nf, 1) cs -> In comb [str "aa"; str "bb"] -> available (g comb key) (spin_shape_of sz key (chr_of "_" :: comb))).
(** The amplitudes [out] are the first-order guess: every element is the driving element of the
    Hamiltonian over the denominator. *)
Definition first_order {F : fld} (driver : pystr -> nat -> list nat -> F) (G : option (arr F)) (g : option (pystr -> result (arr F)))
    (sz : nat -> nat) (eps : nat -> nat -> F) (fs bs : list entry) (cs : list (pystr * pystr * nat * nat)) (out : dict pystr (tval F)) : Prop :=
  holds_blocks [] (map fst fs ++ map fst bs ++ map (fun e => fst (fst e)) cs) sz out /\
  (forall name key n idx, In (name, key, n) fs -> inb (map sz key) idx -> block_at out name idx = fdiv (driver key n idx) (denominator sz eps key idx)) /\
  (forall name key n idx, In (name, key, n) bs -> inb (map sz key) idx -> block_at out name idx = fdiv (b_driver G n idx) (denominator sz eps key idx)) /\
  (forall name key nf nb idx, In (name, key, nf, nb) cs -> inb (map sz key) idx -> block_at out name idx = fdiv (eb_driver g key nb idx) (denominator sz eps key idx)).
Definition u_first_order {F : fld} (c : ucc F) (sz : nat -> nat -> nat) (eps : nat -> nat -> nat -> F)
    (fs bs : list entry) (cs : list (pystr * pystr * nat * nat)) (out : dict pystr (tval F)) : Prop :=
  u_holds [] (fermionic_blocks fs ++ bosonic_blocks bs ++ coupling_blocks cs) sz out /\
  (forall name key n comb idx, In (name, key, n) fs -> In comb (generate_spin_combinations n false true) -> inb (spin_shape_of sz key comb) idx ->
     u_block_at out name (Some comb) idx = fdiv (u_driver c key n comb idx) (u_denominator sz eps key comb idx)) /\
  (forall name key n idx, In (name, key, n) bs -> inb (spin_shape_of sz key (repeat (chr_of "_") n)) idx ->
     u_block_at out name None idx = fdiv (b_driver (u_G c) n idx) (u_denominator sz eps key (repeat (chr_of "_") n) idx)) /\
  (forall name key nf nb comb idx, In (name, key, nf, nb) cs -> In comb [str "aa"; str "bb"] -> inb (spin_shape_of sz key (repeat (chr_of "_") nb ++ comb)) idx ->
     u_block_at out name (Some comb) idx = fdiv (u_eb_driver (u_g c) key nb comb idx) (u_denominator sz eps key (repeat (chr_of "_") nb ++ comb) idx)).

(** * Starting lambdas: the amplitudes with bra and ket exchanged. *)
Definition lambda_name (name : pystr) : pystr := str "l" ++ tl name.
Definition transposed_amplitudes {F : fld} (fs bs : list entry) (cs : list (pystr * pystr * nat * nat)) (sz : nat -> nat) (t lam : dict pystr (tval F)) : Prop :=
  (forall name key n os vs, In (name, key, n) fs -> inb (map sz key) (os ++ vs) -> length os = n -> block_at lam (lambda_name name) (vs ++ os) = block_at t name (os ++ vs)) /\
  (forall name key n idx, In (name, key, n) bs -> inb (map sz key) idx -> block_at lam (str "l" ++ name) idx = block_at t name idx) /\
  (forall name key nf nb ms i a, In (name, key, nf, nb) cs -> inb (map sz key) (ms ++ [i; a]) -> block_at lam (str "l" ++ name) (ms ++ [a; i]) = block_at t name (ms ++ [i; a])).
Definition u_transposed_amplitudes {F : fld} (fs bs : list entry) (cs : list (pystr * pystr * nat * nat)) (sz : nat -> nat -> nat) (t lam : dict pystr (tval F)) : Prop :=
  (forall name key n comb os vs, In (name, key, n) fs -> In comb (generate_spin_combinations n false true) -> inb (spin_shape_of sz key comb) (os ++ vs) -> length os = n ->
     u_block_at lam (lambda_name name) (Some comb) (vs ++ os) = u_block_at t name (Some comb) (os ++ vs)) /\
  (forall name key n idx, In (name, key, n) bs -> inb (spin_shape_of sz key (repeat (chr_of "_") n)) idx -> u_block_at lam (str "l" ++ name) None idx = u_block_at t name None idx) /\
  (forall name key nf nb comb ms i a, In (name, key, nf, nb) cs -> In comb [str "aa"; str "bb"] -> inb (spin_shape_of sz key (repeat (chr_of "_") nb ++ comb)) (ms ++ [i; a]) ->
     u_block_at lam (str "l" ++ name) (Some comb) (ms ++ [a; i]) = u_block_at t name (Some comb) (ms ++ [i; a])).
(** Every spin array of the namespace belongs to a block. *)
Definition u_only {A} (l : list ublock) (t : dict pystr (tval A)) : Prop :=
  forall name e, dget pystr_eq_dec name t = Some (VSpin e) -> NoDup (map fst e) /\ forall s, In s (map fst e) -> exists key spins, In (name, key, Some s, spins) l.
