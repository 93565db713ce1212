(** Vocabulary for the Hamiltonian containers. *)
From Coq Require Import String.
From Verif Require Import Base Alg ArrModel SpaceModel SpaceSpec HamModel.
Set Implicit Arguments.
Local Open Scope string_scope.
Local Open Scope list_scope.
Local Open Scope nat_scope.
Local Open Scope list_scope.

Section Spec.
  Variable F : fld.
  Local Open Scope rng_scope.

  Definition sum (n : nat) (f : nat -> F) : F := rsum (map f (seq 0 n)).
  Definition array_of (s : list nat) (a : arr F) : Prop := wf a /\ shp a = s.

  (** Letter [c] stands for the molecular orbitals [a], ..., [b - 1]. *)
  Definition orbitals_from (s : space) (c a b : nat) : Prop := known_char c /\ a <= b /\ forall i, denotes s c i <-> (a <= i < b)%nat.
  (** Letter [c] stands for [k] functions; [w i mu] is the coefficient of atomic orbital [mu] in the [i]th. *)
  Definition functions_of (s : space) (C : arr F) (nao c k : nat) (w : nat -> nat -> F) : Prop :=
    (c = ch_p /\ k = nao /\ forall i mu, w i mu = if (i =? mu)%nat then 1 else 0) \/
    (exists a b, orbitals_from s c a b /\ k = (b - a)%nat /\ forall i mu, w i mu = aget 0 C [mu; (a + i)%nat]).
  (** Square coefficients over a non-empty space. *)
  Definition orbital_basis (s : space) (C : arr F) (nao : nat) : Prop :=
    accepted s /\ (0 < nmo s)%nat /\ array_of [nao; nmo s] C.

  (** The Fock container of a calculation: one space and one set of coefficients for both indices. *)
  Definition plain_fock (f : fock F) (s : space) (C : arr F) (nao : nat) : Prop :=
    orbital_basis s C nao /\ fk_spaces f = [s; s] /\ fk_coeffs f = [C; C] /\ array_of [nao; nao] (fk_ao f) /\ fk_shift f = false.
  Definition shifted_fock (f : fock F) (s : space) (C : arr F) (nao : nat) (nb : nat) (g xi : arr F) : Prop :=
    orbital_basis s C nao /\ fk_spaces f = [s; s] /\ fk_coeffs f = [C; C] /\ array_of [nao; nao] (fk_ao f) /\ fk_shift f = true /\
    fk_g f = Some (@mkelbos F g [s; s]) /\ fk_xi f = Some xi /\ array_of [nb; nmo s; nmo s] g /\ array_of [nb] xi.
  Definition symmetric (n : nat) (m : arr F) : Prop := forall p q, (p < n)%nat -> (q < n)%nat -> aget 0 m [p; q] = aget 0 m [q; p].
  (** One matrix is the transpose of another. *)
  Definition mutual_transposes (a b : arr F) : Prop :=
    exists n m, array_of [n; m] a /\ array_of [m; n] b /\
      forall i j, (i < n)%nat -> (j < m)%nat -> aget 0 a [i; j] = aget 0 b [j; i].

  (** The spin components of the unrestricted containers. *)
  Definition spin_key (spin : pystr) (i : nat) : Prop := (spin = str "aa" /\ i = 0%nat) \/ (spin = str "bb" /\ i = 1%nat).
  (** [w] holds the couplings of the electrons of spin [i], whether or not [g] has a spin axis. *)
  Definition spin_coupling (g : arr F) (i nb n : nat) (w : nat -> nat -> nat -> F) : Prop :=
    (array_of [nb; n; n] g /\ forall I p q, w I p q = aget 0 g [I; p; q]) \/
    (array_of [2; nb; n; n]%nat g /\ forall I p q, w I p q = aget 0 g [i; I; p; q]).
  Definition spin_fock (u : ufock F) (i nao : nat) : Prop :=
    orbital_basis (pick (uf_space u) i) (pick (uf_coeff u) i) nao /\ array_of [nao; nao] (pick (uf_ao u) i).
  Definition u_plain (u : ufock F) (i nao : nat) : Prop :=
    spin_fock u i nao /\ uf_shift u = false /\
    (uf_g u = None \/ exists g nb w, uf_g u = Some g /\ spin_coupling g i nb (nmo (pick (uf_space u) i)) w).
  Definition u_shifted (u : ufock F) (i nao nb : nat) (w : nat -> nat -> nat -> F) (xi : arr F) : Prop :=
    spin_fock u i nao /\ uf_shift u = true /\ uf_xi u = Some xi /\ array_of [nb] xi /\
    exists g, uf_g u = Some g /\ spin_coupling g i nb (nmo (pick (uf_space u) i)) w.

  (** Chemists' integrals over four sets of functions. *)
  Definition mulliken (nao : nat) (eri : arr F) (w1 w2 w3 w4 : nat -> F) : F :=
    sum nao (fun p => sum nao (fun q => sum nao (fun r => sum nao (fun s => aget 0 eri [p; q; r; s] * (w1 p * w2 q * w3 r * w4 s))))).
  (** The symmetries of real two-electron integrals. *)
  Definition eightfold (nao : nat) (eri : arr F) : Prop := forall p q r s, (p < nao)%nat -> (q < nao)%nat -> (r < nao)%nat -> (s < nao)%nat ->
    aget 0 eri [p; q; r; s] = aget 0 eri [q; p; r; s] /\ aget 0 eri [p; q; r; s] = aget 0 eri [p; q; s; r] /\
    aget 0 eri [p; q; r; s] = aget 0 eri [r; s; p; q].

  (** Spin-orbital coefficients: [2 * nao] rows, the alpha rows first. *)
  Definition spin_row (nao : nat) (C : arr F) (spin p mu : nat) : F := aget 0 C [(spin * nao + mu)%nat; p].
  (** (pq|rs) over spin orbitals: the spins of each electron are summed. *)
  Definition spin_mulliken (nao : nat) (eri C : arr F) (p q r s : nat) : F :=
    sum 2 (fun x => sum 2 (fun y => mulliken nao eri (spin_row nao C x p) (spin_row nao C x q) (spin_row nao C y r) (spin_row nao C y s))).
  Definition spin_basis (s : space) (C : arr F) (nao : nat) : Prop :=
    accepted s /\ (0 < nmo s)%nat /\ array_of [(2 * nao)%nat; nmo s] C.
  Definition general_eris (g : geris F) : Prop :=
    spin_basis (ge_space g) (ge_coeff g) (ge_nao g) /\ array_of [ge_nao g; ge_nao g; ge_nao g; ge_nao g] (ge_ao g).

  (** Restricted and density-fitted integrals: letter [i] of the key uses space and coefficients [i]. *)
  Definition plain_eris (e : reris F) (ss : list space) (cs : list (arr F)) (nao : nat) : Prop :=
    er_spaces e = ss /\ er_coeffs e = cs /\ length ss = 4 /\ Forall2 (fun s C => orbital_basis s C nao) ss cs /\
    array_of [nao; nao; nao; nao] (er_ao e).
  Definition plain_cderis (c : cderis F) (ss : list space) (cs : list (arr F)) (naux : nat) : Prop :=
    cd_spaces c = ss /\ cd_coeffs c = cs /\ length ss = 4 /\ Forall2 (fun s C => orbital_basis s C (cd_nao c)) ss cs /\
    array_of [naux; (cd_nao c * (cd_nao c + 1) / 2)%nat] (cd_vec c).
  (** The two-electron integrals represented by the fitted vectors; each row holds a lower triangle. *)
  Definition fitted (c : cderis F) (naux : nat) (eri : arr F) : Prop :=
    array_of [cd_nao c; cd_nao c; cd_nao c; cd_nao c] eri /\
    forall p q r s, (q <= p < cd_nao c)%nat -> (s <= r < cd_nao c)%nat ->
      let v := sum naux (fun Q => aget 0 (cd_vec c) [Q; (p * (p + 1) / 2 + q)%nat] * aget 0 (cd_vec c) [Q; (r * (r + 1) / 2 + s)%nat]) in
      aget 0 eri [p; q; r; s] = v /\ aget 0 eri [q; p; r; s] = v /\ aget 0 eri [p; q; s; r] = v /\ aget 0 eri [q; p; s; r] = v.
End Spec.
Arguments sum {F}. Arguments array_of {F}. Arguments functions_of {F}. Arguments orbital_basis {F}.
Arguments plain_fock {F}. Arguments shifted_fock {F}. Arguments symmetric {F}. Arguments mutual_transposes {F}.
Arguments mulliken {F}. Arguments eightfold {F}. Arguments spin_row {F}. Arguments spin_mulliken {F}. Arguments spin_basis {F}.
Arguments general_eris {F}. Arguments plain_eris {F}. Arguments plain_cderis {F}. Arguments fitted {F}.
Arguments spin_coupling {F}. Arguments spin_fock {F}. Arguments u_plain {F}. Arguments u_shifted {F}.
