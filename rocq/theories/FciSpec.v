(** Specification notions for the conversion between amplitudes and CI vectors. *)
From Coq Require Import String ZArith.
From Verif Require Import Base Alg ArrModel PermModel PermSpec TensorModel TensorSpec SpaceModel AnsatzModel VecModel VecSpec CcModel.
Local Open Scope nat_scope.
Local Open Scope list_scope.

(** What is required of the table of string addresses: for excitations of [n] electrons out of [nocc] of [norb] orbitals there are
    binomial(nocc, n) binomial(nvir, n) distinct addresses with a sign each; none is the address 0 of the reference and different orders
    share none. *)
Definition addresses_ok (tn : nat -> nat -> nat -> list nat * list Z) : Prop :=
  forall norb nocc n, nocc <= norb -> 1 <= n ->
    let (addrs, signs) := tn norb nocc n in
    length addrs * (fact n * fact n) = falling nocc n * falling (norb - nocc) n /\
    length signs = length addrs /\ NoDup addrs /\ ~ In 0 addrs /\
    (forall s, In s signs -> s = 1%Z \/ s = (-1)%Z) /\
    (forall m x, 1 <= m -> m <> n -> In x addrs -> ~ In x (fst (tn norb nocc m))).

(** Index letters of an excitation of [n] electrons in the active orbitals. *)
Definition excitation_key (n : nat) : pystr := repeat (chr_of "O") n ++ repeat (chr_of "V") n.
(** The block of order [n] and spins [comb]. *)
Definition coefficient {F : fld} (camps : dict pystr (tval F)) (n : nat) (comb : pystr) : option (arr F) :=
  match dget pystr_eq_dec (str "c" ++ dec n) camps with Some (VSpin d) => dget pystr_eq_dec comb d | _ => None end.
(** All unrestricted coefficient amplitudes up to an order: every spin string of the unique list, of the extents of the active
    orbitals, antisymmetric among indices of the same kind and spin. *)
Definition coefficient_amplitudes {F : fld} (sa sb : space) (max_order : nat) (camps : dict pystr (tval F)) : Prop :=
  forall n comb, 1 <= n -> n <= max_order -> In comb (generate_spin_combinations n false true) ->
    exists x, coefficient camps n comb = Some x /\ wf x /\ spin_sized_by sa sb (excitation_key n) comb (shp x) /\
              spin_antisymmetric (excitation_key n) comb x.
(** The single amplitudes have the extents of the active orbitals. *)
Definition singles_sized {F : fld} (sa sb : space) (amps : dict pystr (tval F)) : Prop :=
  exists d xa xb, dget pystr_eq_dec (str "t1") amps = Some (VSpin d) /\
    dget pystr_eq_dec (str "aa") d = Some xa /\ shp xa = [naocc sa; navir sa] /\
    dget pystr_eq_dec (str "bb") d = Some xb /\ shp xb = [naocc sb; navir sb].
