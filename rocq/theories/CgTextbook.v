(** The textbook coupled-cluster equations in spin orbitals (T. D. Crawford and H. F. Schaefer, Rev. Comput.
    Chem. 14 (2000) 33, eqs. 150-153; I. Shavitt and R. J. Bartlett, Many-Body Methods in Chemistry and Physics). *)
From Coq Require Import List ZArith.
From Verif Require Import CgModel CgFormSpec CgNames.
Import ListNotations.
Local Open Scope nat_scope.

(** Labels: i j k l occupied, a b c d virtual. *)
Local Notation i := 0. Local Notation j := 1. Local Notation k := 2. Local Notation l := 3.
Local Notation a := 10. Local Notation b := 11. Local Notation c := 12. Local Notation d := 13.
Definition factor := (Z * (ref * list nat))%type.
Definition occupied (p : nat) : bool := kind p =? 0.

(** Antisymmetrised integral <pq||rs> of real orbitals, in terms of the stored blocks oooo, ooov, oovv, ovov,
    ovvv, vvvv: <pq||rs> = <rs||pq> = - <qp||rs> = - <pq||sr>. *)
Definition V (p q r s : nat) : factor :=
  match occupied p, occupied q, occupied r, occupied s with
  | true, true, true, true => (1%Z, (n_v'oooo, [p; q; r; s]))
  | true, true, true, false => (1%Z, (n_v'ooov, [p; q; r; s]))
  | true, true, false, true => ((-1)%Z, (n_v'ooov, [p; q; s; r]))
  | true, false, true, true => (1%Z, (n_v'ooov, [r; s; p; q]))
  | false, true, true, true => ((-1)%Z, (n_v'ooov, [r; s; q; p]))
  | true, true, false, false => (1%Z, (n_v'oovv, [p; q; r; s]))
  | false, false, true, true => (1%Z, (n_v'oovv, [r; s; p; q]))
  | true, false, true, false => (1%Z, (n_v'ovov, [p; q; r; s]))
  | true, false, false, true => ((-1)%Z, (n_v'ovov, [p; q; s; r]))
  | false, true, true, false => ((-1)%Z, (n_v'ovov, [q; p; r; s]))
  | false, true, false, true => (1%Z, (n_v'ovov, [q; p; s; r]))
  | true, false, false, false => (1%Z, (n_v'ovvv, [p; q; r; s]))
  | false, true, false, false => ((-1)%Z, (n_v'ovvv, [q; p; r; s]))
  | false, false, true, false => (1%Z, (n_v'ovvv, [r; s; p; q]))
  | false, false, false, true => ((-1)%Z, (n_v'ovvv, [s; r; p; q]))
  | false, false, false, false => (1%Z, (n_v'vvvv, [p; q; r; s]))
  end.
(** Fock matrix, symmetric. *)
Definition f (p q : nat) : factor :=
  match occupied p, occupied q with
  | true, true => (1%Z, (n_f'oo, [p; q]))
  | true, false => (1%Z, (n_f'ov, [p; q]))
  | false, true => (1%Z, (n_f'ov, [q; p]))
  | false, false => (1%Z, (n_f'vv, [p; q]))
  end.
(** Amplitudes t_i^a, t_ij^ab. *)
Definition t1 (p q : nat) : factor := (1%Z, (n_t1, [p; q])).
Definition t2 (p q r s : nat) : factor := (1%Z, (n_t2, [p; q; r; s])).

(** A term: number times factors, summed over the labels that are not those of the result. *)
Definition term (num : Z) (den : positive) (fs : list factor) : monomial :=
  mono (fold_left Z.mul (map fst fs) num) den (map snd fs).
Definition swap (p q x : nat) : nat := if x =? p then q else if x =? q then p else x.
(** The permutation operator P(pq) X = X - X with p and q exchanged. *)
Definition P (p q : nat) (X : formula) : formula :=
  X ++ map (fun m => mono (- fst (fst m)) (snd (fst m)) (map (fun y => (fst y, map (swap p q) (snd y))) (snd m))) X.
Definition degree (m : monomial) : nat := length (filter (fun y => Pos.eqb (fst y) n_t1 || Pos.eqb (fst y) n_t2)%bool (snd m)).
Definition degree1 (m : monomial) : nat := length (filter (fun y => Pos.eqb (fst y) n_t1) (snd m)).
Definition degree2 (m : monomial) : nat := length (filter (fun y => Pos.eqb (fst y) n_t2) (snd m)).

(** Correlation energy (eq. 134). *)
Definition ccsd_energy : formula :=
  [term 1 1 [f i a; t1 i a]; term 1 4 [V i j a b; t2 i j a b]; term 1 2 [V i j a b; t1 i a; t1 j b]].
(** Singles (eq. 152). *)
Definition ccsd_singles : formula :=
  [term 1 1 [f i a];
   term 1 1 [f a c; t1 i c];
   term (-1) 1 [f k i; t1 k a];
   term 1 1 [V k a c i; t1 k c];
   term 1 1 [f k c; t2 i k a c];
   term 1 2 [V k a c d; t2 k i c d];
   term (-1) 2 [V k l c i; t2 k l c a];
   term (-1) 1 [f k c; t1 i c; t1 k a];
   term (-1) 1 [V k l c i; t1 k c; t1 l a];
   term 1 1 [V k a c d; t1 k c; t1 i d];
   term (-1) 1 [V k l c d; t1 k c; t1 i d; t1 l a];
   term 1 1 [V k l c d; t1 k c; t2 l i d a];
   term (-1) 2 [V k l c d; t2 k i c d; t1 l a];
   term (-1) 2 [V k l c d; t2 k l c a; t1 i d]].
(** Doubles (eq. 153). *)
Definition ccsd_doubles : formula :=
  [term 1 1 [V i j a b]] ++
  P a b [term 1 1 [f b c; t2 i j a c]] ++
  P i j [term (-1) 1 [f k j; t2 i k a b]] ++
  [term 1 2 [V k l i j; t2 k l a b]] ++
  [term 1 2 [V a b c d; t2 i j c d]] ++
  P i j (P a b [term 1 1 [V k b c j; t2 i k a c]]) ++
  P i j [term 1 1 [V a b c j; t1 i c]] ++
  P a b [term (-1) 1 [V k b i j; t1 k a]] ++
  P i j (P a b [term 1 2 [V k l c d; t2 i k a c; t2 l j d b]]) ++
  [term 1 4 [V k l c d; t2 i j c d; t2 k l a b]] ++
  P a b [term (-1) 2 [V k l c d; t2 i j a c; t2 k l b d]] ++
  P i j [term (-1) 2 [V k l c d; t2 i k a b; t2 j l c d]] ++
  P a b [term 1 2 [V k l i j; t1 k a; t1 l b]] ++
  P i j [term 1 2 [V a b c d; t1 i c; t1 j d]] ++
  P i j (P a b [term (-1) 1 [V k b i c; t1 k a; t1 j c]]) ++
  P a b [term 1 1 [f k c; t1 k a; t2 i j b c]] ++
  P i j [term 1 1 [f k c; t1 i c; t2 j k a b]] ++
  P i j [term (-1) 1 [V k l c i; t1 k c; t2 l j a b]] ++
  P a b [term 1 1 [V k a c d; t1 k c; t2 i j d b]] ++
  P i j (P a b [term 1 1 [V a k d c; t1 i d; t2 j k b c]]) ++
  P i j (P a b [term 1 1 [V k l i c; t1 l a; t2 j k b c]]) ++
  P i j [term 1 2 [V k l c j; t1 i c; t2 k l a b]] ++
  P a b [term (-1) 2 [V k b c d; t1 k a; t2 i j c d]] ++
  P i j (P a b [term (-1) 2 [V k b c d; t1 i c; t1 k a; t1 j d]]) ++
  P i j (P a b [term 1 2 [V k l c j; t1 i c; t1 k a; t1 l b]]) ++
  P i j [term (-1) 1 [V k l c d; t1 k c; t1 i d; t2 l j a b]] ++
  P a b [term (-1) 1 [V k l c d; t1 k c; t1 l a; t2 i j d b]] ++
  P i j [term 1 4 [V k l c d; t1 i c; t1 j d; t2 k l a b]] ++
  P a b [term 1 4 [V k l c d; t1 k a; t1 l b; t2 i j c d]] ++
  P i j (P a b [term 1 1 [V k l c d; t1 i c; t1 l b; t2 k j a d]]) ++
  P i j (P a b [term 1 4 [V k l c d; t1 i c; t1 k a; t1 j d; t1 l b]]).

(** Results by name. *)
Definition residuals (s dd : formula) : table := [(n_t1new, ([i; a], s)); (n_t2new, ([i; j; a; b], dd))].
Definition energy (e : formula) : table := [(n_e_cc, ([], e)); (n_e_mp, ([], e))].
Definition has (p : monomial -> bool) (X : formula) : formula := filter p X.

Definition ccsd : table := energy ccsd_energy ++ residuals ccsd_singles ccsd_doubles.
(** CCD: no singles. *)
Definition without_singles (m : monomial) : bool := degree1 m =? 0.
Definition ccd : table := energy (has without_singles ccsd_energy) ++ residuals [] (has without_singles ccsd_doubles).
(** Linearised coupled cluster: the terms linear in the amplitudes; the energy has no product of singles. *)
Definition linear (m : monomial) : bool := degree m <=? 1.
Definition lccsd : table := energy (has linear ccsd_energy) ++ residuals (has linear ccsd_singles) (has linear ccsd_doubles).
Definition lccd : table := energy (has without_singles ccsd_energy) ++ residuals [] (has linear (has without_singles ccsd_doubles)).
(** QCISD (J. A. Pople et al., J. Chem. Phys. 87 (1987) 5968), for orbitals without coupling f_ia: the linear terms,
    products of singles and doubles in the singles equations, products of two doubles in the doubles equations. *)
Definition coupling (m : monomial) : bool := existsb (fun y => Pos.eqb (fst y) n_f'ov) (snd m).
Definition qcisd_s (m : monomial) : bool := negb (coupling m) && (linear m || (degree1 m =? 1) && (degree2 m =? 1)).
Definition qcisd_d (m : monomial) : bool := negb (coupling m) && (linear m || without_singles m).
Definition qcisd : table := energy (has without_singles ccsd_energy) ++ residuals (has qcisd_s ccsd_singles) (has qcisd_d ccsd_doubles).
(** CC2: the singles equations of CCSD; in the doubles equations the doubles only occur with the Fock matrix. *)
Definition is_fock (y : ref * list nat) : bool := existsb (Pos.eqb (fst y)) [n_f'oo; n_f'ov; n_f'vv].
Definition cc2_d (m : monomial) : bool := (degree2 m =? 0) || existsb is_fock (snd m).
Definition cc2 : table := energy ccsd_energy ++ residuals ccsd_singles (has cc2_d ccsd_doubles).
(** Second-order perturbation theory. *)
Definition mp2 : table := energy (has without_singles ccsd_energy).
(** Second plus third order, the amplitudes being those of first order. *)
Definition mp3 : table := energy
  [term 1 4 [V i j a b; t2 i j a b];
   term 1 8 [V k l i j; t2 k l a b; t2 i j a b];
   term 1 8 [V a b c d; t2 i j c d; t2 i j a b];
   term 1 1 [V k b c j; t2 i k a c; t2 i j a b]].
