(** Generated by tools/more_tables.py: further tables of formulas.  The rules are:

    - fitted, fitted_spin: two-electron integrals as products of density-fitting factors,
      (pq|rs) = sum_P (P|pq) (P|rs);
    - same_results_R, same_results_U: every result equals the result of the same name;
    - exchanged, exchanged_results: the tensors and results of an unrestricted calculation with the names alpha
      and beta exchanged;
    - symmetric_R, symmetric_U, symmetric_G: each table equates every result with the one in which
      indices have been exchanged (for results with fewer symmetries, with itself): doubles of a restricted
      calculation with two electrons exchanged; restricted triples change sign when the first and last occupied, or
      the first and last virtual, orbital are exchanged; other amplitudes change sign when two occupied or two virtual indices of equal spin are exchanged;
      amplitudes of two bosons are symmetric;
    - general_basis, general: the tensors of a general calculation, with antisymmetric integrals
      v_pqrs = <pq||rs>, and their symmetries.
*)

From Coq Require Import ZArith List.
From Verif Require Import CgModel CgFormSpec CgNames.
Import ListNotations.

(** Labels of indices: occupied i.., virtual a.., auxiliary P.., bosons x..; with spin iA, iB. *)
Local Notation i := 0%nat (only parsing).
Local Notation j := 1%nat (only parsing).
Local Notation k := 2%nat (only parsing).
Local Notation l := 3%nat (only parsing).
Local Notation m := 4%nat (only parsing).
Local Notation n := 5%nat (only parsing).
Local Notation a := 10%nat (only parsing).
Local Notation b := 11%nat (only parsing).
Local Notation c := 12%nat (only parsing).
Local Notation d := 13%nat (only parsing).
Local Notation e := 14%nat (only parsing).
Local Notation f := 15%nat (only parsing).
Local Notation P := 20%nat (only parsing).
Local Notation Q := 21%nat (only parsing).
Local Notation x := 30%nat (only parsing).
Local Notation y := 31%nat (only parsing).
Local Notation iA := 40%nat (only parsing).
Local Notation jA := 41%nat (only parsing).
Local Notation kA := 42%nat (only parsing).
Local Notation lA := 43%nat (only parsing).
Local Notation mA := 44%nat (only parsing).
Local Notation nA := 45%nat (only parsing).
Local Notation aA := 50%nat (only parsing).
Local Notation bA := 51%nat (only parsing).
Local Notation cA := 52%nat (only parsing).
Local Notation dA := 53%nat (only parsing).
Local Notation eA := 54%nat (only parsing).
Local Notation fA := 55%nat (only parsing).
Local Notation iB := 60%nat (only parsing).
Local Notation jB := 61%nat (only parsing).
Local Notation kB := 62%nat (only parsing).
Local Notation lB := 63%nat (only parsing).
Local Notation mB := 64%nat (only parsing).
Local Notation nB := 65%nat (only parsing).
Local Notation aB := 70%nat (only parsing).
Local Notation bB := 71%nat (only parsing).
Local Notation cB := 72%nat (only parsing).
Local Notation dB := 73%nat (only parsing).
Local Notation eB := 74%nat (only parsing).
Local Notation fB := 75%nat (only parsing).

(** Density-fitted integrals over spatial orbitals: (pq|rs) = sum_P (P|pq) (P|rs). *)
Definition fitted : table :=
 [(n_v'oooo, ([i; j; k; l], [mono 1 1 [(n_v'xoo, [P; i; j]); (n_v'xoo, [P; k; l])]]));
  (n_v'ooov, ([i; j; k; a], [mono 1 1 [(n_v'xoo, [P; i; j]); (n_v'xov, [P; k; a])]]));
  (n_v'oovo, ([i; j; a; k], [mono 1 1 [(n_v'xoo, [P; i; j]); (n_v'xov, [P; k; a])]]));
  (n_v'oovv, ([i; j; a; b], [mono 1 1 [(n_v'xoo, [P; i; j]); (n_v'xvv, [P; a; b])]]));
  (n_v'ovoo, ([i; a; j; k], [mono 1 1 [(n_v'xov, [P; i; a]); (n_v'xoo, [P; j; k])]]));
  (n_v'ovov, ([i; a; j; b], [mono 1 1 [(n_v'xov, [P; i; a]); (n_v'xov, [P; j; b])]]));
  (n_v'ovvo, ([i; a; b; j], [mono 1 1 [(n_v'xov, [P; i; a]); (n_v'xov, [P; j; b])]]));
  (n_v'ovvv, ([i; a; b; c], [mono 1 1 [(n_v'xov, [P; i; a]); (n_v'xvv, [P; b; c])]]));
  (n_v'vovo, ([a; i; b; j], [mono 1 1 [(n_v'xov, [P; i; a]); (n_v'xov, [P; j; b])]]));
  (n_v'vovv, ([a; i; b; c], [mono 1 1 [(n_v'xov, [P; i; a]); (n_v'xvv, [P; b; c])]]));
  (n_v'vvvv, ([a; b; c; d], [mono 1 1 [(n_v'xvv, [P; a; b]); (n_v'xvv, [P; c; d])]]))].

(** The same over alpha and beta orbitals. *)
Definition fitted_spin : table :=
 [(n_v'aaaa'oooo, ([iA; jA; kA; lA], [mono 1 1 [(n_v'aa'xoo, [P; iA; jA]); (n_v'aa'xoo, [P; kA; lA])]]));
  (n_v'aaaa'ooov, ([iA; jA; kA; aA], [mono 1 1 [(n_v'aa'xoo, [P; iA; jA]); (n_v'aa'xov, [P; kA; aA])]]));
  (n_v'aaaa'oovo, ([iA; jA; aA; kA], [mono 1 1 [(n_v'aa'xoo, [P; iA; jA]); (n_v'aa'xov, [P; kA; aA])]]));
  (n_v'aaaa'oovv, ([iA; jA; aA; bA], [mono 1 1 [(n_v'aa'xoo, [P; iA; jA]); (n_v'aa'xvv, [P; aA; bA])]]));
  (n_v'aaaa'ovoo, ([iA; aA; jA; kA], [mono 1 1 [(n_v'aa'xov, [P; iA; aA]); (n_v'aa'xoo, [P; jA; kA])]]));
  (n_v'aaaa'ovov, ([iA; aA; jA; bA], [mono 1 1 [(n_v'aa'xov, [P; iA; aA]); (n_v'aa'xov, [P; jA; bA])]]));
  (n_v'aaaa'ovvo, ([iA; aA; bA; jA], [mono 1 1 [(n_v'aa'xov, [P; iA; aA]); (n_v'aa'xov, [P; jA; bA])]]));
  (n_v'aaaa'ovvv, ([iA; aA; bA; cA], [mono 1 1 [(n_v'aa'xov, [P; iA; aA]); (n_v'aa'xvv, [P; bA; cA])]]));
  (n_v'aaaa'vovo, ([aA; iA; bA; jA], [mono 1 1 [(n_v'aa'xov, [P; iA; aA]); (n_v'aa'xov, [P; jA; bA])]]));
  (n_v'aaaa'vovv, ([aA; iA; bA; cA], [mono 1 1 [(n_v'aa'xov, [P; iA; aA]); (n_v'aa'xvv, [P; bA; cA])]]));
  (n_v'aaaa'vvvv, ([aA; bA; cA; dA], [mono 1 1 [(n_v'aa'xvv, [P; aA; bA]); (n_v'aa'xvv, [P; cA; dA])]]));
  (n_v'aabb'oooo, ([iA; jA; iB; jB], [mono 1 1 [(n_v'aa'xoo, [P; iA; jA]); (n_v'bb'xoo, [P; iB; jB])]]));
  (n_v'aabb'ooov, ([iA; jA; iB; aB], [mono 1 1 [(n_v'aa'xoo, [P; iA; jA]); (n_v'bb'xov, [P; iB; aB])]]));
  (n_v'aabb'oovo, ([iA; jA; aB; iB], [mono 1 1 [(n_v'aa'xoo, [P; iA; jA]); (n_v'bb'xov, [P; iB; aB])]]));
  (n_v'aabb'oovv, ([iA; jA; aB; bB], [mono 1 1 [(n_v'aa'xoo, [P; iA; jA]); (n_v'bb'xvv, [P; aB; bB])]]));
  (n_v'aabb'ovoo, ([iA; aA; iB; jB], [mono 1 1 [(n_v'aa'xov, [P; iA; aA]); (n_v'bb'xoo, [P; iB; jB])]]));
  (n_v'aabb'ovov, ([iA; aA; iB; aB], [mono 1 1 [(n_v'aa'xov, [P; iA; aA]); (n_v'bb'xov, [P; iB; aB])]]));
  (n_v'aabb'ovvo, ([iA; aA; aB; iB], [mono 1 1 [(n_v'aa'xov, [P; iA; aA]); (n_v'bb'xov, [P; iB; aB])]]));
  (n_v'aabb'ovvv, ([iA; aA; aB; bB], [mono 1 1 [(n_v'aa'xov, [P; iA; aA]); (n_v'bb'xvv, [P; aB; bB])]]));
  (n_v'aabb'vovo, ([aA; iA; aB; iB], [mono 1 1 [(n_v'aa'xov, [P; iA; aA]); (n_v'bb'xov, [P; iB; aB])]]));
  (n_v'aabb'vovv, ([aA; iA; aB; bB], [mono 1 1 [(n_v'aa'xov, [P; iA; aA]); (n_v'bb'xvv, [P; aB; bB])]]));
  (n_v'aabb'vvoo, ([aA; bA; iB; jB], [mono 1 1 [(n_v'aa'xvv, [P; aA; bA]); (n_v'bb'xoo, [P; iB; jB])]]));
  (n_v'aabb'vvov, ([aA; bA; iB; aB], [mono 1 1 [(n_v'aa'xvv, [P; aA; bA]); (n_v'bb'xov, [P; iB; aB])]]));
  (n_v'aabb'vvvo, ([aA; bA; aB; iB], [mono 1 1 [(n_v'aa'xvv, [P; aA; bA]); (n_v'bb'xov, [P; iB; aB])]]));
  (n_v'aabb'vvvv, ([aA; bA; aB; bB], [mono 1 1 [(n_v'aa'xvv, [P; aA; bA]); (n_v'bb'xvv, [P; aB; bB])]]));
  (n_v'bbaa'oovo, ([iB; jB; aA; iA], [mono 1 1 [(n_v'bb'xoo, [P; iB; jB]); (n_v'aa'xov, [P; iA; aA])]]));
  (n_v'bbaa'oovv, ([iB; jB; aA; bA], [mono 1 1 [(n_v'bb'xoo, [P; iB; jB]); (n_v'aa'xvv, [P; aA; bA])]]));
  (n_v'bbaa'ovvo, ([iB; aB; aA; iA], [mono 1 1 [(n_v'bb'xov, [P; iB; aB]); (n_v'aa'xov, [P; iA; aA])]]));
  (n_v'bbaa'ovvv, ([iB; aB; aA; bA], [mono 1 1 [(n_v'bb'xov, [P; iB; aB]); (n_v'aa'xvv, [P; aA; bA])]]));
  (n_v'bbbb'oooo, ([iB; jB; kB; lB], [mono 1 1 [(n_v'bb'xoo, [P; iB; jB]); (n_v'bb'xoo, [P; kB; lB])]]));
  (n_v'bbbb'ooov, ([iB; jB; kB; aB], [mono 1 1 [(n_v'bb'xoo, [P; iB; jB]); (n_v'bb'xov, [P; kB; aB])]]));
  (n_v'bbbb'oovo, ([iB; jB; aB; kB], [mono 1 1 [(n_v'bb'xoo, [P; iB; jB]); (n_v'bb'xov, [P; kB; aB])]]));
  (n_v'bbbb'oovv, ([iB; jB; aB; bB], [mono 1 1 [(n_v'bb'xoo, [P; iB; jB]); (n_v'bb'xvv, [P; aB; bB])]]));
  (n_v'bbbb'ovoo, ([iB; aB; jB; kB], [mono 1 1 [(n_v'bb'xov, [P; iB; aB]); (n_v'bb'xoo, [P; jB; kB])]]));
  (n_v'bbbb'ovov, ([iB; aB; jB; bB], [mono 1 1 [(n_v'bb'xov, [P; iB; aB]); (n_v'bb'xov, [P; jB; bB])]]));
  (n_v'bbbb'ovvo, ([iB; aB; bB; jB], [mono 1 1 [(n_v'bb'xov, [P; iB; aB]); (n_v'bb'xov, [P; jB; bB])]]));
  (n_v'bbbb'ovvv, ([iB; aB; bB; cB], [mono 1 1 [(n_v'bb'xov, [P; iB; aB]); (n_v'bb'xvv, [P; bB; cB])]]));
  (n_v'bbbb'vovo, ([aB; iB; bB; jB], [mono 1 1 [(n_v'bb'xov, [P; iB; aB]); (n_v'bb'xov, [P; jB; bB])]]));
  (n_v'bbbb'vovv, ([aB; iB; bB; cB], [mono 1 1 [(n_v'bb'xov, [P; iB; aB]); (n_v'bb'xvv, [P; bB; cB])]]));
  (n_v'bbbb'vvvv, ([aB; bB; cB; dB], [mono 1 1 [(n_v'bb'xvv, [P; aB; bB]); (n_v'bb'xvv, [P; cB; dB])]]))].

(** Results of restricted functions equal to those of the same name. *)
Definition same_results_R : table :=
 [(n_e_cc, ([], [mono 1 1 [(n_e_cc, [])]]));
  (n_e_mp, ([], [mono 1 1 [(n_e_mp, [])]]));
  (n_l1new, ([a; i], [mono 1 1 [(n_l1new, [a; i])]]));
  (n_l2new, ([a; b; i; j], [mono 1 1 [(n_l2new, [a; b; i; j])]]));
  (n_l3new, ([a; b; c; i; j; k], [mono 1 1 [(n_l3new, [a; b; c; i; j; k])]]));
  (n_ls1new, ([x], [mono 1 1 [(n_ls1new, [x])]]));
  (n_ls2new, ([x; y], [mono 1 1 [(n_ls2new, [x; y])]]));
  (n_lu11new, ([x; a; i], [mono 1 1 [(n_lu11new, [x; a; i])]]));
  (n_lu12new, ([x; y; a; i], [mono 1 1 [(n_lu12new, [x; y; a; i])]]));
  (n_s1new, ([x], [mono 1 1 [(n_s1new, [x])]]));
  (n_s2new, ([x; y], [mono 1 1 [(n_s2new, [x; y])]]));
  (n_t1new, ([i; a], [mono 1 1 [(n_t1new, [i; a])]]));
  (n_t2new, ([i; j; a; b], [mono 1 1 [(n_t2new, [i; j; a; b])]]));
  (n_t3new, ([i; j; k; a; b; c], [mono 1 1 [(n_t3new, [i; j; k; a; b; c])]]));
  (n_u11new, ([x; i; a], [mono 1 1 [(n_u11new, [x; i; a])]]));
  (n_u12new, ([x; y; i; a], [mono 1 1 [(n_u12new, [x; y; i; a])]]))].

(** The same for unrestricted functions. *)
Definition same_results_U : table :=
 [(n_e_cc, ([], [mono 1 1 [(n_e_cc, [])]]));
  (n_e_mp, ([], [mono 1 1 [(n_e_mp, [])]]));
  (n_l1new'aa, ([aA; iA], [mono 1 1 [(n_l1new'aa, [aA; iA])]]));
  (n_l1new'bb, ([aB; iB], [mono 1 1 [(n_l1new'bb, [aB; iB])]]));
  (n_l2new'aaaa, ([aA; bA; iA; jA], [mono 1 1 [(n_l2new'aaaa, [aA; bA; iA; jA])]]));
  (n_l2new'abab, ([aA; aB; iA; iB], [mono 1 1 [(n_l2new'abab, [aA; aB; iA; iB])]]));
  (n_l2new'baba, ([aB; aA; iB; iA], [mono 1 1 [(n_l2new'baba, [aB; aA; iB; iA])]]));
  (n_l2new'bbbb, ([aB; bB; iB; jB], [mono 1 1 [(n_l2new'bbbb, [aB; bB; iB; jB])]]));
  (n_l3new'aaaaaa, ([aA; bA; cA; iA; jA; kA], [mono 1 1 [(n_l3new'aaaaaa, [aA; bA; cA; iA; jA; kA])]]));
  (n_l3new'abaaba, ([aA; aB; bA; iA; iB; jA], [mono 1 1 [(n_l3new'abaaba, [aA; aB; bA; iA; iB; jA])]]));
  (n_l3new'babbab, ([aB; aA; bB; iB; iA; jB], [mono 1 1 [(n_l3new'babbab, [aB; aA; bB; iB; iA; jB])]]));
  (n_l3new'bbbbbb, ([aB; bB; cB; iB; jB; kB], [mono 1 1 [(n_l3new'bbbbbb, [aB; bB; cB; iB; jB; kB])]]));
  (n_ls1new, ([x], [mono 1 1 [(n_ls1new, [x])]]));
  (n_ls2new, ([x; y], [mono 1 1 [(n_ls2new, [x; y])]]));
  (n_lu11new'aa, ([x; aA; iA], [mono 1 1 [(n_lu11new'aa, [x; aA; iA])]]));
  (n_lu11new'bb, ([x; aB; iB], [mono 1 1 [(n_lu11new'bb, [x; aB; iB])]]));
  (n_lu12new'aa, ([x; y; aA; iA], [mono 1 1 [(n_lu12new'aa, [x; y; aA; iA])]]));
  (n_lu12new'bb, ([x; y; aB; iB], [mono 1 1 [(n_lu12new'bb, [x; y; aB; iB])]]));
  (n_s1new, ([x], [mono 1 1 [(n_s1new, [x])]]));
  (n_s2new, ([x; y], [mono 1 1 [(n_s2new, [x; y])]]));
  (n_t1new'aa, ([iA; aA], [mono 1 1 [(n_t1new'aa, [iA; aA])]]));
  (n_t1new'bb, ([iB; aB], [mono 1 1 [(n_t1new'bb, [iB; aB])]]));
  (n_t2new'aaaa, ([iA; jA; aA; bA], [mono 1 1 [(n_t2new'aaaa, [iA; jA; aA; bA])]]));
  (n_t2new'abab, ([iA; iB; aA; aB], [mono 1 1 [(n_t2new'abab, [iA; iB; aA; aB])]]));
  (n_t2new'baba, ([iB; iA; aB; aA], [mono 1 1 [(n_t2new'baba, [iB; iA; aB; aA])]]));
  (n_t2new'bbbb, ([iB; jB; aB; bB], [mono 1 1 [(n_t2new'bbbb, [iB; jB; aB; bB])]]));
  (n_t3new'aaaaaa, ([iA; jA; kA; aA; bA; cA], [mono 1 1 [(n_t3new'aaaaaa, [iA; jA; kA; aA; bA; cA])]]));
  (n_t3new'abaaba, ([iA; iB; jA; aA; aB; bA], [mono 1 1 [(n_t3new'abaaba, [iA; iB; jA; aA; aB; bA])]]));
  (n_t3new'babbab, ([iB; iA; jB; aB; aA; bB], [mono 1 1 [(n_t3new'babbab, [iB; iA; jB; aB; aA; bB])]]));
  (n_t3new'bbbbbb, ([iB; jB; kB; aB; bB; cB], [mono 1 1 [(n_t3new'bbbbbb, [iB; jB; kB; aB; bB; cB])]]));
  (n_u11new'aa, ([x; iA; aA], [mono 1 1 [(n_u11new'aa, [x; iA; aA])]]));
  (n_u11new'bb, ([x; iB; aB], [mono 1 1 [(n_u11new'bb, [x; iB; aB])]]));
  (n_u12new'aa, ([x; y; iA; aA], [mono 1 1 [(n_u12new'aa, [x; y; iA; aA])]]));
  (n_u12new'bb, ([x; y; iB; aB], [mono 1 1 [(n_u12new'bb, [x; y; iB; aB])]]))].

(** The tensors of an unrestricted calculation with alpha and beta exchanged. *)
Definition exchanged : table :=
 [(n_G, ([x], [mono 1 1 [(n_G, [x])]]));
  (n_f'aa'oo, ([iB; jB], [mono 1 1 [(n_f'bb'oo, [iB; jB])]]));
  (n_f'aa'ov, ([iB; aB], [mono 1 1 [(n_f'bb'ov, [iB; aB])]]));
  (n_f'aa'vo, ([aB; iB], [mono 1 1 [(n_f'bb'ov, [iB; aB])]]));
  (n_f'aa'vv, ([aB; bB], [mono 1 1 [(n_f'bb'vv, [aB; bB])]]));
  (n_f'bb'oo, ([iA; jA], [mono 1 1 [(n_f'aa'oo, [iA; jA])]]));
  (n_f'bb'ov, ([iA; aA], [mono 1 1 [(n_f'aa'ov, [iA; aA])]]));
  (n_f'bb'vo, ([aA; iA], [mono 1 1 [(n_f'aa'ov, [iA; aA])]]));
  (n_f'bb'vv, ([aA; bA], [mono 1 1 [(n_f'aa'vv, [aA; bA])]]));
  (n_g'aa'boo, ([x; iB; jB], [mono 1 1 [(n_g'bb'boo, [x; iB; jB])]]));
  (n_g'aa'bov, ([x; iB; aB], [mono 1 1 [(n_g'bb'bov, [x; iB; aB])]]));
  (n_g'aa'bvo, ([x; aB; iB], [mono 1 1 [(n_g'bb'bvo, [x; aB; iB])]]));
  (n_g'aa'bvv, ([x; aB; bB], [mono 1 1 [(n_g'bb'bvv, [x; aB; bB])]]));
  (n_g'bb'boo, ([x; iA; jA], [mono 1 1 [(n_g'aa'boo, [x; iA; jA])]]));
  (n_g'bb'bov, ([x; iA; aA], [mono 1 1 [(n_g'aa'bov, [x; iA; aA])]]));
  (n_g'bb'bvo, ([x; aA; iA], [mono 1 1 [(n_g'aa'bvo, [x; aA; iA])]]));
  (n_g'bb'bvv, ([x; aA; bA], [mono 1 1 [(n_g'aa'bvv, [x; aA; bA])]]));
  (n_l1'aa, ([aB; iB], [mono 1 1 [(n_l1'bb, [aB; iB])]]));
  (n_l1'bb, ([aA; iA], [mono 1 1 [(n_l1'aa, [aA; iA])]]));
  (n_l2'aaaa, ([aB; bB; iB; jB], [mono 1 1 [(n_l2'bbbb, [aB; bB; iB; jB])]]));
  (n_l2'abab, ([aB; aA; iB; iA], [mono 1 1 [(n_l2'abab, [aA; aB; iA; iB])]]));
  (n_l2'bbbb, ([aA; bA; iA; jA], [mono 1 1 [(n_l2'aaaa, [aA; bA; iA; jA])]]));
  (n_l3'aaaaaa, ([aB; bB; cB; iB; jB; kB], [mono 1 1 [(n_l3'bbbbbb, [aB; bB; cB; iB; jB; kB])]]));
  (n_l3'abaaba, ([aB; aA; bB; iB; iA; jB], [mono 1 1 [(n_l3'babbab, [aB; aA; bB; iB; iA; jB])]]));
  (n_l3'babbab, ([aA; aB; bA; iA; iB; jA], [mono 1 1 [(n_l3'abaaba, [aA; aB; bA; iA; iB; jA])]]));
  (n_l3'bbbbbb, ([aA; bA; cA; iA; jA; kA], [mono 1 1 [(n_l3'aaaaaa, [aA; bA; cA; iA; jA; kA])]]));
  (n_ls1, ([x], [mono 1 1 [(n_ls1, [x])]]));
  (n_ls2, ([x; y], [mono 1 1 [(n_ls2, [x; y])]]));
  (n_lu11'aa, ([x; aB; iB], [mono 1 1 [(n_lu11'bb, [x; aB; iB])]]));
  (n_lu11'bb, ([x; aA; iA], [mono 1 1 [(n_lu11'aa, [x; aA; iA])]]));
  (n_lu12'aa, ([x; y; aB; iB], [mono 1 1 [(n_lu12'bb, [x; y; aB; iB])]]));
  (n_lu12'bb, ([x; y; aA; iA], [mono 1 1 [(n_lu12'aa, [x; y; aA; iA])]]));
  (n_s1, ([x], [mono 1 1 [(n_s1, [x])]]));
  (n_s2, ([x; y], [mono 1 1 [(n_s2, [x; y])]]));
  (n_t1'aa, ([iB; aB], [mono 1 1 [(n_t1'bb, [iB; aB])]]));
  (n_t1'bb, ([iA; aA], [mono 1 1 [(n_t1'aa, [iA; aA])]]));
  (n_t2'aaaa, ([iB; jB; aB; bB], [mono 1 1 [(n_t2'bbbb, [iB; jB; aB; bB])]]));
  (n_t2'abab, ([iB; iA; aB; aA], [mono 1 1 [(n_t2'abab, [iA; iB; aA; aB])]]));
  (n_t2'bbbb, ([iA; jA; aA; bA], [mono 1 1 [(n_t2'aaaa, [iA; jA; aA; bA])]]));
  (n_t3'aaaaaa, ([iB; jB; kB; aB; bB; cB], [mono 1 1 [(n_t3'bbbbbb, [iB; jB; kB; aB; bB; cB])]]));
  (n_t3'abaaba, ([iB; iA; jB; aB; aA; bB], [mono 1 1 [(n_t3'babbab, [iB; iA; jB; aB; aA; bB])]]));
  (n_t3'babbab, ([iA; iB; jA; aA; aB; bA], [mono 1 1 [(n_t3'abaaba, [iA; iB; jA; aA; aB; bA])]]));
  (n_t3'bbbbbb, ([iA; jA; kA; aA; bA; cA], [mono 1 1 [(n_t3'aaaaaa, [iA; jA; kA; aA; bA; cA])]]));
  (n_u11'aa, ([x; iB; aB], [mono 1 1 [(n_u11'bb, [x; iB; aB])]]));
  (n_u11'bb, ([x; iA; aA], [mono 1 1 [(n_u11'aa, [x; iA; aA])]]));
  (n_u12'aa, ([x; y; iB; aB], [mono 1 1 [(n_u12'bb, [x; y; iB; aB])]]));
  (n_u12'bb, ([x; y; iA; aA], [mono 1 1 [(n_u12'aa, [x; y; iA; aA])]]));
  (n_v'aa'xoo, ([P; iB; jB], [mono 1 1 [(n_v'bb'xoo, [P; iB; jB])]]));
  (n_v'aa'xov, ([P; iB; aB], [mono 1 1 [(n_v'bb'xov, [P; iB; aB])]]));
  (n_v'aa'xvv, ([P; aB; bB], [mono 1 1 [(n_v'bb'xvv, [P; aB; bB])]]));
  (n_v'aaaa'oooo, ([iB; jB; kB; lB], [mono 1 1 [(n_v'bbbb'oooo, [iB; jB; kB; lB])]]));
  (n_v'aaaa'ooov, ([iB; jB; kB; aB], [mono 1 1 [(n_v'bbbb'ooov, [iB; jB; kB; aB])]]));
  (n_v'aaaa'oovo, ([iB; jB; aB; kB], [mono 1 1 [(n_v'bbbb'ooov, [iB; jB; kB; aB])]]));
  (n_v'aaaa'oovv, ([iB; jB; aB; bB], [mono 1 1 [(n_v'bbbb'oovv, [iB; jB; aB; bB])]]));
  (n_v'aaaa'ovoo, ([iB; aB; jB; kB], [mono 1 1 [(n_v'bbbb'ooov, [jB; kB; iB; aB])]]));
  (n_v'aaaa'ovov, ([iB; aB; jB; bB], [mono 1 1 [(n_v'bbbb'ovov, [iB; aB; jB; bB])]]));
  (n_v'aaaa'ovvo, ([iB; aB; bB; jB], [mono 1 1 [(n_v'bbbb'ovov, [iB; aB; jB; bB])]]));
  (n_v'aaaa'ovvv, ([iB; aB; bB; cB], [mono 1 1 [(n_v'bbbb'ovvv, [iB; aB; bB; cB])]]));
  (n_v'aaaa'vovo, ([aB; iB; bB; jB], [mono 1 1 [(n_v'bbbb'ovov, [iB; aB; jB; bB])]]));
  (n_v'aaaa'vovv, ([aB; iB; bB; cB], [mono 1 1 [(n_v'bbbb'ovvv, [iB; aB; bB; cB])]]));
  (n_v'aaaa'vvvv, ([aB; bB; cB; dB], [mono 1 1 [(n_v'bbbb'vvvv, [aB; bB; cB; dB])]]));
  (n_v'aabb'oooo, ([iB; jB; iA; jA], [mono 1 1 [(n_v'aabb'oooo, [iA; jA; iB; jB])]]));
  (n_v'aabb'ooov, ([iB; jB; iA; aA], [mono 1 1 [(n_v'aabb'ovoo, [iA; aA; iB; jB])]]));
  (n_v'aabb'oovo, ([iB; jB; aA; iA], [mono 1 1 [(n_v'aabb'ovoo, [iA; aA; iB; jB])]]));
  (n_v'aabb'oovv, ([iB; jB; aA; bA], [mono 1 1 [(n_v'bbaa'oovv, [iB; jB; aA; bA])]]));
  (n_v'aabb'ovoo, ([iB; aB; iA; jA], [mono 1 1 [(n_v'aabb'ooov, [iA; jA; iB; aB])]]));
  (n_v'aabb'ovov, ([iB; aB; iA; aA], [mono 1 1 [(n_v'aabb'ovov, [iA; aA; iB; aB])]]));
  (n_v'aabb'ovvo, ([iB; aB; aA; iA], [mono 1 1 [(n_v'aabb'ovov, [iA; aA; iB; aB])]]));
  (n_v'aabb'ovvv, ([iB; aB; aA; bA], [mono 1 1 [(n_v'bbaa'ovvv, [iB; aB; aA; bA])]]));
  (n_v'aabb'vovo, ([aB; iB; aA; iA], [mono 1 1 [(n_v'aabb'ovov, [iA; aA; iB; aB])]]));
  (n_v'aabb'vovv, ([aB; iB; aA; bA], [mono 1 1 [(n_v'bbaa'ovvv, [iB; aB; aA; bA])]]));
  (n_v'aabb'vvoo, ([aB; bB; iA; jA], [mono 1 1 [(n_v'aabb'oovv, [iA; jA; aB; bB])]]));
  (n_v'aabb'vvov, ([aB; bB; iA; aA], [mono 1 1 [(n_v'aabb'ovvv, [iA; aA; aB; bB])]]));
  (n_v'aabb'vvvo, ([aB; bB; aA; iA], [mono 1 1 [(n_v'aabb'ovvv, [iA; aA; aB; bB])]]));
  (n_v'aabb'vvvv, ([aB; bB; aA; bA], [mono 1 1 [(n_v'aabb'vvvv, [aA; bA; aB; bB])]]));
  (n_v'baa'xoo, ([P; iB; jB], [mono 1 1 [(n_v'bb'xoo, [P; iB; jB])]]));
  (n_v'baa'xov, ([P; iB; aB], [mono 1 1 [(n_v'bb'xov, [P; iB; aB])]]));
  (n_v'baa'xvv, ([P; aB; bB], [mono 1 1 [(n_v'bb'xvv, [P; aB; bB])]]));
  (n_v'bb'xoo, ([P; iA; jA], [mono 1 1 [(n_v'aa'xoo, [P; iA; jA])]]));
  (n_v'bb'xov, ([P; iA; aA], [mono 1 1 [(n_v'aa'xov, [P; iA; aA])]]));
  (n_v'bb'xvv, ([P; aA; bA], [mono 1 1 [(n_v'aa'xvv, [P; aA; bA])]]));
  (n_v'bbaa'oovo, ([iA; jA; aB; iB], [mono 1 1 [(n_v'aabb'ooov, [iA; jA; iB; aB])]]));
  (n_v'bbaa'oovv, ([iA; jA; aB; bB], [mono 1 1 [(n_v'aabb'oovv, [iA; jA; aB; bB])]]));
  (n_v'bbaa'ovvo, ([iA; aA; aB; iB], [mono 1 1 [(n_v'aabb'ovov, [iA; aA; iB; aB])]]));
  (n_v'bbaa'ovvv, ([iA; aA; aB; bB], [mono 1 1 [(n_v'aabb'ovvv, [iA; aA; aB; bB])]]));
  (n_v'bbb'xoo, ([P; iA; jA], [mono 1 1 [(n_v'aa'xoo, [P; iA; jA])]]));
  (n_v'bbb'xov, ([P; iA; aA], [mono 1 1 [(n_v'aa'xov, [P; iA; aA])]]));
  (n_v'bbb'xvv, ([P; aA; bA], [mono 1 1 [(n_v'aa'xvv, [P; aA; bA])]]));
  (n_v'bbbb'oooo, ([iA; jA; kA; lA], [mono 1 1 [(n_v'aaaa'oooo, [iA; jA; kA; lA])]]));
  (n_v'bbbb'ooov, ([iA; jA; kA; aA], [mono 1 1 [(n_v'aaaa'ooov, [iA; jA; kA; aA])]]));
  (n_v'bbbb'oovo, ([iA; jA; aA; kA], [mono 1 1 [(n_v'aaaa'ooov, [iA; jA; kA; aA])]]));
  (n_v'bbbb'oovv, ([iA; jA; aA; bA], [mono 1 1 [(n_v'aaaa'oovv, [iA; jA; aA; bA])]]));
  (n_v'bbbb'ovoo, ([iA; aA; jA; kA], [mono 1 1 [(n_v'aaaa'ooov, [jA; kA; iA; aA])]]));
  (n_v'bbbb'ovov, ([iA; aA; jA; bA], [mono 1 1 [(n_v'aaaa'ovov, [iA; aA; jA; bA])]]));
  (n_v'bbbb'ovvo, ([iA; aA; bA; jA], [mono 1 1 [(n_v'aaaa'ovov, [iA; aA; jA; bA])]]));
  (n_v'bbbb'ovvv, ([iA; aA; bA; cA], [mono 1 1 [(n_v'aaaa'ovvv, [iA; aA; bA; cA])]]));
  (n_v'bbbb'vovo, ([aA; iA; bA; jA], [mono 1 1 [(n_v'aaaa'ovov, [iA; aA; jA; bA])]]));
  (n_v'bbbb'vovv, ([aA; iA; bA; cA], [mono 1 1 [(n_v'aaaa'ovvv, [iA; aA; bA; cA])]]));
  (n_v'bbbb'vvvv, ([aA; bA; cA; dA], [mono 1 1 [(n_v'aaaa'vvvv, [aA; bA; cA; dA])]]));
  (n_w, ([x; y], [mono 1 1 [(n_w, [x; y])]]))].

(** The results with alpha and beta exchanged. *)
Definition exchanged_results : table :=
 [(n_e_cc, ([], [mono 1 1 [(n_e_cc, [])]]));
  (n_e_mp, ([], [mono 1 1 [(n_e_mp, [])]]));
  (n_l1new'aa, ([aB; iB], [mono 1 1 [(n_l1new'bb, [aB; iB])]]));
  (n_l1new'bb, ([aA; iA], [mono 1 1 [(n_l1new'aa, [aA; iA])]]));
  (n_l2new'aaaa, ([aB; bB; iB; jB], [mono 1 1 [(n_l2new'bbbb, [aB; bB; iB; jB])]]));
  (n_l2new'abab, ([aB; aA; iB; iA], [mono 1 1 [(n_l2new'abab, [aA; aB; iA; iB])]]));
  (n_l2new'baba, ([aA; aB; iA; iB], [mono 1 1 [(n_l2new'abab, [aA; aB; iA; iB])]]));
  (n_l2new'bbbb, ([aA; bA; iA; jA], [mono 1 1 [(n_l2new'aaaa, [aA; bA; iA; jA])]]));
  (n_l3new'aaaaaa, ([aB; bB; cB; iB; jB; kB], [mono 1 1 [(n_l3new'bbbbbb, [aB; bB; cB; iB; jB; kB])]]));
  (n_l3new'abaaba, ([aB; aA; bB; iB; iA; jB], [mono 1 1 [(n_l3new'babbab, [aB; aA; bB; iB; iA; jB])]]));
  (n_l3new'babbab, ([aA; aB; bA; iA; iB; jA], [mono 1 1 [(n_l3new'abaaba, [aA; aB; bA; iA; iB; jA])]]));
  (n_l3new'bbbbbb, ([aA; bA; cA; iA; jA; kA], [mono 1 1 [(n_l3new'aaaaaa, [aA; bA; cA; iA; jA; kA])]]));
  (n_ls1new, ([x], [mono 1 1 [(n_ls1new, [x])]]));
  (n_ls2new, ([x; y], [mono 1 1 [(n_ls2new, [x; y])]]));
  (n_lu11new'aa, ([x; aB; iB], [mono 1 1 [(n_lu11new'bb, [x; aB; iB])]]));
  (n_lu11new'bb, ([x; aA; iA], [mono 1 1 [(n_lu11new'aa, [x; aA; iA])]]));
  (n_lu12new'aa, ([x; y; aB; iB], [mono 1 1 [(n_lu12new'bb, [x; y; aB; iB])]]));
  (n_lu12new'bb, ([x; y; aA; iA], [mono 1 1 [(n_lu12new'aa, [x; y; aA; iA])]]));
  (n_s1new, ([x], [mono 1 1 [(n_s1new, [x])]]));
  (n_s2new, ([x; y], [mono 1 1 [(n_s2new, [x; y])]]));
  (n_t1new'aa, ([iB; aB], [mono 1 1 [(n_t1new'bb, [iB; aB])]]));
  (n_t1new'bb, ([iA; aA], [mono 1 1 [(n_t1new'aa, [iA; aA])]]));
  (n_t2new'aaaa, ([iB; jB; aB; bB], [mono 1 1 [(n_t2new'bbbb, [iB; jB; aB; bB])]]));
  (n_t2new'abab, ([iB; iA; aB; aA], [mono 1 1 [(n_t2new'abab, [iA; iB; aA; aB])]]));
  (n_t2new'baba, ([iA; iB; aA; aB], [mono 1 1 [(n_t2new'abab, [iA; iB; aA; aB])]]));
  (n_t2new'bbbb, ([iA; jA; aA; bA], [mono 1 1 [(n_t2new'aaaa, [iA; jA; aA; bA])]]));
  (n_t3new'aaaaaa, ([iB; jB; kB; aB; bB; cB], [mono 1 1 [(n_t3new'bbbbbb, [iB; jB; kB; aB; bB; cB])]]));
  (n_t3new'abaaba, ([iB; iA; jB; aB; aA; bB], [mono 1 1 [(n_t3new'babbab, [iB; iA; jB; aB; aA; bB])]]));
  (n_t3new'babbab, ([iA; iB; jA; aA; aB; bA], [mono 1 1 [(n_t3new'abaaba, [iA; iB; jA; aA; aB; bA])]]));
  (n_t3new'bbbbbb, ([iA; jA; kA; aA; bA; cA], [mono 1 1 [(n_t3new'aaaaaa, [iA; jA; kA; aA; bA; cA])]]));
  (n_u11new'aa, ([x; iB; aB], [mono 1 1 [(n_u11new'bb, [x; iB; aB])]]));
  (n_u11new'bb, ([x; iA; aA], [mono 1 1 [(n_u11new'aa, [x; iA; aA])]]));
  (n_u12new'aa, ([x; y; iB; aB], [mono 1 1 [(n_u12new'bb, [x; y; iB; aB])]]));
  (n_u12new'bb, ([x; y; iA; aA], [mono 1 1 [(n_u12new'aa, [x; y; iA; aA])]]))].

(** Symmetries of results. *)
Definition symmetric_R : list table :=
 [[(n_e_cc, ([], [mono 1 1 [(n_e_cc, [])]]));
   (n_e_mp, ([], [mono 1 1 [(n_e_mp, [])]]));
   (n_l1new, ([a; i], [mono 1 1 [(n_l1new, [a; i])]]));
   (n_l2new, ([a; b; i; j], [mono 1 1 [(n_l2new, [b; a; j; i])]]));
   (n_l3new, ([a; b; c; i; j; k], [mono (-1) 1 [(n_l3new, [c; b; a; i; j; k])]]));
   (n_ls1new, ([x], [mono 1 1 [(n_ls1new, [x])]]));
   (n_ls2new, ([x; y], [mono 1 1 [(n_ls2new, [y; x])]]));
   (n_lu11new, ([x; a; i], [mono 1 1 [(n_lu11new, [x; a; i])]]));
   (n_lu12new, ([x; y; a; i], [mono 1 1 [(n_lu12new, [y; x; a; i])]]));
   (n_s1new, ([x], [mono 1 1 [(n_s1new, [x])]]));
   (n_s2new, ([x; y], [mono 1 1 [(n_s2new, [y; x])]]));
   (n_t1new, ([i; a], [mono 1 1 [(n_t1new, [i; a])]]));
   (n_t2new, ([i; j; a; b], [mono 1 1 [(n_t2new, [j; i; b; a])]]));
   (n_t3new, ([i; j; k; a; b; c], [mono (-1) 1 [(n_t3new, [k; j; i; a; b; c])]]));
   (n_u11new, ([x; i; a], [mono 1 1 [(n_u11new, [x; i; a])]]));
   (n_u12new, ([x; y; i; a], [mono 1 1 [(n_u12new, [y; x; i; a])]]))];
  [(n_e_cc, ([], [mono 1 1 [(n_e_cc, [])]]));
   (n_e_mp, ([], [mono 1 1 [(n_e_mp, [])]]));
   (n_l1new, ([a; i], [mono 1 1 [(n_l1new, [a; i])]]));
   (n_l2new, ([a; b; i; j], [mono 1 1 [(n_l2new, [a; b; i; j])]]));
   (n_l3new, ([a; b; c; i; j; k], [mono (-1) 1 [(n_l3new, [a; b; c; k; j; i])]]));
   (n_ls1new, ([x], [mono 1 1 [(n_ls1new, [x])]]));
   (n_ls2new, ([x; y], [mono 1 1 [(n_ls2new, [x; y])]]));
   (n_lu11new, ([x; a; i], [mono 1 1 [(n_lu11new, [x; a; i])]]));
   (n_lu12new, ([x; y; a; i], [mono 1 1 [(n_lu12new, [x; y; a; i])]]));
   (n_s1new, ([x], [mono 1 1 [(n_s1new, [x])]]));
   (n_s2new, ([x; y], [mono 1 1 [(n_s2new, [x; y])]]));
   (n_t1new, ([i; a], [mono 1 1 [(n_t1new, [i; a])]]));
   (n_t2new, ([i; j; a; b], [mono 1 1 [(n_t2new, [i; j; a; b])]]));
   (n_t3new, ([i; j; k; a; b; c], [mono (-1) 1 [(n_t3new, [i; j; k; c; b; a])]]));
   (n_u11new, ([x; i; a], [mono 1 1 [(n_u11new, [x; i; a])]]));
   (n_u12new, ([x; y; i; a], [mono 1 1 [(n_u12new, [x; y; i; a])]]))]].

(** Symmetries of results. *)
Definition symmetric_U : list table :=
 [[(n_e_cc, ([], [mono 1 1 [(n_e_cc, [])]]));
   (n_e_mp, ([], [mono 1 1 [(n_e_mp, [])]]));
   (n_l1new'aa, ([aA; iA], [mono 1 1 [(n_l1new'aa, [aA; iA])]]));
   (n_l1new'bb, ([aB; iB], [mono 1 1 [(n_l1new'bb, [aB; iB])]]));
   (n_l2new'aaaa, ([aA; bA; iA; jA], [mono (-1) 1 [(n_l2new'aaaa, [bA; aA; iA; jA])]]));
   (n_l2new'abab, ([aA; aB; iA; iB], [mono 1 1 [(n_l2new'abab, [aA; aB; iA; iB])]]));
   (n_l2new'baba, ([aB; aA; iB; iA], [mono 1 1 [(n_l2new'baba, [aB; aA; iB; iA])]]));
   (n_l2new'bbbb, ([aB; bB; iB; jB], [mono (-1) 1 [(n_l2new'bbbb, [bB; aB; iB; jB])]]));
   (n_l3new'aaaaaa, ([aA; bA; cA; iA; jA; kA], [mono (-1) 1 [(n_l3new'aaaaaa, [bA; aA; cA; iA; jA; kA])]]));
   (n_l3new'abaaba, ([aA; aB; bA; iA; iB; jA], [mono (-1) 1 [(n_l3new'abaaba, [bA; aB; aA; iA; iB; jA])]]));
   (n_l3new'babbab, ([aB; aA; bB; iB; iA; jB], [mono (-1) 1 [(n_l3new'babbab, [bB; aA; aB; iB; iA; jB])]]));
   (n_l3new'bbbbbb, ([aB; bB; cB; iB; jB; kB], [mono (-1) 1 [(n_l3new'bbbbbb, [bB; aB; cB; iB; jB; kB])]]));
   (n_ls1new, ([x], [mono 1 1 [(n_ls1new, [x])]]));
   (n_ls2new, ([x; y], [mono 1 1 [(n_ls2new, [y; x])]]));
   (n_lu11new'aa, ([x; aA; iA], [mono 1 1 [(n_lu11new'aa, [x; aA; iA])]]));
   (n_lu11new'bb, ([x; aB; iB], [mono 1 1 [(n_lu11new'bb, [x; aB; iB])]]));
   (n_lu12new'aa, ([x; y; aA; iA], [mono 1 1 [(n_lu12new'aa, [y; x; aA; iA])]]));
   (n_lu12new'bb, ([x; y; aB; iB], [mono 1 1 [(n_lu12new'bb, [y; x; aB; iB])]]));
   (n_s1new, ([x], [mono 1 1 [(n_s1new, [x])]]));
   (n_s2new, ([x; y], [mono 1 1 [(n_s2new, [y; x])]]));
   (n_t1new'aa, ([iA; aA], [mono 1 1 [(n_t1new'aa, [iA; aA])]]));
   (n_t1new'bb, ([iB; aB], [mono 1 1 [(n_t1new'bb, [iB; aB])]]));
   (n_t2new'aaaa, ([iA; jA; aA; bA], [mono (-1) 1 [(n_t2new'aaaa, [jA; iA; aA; bA])]]));
   (n_t2new'abab, ([iA; iB; aA; aB], [mono 1 1 [(n_t2new'abab, [iA; iB; aA; aB])]]));
   (n_t2new'baba, ([iB; iA; aB; aA], [mono 1 1 [(n_t2new'baba, [iB; iA; aB; aA])]]));
   (n_t2new'bbbb, ([iB; jB; aB; bB], [mono (-1) 1 [(n_t2new'bbbb, [jB; iB; aB; bB])]]));
   (n_t3new'aaaaaa, ([iA; jA; kA; aA; bA; cA], [mono (-1) 1 [(n_t3new'aaaaaa, [jA; iA; kA; aA; bA; cA])]]));
   (n_t3new'abaaba, ([iA; iB; jA; aA; aB; bA], [mono (-1) 1 [(n_t3new'abaaba, [jA; iB; iA; aA; aB; bA])]]));
   (n_t3new'babbab, ([iB; iA; jB; aB; aA; bB], [mono (-1) 1 [(n_t3new'babbab, [jB; iA; iB; aB; aA; bB])]]));
   (n_t3new'bbbbbb, ([iB; jB; kB; aB; bB; cB], [mono (-1) 1 [(n_t3new'bbbbbb, [jB; iB; kB; aB; bB; cB])]]));
   (n_u11new'aa, ([x; iA; aA], [mono 1 1 [(n_u11new'aa, [x; iA; aA])]]));
   (n_u11new'bb, ([x; iB; aB], [mono 1 1 [(n_u11new'bb, [x; iB; aB])]]));
   (n_u12new'aa, ([x; y; iA; aA], [mono 1 1 [(n_u12new'aa, [y; x; iA; aA])]]));
   (n_u12new'bb, ([x; y; iB; aB], [mono 1 1 [(n_u12new'bb, [y; x; iB; aB])]]))];
  [(n_e_cc, ([], [mono 1 1 [(n_e_cc, [])]]));
   (n_e_mp, ([], [mono 1 1 [(n_e_mp, [])]]));
   (n_l1new'aa, ([aA; iA], [mono 1 1 [(n_l1new'aa, [aA; iA])]]));
   (n_l1new'bb, ([aB; iB], [mono 1 1 [(n_l1new'bb, [aB; iB])]]));
   (n_l2new'aaaa, ([aA; bA; iA; jA], [mono (-1) 1 [(n_l2new'aaaa, [aA; bA; jA; iA])]]));
   (n_l2new'abab, ([aA; aB; iA; iB], [mono 1 1 [(n_l2new'abab, [aA; aB; iA; iB])]]));
   (n_l2new'baba, ([aB; aA; iB; iA], [mono 1 1 [(n_l2new'baba, [aB; aA; iB; iA])]]));
   (n_l2new'bbbb, ([aB; bB; iB; jB], [mono (-1) 1 [(n_l2new'bbbb, [aB; bB; jB; iB])]]));
   (n_l3new'aaaaaa, ([aA; bA; cA; iA; jA; kA], [mono (-1) 1 [(n_l3new'aaaaaa, [aA; bA; cA; jA; iA; kA])]]));
   (n_l3new'abaaba, ([aA; aB; bA; iA; iB; jA], [mono (-1) 1 [(n_l3new'abaaba, [aA; aB; bA; jA; iB; iA])]]));
   (n_l3new'babbab, ([aB; aA; bB; iB; iA; jB], [mono (-1) 1 [(n_l3new'babbab, [aB; aA; bB; jB; iA; iB])]]));
   (n_l3new'bbbbbb, ([aB; bB; cB; iB; jB; kB], [mono (-1) 1 [(n_l3new'bbbbbb, [aB; bB; cB; jB; iB; kB])]]));
   (n_ls1new, ([x], [mono 1 1 [(n_ls1new, [x])]]));
   (n_ls2new, ([x; y], [mono 1 1 [(n_ls2new, [x; y])]]));
   (n_lu11new'aa, ([x; aA; iA], [mono 1 1 [(n_lu11new'aa, [x; aA; iA])]]));
   (n_lu11new'bb, ([x; aB; iB], [mono 1 1 [(n_lu11new'bb, [x; aB; iB])]]));
   (n_lu12new'aa, ([x; y; aA; iA], [mono 1 1 [(n_lu12new'aa, [x; y; aA; iA])]]));
   (n_lu12new'bb, ([x; y; aB; iB], [mono 1 1 [(n_lu12new'bb, [x; y; aB; iB])]]));
   (n_s1new, ([x], [mono 1 1 [(n_s1new, [x])]]));
   (n_s2new, ([x; y], [mono 1 1 [(n_s2new, [x; y])]]));
   (n_t1new'aa, ([iA; aA], [mono 1 1 [(n_t1new'aa, [iA; aA])]]));
   (n_t1new'bb, ([iB; aB], [mono 1 1 [(n_t1new'bb, [iB; aB])]]));
   (n_t2new'aaaa, ([iA; jA; aA; bA], [mono (-1) 1 [(n_t2new'aaaa, [iA; jA; bA; aA])]]));
   (n_t2new'abab, ([iA; iB; aA; aB], [mono 1 1 [(n_t2new'abab, [iA; iB; aA; aB])]]));
   (n_t2new'baba, ([iB; iA; aB; aA], [mono 1 1 [(n_t2new'baba, [iB; iA; aB; aA])]]));
   (n_t2new'bbbb, ([iB; jB; aB; bB], [mono (-1) 1 [(n_t2new'bbbb, [iB; jB; bB; aB])]]));
   (n_t3new'aaaaaa, ([iA; jA; kA; aA; bA; cA], [mono (-1) 1 [(n_t3new'aaaaaa, [iA; jA; kA; bA; aA; cA])]]));
   (n_t3new'abaaba, ([iA; iB; jA; aA; aB; bA], [mono (-1) 1 [(n_t3new'abaaba, [iA; iB; jA; bA; aB; aA])]]));
   (n_t3new'babbab, ([iB; iA; jB; aB; aA; bB], [mono (-1) 1 [(n_t3new'babbab, [iB; iA; jB; bB; aA; aB])]]));
   (n_t3new'bbbbbb, ([iB; jB; kB; aB; bB; cB], [mono (-1) 1 [(n_t3new'bbbbbb, [iB; jB; kB; bB; aB; cB])]]));
   (n_u11new'aa, ([x; iA; aA], [mono 1 1 [(n_u11new'aa, [x; iA; aA])]]));
   (n_u11new'bb, ([x; iB; aB], [mono 1 1 [(n_u11new'bb, [x; iB; aB])]]));
   (n_u12new'aa, ([x; y; iA; aA], [mono 1 1 [(n_u12new'aa, [x; y; iA; aA])]]));
   (n_u12new'bb, ([x; y; iB; aB], [mono 1 1 [(n_u12new'bb, [x; y; iB; aB])]]))];
  [(n_e_cc, ([], [mono 1 1 [(n_e_cc, [])]]));
   (n_e_mp, ([], [mono 1 1 [(n_e_mp, [])]]));
   (n_l1new'aa, ([aA; iA], [mono 1 1 [(n_l1new'aa, [aA; iA])]]));
   (n_l1new'bb, ([aB; iB], [mono 1 1 [(n_l1new'bb, [aB; iB])]]));
   (n_l2new'aaaa, ([aA; bA; iA; jA], [mono 1 1 [(n_l2new'aaaa, [aA; bA; iA; jA])]]));
   (n_l2new'abab, ([aA; aB; iA; iB], [mono 1 1 [(n_l2new'abab, [aA; aB; iA; iB])]]));
   (n_l2new'baba, ([aB; aA; iB; iA], [mono 1 1 [(n_l2new'baba, [aB; aA; iB; iA])]]));
   (n_l2new'bbbb, ([aB; bB; iB; jB], [mono 1 1 [(n_l2new'bbbb, [aB; bB; iB; jB])]]));
   (n_l3new'aaaaaa, ([aA; bA; cA; iA; jA; kA], [mono (-1) 1 [(n_l3new'aaaaaa, [aA; cA; bA; iA; jA; kA])]]));
   (n_l3new'abaaba, ([aA; aB; bA; iA; iB; jA], [mono 1 1 [(n_l3new'abaaba, [aA; aB; bA; iA; iB; jA])]]));
   (n_l3new'babbab, ([aB; aA; bB; iB; iA; jB], [mono 1 1 [(n_l3new'babbab, [aB; aA; bB; iB; iA; jB])]]));
   (n_l3new'bbbbbb, ([aB; bB; cB; iB; jB; kB], [mono (-1) 1 [(n_l3new'bbbbbb, [aB; cB; bB; iB; jB; kB])]]));
   (n_ls1new, ([x], [mono 1 1 [(n_ls1new, [x])]]));
   (n_ls2new, ([x; y], [mono 1 1 [(n_ls2new, [x; y])]]));
   (n_lu11new'aa, ([x; aA; iA], [mono 1 1 [(n_lu11new'aa, [x; aA; iA])]]));
   (n_lu11new'bb, ([x; aB; iB], [mono 1 1 [(n_lu11new'bb, [x; aB; iB])]]));
   (n_lu12new'aa, ([x; y; aA; iA], [mono 1 1 [(n_lu12new'aa, [x; y; aA; iA])]]));
   (n_lu12new'bb, ([x; y; aB; iB], [mono 1 1 [(n_lu12new'bb, [x; y; aB; iB])]]));
   (n_s1new, ([x], [mono 1 1 [(n_s1new, [x])]]));
   (n_s2new, ([x; y], [mono 1 1 [(n_s2new, [x; y])]]));
   (n_t1new'aa, ([iA; aA], [mono 1 1 [(n_t1new'aa, [iA; aA])]]));
   (n_t1new'bb, ([iB; aB], [mono 1 1 [(n_t1new'bb, [iB; aB])]]));
   (n_t2new'aaaa, ([iA; jA; aA; bA], [mono 1 1 [(n_t2new'aaaa, [iA; jA; aA; bA])]]));
   (n_t2new'abab, ([iA; iB; aA; aB], [mono 1 1 [(n_t2new'abab, [iA; iB; aA; aB])]]));
   (n_t2new'baba, ([iB; iA; aB; aA], [mono 1 1 [(n_t2new'baba, [iB; iA; aB; aA])]]));
   (n_t2new'bbbb, ([iB; jB; aB; bB], [mono 1 1 [(n_t2new'bbbb, [iB; jB; aB; bB])]]));
   (n_t3new'aaaaaa, ([iA; jA; kA; aA; bA; cA], [mono (-1) 1 [(n_t3new'aaaaaa, [iA; kA; jA; aA; bA; cA])]]));
   (n_t3new'abaaba, ([iA; iB; jA; aA; aB; bA], [mono 1 1 [(n_t3new'abaaba, [iA; iB; jA; aA; aB; bA])]]));
   (n_t3new'babbab, ([iB; iA; jB; aB; aA; bB], [mono 1 1 [(n_t3new'babbab, [iB; iA; jB; aB; aA; bB])]]));
   (n_t3new'bbbbbb, ([iB; jB; kB; aB; bB; cB], [mono (-1) 1 [(n_t3new'bbbbbb, [iB; kB; jB; aB; bB; cB])]]));
   (n_u11new'aa, ([x; iA; aA], [mono 1 1 [(n_u11new'aa, [x; iA; aA])]]));
   (n_u11new'bb, ([x; iB; aB], [mono 1 1 [(n_u11new'bb, [x; iB; aB])]]));
   (n_u12new'aa, ([x; y; iA; aA], [mono 1 1 [(n_u12new'aa, [x; y; iA; aA])]]));
   (n_u12new'bb, ([x; y; iB; aB], [mono 1 1 [(n_u12new'bb, [x; y; iB; aB])]]))];
  [(n_e_cc, ([], [mono 1 1 [(n_e_cc, [])]]));
   (n_e_mp, ([], [mono 1 1 [(n_e_mp, [])]]));
   (n_l1new'aa, ([aA; iA], [mono 1 1 [(n_l1new'aa, [aA; iA])]]));
   (n_l1new'bb, ([aB; iB], [mono 1 1 [(n_l1new'bb, [aB; iB])]]));
   (n_l2new'aaaa, ([aA; bA; iA; jA], [mono 1 1 [(n_l2new'aaaa, [aA; bA; iA; jA])]]));
   (n_l2new'abab, ([aA; aB; iA; iB], [mono 1 1 [(n_l2new'abab, [aA; aB; iA; iB])]]));
   (n_l2new'baba, ([aB; aA; iB; iA], [mono 1 1 [(n_l2new'baba, [aB; aA; iB; iA])]]));
   (n_l2new'bbbb, ([aB; bB; iB; jB], [mono 1 1 [(n_l2new'bbbb, [aB; bB; iB; jB])]]));
   (n_l3new'aaaaaa, ([aA; bA; cA; iA; jA; kA], [mono (-1) 1 [(n_l3new'aaaaaa, [aA; bA; cA; iA; kA; jA])]]));
   (n_l3new'abaaba, ([aA; aB; bA; iA; iB; jA], [mono 1 1 [(n_l3new'abaaba, [aA; aB; bA; iA; iB; jA])]]));
   (n_l3new'babbab, ([aB; aA; bB; iB; iA; jB], [mono 1 1 [(n_l3new'babbab, [aB; aA; bB; iB; iA; jB])]]));
   (n_l3new'bbbbbb, ([aB; bB; cB; iB; jB; kB], [mono (-1) 1 [(n_l3new'bbbbbb, [aB; bB; cB; iB; kB; jB])]]));
   (n_ls1new, ([x], [mono 1 1 [(n_ls1new, [x])]]));
   (n_ls2new, ([x; y], [mono 1 1 [(n_ls2new, [x; y])]]));
   (n_lu11new'aa, ([x; aA; iA], [mono 1 1 [(n_lu11new'aa, [x; aA; iA])]]));
   (n_lu11new'bb, ([x; aB; iB], [mono 1 1 [(n_lu11new'bb, [x; aB; iB])]]));
   (n_lu12new'aa, ([x; y; aA; iA], [mono 1 1 [(n_lu12new'aa, [x; y; aA; iA])]]));
   (n_lu12new'bb, ([x; y; aB; iB], [mono 1 1 [(n_lu12new'bb, [x; y; aB; iB])]]));
   (n_s1new, ([x], [mono 1 1 [(n_s1new, [x])]]));
   (n_s2new, ([x; y], [mono 1 1 [(n_s2new, [x; y])]]));
   (n_t1new'aa, ([iA; aA], [mono 1 1 [(n_t1new'aa, [iA; aA])]]));
   (n_t1new'bb, ([iB; aB], [mono 1 1 [(n_t1new'bb, [iB; aB])]]));
   (n_t2new'aaaa, ([iA; jA; aA; bA], [mono 1 1 [(n_t2new'aaaa, [iA; jA; aA; bA])]]));
   (n_t2new'abab, ([iA; iB; aA; aB], [mono 1 1 [(n_t2new'abab, [iA; iB; aA; aB])]]));
   (n_t2new'baba, ([iB; iA; aB; aA], [mono 1 1 [(n_t2new'baba, [iB; iA; aB; aA])]]));
   (n_t2new'bbbb, ([iB; jB; aB; bB], [mono 1 1 [(n_t2new'bbbb, [iB; jB; aB; bB])]]));
   (n_t3new'aaaaaa, ([iA; jA; kA; aA; bA; cA], [mono (-1) 1 [(n_t3new'aaaaaa, [iA; jA; kA; aA; cA; bA])]]));
   (n_t3new'abaaba, ([iA; iB; jA; aA; aB; bA], [mono 1 1 [(n_t3new'abaaba, [iA; iB; jA; aA; aB; bA])]]));
   (n_t3new'babbab, ([iB; iA; jB; aB; aA; bB], [mono 1 1 [(n_t3new'babbab, [iB; iA; jB; aB; aA; bB])]]));
   (n_t3new'bbbbbb, ([iB; jB; kB; aB; bB; cB], [mono (-1) 1 [(n_t3new'bbbbbb, [iB; jB; kB; aB; cB; bB])]]));
   (n_u11new'aa, ([x; iA; aA], [mono 1 1 [(n_u11new'aa, [x; iA; aA])]]));
   (n_u11new'bb, ([x; iB; aB], [mono 1 1 [(n_u11new'bb, [x; iB; aB])]]));
   (n_u12new'aa, ([x; y; iA; aA], [mono 1 1 [(n_u12new'aa, [x; y; iA; aA])]]));
   (n_u12new'bb, ([x; y; iB; aB], [mono 1 1 [(n_u12new'bb, [x; y; iB; aB])]]))]].

(** Symmetries of results. *)
Definition symmetric_G : list table :=
 [[(n_e_cc, ([], [mono 1 1 [(n_e_cc, [])]]));
   (n_e_mp, ([], [mono 1 1 [(n_e_mp, [])]]));
   (n_l1new, ([a; i], [mono 1 1 [(n_l1new, [a; i])]]));
   (n_l2new, ([a; b; i; j], [mono (-1) 1 [(n_l2new, [b; a; i; j])]]));
   (n_l3new, ([a; b; c; i; j; k], [mono (-1) 1 [(n_l3new, [b; a; c; i; j; k])]]));
   (n_ls1new, ([x], [mono 1 1 [(n_ls1new, [x])]]));
   (n_ls2new, ([x; y], [mono 1 1 [(n_ls2new, [y; x])]]));
   (n_lu11new, ([x; a; i], [mono 1 1 [(n_lu11new, [x; a; i])]]));
   (n_lu12new, ([x; y; a; i], [mono 1 1 [(n_lu12new, [y; x; a; i])]]));
   (n_s1new, ([x], [mono 1 1 [(n_s1new, [x])]]));
   (n_s2new, ([x; y], [mono 1 1 [(n_s2new, [y; x])]]));
   (n_t1new, ([i; a], [mono 1 1 [(n_t1new, [i; a])]]));
   (n_t2new, ([i; j; a; b], [mono (-1) 1 [(n_t2new, [j; i; a; b])]]));
   (n_t3new, ([i; j; k; a; b; c], [mono (-1) 1 [(n_t3new, [j; i; k; a; b; c])]]));
   (n_u11new, ([x; i; a], [mono 1 1 [(n_u11new, [x; i; a])]]));
   (n_u12new, ([x; y; i; a], [mono 1 1 [(n_u12new, [y; x; i; a])]]))];
  [(n_e_cc, ([], [mono 1 1 [(n_e_cc, [])]]));
   (n_e_mp, ([], [mono 1 1 [(n_e_mp, [])]]));
   (n_l1new, ([a; i], [mono 1 1 [(n_l1new, [a; i])]]));
   (n_l2new, ([a; b; i; j], [mono (-1) 1 [(n_l2new, [a; b; j; i])]]));
   (n_l3new, ([a; b; c; i; j; k], [mono (-1) 1 [(n_l3new, [a; b; c; j; i; k])]]));
   (n_ls1new, ([x], [mono 1 1 [(n_ls1new, [x])]]));
   (n_ls2new, ([x; y], [mono 1 1 [(n_ls2new, [x; y])]]));
   (n_lu11new, ([x; a; i], [mono 1 1 [(n_lu11new, [x; a; i])]]));
   (n_lu12new, ([x; y; a; i], [mono 1 1 [(n_lu12new, [x; y; a; i])]]));
   (n_s1new, ([x], [mono 1 1 [(n_s1new, [x])]]));
   (n_s2new, ([x; y], [mono 1 1 [(n_s2new, [x; y])]]));
   (n_t1new, ([i; a], [mono 1 1 [(n_t1new, [i; a])]]));
   (n_t2new, ([i; j; a; b], [mono (-1) 1 [(n_t2new, [i; j; b; a])]]));
   (n_t3new, ([i; j; k; a; b; c], [mono (-1) 1 [(n_t3new, [i; j; k; b; a; c])]]));
   (n_u11new, ([x; i; a], [mono 1 1 [(n_u11new, [x; i; a])]]));
   (n_u12new, ([x; y; i; a], [mono 1 1 [(n_u12new, [x; y; i; a])]]))];
  [(n_e_cc, ([], [mono 1 1 [(n_e_cc, [])]]));
   (n_e_mp, ([], [mono 1 1 [(n_e_mp, [])]]));
   (n_l1new, ([a; i], [mono 1 1 [(n_l1new, [a; i])]]));
   (n_l2new, ([a; b; i; j], [mono 1 1 [(n_l2new, [a; b; i; j])]]));
   (n_l3new, ([a; b; c; i; j; k], [mono (-1) 1 [(n_l3new, [a; c; b; i; j; k])]]));
   (n_ls1new, ([x], [mono 1 1 [(n_ls1new, [x])]]));
   (n_ls2new, ([x; y], [mono 1 1 [(n_ls2new, [x; y])]]));
   (n_lu11new, ([x; a; i], [mono 1 1 [(n_lu11new, [x; a; i])]]));
   (n_lu12new, ([x; y; a; i], [mono 1 1 [(n_lu12new, [x; y; a; i])]]));
   (n_s1new, ([x], [mono 1 1 [(n_s1new, [x])]]));
   (n_s2new, ([x; y], [mono 1 1 [(n_s2new, [x; y])]]));
   (n_t1new, ([i; a], [mono 1 1 [(n_t1new, [i; a])]]));
   (n_t2new, ([i; j; a; b], [mono 1 1 [(n_t2new, [i; j; a; b])]]));
   (n_t3new, ([i; j; k; a; b; c], [mono (-1) 1 [(n_t3new, [i; k; j; a; b; c])]]));
   (n_u11new, ([x; i; a], [mono 1 1 [(n_u11new, [x; i; a])]]));
   (n_u12new, ([x; y; i; a], [mono 1 1 [(n_u12new, [x; y; i; a])]]))];
  [(n_e_cc, ([], [mono 1 1 [(n_e_cc, [])]]));
   (n_e_mp, ([], [mono 1 1 [(n_e_mp, [])]]));
   (n_l1new, ([a; i], [mono 1 1 [(n_l1new, [a; i])]]));
   (n_l2new, ([a; b; i; j], [mono 1 1 [(n_l2new, [a; b; i; j])]]));
   (n_l3new, ([a; b; c; i; j; k], [mono (-1) 1 [(n_l3new, [a; b; c; i; k; j])]]));
   (n_ls1new, ([x], [mono 1 1 [(n_ls1new, [x])]]));
   (n_ls2new, ([x; y], [mono 1 1 [(n_ls2new, [x; y])]]));
   (n_lu11new, ([x; a; i], [mono 1 1 [(n_lu11new, [x; a; i])]]));
   (n_lu12new, ([x; y; a; i], [mono 1 1 [(n_lu12new, [x; y; a; i])]]));
   (n_s1new, ([x], [mono 1 1 [(n_s1new, [x])]]));
   (n_s2new, ([x; y], [mono 1 1 [(n_s2new, [x; y])]]));
   (n_t1new, ([i; a], [mono 1 1 [(n_t1new, [i; a])]]));
   (n_t2new, ([i; j; a; b], [mono 1 1 [(n_t2new, [i; j; a; b])]]));
   (n_t3new, ([i; j; k; a; b; c], [mono (-1) 1 [(n_t3new, [i; j; k; a; c; b])]]));
   (n_u11new, ([x; i; a], [mono 1 1 [(n_u11new, [x; i; a])]]));
   (n_u12new, ([x; y; i; a], [mono 1 1 [(n_u12new, [x; y; i; a])]]))]].

Definition general_basis : list (ref * list cls) :=
 [(n_G, [3]);
  (n_f'oo, [0;0]);
  (n_f'ov, [0;1]);
  (n_f'vv, [1;1]);
  (n_g'boo, [3;0;0]);
  (n_g'bov, [3;0;1]);
  (n_g'bvo, [3;1;0]);
  (n_g'bvv, [3;1;1]);
  (n_l1, [1;0]);
  (n_l2, [1;1;0;0]);
  (n_l3, [1;1;1;0;0;0]);
  (n_ls1, [3]);
  (n_ls2, [3;3]);
  (n_lu11, [3;1;0]);
  (n_lu12, [3;3;1;0]);
  (n_s1, [3]);
  (n_s2, [3;3]);
  (n_t1, [0;1]);
  (n_t2, [0;0;1;1]);
  (n_t3, [0;0;0;1;1;1]);
  (n_u11, [3;0;1]);
  (n_u12, [3;3;0;1]);
  (n_v'oooo, [0;0;0;0]);
  (n_v'ooov, [0;0;0;1]);
  (n_v'oovv, [0;0;1;1]);
  (n_v'ovov, [0;1;0;1]);
  (n_v'ovvv, [0;1;1;1]);
  (n_v'vvvv, [1;1;1;1]);
  (n_w, [3;3])].
Definition general_basis_symmetries : symmetries :=
 [(n_f'oo, [([1;0], false)]);
  (n_f'vv, [([1;0], false)]);
  (n_l2, [([0;1;3;2], true); ([1;0;2;3], true); ([1;0;3;2], false)]);
  (n_l3, [([0;1;2;3;5;4], true); ([0;1;2;4;3;5], true); ([0;1;2;4;5;3], false); ([0;1;2;5;3;4], false); ([0;1;2;5;4;3], true); ([0;2;1;3;4;5], true); ([0;2;1;3;5;4], false); ([0;2;1;4;3;5], false); ([0;2;1;4;5;3], true); ([0;2;1;5;3;4], true); ([0;2;1;5;4;3], false); ([1;0;2;3;4;5], true); ([1;0;2;3;5;4], false); ([1;0;2;4;3;5], false); ([1;0;2;4;5;3], true); ([1;0;2;5;3;4], true); ([1;0;2;5;4;3], false); ([1;2;0;3;4;5], false); ([1;2;0;3;5;4], true); ([1;2;0;4;3;5], true); ([1;2;0;4;5;3], false); ([1;2;0;5;3;4], false); ([1;2;0;5;4;3], true); ([2;0;1;3;4;5], false); ([2;0;1;3;5;4], true); ([2;0;1;4;3;5], true); ([2;0;1;4;5;3], false); ([2;0;1;5;3;4], false); ([2;0;1;5;4;3], true); ([2;1;0;3;4;5], true); ([2;1;0;3;5;4], false); ([2;1;0;4;3;5], false); ([2;1;0;4;5;3], true); ([2;1;0;5;3;4], true); ([2;1;0;5;4;3], false)]);
  (n_ls2, [([1;0], false)]);
  (n_lu12, [([1;0;2;3], false)]);
  (n_s2, [([1;0], false)]);
  (n_t2, [([0;1;3;2], true); ([1;0;2;3], true); ([1;0;3;2], false)]);
  (n_t3, [([0;1;2;3;5;4], true); ([0;1;2;4;3;5], true); ([0;1;2;4;5;3], false); ([0;1;2;5;3;4], false); ([0;1;2;5;4;3], true); ([0;2;1;3;4;5], true); ([0;2;1;3;5;4], false); ([0;2;1;4;3;5], false); ([0;2;1;4;5;3], true); ([0;2;1;5;3;4], true); ([0;2;1;5;4;3], false); ([1;0;2;3;4;5], true); ([1;0;2;3;5;4], false); ([1;0;2;4;3;5], false); ([1;0;2;4;5;3], true); ([1;0;2;5;3;4], true); ([1;0;2;5;4;3], false); ([1;2;0;3;4;5], false); ([1;2;0;3;5;4], true); ([1;2;0;4;3;5], true); ([1;2;0;4;5;3], false); ([1;2;0;5;3;4], false); ([1;2;0;5;4;3], true); ([2;0;1;3;4;5], false); ([2;0;1;3;5;4], true); ([2;0;1;4;3;5], true); ([2;0;1;4;5;3], false); ([2;0;1;5;3;4], false); ([2;0;1;5;4;3], true); ([2;1;0;3;4;5], true); ([2;1;0;3;5;4], false); ([2;1;0;4;3;5], false); ([2;1;0;4;5;3], true); ([2;1;0;5;3;4], true); ([2;1;0;5;4;3], false)]);
  (n_u12, [([1;0;2;3], false)]);
  (n_v'oooo, [([1;0;2;3], true); ([0;1;3;2], true); ([1;0;3;2], false); ([2;3;0;1], false); ([3;2;0;1], true); ([2;3;1;0], true); ([3;2;1;0], false)]);
  (n_v'ooov, [([1;0;2;3], true)]);
  (n_v'oovv, [([1;0;2;3], true); ([0;1;3;2], true); ([1;0;3;2], false)]);
  (n_v'ovov, [([2;3;0;1], false)]);
  (n_v'ovvv, [([0;1;3;2], true)]);
  (n_v'vvvv, [([1;0;2;3], true); ([0;1;3;2], true); ([1;0;3;2], false); ([2;3;0;1], false); ([3;2;0;1], true); ([2;3;1;0], true); ([3;2;1;0], false)]);
  (n_w, [([1;0], false)])].

(** The tensors of a general calculation. *)
Definition general : table :=
 [(n_G, ([x], [mono 1 1 [(n_G, [x])]]));
  (n_f'oo, ([i; j], [mono 1 1 [(n_f'oo, [i; j])]]));
  (n_f'ov, ([i; a], [mono 1 1 [(n_f'ov, [i; a])]]));
  (n_f'vo, ([a; i], [mono 1 1 [(n_f'ov, [i; a])]]));
  (n_f'vv, ([a; b], [mono 1 1 [(n_f'vv, [a; b])]]));
  (n_g'boo, ([x; i; j], [mono 1 1 [(n_g'boo, [x; i; j])]]));
  (n_g'bov, ([x; i; a], [mono 1 1 [(n_g'bov, [x; i; a])]]));
  (n_g'bvo, ([x; a; i], [mono 1 1 [(n_g'bvo, [x; a; i])]]));
  (n_g'bvv, ([x; a; b], [mono 1 1 [(n_g'bvv, [x; a; b])]]));
  (n_l1, ([a; i], [mono 1 1 [(n_l1, [a; i])]]));
  (n_l2, ([a; b; i; j], [mono 1 1 [(n_l2, [a; b; i; j])]]));
  (n_l3, ([a; b; c; i; j; k], [mono 1 1 [(n_l3, [a; b; c; i; j; k])]]));
  (n_ls1, ([x], [mono 1 1 [(n_ls1, [x])]]));
  (n_ls2, ([x; y], [mono 1 1 [(n_ls2, [x; y])]]));
  (n_lu11, ([x; a; i], [mono 1 1 [(n_lu11, [x; a; i])]]));
  (n_lu12, ([x; y; a; i], [mono 1 1 [(n_lu12, [x; y; a; i])]]));
  (n_s1, ([x], [mono 1 1 [(n_s1, [x])]]));
  (n_s2, ([x; y], [mono 1 1 [(n_s2, [x; y])]]));
  (n_t1, ([i; a], [mono 1 1 [(n_t1, [i; a])]]));
  (n_t2, ([i; j; a; b], [mono 1 1 [(n_t2, [i; j; a; b])]]));
  (n_t3, ([i; j; k; a; b; c], [mono 1 1 [(n_t3, [i; j; k; a; b; c])]]));
  (n_u11, ([x; i; a], [mono 1 1 [(n_u11, [x; i; a])]]));
  (n_u12, ([x; y; i; a], [mono 1 1 [(n_u12, [x; y; i; a])]]));
  (n_v'oooo, ([i; j; k; l], [mono 1 1 [(n_v'oooo, [i; j; k; l])]]));
  (n_v'ooov, ([i; j; k; a], [mono 1 1 [(n_v'ooov, [i; j; k; a])]]));
  (n_v'oovv, ([i; j; a; b], [mono 1 1 [(n_v'oovv, [i; j; a; b])]]));
  (n_v'ovoo, ([i; a; j; k], [mono 1 1 [(n_v'ooov, [j; k; i; a])]]));
  (n_v'ovov, ([i; a; j; b], [mono 1 1 [(n_v'ovov, [i; a; j; b])]]));
  (n_v'ovvv, ([i; a; b; c], [mono 1 1 [(n_v'ovvv, [i; a; b; c])]]));
  (n_v'vvoo, ([a; b; i; j], [mono 1 1 [(n_v'oovv, [i; j; a; b])]]));
  (n_v'vvov, ([a; b; i; c], [mono 1 1 [(n_v'ovvv, [i; c; a; b])]]));
  (n_v'vvvv, ([a; b; c; d], [mono 1 1 [(n_v'vvvv, [a; b; c; d])]]));
  (n_w, ([x; y], [mono 1 1 [(n_w, [x; y])]]))].

