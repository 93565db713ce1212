(** Generated by tools/conversion_tables.py: tables of formulas relating the tensors of restricted,
    unrestricted and general calculations.  The rules are:

    - closed shell: alpha and beta orbitals coincide with the spatial ones; Fock matrix and integrals do not
      depend on the spin.  Singles and doubles of an unrestricted calculation are the restricted ones,
      antisymmetrised over indices of equal spin and halved (cc/uebcc.py:107-175, from_rebcc).  Triples come from
      a spatial tensor S with S_ijkabc = S_jikbac = ...: the restricted ones are S_ijkabc - S_kjiabc, the
      unrestricted ones are S antisymmetrised over each group of n indices of equal spin and divided by n!.
      (This is how the generated equations use them; from_rebcc rescales triples differently.)
    - results: residuals keep the spin structure of the amplitudes, but those of equal spin are not halved;
      the residual of three equal spins is the cyclic sum of the restricted one over the virtual orbitals;
    - spin orbitals: the orbitals of a general calculation are the alpha ones followed by the beta ones;
      integrals are antisymmetrised, <pq||rs> = (pr|qs) - (ps|qr); amplitudes are antisymmetric, and a block of an
      unrestricted calculation is the general one divided by n! for n occupied indices of equal spin
      (cc/gebcc.py:150-203, from_uebcc); the residuals are not divided.
*)

From Coq Require Import ZArith List.
From Verif Require Import CgModel CgFormSpec CgNames.
Import ListNotations.

(** Labels of indices: occupied i.., virtual a.., auxiliary P.., bosons x..; with spin iA, iB. *)
Local Notation i := 0%nat (only parsing).
Local Notation j := 1%nat (only parsing).
Local Notation k := 2%nat (only parsing).
Local Notation l := 3%nat (only parsing).
Local Notation m := 4%nat (only parsing).
Local Notation n := 5%nat (only parsing).
Local Notation a := 10%nat (only parsing).
Local Notation b := 11%nat (only parsing).
Local Notation c := 12%nat (only parsing).
Local Notation d := 13%nat (only parsing).
Local Notation e := 14%nat (only parsing).
Local Notation f := 15%nat (only parsing).
Local Notation P := 20%nat (only parsing).
Local Notation Q := 21%nat (only parsing).
Local Notation x := 30%nat (only parsing).
Local Notation y := 31%nat (only parsing).
Local Notation iA := 40%nat (only parsing).
Local Notation jA := 41%nat (only parsing).
Local Notation kA := 42%nat (only parsing).
Local Notation lA := 43%nat (only parsing).
Local Notation mA := 44%nat (only parsing).
Local Notation nA := 45%nat (only parsing).
Local Notation aA := 50%nat (only parsing).
Local Notation bA := 51%nat (only parsing).
Local Notation cA := 52%nat (only parsing).
Local Notation dA := 53%nat (only parsing).
Local Notation eA := 54%nat (only parsing).
Local Notation fA := 55%nat (only parsing).
Local Notation iB := 60%nat (only parsing).
Local Notation jB := 61%nat (only parsing).
Local Notation kB := 62%nat (only parsing).
Local Notation lB := 63%nat (only parsing).
Local Notation mB := 64%nat (only parsing).
Local Notation nB := 65%nat (only parsing).
Local Notation aB := 70%nat (only parsing).
Local Notation bB := 71%nat (only parsing).
Local Notation cB := 72%nat (only parsing).
Local Notation dB := 73%nat (only parsing).
Local Notation eB := 74%nat (only parsing).
Local Notation fB := 75%nat (only parsing).

(** * Closed shell *)
Definition spatial : list (ref * list cls) :=
 [(n_G, [3]);
  (n_f'oo, [0;0]);
  (n_f'ov, [0;1]);
  (n_f'vv, [1;1]);
  (n_g'boo, [3;0;0]);
  (n_g'bov, [3;0;1]);
  (n_g'bvo, [3;1;0]);
  (n_g'bvv, [3;1;1]);
  (n_l1, [1;0]);
  (n_l2, [1;1;0;0]);
  (n_l3, [1;1;1;0;0;0]);
  (n_ls1, [3]);
  (n_ls2, [3;3]);
  (n_lu11, [3;1;0]);
  (n_lu12, [3;3;1;0]);
  (n_s1, [3]);
  (n_s2, [3;3]);
  (n_t1, [0;1]);
  (n_t2, [0;0;1;1]);
  (n_t3, [0;0;0;1;1;1]);
  (n_u11, [3;0;1]);
  (n_u12, [3;3;0;1]);
  (n_v'oooo, [0;0;0;0]);
  (n_v'ooov, [0;0;0;1]);
  (n_v'oovv, [0;0;1;1]);
  (n_v'ovov, [0;1;0;1]);
  (n_v'ovvv, [0;1;1;1]);
  (n_v'vvvv, [1;1;1;1]);
  (n_v'xoo, [2;0;0]);
  (n_v'xov, [2;0;1]);
  (n_v'xvv, [2;1;1]);
  (n_w, [3;3])].
Definition spatial_symmetries : symmetries :=
 [(n_f'oo, [([1;0], false)]);
  (n_f'vv, [([1;0], false)]);
  (n_l2, [([1;0;3;2], false)]);
  (n_l3, [([0;2;1;3;5;4], false); ([1;0;2;4;3;5], false); ([1;2;0;4;5;3], false); ([2;0;1;5;3;4], false); ([2;1;0;5;4;3], false)]);
  (n_ls2, [([1;0], false)]);
  (n_lu12, [([1;0;2;3], false)]);
  (n_s2, [([1;0], false)]);
  (n_t2, [([1;0;3;2], false)]);
  (n_t3, [([0;2;1;3;5;4], false); ([1;0;2;4;3;5], false); ([1;2;0;4;5;3], false); ([2;0;1;5;3;4], false); ([2;1;0;5;4;3], false)]);
  (n_u12, [([1;0;2;3], false)]);
  (n_v'oooo, [([1;0;2;3], false); ([0;1;3;2], false); ([1;0;3;2], false); ([2;3;0;1], false); ([3;2;0;1], false); ([2;3;1;0], false); ([3;2;1;0], false)]);
  (n_v'ooov, [([1;0;2;3], false)]);
  (n_v'oovv, [([1;0;2;3], false); ([0;1;3;2], false); ([1;0;3;2], false)]);
  (n_v'ovov, [([2;3;0;1], false)]);
  (n_v'ovvv, [([0;1;3;2], false)]);
  (n_v'vvvv, [([1;0;2;3], false); ([0;1;3;2], false); ([1;0;3;2], false); ([2;3;0;1], false); ([3;2;0;1], false); ([2;3;1;0], false); ([3;2;1;0], false)]);
  (n_v'xoo, [([0;2;1], false)]);
  (n_v'xvv, [([0;2;1], false)]);
  (n_w, [([1;0], false)])].

(** The tensors of a restricted calculation. *)
Definition restricted : table :=
 [(n_G, ([x], [mono 1 1 [(n_G, [x])]]));
  (n_f'oo, ([i; j], [mono 1 1 [(n_f'oo, [i; j])]]));
  (n_f'ov, ([i; a], [mono 1 1 [(n_f'ov, [i; a])]]));
  (n_f'vo, ([a; i], [mono 1 1 [(n_f'ov, [i; a])]]));
  (n_f'vv, ([a; b], [mono 1 1 [(n_f'vv, [a; b])]]));
  (n_g'boo, ([x; i; j], [mono 1 1 [(n_g'boo, [x; i; j])]]));
  (n_g'bov, ([x; i; a], [mono 1 1 [(n_g'bov, [x; i; a])]]));
  (n_g'bvo, ([x; a; i], [mono 1 1 [(n_g'bvo, [x; a; i])]]));
  (n_g'bvv, ([x; a; b], [mono 1 1 [(n_g'bvv, [x; a; b])]]));
  (n_l1, ([a; i], [mono 1 1 [(n_l1, [a; i])]]));
  (n_l2, ([a; b; i; j], [mono 1 1 [(n_l2, [a; b; i; j])]]));
  (n_l3, ([a; b; c; i; j; k], [mono 1 1 [(n_l3, [a; b; c; i; j; k])]; mono (-1) 1 [(n_l3, [c; b; a; i; j; k])]]));
  (n_ls1, ([x], [mono 1 1 [(n_ls1, [x])]]));
  (n_ls2, ([x; y], [mono 1 1 [(n_ls2, [x; y])]]));
  (n_lu11, ([x; a; i], [mono 1 1 [(n_lu11, [x; a; i])]]));
  (n_lu12, ([x; y; a; i], [mono 1 1 [(n_lu12, [x; y; a; i])]]));
  (n_s1, ([x], [mono 1 1 [(n_s1, [x])]]));
  (n_s2, ([x; y], [mono 1 1 [(n_s2, [x; y])]]));
  (n_t1, ([i; a], [mono 1 1 [(n_t1, [i; a])]]));
  (n_t2, ([i; j; a; b], [mono 1 1 [(n_t2, [i; j; a; b])]]));
  (n_t3, ([i; j; k; a; b; c], [mono 1 1 [(n_t3, [i; j; k; a; b; c])]; mono (-1) 1 [(n_t3, [k; j; i; a; b; c])]]));
  (n_u11, ([x; i; a], [mono 1 1 [(n_u11, [x; i; a])]]));
  (n_u12, ([x; y; i; a], [mono 1 1 [(n_u12, [x; y; i; a])]]));
  (n_v'oooo, ([i; j; k; l], [mono 1 1 [(n_v'oooo, [i; j; k; l])]]));
  (n_v'ooov, ([i; j; k; a], [mono 1 1 [(n_v'ooov, [i; j; k; a])]]));
  (n_v'oovo, ([i; j; a; k], [mono 1 1 [(n_v'ooov, [i; j; k; a])]]));
  (n_v'oovv, ([i; j; a; b], [mono 1 1 [(n_v'oovv, [i; j; a; b])]]));
  (n_v'ovoo, ([i; a; j; k], [mono 1 1 [(n_v'ooov, [j; k; i; a])]]));
  (n_v'ovov, ([i; a; j; b], [mono 1 1 [(n_v'ovov, [i; a; j; b])]]));
  (n_v'ovvo, ([i; a; b; j], [mono 1 1 [(n_v'ovov, [i; a; j; b])]]));
  (n_v'ovvv, ([i; a; b; c], [mono 1 1 [(n_v'ovvv, [i; a; b; c])]]));
  (n_v'vovo, ([a; i; b; j], [mono 1 1 [(n_v'ovov, [i; a; j; b])]]));
  (n_v'vovv, ([a; i; b; c], [mono 1 1 [(n_v'ovvv, [i; a; b; c])]]));
  (n_v'vvvv, ([a; b; c; d], [mono 1 1 [(n_v'vvvv, [a; b; c; d])]]));
  (n_v'xoo, ([P; i; j], [mono 1 1 [(n_v'xoo, [P; i; j])]]));
  (n_v'xov, ([P; i; a], [mono 1 1 [(n_v'xov, [P; i; a])]]));
  (n_v'xvv, ([P; a; b], [mono 1 1 [(n_v'xvv, [P; a; b])]]));
  (n_w, ([x; y], [mono 1 1 [(n_w, [x; y])]]))].

(** The tensors of an unrestricted calculation on a closed shell, in terms of those of the restricted
    one (cc/uebcc.py:107-175). *)
Definition closed_shell : table :=
 [(n_G, ([x], [mono 1 1 [(n_G, [x])]]));
  (n_f'aa'oo, ([i; j], [mono 1 1 [(n_f'oo, [i; j])]]));
  (n_f'aa'ov, ([i; a], [mono 1 1 [(n_f'ov, [i; a])]]));
  (n_f'aa'vo, ([a; i], [mono 1 1 [(n_f'ov, [i; a])]]));
  (n_f'aa'vv, ([a; b], [mono 1 1 [(n_f'vv, [a; b])]]));
  (n_f'bb'oo, ([i; j], [mono 1 1 [(n_f'oo, [i; j])]]));
  (n_f'bb'ov, ([i; a], [mono 1 1 [(n_f'ov, [i; a])]]));
  (n_f'bb'vo, ([a; i], [mono 1 1 [(n_f'ov, [i; a])]]));
  (n_f'bb'vv, ([a; b], [mono 1 1 [(n_f'vv, [a; b])]]));
  (n_g'aa'boo, ([x; i; j], [mono 1 1 [(n_g'boo, [x; i; j])]]));
  (n_g'aa'bov, ([x; i; a], [mono 1 1 [(n_g'bov, [x; i; a])]]));
  (n_g'aa'bvo, ([x; a; i], [mono 1 1 [(n_g'bvo, [x; a; i])]]));
  (n_g'aa'bvv, ([x; a; b], [mono 1 1 [(n_g'bvv, [x; a; b])]]));
  (n_g'bb'boo, ([x; i; j], [mono 1 1 [(n_g'boo, [x; i; j])]]));
  (n_g'bb'bov, ([x; i; a], [mono 1 1 [(n_g'bov, [x; i; a])]]));
  (n_g'bb'bvo, ([x; a; i], [mono 1 1 [(n_g'bvo, [x; a; i])]]));
  (n_g'bb'bvv, ([x; a; b], [mono 1 1 [(n_g'bvv, [x; a; b])]]));
  (n_l1'aa, ([a; i], [mono 1 1 [(n_l1, [a; i])]]));
  (n_l1'bb, ([a; i], [mono 1 1 [(n_l1, [a; i])]]));
  (n_l2'aaaa, ([a; b; i; j], [mono 1 2 [(n_l2, [a; b; i; j])]; mono (-1) 2 [(n_l2, [a; b; j; i])]]));
  (n_l2'abab, ([a; b; i; j], [mono 1 1 [(n_l2, [a; b; i; j])]]));
  (n_l2'bbbb, ([a; b; i; j], [mono 1 2 [(n_l2, [a; b; i; j])]; mono (-1) 2 [(n_l2, [a; b; j; i])]]));
  (n_l3'aaaaaa, ([a; b; c; i; j; k], [mono 1 6 [(n_l3, [a; b; c; i; j; k])]; mono (-1) 6 [(n_l3, [a; b; c; i; k; j])]; mono (-1) 6 [(n_l3, [a; b; c; j; i; k])]; mono 1 6 [(n_l3, [a; b; c; j; k; i])]; mono 1 6 [(n_l3, [a; b; c; k; i; j])]; mono (-1) 6 [(n_l3, [a; b; c; k; j; i])]]));
  (n_l3'abaaba, ([a; b; c; i; j; k], [mono 1 2 [(n_l3, [a; b; c; i; j; k])]; mono (-1) 2 [(n_l3, [a; b; c; k; j; i])]]));
  (n_l3'babbab, ([a; b; c; i; j; k], [mono 1 2 [(n_l3, [a; b; c; i; j; k])]; mono (-1) 2 [(n_l3, [a; b; c; k; j; i])]]));
  (n_l3'bbbbbb, ([a; b; c; i; j; k], [mono 1 6 [(n_l3, [a; b; c; i; j; k])]; mono (-1) 6 [(n_l3, [a; b; c; i; k; j])]; mono (-1) 6 [(n_l3, [a; b; c; j; i; k])]; mono 1 6 [(n_l3, [a; b; c; j; k; i])]; mono 1 6 [(n_l3, [a; b; c; k; i; j])]; mono (-1) 6 [(n_l3, [a; b; c; k; j; i])]]));
  (n_ls1, ([x], [mono 1 1 [(n_ls1, [x])]]));
  (n_ls2, ([x; y], [mono 1 1 [(n_ls2, [x; y])]]));
  (n_lu11'aa, ([x; a; i], [mono 1 1 [(n_lu11, [x; a; i])]]));
  (n_lu11'bb, ([x; a; i], [mono 1 1 [(n_lu11, [x; a; i])]]));
  (n_lu12'aa, ([x; y; a; i], [mono 1 1 [(n_lu12, [x; y; a; i])]]));
  (n_lu12'bb, ([x; y; a; i], [mono 1 1 [(n_lu12, [x; y; a; i])]]));
  (n_s1, ([x], [mono 1 1 [(n_s1, [x])]]));
  (n_s2, ([x; y], [mono 1 1 [(n_s2, [x; y])]]));
  (n_t1'aa, ([i; a], [mono 1 1 [(n_t1, [i; a])]]));
  (n_t1'bb, ([i; a], [mono 1 1 [(n_t1, [i; a])]]));
  (n_t2'aaaa, ([i; j; a; b], [mono 1 2 [(n_t2, [i; j; a; b])]; mono (-1) 2 [(n_t2, [i; j; b; a])]]));
  (n_t2'abab, ([i; j; a; b], [mono 1 1 [(n_t2, [i; j; a; b])]]));
  (n_t2'bbbb, ([i; j; a; b], [mono 1 2 [(n_t2, [i; j; a; b])]; mono (-1) 2 [(n_t2, [i; j; b; a])]]));
  (n_t3'aaaaaa, ([i; j; k; a; b; c], [mono 1 6 [(n_t3, [i; j; k; a; b; c])]; mono (-1) 6 [(n_t3, [i; j; k; a; c; b])]; mono (-1) 6 [(n_t3, [i; j; k; b; a; c])]; mono 1 6 [(n_t3, [i; j; k; b; c; a])]; mono 1 6 [(n_t3, [i; j; k; c; a; b])]; mono (-1) 6 [(n_t3, [i; j; k; c; b; a])]]));
  (n_t3'abaaba, ([i; j; k; a; b; c], [mono 1 2 [(n_t3, [i; j; k; a; b; c])]; mono (-1) 2 [(n_t3, [i; j; k; c; b; a])]]));
  (n_t3'babbab, ([i; j; k; a; b; c], [mono 1 2 [(n_t3, [i; j; k; a; b; c])]; mono (-1) 2 [(n_t3, [i; j; k; c; b; a])]]));
  (n_t3'bbbbbb, ([i; j; k; a; b; c], [mono 1 6 [(n_t3, [i; j; k; a; b; c])]; mono (-1) 6 [(n_t3, [i; j; k; a; c; b])]; mono (-1) 6 [(n_t3, [i; j; k; b; a; c])]; mono 1 6 [(n_t3, [i; j; k; b; c; a])]; mono 1 6 [(n_t3, [i; j; k; c; a; b])]; mono (-1) 6 [(n_t3, [i; j; k; c; b; a])]]));
  (n_u11'aa, ([x; i; a], [mono 1 1 [(n_u11, [x; i; a])]]));
  (n_u11'bb, ([x; i; a], [mono 1 1 [(n_u11, [x; i; a])]]));
  (n_u12'aa, ([x; y; i; a], [mono 1 1 [(n_u12, [x; y; i; a])]]));
  (n_u12'bb, ([x; y; i; a], [mono 1 1 [(n_u12, [x; y; i; a])]]));
  (n_v'aa'xoo, ([P; i; j], [mono 1 1 [(n_v'xoo, [P; i; j])]]));
  (n_v'aa'xov, ([P; i; a], [mono 1 1 [(n_v'xov, [P; i; a])]]));
  (n_v'aa'xvv, ([P; a; b], [mono 1 1 [(n_v'xvv, [P; a; b])]]));
  (n_v'aaaa'oooo, ([i; j; k; l], [mono 1 1 [(n_v'oooo, [i; j; k; l])]]));
  (n_v'aaaa'ooov, ([i; j; k; a], [mono 1 1 [(n_v'ooov, [i; j; k; a])]]));
  (n_v'aaaa'oovo, ([i; j; a; k], [mono 1 1 [(n_v'ooov, [i; j; k; a])]]));
  (n_v'aaaa'oovv, ([i; j; a; b], [mono 1 1 [(n_v'oovv, [i; j; a; b])]]));
  (n_v'aaaa'ovoo, ([i; a; j; k], [mono 1 1 [(n_v'ooov, [j; k; i; a])]]));
  (n_v'aaaa'ovov, ([i; a; j; b], [mono 1 1 [(n_v'ovov, [i; a; j; b])]]));
  (n_v'aaaa'ovvo, ([i; a; b; j], [mono 1 1 [(n_v'ovov, [i; a; j; b])]]));
  (n_v'aaaa'ovvv, ([i; a; b; c], [mono 1 1 [(n_v'ovvv, [i; a; b; c])]]));
  (n_v'aaaa'vovo, ([a; i; b; j], [mono 1 1 [(n_v'ovov, [i; a; j; b])]]));
  (n_v'aaaa'vovv, ([a; i; b; c], [mono 1 1 [(n_v'ovvv, [i; a; b; c])]]));
  (n_v'aaaa'vvvv, ([a; b; c; d], [mono 1 1 [(n_v'vvvv, [a; b; c; d])]]));
  (n_v'aabb'oooo, ([i; j; k; l], [mono 1 1 [(n_v'oooo, [i; j; k; l])]]));
  (n_v'aabb'ooov, ([i; j; k; a], [mono 1 1 [(n_v'ooov, [i; j; k; a])]]));
  (n_v'aabb'oovo, ([i; j; a; k], [mono 1 1 [(n_v'ooov, [i; j; k; a])]]));
  (n_v'aabb'oovv, ([i; j; a; b], [mono 1 1 [(n_v'oovv, [i; j; a; b])]]));
  (n_v'aabb'ovoo, ([i; a; j; k], [mono 1 1 [(n_v'ooov, [j; k; i; a])]]));
  (n_v'aabb'ovov, ([i; a; j; b], [mono 1 1 [(n_v'ovov, [i; a; j; b])]]));
  (n_v'aabb'ovvo, ([i; a; b; j], [mono 1 1 [(n_v'ovov, [i; a; j; b])]]));
  (n_v'aabb'ovvv, ([i; a; b; c], [mono 1 1 [(n_v'ovvv, [i; a; b; c])]]));
  (n_v'aabb'vovo, ([a; i; b; j], [mono 1 1 [(n_v'ovov, [i; a; j; b])]]));
  (n_v'aabb'vovv, ([a; i; b; c], [mono 1 1 [(n_v'ovvv, [i; a; b; c])]]));
  (n_v'aabb'vvoo, ([a; b; i; j], [mono 1 1 [(n_v'oovv, [i; j; a; b])]]));
  (n_v'aabb'vvov, ([a; b; i; c], [mono 1 1 [(n_v'ovvv, [i; c; a; b])]]));
  (n_v'aabb'vvvo, ([a; b; c; i], [mono 1 1 [(n_v'ovvv, [i; c; a; b])]]));
  (n_v'aabb'vvvv, ([a; b; c; d], [mono 1 1 [(n_v'vvvv, [a; b; c; d])]]));
  (n_v'baa'xoo, ([P; i; j], [mono 1 1 [(n_v'xoo, [P; i; j])]]));
  (n_v'baa'xov, ([P; i; a], [mono 1 1 [(n_v'xov, [P; i; a])]]));
  (n_v'baa'xvv, ([P; a; b], [mono 1 1 [(n_v'xvv, [P; a; b])]]));
  (n_v'bb'xoo, ([P; i; j], [mono 1 1 [(n_v'xoo, [P; i; j])]]));
  (n_v'bb'xov, ([P; i; a], [mono 1 1 [(n_v'xov, [P; i; a])]]));
  (n_v'bb'xvv, ([P; a; b], [mono 1 1 [(n_v'xvv, [P; a; b])]]));
  (n_v'bbaa'oovo, ([i; j; a; k], [mono 1 1 [(n_v'ooov, [i; j; k; a])]]));
  (n_v'bbaa'oovv, ([i; j; a; b], [mono 1 1 [(n_v'oovv, [i; j; a; b])]]));
  (n_v'bbaa'ovvo, ([i; a; b; j], [mono 1 1 [(n_v'ovov, [i; a; j; b])]]));
  (n_v'bbaa'ovvv, ([i; a; b; c], [mono 1 1 [(n_v'ovvv, [i; a; b; c])]]));
  (n_v'bbb'xoo, ([P; i; j], [mono 1 1 [(n_v'xoo, [P; i; j])]]));
  (n_v'bbb'xov, ([P; i; a], [mono 1 1 [(n_v'xov, [P; i; a])]]));
  (n_v'bbb'xvv, ([P; a; b], [mono 1 1 [(n_v'xvv, [P; a; b])]]));
  (n_v'bbbb'oooo, ([i; j; k; l], [mono 1 1 [(n_v'oooo, [i; j; k; l])]]));
  (n_v'bbbb'ooov, ([i; j; k; a], [mono 1 1 [(n_v'ooov, [i; j; k; a])]]));
  (n_v'bbbb'oovo, ([i; j; a; k], [mono 1 1 [(n_v'ooov, [i; j; k; a])]]));
  (n_v'bbbb'oovv, ([i; j; a; b], [mono 1 1 [(n_v'oovv, [i; j; a; b])]]));
  (n_v'bbbb'ovoo, ([i; a; j; k], [mono 1 1 [(n_v'ooov, [j; k; i; a])]]));
  (n_v'bbbb'ovov, ([i; a; j; b], [mono 1 1 [(n_v'ovov, [i; a; j; b])]]));
  (n_v'bbbb'ovvo, ([i; a; b; j], [mono 1 1 [(n_v'ovov, [i; a; j; b])]]));
  (n_v'bbbb'ovvv, ([i; a; b; c], [mono 1 1 [(n_v'ovvv, [i; a; b; c])]]));
  (n_v'bbbb'vovo, ([a; i; b; j], [mono 1 1 [(n_v'ovov, [i; a; j; b])]]));
  (n_v'bbbb'vovv, ([a; i; b; c], [mono 1 1 [(n_v'ovvv, [i; a; b; c])]]));
  (n_v'bbbb'vvvv, ([a; b; c; d], [mono 1 1 [(n_v'vvvv, [a; b; c; d])]]));
  (n_w, ([x; y], [mono 1 1 [(n_w, [x; y])]]))].

(** The results of an unrestricted function in terms of those of the restricted one. *)
Definition closed_shell_results : table :=
 [(n_e_cc, ([], [mono 1 1 [(n_e_cc, [])]]));
  (n_e_mp, ([], [mono 1 1 [(n_e_mp, [])]]));
  (n_l1new'aa, ([a; i], [mono 1 1 [(n_l1new, [a; i])]]));
  (n_l1new'bb, ([a; i], [mono 1 1 [(n_l1new, [a; i])]]));
  (n_l2new'aaaa, ([a; b; i; j], [mono 1 1 [(n_l2new, [a; b; i; j])]; mono (-1) 1 [(n_l2new, [b; a; i; j])]]));
  (n_l2new'abab, ([a; b; i; j], [mono 1 1 [(n_l2new, [a; b; i; j])]]));
  (n_l2new'baba, ([a; b; i; j], [mono 1 1 [(n_l2new, [a; b; i; j])]]));
  (n_l2new'bbbb, ([a; b; i; j], [mono 1 1 [(n_l2new, [a; b; i; j])]; mono (-1) 1 [(n_l2new, [b; a; i; j])]]));
  (n_l3new'aaaaaa, ([a; b; c; i; j; k], [mono 1 1 [(n_l3new, [a; b; c; i; j; k])]; mono 1 1 [(n_l3new, [a; b; c; j; k; i])]; mono 1 1 [(n_l3new, [a; b; c; k; i; j])]]));
  (n_l3new'abaaba, ([a; b; c; i; j; k], [mono 1 1 [(n_l3new, [a; b; c; i; j; k])]]));
  (n_l3new'babbab, ([a; b; c; i; j; k], [mono 1 1 [(n_l3new, [a; b; c; i; j; k])]]));
  (n_l3new'bbbbbb, ([a; b; c; i; j; k], [mono 1 1 [(n_l3new, [a; b; c; i; j; k])]; mono 1 1 [(n_l3new, [a; b; c; j; k; i])]; mono 1 1 [(n_l3new, [a; b; c; k; i; j])]]));
  (n_ls1new, ([x], [mono 1 1 [(n_ls1new, [x])]]));
  (n_ls2new, ([x; y], [mono 1 1 [(n_ls2new, [x; y])]]));
  (n_lu11new'aa, ([x; a; i], [mono 1 1 [(n_lu11new, [x; a; i])]]));
  (n_lu11new'bb, ([x; a; i], [mono 1 1 [(n_lu11new, [x; a; i])]]));
  (n_lu12new'aa, ([x; y; a; i], [mono 1 1 [(n_lu12new, [x; y; a; i])]]));
  (n_lu12new'bb, ([x; y; a; i], [mono 1 1 [(n_lu12new, [x; y; a; i])]]));
  (n_s1new, ([x], [mono 1 1 [(n_s1new, [x])]]));
  (n_s2new, ([x; y], [mono 1 1 [(n_s2new, [x; y])]]));
  (n_t1new'aa, ([i; a], [mono 1 1 [(n_t1new, [i; a])]]));
  (n_t1new'bb, ([i; a], [mono 1 1 [(n_t1new, [i; a])]]));
  (n_t2new'aaaa, ([i; j; a; b], [mono 1 1 [(n_t2new, [i; j; a; b])]; mono (-1) 1 [(n_t2new, [j; i; a; b])]]));
  (n_t2new'abab, ([i; j; a; b], [mono 1 1 [(n_t2new, [i; j; a; b])]]));
  (n_t2new'baba, ([i; j; a; b], [mono 1 1 [(n_t2new, [i; j; a; b])]]));
  (n_t2new'bbbb, ([i; j; a; b], [mono 1 1 [(n_t2new, [i; j; a; b])]; mono (-1) 1 [(n_t2new, [j; i; a; b])]]));
  (n_t3new'aaaaaa, ([i; j; k; a; b; c], [mono 1 1 [(n_t3new, [i; j; k; a; b; c])]; mono 1 1 [(n_t3new, [i; j; k; b; c; a])]; mono 1 1 [(n_t3new, [i; j; k; c; a; b])]]));
  (n_t3new'abaaba, ([i; j; k; a; b; c], [mono 1 1 [(n_t3new, [i; j; k; a; b; c])]]));
  (n_t3new'babbab, ([i; j; k; a; b; c], [mono 1 1 [(n_t3new, [i; j; k; a; b; c])]]));
  (n_t3new'bbbbbb, ([i; j; k; a; b; c], [mono 1 1 [(n_t3new, [i; j; k; a; b; c])]; mono 1 1 [(n_t3new, [i; j; k; b; c; a])]; mono 1 1 [(n_t3new, [i; j; k; c; a; b])]]));
  (n_u11new'aa, ([x; i; a], [mono 1 1 [(n_u11new, [x; i; a])]]));
  (n_u11new'bb, ([x; i; a], [mono 1 1 [(n_u11new, [x; i; a])]]));
  (n_u12new'aa, ([x; y; i; a], [mono 1 1 [(n_u12new, [x; y; i; a])]]));
  (n_u12new'bb, ([x; y; i; a], [mono 1 1 [(n_u12new, [x; y; i; a])]]))].

(** * Spin orbitals *)
Definition spin_blocks : list (ref * list cls) :=
 [(n_G, [3]);
  (n_f'aa'oo, [4;4]);
  (n_f'aa'ov, [4;5]);
  (n_f'aa'vv, [5;5]);
  (n_f'bb'oo, [6;6]);
  (n_f'bb'ov, [6;7]);
  (n_f'bb'vv, [7;7]);
  (n_g'aa'boo, [3;4;4]);
  (n_g'aa'bov, [3;4;5]);
  (n_g'aa'bvo, [3;5;4]);
  (n_g'aa'bvv, [3;5;5]);
  (n_g'bb'boo, [3;6;6]);
  (n_g'bb'bov, [3;6;7]);
  (n_g'bb'bvo, [3;7;6]);
  (n_g'bb'bvv, [3;7;7]);
  (n_l1'aa, [5;4]);
  (n_l1'bb, [7;6]);
  (n_l2'aaaa, [5;5;4;4]);
  (n_l2'abab, [5;7;4;6]);
  (n_l2'bbbb, [7;7;6;6]);
  (n_l3'aaaaaa, [5;5;5;4;4;4]);
  (n_l3'abaaba, [5;7;5;4;6;4]);
  (n_l3'babbab, [7;5;7;6;4;6]);
  (n_l3'bbbbbb, [7;7;7;6;6;6]);
  (n_ls1, [3]);
  (n_ls2, [3;3]);
  (n_lu11'aa, [3;5;4]);
  (n_lu11'bb, [3;7;6]);
  (n_lu12'aa, [3;3;5;4]);
  (n_lu12'bb, [3;3;7;6]);
  (n_s1, [3]);
  (n_s2, [3;3]);
  (n_t1'aa, [4;5]);
  (n_t1'bb, [6;7]);
  (n_t2'aaaa, [4;4;5;5]);
  (n_t2'abab, [4;6;5;7]);
  (n_t2'bbbb, [6;6;7;7]);
  (n_t3'aaaaaa, [4;4;4;5;5;5]);
  (n_t3'abaaba, [4;6;4;5;7;5]);
  (n_t3'babbab, [6;4;6;7;5;7]);
  (n_t3'bbbbbb, [6;6;6;7;7;7]);
  (n_u11'aa, [3;4;5]);
  (n_u11'bb, [3;6;7]);
  (n_u12'aa, [3;3;4;5]);
  (n_u12'bb, [3;3;6;7]);
  (n_v'aa'xoo, [2;4;4]);
  (n_v'aa'xov, [2;4;5]);
  (n_v'aa'xvv, [2;5;5]);
  (n_v'aaaa'oooo, [4;4;4;4]);
  (n_v'aaaa'ooov, [4;4;4;5]);
  (n_v'aaaa'oovv, [4;4;5;5]);
  (n_v'aaaa'ovov, [4;5;4;5]);
  (n_v'aaaa'ovvv, [4;5;5;5]);
  (n_v'aaaa'vvvv, [5;5;5;5]);
  (n_v'aabb'oooo, [4;4;6;6]);
  (n_v'aabb'ooov, [4;4;6;7]);
  (n_v'aabb'oovv, [4;4;7;7]);
  (n_v'aabb'ovoo, [4;5;6;6]);
  (n_v'aabb'ovov, [4;5;6;7]);
  (n_v'aabb'ovvv, [4;5;7;7]);
  (n_v'aabb'vvvv, [5;5;7;7]);
  (n_v'bb'xoo, [2;6;6]);
  (n_v'bb'xov, [2;6;7]);
  (n_v'bb'xvv, [2;7;7]);
  (n_v'bbaa'oovv, [6;6;5;5]);
  (n_v'bbaa'ovvv, [6;7;5;5]);
  (n_v'bbbb'oooo, [6;6;6;6]);
  (n_v'bbbb'ooov, [6;6;6;7]);
  (n_v'bbbb'oovv, [6;6;7;7]);
  (n_v'bbbb'ovov, [6;7;6;7]);
  (n_v'bbbb'ovvv, [6;7;7;7]);
  (n_v'bbbb'vvvv, [7;7;7;7]);
  (n_w, [3;3])].
Definition spin_blocks_symmetries : symmetries :=
 [(n_f'aa'oo, [([1;0], false)]);
  (n_f'aa'vv, [([1;0], false)]);
  (n_f'bb'oo, [([1;0], false)]);
  (n_f'bb'vv, [([1;0], false)]);
  (n_l2'aaaa, [([0;1;3;2], true); ([1;0;2;3], true); ([1;0;3;2], false)]);
  (n_l2'bbbb, [([0;1;3;2], true); ([1;0;2;3], true); ([1;0;3;2], false)]);
  (n_l3'aaaaaa, [([0;1;2;3;5;4], true); ([0;1;2;4;3;5], true); ([0;1;2;4;5;3], false); ([0;1;2;5;3;4], false); ([0;1;2;5;4;3], true); ([0;2;1;3;4;5], true); ([0;2;1;3;5;4], false); ([0;2;1;4;3;5], false); ([0;2;1;4;5;3], true); ([0;2;1;5;3;4], true); ([0;2;1;5;4;3], false); ([1;0;2;3;4;5], true); ([1;0;2;3;5;4], false); ([1;0;2;4;3;5], false); ([1;0;2;4;5;3], true); ([1;0;2;5;3;4], true); ([1;0;2;5;4;3], false); ([1;2;0;3;4;5], false); ([1;2;0;3;5;4], true); ([1;2;0;4;3;5], true); ([1;2;0;4;5;3], false); ([1;2;0;5;3;4], false); ([1;2;0;5;4;3], true); ([2;0;1;3;4;5], false); ([2;0;1;3;5;4], true); ([2;0;1;4;3;5], true); ([2;0;1;4;5;3], false); ([2;0;1;5;3;4], false); ([2;0;1;5;4;3], true); ([2;1;0;3;4;5], true); ([2;1;0;3;5;4], false); ([2;1;0;4;3;5], false); ([2;1;0;4;5;3], true); ([2;1;0;5;3;4], true); ([2;1;0;5;4;3], false)]);
  (n_l3'abaaba, [([0;1;2;5;4;3], true); ([2;1;0;3;4;5], true); ([2;1;0;5;4;3], false)]);
  (n_l3'babbab, [([0;1;2;5;4;3], true); ([2;1;0;3;4;5], true); ([2;1;0;5;4;3], false)]);
  (n_l3'bbbbbb, [([0;1;2;3;5;4], true); ([0;1;2;4;3;5], true); ([0;1;2;4;5;3], false); ([0;1;2;5;3;4], false); ([0;1;2;5;4;3], true); ([0;2;1;3;4;5], true); ([0;2;1;3;5;4], false); ([0;2;1;4;3;5], false); ([0;2;1;4;5;3], true); ([0;2;1;5;3;4], true); ([0;2;1;5;4;3], false); ([1;0;2;3;4;5], true); ([1;0;2;3;5;4], false); ([1;0;2;4;3;5], false); ([1;0;2;4;5;3], true); ([1;0;2;5;3;4], true); ([1;0;2;5;4;3], false); ([1;2;0;3;4;5], false); ([1;2;0;3;5;4], true); ([1;2;0;4;3;5], true); ([1;2;0;4;5;3], false); ([1;2;0;5;3;4], false); ([1;2;0;5;4;3], true); ([2;0;1;3;4;5], false); ([2;0;1;3;5;4], true); ([2;0;1;4;3;5], true); ([2;0;1;4;5;3], false); ([2;0;1;5;3;4], false); ([2;0;1;5;4;3], true); ([2;1;0;3;4;5], true); ([2;1;0;3;5;4], false); ([2;1;0;4;3;5], false); ([2;1;0;4;5;3], true); ([2;1;0;5;3;4], true); ([2;1;0;5;4;3], false)]);
  (n_ls2, [([1;0], false)]);
  (n_lu12'aa, [([1;0;2;3], false)]);
  (n_lu12'bb, [([1;0;2;3], false)]);
  (n_s2, [([1;0], false)]);
  (n_t2'aaaa, [([0;1;3;2], true); ([1;0;2;3], true); ([1;0;3;2], false)]);
  (n_t2'bbbb, [([0;1;3;2], true); ([1;0;2;3], true); ([1;0;3;2], false)]);
  (n_t3'aaaaaa, [([0;1;2;3;5;4], true); ([0;1;2;4;3;5], true); ([0;1;2;4;5;3], false); ([0;1;2;5;3;4], false); ([0;1;2;5;4;3], true); ([0;2;1;3;4;5], true); ([0;2;1;3;5;4], false); ([0;2;1;4;3;5], false); ([0;2;1;4;5;3], true); ([0;2;1;5;3;4], true); ([0;2;1;5;4;3], false); ([1;0;2;3;4;5], true); ([1;0;2;3;5;4], false); ([1;0;2;4;3;5], false); ([1;0;2;4;5;3], true); ([1;0;2;5;3;4], true); ([1;0;2;5;4;3], false); ([1;2;0;3;4;5], false); ([1;2;0;3;5;4], true); ([1;2;0;4;3;5], true); ([1;2;0;4;5;3], false); ([1;2;0;5;3;4], false); ([1;2;0;5;4;3], true); ([2;0;1;3;4;5], false); ([2;0;1;3;5;4], true); ([2;0;1;4;3;5], true); ([2;0;1;4;5;3], false); ([2;0;1;5;3;4], false); ([2;0;1;5;4;3], true); ([2;1;0;3;4;5], true); ([2;1;0;3;5;4], false); ([2;1;0;4;3;5], false); ([2;1;0;4;5;3], true); ([2;1;0;5;3;4], true); ([2;1;0;5;4;3], false)]);
  (n_t3'abaaba, [([0;1;2;5;4;3], true); ([2;1;0;3;4;5], true); ([2;1;0;5;4;3], false)]);
  (n_t3'babbab, [([0;1;2;5;4;3], true); ([2;1;0;3;4;5], true); ([2;1;0;5;4;3], false)]);
  (n_t3'bbbbbb, [([0;1;2;3;5;4], true); ([0;1;2;4;3;5], true); ([0;1;2;4;5;3], false); ([0;1;2;5;3;4], false); ([0;1;2;5;4;3], true); ([0;2;1;3;4;5], true); ([0;2;1;3;5;4], false); ([0;2;1;4;3;5], false); ([0;2;1;4;5;3], true); ([0;2;1;5;3;4], true); ([0;2;1;5;4;3], false); ([1;0;2;3;4;5], true); ([1;0;2;3;5;4], false); ([1;0;2;4;3;5], false); ([1;0;2;4;5;3], true); ([1;0;2;5;3;4], true); ([1;0;2;5;4;3], false); ([1;2;0;3;4;5], false); ([1;2;0;3;5;4], true); ([1;2;0;4;3;5], true); ([1;2;0;4;5;3], false); ([1;2;0;5;3;4], false); ([1;2;0;5;4;3], true); ([2;0;1;3;4;5], false); ([2;0;1;3;5;4], true); ([2;0;1;4;3;5], true); ([2;0;1;4;5;3], false); ([2;0;1;5;3;4], false); ([2;0;1;5;4;3], true); ([2;1;0;3;4;5], true); ([2;1;0;3;5;4], false); ([2;1;0;4;3;5], false); ([2;1;0;4;5;3], true); ([2;1;0;5;3;4], true); ([2;1;0;5;4;3], false)]);
  (n_u12'aa, [([1;0;2;3], false)]);
  (n_u12'bb, [([1;0;2;3], false)]);
  (n_v'aa'xoo, [([0;2;1], false)]);
  (n_v'aa'xvv, [([0;2;1], false)]);
  (n_v'aaaa'oooo, [([1;0;2;3], false); ([0;1;3;2], false); ([1;0;3;2], false); ([2;3;0;1], false); ([3;2;0;1], false); ([2;3;1;0], false); ([3;2;1;0], false)]);
  (n_v'aaaa'ooov, [([1;0;2;3], false)]);
  (n_v'aaaa'oovv, [([1;0;2;3], false); ([0;1;3;2], false); ([1;0;3;2], false)]);
  (n_v'aaaa'ovov, [([2;3;0;1], false)]);
  (n_v'aaaa'ovvv, [([0;1;3;2], false)]);
  (n_v'aaaa'vvvv, [([1;0;2;3], false); ([0;1;3;2], false); ([1;0;3;2], false); ([2;3;0;1], false); ([3;2;0;1], false); ([2;3;1;0], false); ([3;2;1;0], false)]);
  (n_v'aabb'oooo, [([1;0;2;3], false); ([0;1;3;2], false); ([1;0;3;2], false)]);
  (n_v'aabb'ooov, [([1;0;2;3], false)]);
  (n_v'aabb'oovv, [([1;0;2;3], false); ([0;1;3;2], false); ([1;0;3;2], false)]);
  (n_v'aabb'ovoo, [([0;1;3;2], false)]);
  (n_v'aabb'ovvv, [([0;1;3;2], false)]);
  (n_v'aabb'vvvv, [([1;0;2;3], false); ([0;1;3;2], false); ([1;0;3;2], false)]);
  (n_v'bb'xoo, [([0;2;1], false)]);
  (n_v'bb'xvv, [([0;2;1], false)]);
  (n_v'bbaa'oovv, [([1;0;2;3], false); ([0;1;3;2], false); ([1;0;3;2], false)]);
  (n_v'bbaa'ovvv, [([0;1;3;2], false)]);
  (n_v'bbbb'oooo, [([1;0;2;3], false); ([0;1;3;2], false); ([1;0;3;2], false); ([2;3;0;1], false); ([3;2;0;1], false); ([2;3;1;0], false); ([3;2;1;0], false)]);
  (n_v'bbbb'ooov, [([1;0;2;3], false)]);
  (n_v'bbbb'oovv, [([1;0;2;3], false); ([0;1;3;2], false); ([1;0;3;2], false)]);
  (n_v'bbbb'ovov, [([2;3;0;1], false)]);
  (n_v'bbbb'ovvv, [([0;1;3;2], false)]);
  (n_v'bbbb'vvvv, [([1;0;2;3], false); ([0;1;3;2], false); ([1;0;3;2], false); ([2;3;0;1], false); ([3;2;0;1], false); ([2;3;1;0], false); ([3;2;1;0], false)]);
  (n_w, [([1;0], false)])].

(** The tensors of an unrestricted calculation. *)
Definition unrestricted : table :=
 [(n_G, ([x], [mono 1 1 [(n_G, [x])]]));
  (n_f'aa'oo, ([iA; jA], [mono 1 1 [(n_f'aa'oo, [iA; jA])]]));
  (n_f'aa'ov, ([iA; aA], [mono 1 1 [(n_f'aa'ov, [iA; aA])]]));
  (n_f'aa'vo, ([aA; iA], [mono 1 1 [(n_f'aa'ov, [iA; aA])]]));
  (n_f'aa'vv, ([aA; bA], [mono 1 1 [(n_f'aa'vv, [aA; bA])]]));
  (n_f'bb'oo, ([iB; jB], [mono 1 1 [(n_f'bb'oo, [iB; jB])]]));
  (n_f'bb'ov, ([iB; aB], [mono 1 1 [(n_f'bb'ov, [iB; aB])]]));
  (n_f'bb'vo, ([aB; iB], [mono 1 1 [(n_f'bb'ov, [iB; aB])]]));
  (n_f'bb'vv, ([aB; bB], [mono 1 1 [(n_f'bb'vv, [aB; bB])]]));
  (n_g'aa'boo, ([x; iA; jA], [mono 1 1 [(n_g'aa'boo, [x; iA; jA])]]));
  (n_g'aa'bov, ([x; iA; aA], [mono 1 1 [(n_g'aa'bov, [x; iA; aA])]]));
  (n_g'aa'bvo, ([x; aA; iA], [mono 1 1 [(n_g'aa'bvo, [x; aA; iA])]]));
  (n_g'aa'bvv, ([x; aA; bA], [mono 1 1 [(n_g'aa'bvv, [x; aA; bA])]]));
  (n_g'bb'boo, ([x; iB; jB], [mono 1 1 [(n_g'bb'boo, [x; iB; jB])]]));
  (n_g'bb'bov, ([x; iB; aB], [mono 1 1 [(n_g'bb'bov, [x; iB; aB])]]));
  (n_g'bb'bvo, ([x; aB; iB], [mono 1 1 [(n_g'bb'bvo, [x; aB; iB])]]));
  (n_g'bb'bvv, ([x; aB; bB], [mono 1 1 [(n_g'bb'bvv, [x; aB; bB])]]));
  (n_l1'aa, ([aA; iA], [mono 1 1 [(n_l1'aa, [aA; iA])]]));
  (n_l1'bb, ([aB; iB], [mono 1 1 [(n_l1'bb, [aB; iB])]]));
  (n_l2'aaaa, ([aA; bA; iA; jA], [mono 1 1 [(n_l2'aaaa, [aA; bA; iA; jA])]]));
  (n_l2'abab, ([aA; aB; iA; iB], [mono 1 1 [(n_l2'abab, [aA; aB; iA; iB])]]));
  (n_l2'bbbb, ([aB; bB; iB; jB], [mono 1 1 [(n_l2'bbbb, [aB; bB; iB; jB])]]));
  (n_l3'aaaaaa, ([aA; bA; cA; iA; jA; kA], [mono 1 1 [(n_l3'aaaaaa, [aA; bA; cA; iA; jA; kA])]]));
  (n_l3'abaaba, ([aA; aB; bA; iA; iB; jA], [mono 1 1 [(n_l3'abaaba, [aA; aB; bA; iA; iB; jA])]]));
  (n_l3'babbab, ([aB; aA; bB; iB; iA; jB], [mono 1 1 [(n_l3'babbab, [aB; aA; bB; iB; iA; jB])]]));
  (n_l3'bbbbbb, ([aB; bB; cB; iB; jB; kB], [mono 1 1 [(n_l3'bbbbbb, [aB; bB; cB; iB; jB; kB])]]));
  (n_ls1, ([x], [mono 1 1 [(n_ls1, [x])]]));
  (n_ls2, ([x; y], [mono 1 1 [(n_ls2, [x; y])]]));
  (n_lu11'aa, ([x; aA; iA], [mono 1 1 [(n_lu11'aa, [x; aA; iA])]]));
  (n_lu11'bb, ([x; aB; iB], [mono 1 1 [(n_lu11'bb, [x; aB; iB])]]));
  (n_lu12'aa, ([x; y; aA; iA], [mono 1 1 [(n_lu12'aa, [x; y; aA; iA])]]));
  (n_lu12'bb, ([x; y; aB; iB], [mono 1 1 [(n_lu12'bb, [x; y; aB; iB])]]));
  (n_s1, ([x], [mono 1 1 [(n_s1, [x])]]));
  (n_s2, ([x; y], [mono 1 1 [(n_s2, [x; y])]]));
  (n_t1'aa, ([iA; aA], [mono 1 1 [(n_t1'aa, [iA; aA])]]));
  (n_t1'bb, ([iB; aB], [mono 1 1 [(n_t1'bb, [iB; aB])]]));
  (n_t2'aaaa, ([iA; jA; aA; bA], [mono 1 1 [(n_t2'aaaa, [iA; jA; aA; bA])]]));
  (n_t2'abab, ([iA; iB; aA; aB], [mono 1 1 [(n_t2'abab, [iA; iB; aA; aB])]]));
  (n_t2'bbbb, ([iB; jB; aB; bB], [mono 1 1 [(n_t2'bbbb, [iB; jB; aB; bB])]]));
  (n_t3'aaaaaa, ([iA; jA; kA; aA; bA; cA], [mono 1 1 [(n_t3'aaaaaa, [iA; jA; kA; aA; bA; cA])]]));
  (n_t3'abaaba, ([iA; iB; jA; aA; aB; bA], [mono 1 1 [(n_t3'abaaba, [iA; iB; jA; aA; aB; bA])]]));
  (n_t3'babbab, ([iB; iA; jB; aB; aA; bB], [mono 1 1 [(n_t3'babbab, [iB; iA; jB; aB; aA; bB])]]));
  (n_t3'bbbbbb, ([iB; jB; kB; aB; bB; cB], [mono 1 1 [(n_t3'bbbbbb, [iB; jB; kB; aB; bB; cB])]]));
  (n_u11'aa, ([x; iA; aA], [mono 1 1 [(n_u11'aa, [x; iA; aA])]]));
  (n_u11'bb, ([x; iB; aB], [mono 1 1 [(n_u11'bb, [x; iB; aB])]]));
  (n_u12'aa, ([x; y; iA; aA], [mono 1 1 [(n_u12'aa, [x; y; iA; aA])]]));
  (n_u12'bb, ([x; y; iB; aB], [mono 1 1 [(n_u12'bb, [x; y; iB; aB])]]));
  (n_v'aa'xoo, ([P; iA; jA], [mono 1 1 [(n_v'aa'xoo, [P; iA; jA])]]));
  (n_v'aa'xov, ([P; iA; aA], [mono 1 1 [(n_v'aa'xov, [P; iA; aA])]]));
  (n_v'aa'xvv, ([P; aA; bA], [mono 1 1 [(n_v'aa'xvv, [P; aA; bA])]]));
  (n_v'aaaa'oooo, ([iA; jA; kA; lA], [mono 1 1 [(n_v'aaaa'oooo, [iA; jA; kA; lA])]]));
  (n_v'aaaa'ooov, ([iA; jA; kA; aA], [mono 1 1 [(n_v'aaaa'ooov, [iA; jA; kA; aA])]]));
  (n_v'aaaa'oovo, ([iA; jA; aA; kA], [mono 1 1 [(n_v'aaaa'ooov, [iA; jA; kA; aA])]]));
  (n_v'aaaa'oovv, ([iA; jA; aA; bA], [mono 1 1 [(n_v'aaaa'oovv, [iA; jA; aA; bA])]]));
  (n_v'aaaa'ovoo, ([iA; aA; jA; kA], [mono 1 1 [(n_v'aaaa'ooov, [jA; kA; iA; aA])]]));
  (n_v'aaaa'ovov, ([iA; aA; jA; bA], [mono 1 1 [(n_v'aaaa'ovov, [iA; aA; jA; bA])]]));
  (n_v'aaaa'ovvo, ([iA; aA; bA; jA], [mono 1 1 [(n_v'aaaa'ovov, [iA; aA; jA; bA])]]));
  (n_v'aaaa'ovvv, ([iA; aA; bA; cA], [mono 1 1 [(n_v'aaaa'ovvv, [iA; aA; bA; cA])]]));
  (n_v'aaaa'vovo, ([aA; iA; bA; jA], [mono 1 1 [(n_v'aaaa'ovov, [iA; aA; jA; bA])]]));
  (n_v'aaaa'vovv, ([aA; iA; bA; cA], [mono 1 1 [(n_v'aaaa'ovvv, [iA; aA; bA; cA])]]));
  (n_v'aaaa'vvvv, ([aA; bA; cA; dA], [mono 1 1 [(n_v'aaaa'vvvv, [aA; bA; cA; dA])]]));
  (n_v'aabb'oooo, ([iA; jA; iB; jB], [mono 1 1 [(n_v'aabb'oooo, [iA; jA; iB; jB])]]));
  (n_v'aabb'ooov, ([iA; jA; iB; aB], [mono 1 1 [(n_v'aabb'ooov, [iA; jA; iB; aB])]]));
  (n_v'aabb'oovo, ([iA; jA; aB; iB], [mono 1 1 [(n_v'aabb'ooov, [iA; jA; iB; aB])]]));
  (n_v'aabb'oovv, ([iA; jA; aB; bB], [mono 1 1 [(n_v'aabb'oovv, [iA; jA; aB; bB])]]));
  (n_v'aabb'ovoo, ([iA; aA; iB; jB], [mono 1 1 [(n_v'aabb'ovoo, [iA; aA; iB; jB])]]));
  (n_v'aabb'ovov, ([iA; aA; iB; aB], [mono 1 1 [(n_v'aabb'ovov, [iA; aA; iB; aB])]]));
  (n_v'aabb'ovvo, ([iA; aA; aB; iB], [mono 1 1 [(n_v'aabb'ovov, [iA; aA; iB; aB])]]));
  (n_v'aabb'ovvv, ([iA; aA; aB; bB], [mono 1 1 [(n_v'aabb'ovvv, [iA; aA; aB; bB])]]));
  (n_v'aabb'vovo, ([aA; iA; aB; iB], [mono 1 1 [(n_v'aabb'ovov, [iA; aA; iB; aB])]]));
  (n_v'aabb'vovv, ([aA; iA; aB; bB], [mono 1 1 [(n_v'aabb'ovvv, [iA; aA; aB; bB])]]));
  (n_v'aabb'vvoo, ([aA; bA; iB; jB], [mono 1 1 [(n_v'bbaa'oovv, [iB; jB; aA; bA])]]));
  (n_v'aabb'vvov, ([aA; bA; iB; aB], [mono 1 1 [(n_v'bbaa'ovvv, [iB; aB; aA; bA])]]));
  (n_v'aabb'vvvo, ([aA; bA; aB; iB], [mono 1 1 [(n_v'bbaa'ovvv, [iB; aB; aA; bA])]]));
  (n_v'aabb'vvvv, ([aA; bA; aB; bB], [mono 1 1 [(n_v'aabb'vvvv, [aA; bA; aB; bB])]]));
  (n_v'baa'xoo, ([P; iA; jA], [mono 1 1 [(n_v'aa'xoo, [P; iA; jA])]]));
  (n_v'baa'xov, ([P; iA; aA], [mono 1 1 [(n_v'aa'xov, [P; iA; aA])]]));
  (n_v'baa'xvv, ([P; aA; bA], [mono 1 1 [(n_v'aa'xvv, [P; aA; bA])]]));
  (n_v'bb'xoo, ([P; iB; jB], [mono 1 1 [(n_v'bb'xoo, [P; iB; jB])]]));
  (n_v'bb'xov, ([P; iB; aB], [mono 1 1 [(n_v'bb'xov, [P; iB; aB])]]));
  (n_v'bb'xvv, ([P; aB; bB], [mono 1 1 [(n_v'bb'xvv, [P; aB; bB])]]));
  (n_v'bbaa'oovo, ([iB; jB; aA; iA], [mono 1 1 [(n_v'aabb'ovoo, [iA; aA; iB; jB])]]));
  (n_v'bbaa'oovv, ([iB; jB; aA; bA], [mono 1 1 [(n_v'bbaa'oovv, [iB; jB; aA; bA])]]));
  (n_v'bbaa'ovvo, ([iB; aB; aA; iA], [mono 1 1 [(n_v'aabb'ovov, [iA; aA; iB; aB])]]));
  (n_v'bbaa'ovvv, ([iB; aB; aA; bA], [mono 1 1 [(n_v'bbaa'ovvv, [iB; aB; aA; bA])]]));
  (n_v'bbb'xoo, ([P; iB; jB], [mono 1 1 [(n_v'bb'xoo, [P; iB; jB])]]));
  (n_v'bbb'xov, ([P; iB; aB], [mono 1 1 [(n_v'bb'xov, [P; iB; aB])]]));
  (n_v'bbb'xvv, ([P; aB; bB], [mono 1 1 [(n_v'bb'xvv, [P; aB; bB])]]));
  (n_v'bbbb'oooo, ([iB; jB; kB; lB], [mono 1 1 [(n_v'bbbb'oooo, [iB; jB; kB; lB])]]));
  (n_v'bbbb'ooov, ([iB; jB; kB; aB], [mono 1 1 [(n_v'bbbb'ooov, [iB; jB; kB; aB])]]));
  (n_v'bbbb'oovo, ([iB; jB; aB; kB], [mono 1 1 [(n_v'bbbb'ooov, [iB; jB; kB; aB])]]));
  (n_v'bbbb'oovv, ([iB; jB; aB; bB], [mono 1 1 [(n_v'bbbb'oovv, [iB; jB; aB; bB])]]));
  (n_v'bbbb'ovoo, ([iB; aB; jB; kB], [mono 1 1 [(n_v'bbbb'ooov, [jB; kB; iB; aB])]]));
  (n_v'bbbb'ovov, ([iB; aB; jB; bB], [mono 1 1 [(n_v'bbbb'ovov, [iB; aB; jB; bB])]]));
  (n_v'bbbb'ovvo, ([iB; aB; bB; jB], [mono 1 1 [(n_v'bbbb'ovov, [iB; aB; jB; bB])]]));
  (n_v'bbbb'ovvv, ([iB; aB; bB; cB], [mono 1 1 [(n_v'bbbb'ovvv, [iB; aB; bB; cB])]]));
  (n_v'bbbb'vovo, ([aB; iB; bB; jB], [mono 1 1 [(n_v'bbbb'ovov, [iB; aB; jB; bB])]]));
  (n_v'bbbb'vovv, ([aB; iB; bB; cB], [mono 1 1 [(n_v'bbbb'ovvv, [iB; aB; bB; cB])]]));
  (n_v'bbbb'vvvv, ([aB; bB; cB; dB], [mono 1 1 [(n_v'bbbb'vvvv, [aB; bB; cB; dB])]]));
  (n_w, ([x; y], [mono 1 1 [(n_w, [x; y])]]))].

(** The tensors of a general calculation in spin orbitals, in terms of those of the unrestricted one
    (cc/gebcc.py:111-260); blocks that are not listed are zero. *)
Definition spin_orbital : table :=
 [(n_G, ([x], [mono 1 1 [(n_G, [x])]]));
  (n_f'oo, ([iA; jA], [mono 1 1 [(n_f'aa'oo, [iA; jA])]]));
  (n_f'oo, ([iB; jB], [mono 1 1 [(n_f'bb'oo, [iB; jB])]]));
  (n_f'ov, ([iA; aA], [mono 1 1 [(n_f'aa'ov, [iA; aA])]]));
  (n_f'ov, ([iB; aB], [mono 1 1 [(n_f'bb'ov, [iB; aB])]]));
  (n_f'vo, ([aA; iA], [mono 1 1 [(n_f'aa'ov, [iA; aA])]]));
  (n_f'vo, ([aB; iB], [mono 1 1 [(n_f'bb'ov, [iB; aB])]]));
  (n_f'vv, ([aA; bA], [mono 1 1 [(n_f'aa'vv, [aA; bA])]]));
  (n_f'vv, ([aB; bB], [mono 1 1 [(n_f'bb'vv, [aB; bB])]]));
  (n_g'boo, ([x; iA; jA], [mono 1 1 [(n_g'aa'boo, [x; iA; jA])]]));
  (n_g'boo, ([x; iB; jB], [mono 1 1 [(n_g'bb'boo, [x; iB; jB])]]));
  (n_g'bov, ([x; iA; aA], [mono 1 1 [(n_g'aa'bov, [x; iA; aA])]]));
  (n_g'bov, ([x; iB; aB], [mono 1 1 [(n_g'bb'bov, [x; iB; aB])]]));
  (n_g'bvo, ([x; aA; iA], [mono 1 1 [(n_g'aa'bvo, [x; aA; iA])]]));
  (n_g'bvo, ([x; aB; iB], [mono 1 1 [(n_g'bb'bvo, [x; aB; iB])]]));
  (n_g'bvv, ([x; aA; bA], [mono 1 1 [(n_g'aa'bvv, [x; aA; bA])]]));
  (n_g'bvv, ([x; aB; bB], [mono 1 1 [(n_g'bb'bvv, [x; aB; bB])]]));
  (n_l1, ([aA; iA], [mono 1 1 [(n_l1'aa, [aA; iA])]]));
  (n_l1, ([aB; iB], [mono 1 1 [(n_l1'bb, [aB; iB])]]));
  (n_l2, ([aA; bA; iA; jA], [mono 2 1 [(n_l2'aaaa, [aA; bA; iA; jA])]]));
  (n_l2, ([aA; aB; iA; iB], [mono 1 1 [(n_l2'abab, [aA; aB; iA; iB])]]));
  (n_l2, ([aA; aB; iB; iA], [mono (-1) 1 [(n_l2'abab, [aA; aB; iA; iB])]]));
  (n_l2, ([aB; aA; iA; iB], [mono (-1) 1 [(n_l2'abab, [aA; aB; iA; iB])]]));
  (n_l2, ([aB; aA; iB; iA], [mono 1 1 [(n_l2'abab, [aA; aB; iA; iB])]]));
  (n_l2, ([aB; bB; iB; jB], [mono 2 1 [(n_l2'bbbb, [aB; bB; iB; jB])]]));
  (n_l3, ([aA; bA; cA; iA; jA; kA], [mono 6 1 [(n_l3'aaaaaa, [aA; bA; cA; iA; jA; kA])]]));
  (n_l3, ([aA; bA; aB; iA; jA; iB], [mono 2 1 [(n_l3'abaaba, [aA; aB; bA; iA; iB; jA])]]));
  (n_l3, ([aA; bA; aB; iA; iB; jA], [mono (-2) 1 [(n_l3'abaaba, [aA; aB; bA; iA; iB; jA])]]));
  (n_l3, ([aA; bA; aB; iB; iA; jA], [mono 2 1 [(n_l3'abaaba, [aA; aB; bA; iA; iB; jA])]]));
  (n_l3, ([aA; aB; bA; iA; jA; iB], [mono (-2) 1 [(n_l3'abaaba, [aA; aB; bA; iA; iB; jA])]]));
  (n_l3, ([aA; aB; bA; iA; iB; jA], [mono 2 1 [(n_l3'abaaba, [aA; aB; bA; iA; iB; jA])]]));
  (n_l3, ([aA; aB; bA; iB; iA; jA], [mono (-2) 1 [(n_l3'abaaba, [aA; aB; bA; iA; iB; jA])]]));
  (n_l3, ([aA; aB; bB; iA; iB; jB], [mono 2 1 [(n_l3'babbab, [aB; aA; bB; iB; iA; jB])]]));
  (n_l3, ([aA; aB; bB; iB; iA; jB], [mono (-2) 1 [(n_l3'babbab, [aB; aA; bB; iB; iA; jB])]]));
  (n_l3, ([aA; aB; bB; iB; jB; iA], [mono 2 1 [(n_l3'babbab, [aB; aA; bB; iB; iA; jB])]]));
  (n_l3, ([aB; aA; bA; iA; jA; iB], [mono 2 1 [(n_l3'abaaba, [aA; aB; bA; iA; iB; jA])]]));
  (n_l3, ([aB; aA; bA; iA; iB; jA], [mono (-2) 1 [(n_l3'abaaba, [aA; aB; bA; iA; iB; jA])]]));
  (n_l3, ([aB; aA; bA; iB; iA; jA], [mono 2 1 [(n_l3'abaaba, [aA; aB; bA; iA; iB; jA])]]));
  (n_l3, ([aB; aA; bB; iA; iB; jB], [mono (-2) 1 [(n_l3'babbab, [aB; aA; bB; iB; iA; jB])]]));
  (n_l3, ([aB; aA; bB; iB; iA; jB], [mono 2 1 [(n_l3'babbab, [aB; aA; bB; iB; iA; jB])]]));
  (n_l3, ([aB; aA; bB; iB; jB; iA], [mono (-2) 1 [(n_l3'babbab, [aB; aA; bB; iB; iA; jB])]]));
  (n_l3, ([aB; bB; aA; iA; iB; jB], [mono 2 1 [(n_l3'babbab, [aB; aA; bB; iB; iA; jB])]]));
  (n_l3, ([aB; bB; aA; iB; iA; jB], [mono (-2) 1 [(n_l3'babbab, [aB; aA; bB; iB; iA; jB])]]));
  (n_l3, ([aB; bB; aA; iB; jB; iA], [mono 2 1 [(n_l3'babbab, [aB; aA; bB; iB; iA; jB])]]));
  (n_l3, ([aB; bB; cB; iB; jB; kB], [mono 6 1 [(n_l3'bbbbbb, [aB; bB; cB; iB; jB; kB])]]));
  (n_ls1, ([x], [mono 1 1 [(n_ls1, [x])]]));
  (n_ls2, ([x; y], [mono 1 1 [(n_ls2, [x; y])]]));
  (n_lu11, ([x; aA; iA], [mono 1 1 [(n_lu11'aa, [x; aA; iA])]]));
  (n_lu11, ([x; aB; iB], [mono 1 1 [(n_lu11'bb, [x; aB; iB])]]));
  (n_lu12, ([x; y; aA; iA], [mono 1 1 [(n_lu12'aa, [x; y; aA; iA])]]));
  (n_lu12, ([x; y; aB; iB], [mono 1 1 [(n_lu12'bb, [x; y; aB; iB])]]));
  (n_s1, ([x], [mono 1 1 [(n_s1, [x])]]));
  (n_s2, ([x; y], [mono 1 1 [(n_s2, [x; y])]]));
  (n_t1, ([iA; aA], [mono 1 1 [(n_t1'aa, [iA; aA])]]));
  (n_t1, ([iB; aB], [mono 1 1 [(n_t1'bb, [iB; aB])]]));
  (n_t2, ([iA; jA; aA; bA], [mono 2 1 [(n_t2'aaaa, [iA; jA; aA; bA])]]));
  (n_t2, ([iA; iB; aA; aB], [mono 1 1 [(n_t2'abab, [iA; iB; aA; aB])]]));
  (n_t2, ([iA; iB; aB; aA], [mono (-1) 1 [(n_t2'abab, [iA; iB; aA; aB])]]));
  (n_t2, ([iB; iA; aA; aB], [mono (-1) 1 [(n_t2'abab, [iA; iB; aA; aB])]]));
  (n_t2, ([iB; iA; aB; aA], [mono 1 1 [(n_t2'abab, [iA; iB; aA; aB])]]));
  (n_t2, ([iB; jB; aB; bB], [mono 2 1 [(n_t2'bbbb, [iB; jB; aB; bB])]]));
  (n_t3, ([iA; jA; kA; aA; bA; cA], [mono 6 1 [(n_t3'aaaaaa, [iA; jA; kA; aA; bA; cA])]]));
  (n_t3, ([iA; jA; iB; aA; bA; aB], [mono 2 1 [(n_t3'abaaba, [iA; iB; jA; aA; aB; bA])]]));
  (n_t3, ([iA; jA; iB; aA; aB; bA], [mono (-2) 1 [(n_t3'abaaba, [iA; iB; jA; aA; aB; bA])]]));
  (n_t3, ([iA; jA; iB; aB; aA; bA], [mono 2 1 [(n_t3'abaaba, [iA; iB; jA; aA; aB; bA])]]));
  (n_t3, ([iA; iB; jA; aA; bA; aB], [mono (-2) 1 [(n_t3'abaaba, [iA; iB; jA; aA; aB; bA])]]));
  (n_t3, ([iA; iB; jA; aA; aB; bA], [mono 2 1 [(n_t3'abaaba, [iA; iB; jA; aA; aB; bA])]]));
  (n_t3, ([iA; iB; jA; aB; aA; bA], [mono (-2) 1 [(n_t3'abaaba, [iA; iB; jA; aA; aB; bA])]]));
  (n_t3, ([iA; iB; jB; aA; aB; bB], [mono 2 1 [(n_t3'babbab, [iB; iA; jB; aB; aA; bB])]]));
  (n_t3, ([iA; iB; jB; aB; aA; bB], [mono (-2) 1 [(n_t3'babbab, [iB; iA; jB; aB; aA; bB])]]));
  (n_t3, ([iA; iB; jB; aB; bB; aA], [mono 2 1 [(n_t3'babbab, [iB; iA; jB; aB; aA; bB])]]));
  (n_t3, ([iB; iA; jA; aA; bA; aB], [mono 2 1 [(n_t3'abaaba, [iA; iB; jA; aA; aB; bA])]]));
  (n_t3, ([iB; iA; jA; aA; aB; bA], [mono (-2) 1 [(n_t3'abaaba, [iA; iB; jA; aA; aB; bA])]]));
  (n_t3, ([iB; iA; jA; aB; aA; bA], [mono 2 1 [(n_t3'abaaba, [iA; iB; jA; aA; aB; bA])]]));
  (n_t3, ([iB; iA; jB; aA; aB; bB], [mono (-2) 1 [(n_t3'babbab, [iB; iA; jB; aB; aA; bB])]]));
  (n_t3, ([iB; iA; jB; aB; aA; bB], [mono 2 1 [(n_t3'babbab, [iB; iA; jB; aB; aA; bB])]]));
  (n_t3, ([iB; iA; jB; aB; bB; aA], [mono (-2) 1 [(n_t3'babbab, [iB; iA; jB; aB; aA; bB])]]));
  (n_t3, ([iB; jB; iA; aA; aB; bB], [mono 2 1 [(n_t3'babbab, [iB; iA; jB; aB; aA; bB])]]));
  (n_t3, ([iB; jB; iA; aB; aA; bB], [mono (-2) 1 [(n_t3'babbab, [iB; iA; jB; aB; aA; bB])]]));
  (n_t3, ([iB; jB; iA; aB; bB; aA], [mono 2 1 [(n_t3'babbab, [iB; iA; jB; aB; aA; bB])]]));
  (n_t3, ([iB; jB; kB; aB; bB; cB], [mono 6 1 [(n_t3'bbbbbb, [iB; jB; kB; aB; bB; cB])]]));
  (n_u11, ([x; iA; aA], [mono 1 1 [(n_u11'aa, [x; iA; aA])]]));
  (n_u11, ([x; iB; aB], [mono 1 1 [(n_u11'bb, [x; iB; aB])]]));
  (n_u12, ([x; y; iA; aA], [mono 1 1 [(n_u12'aa, [x; y; iA; aA])]]));
  (n_u12, ([x; y; iB; aB], [mono 1 1 [(n_u12'bb, [x; y; iB; aB])]]));
  (n_v'oooo, ([iA; jA; kA; lA], [mono 1 1 [(n_v'aaaa'oooo, [iA; kA; jA; lA])]; mono (-1) 1 [(n_v'aaaa'oooo, [iA; lA; jA; kA])]]));
  (n_v'oooo, ([iA; iB; jA; jB], [mono 1 1 [(n_v'aabb'oooo, [iA; jA; iB; jB])]]));
  (n_v'oooo, ([iA; iB; jB; jA], [mono (-1) 1 [(n_v'aabb'oooo, [iA; jA; iB; jB])]]));
  (n_v'oooo, ([iB; iA; jA; jB], [mono (-1) 1 [(n_v'aabb'oooo, [iA; jA; iB; jB])]]));
  (n_v'oooo, ([iB; iA; jB; jA], [mono 1 1 [(n_v'aabb'oooo, [iA; jA; iB; jB])]]));
  (n_v'oooo, ([iB; jB; kB; lB], [mono 1 1 [(n_v'bbbb'oooo, [iB; kB; jB; lB])]; mono (-1) 1 [(n_v'bbbb'oooo, [iB; lB; jB; kB])]]));
  (n_v'ooov, ([iA; jA; kA; aA], [mono 1 1 [(n_v'aaaa'ooov, [iA; kA; jA; aA])]; mono (-1) 1 [(n_v'aaaa'ooov, [jA; kA; iA; aA])]]));
  (n_v'ooov, ([iA; iB; jA; aB], [mono 1 1 [(n_v'aabb'ooov, [iA; jA; iB; aB])]]));
  (n_v'ooov, ([iA; iB; jB; aA], [mono (-1) 1 [(n_v'aabb'ovoo, [iA; aA; iB; jB])]]));
  (n_v'ooov, ([iB; iA; jA; aB], [mono (-1) 1 [(n_v'aabb'ooov, [iA; jA; iB; aB])]]));
  (n_v'ooov, ([iB; iA; jB; aA], [mono 1 1 [(n_v'aabb'ovoo, [iA; aA; iB; jB])]]));
  (n_v'ooov, ([iB; jB; kB; aB], [mono 1 1 [(n_v'bbbb'ooov, [iB; kB; jB; aB])]; mono (-1) 1 [(n_v'bbbb'ooov, [jB; kB; iB; aB])]]));
  (n_v'oovv, ([iA; jA; aA; bA], [mono 1 1 [(n_v'aaaa'ovov, [iA; aA; jA; bA])]; mono (-1) 1 [(n_v'aaaa'ovov, [iA; bA; jA; aA])]]));
  (n_v'oovv, ([iA; iB; aA; aB], [mono 1 1 [(n_v'aabb'ovov, [iA; aA; iB; aB])]]));
  (n_v'oovv, ([iA; iB; aB; aA], [mono (-1) 1 [(n_v'aabb'ovov, [iA; aA; iB; aB])]]));
  (n_v'oovv, ([iB; iA; aA; aB], [mono (-1) 1 [(n_v'aabb'ovov, [iA; aA; iB; aB])]]));
  (n_v'oovv, ([iB; iA; aB; aA], [mono 1 1 [(n_v'aabb'ovov, [iA; aA; iB; aB])]]));
  (n_v'oovv, ([iB; jB; aB; bB], [mono 1 1 [(n_v'bbbb'ovov, [iB; aB; jB; bB])]; mono (-1) 1 [(n_v'bbbb'ovov, [iB; bB; jB; aB])]]));
  (n_v'ovoo, ([iA; aA; jA; kA], [mono 1 1 [(n_v'aaaa'ooov, [iA; jA; kA; aA])]; mono (-1) 1 [(n_v'aaaa'ooov, [iA; kA; jA; aA])]]));
  (n_v'ovoo, ([iA; aB; jA; iB], [mono 1 1 [(n_v'aabb'ooov, [iA; jA; iB; aB])]]));
  (n_v'ovoo, ([iA; aB; iB; jA], [mono (-1) 1 [(n_v'aabb'ooov, [iA; jA; iB; aB])]]));
  (n_v'ovoo, ([iB; aA; iA; jB], [mono (-1) 1 [(n_v'aabb'ovoo, [iA; aA; iB; jB])]]));
  (n_v'ovoo, ([iB; aA; jB; iA], [mono 1 1 [(n_v'aabb'ovoo, [iA; aA; iB; jB])]]));
  (n_v'ovoo, ([iB; aB; jB; kB], [mono 1 1 [(n_v'bbbb'ooov, [iB; jB; kB; aB])]; mono (-1) 1 [(n_v'bbbb'ooov, [iB; kB; jB; aB])]]));
  (n_v'ovov, ([iA; aA; jA; bA], [mono 1 1 [(n_v'aaaa'oovv, [iA; jA; aA; bA])]; mono (-1) 1 [(n_v'aaaa'ovov, [iA; bA; jA; aA])]]));
  (n_v'ovov, ([iA; aB; jA; bB], [mono 1 1 [(n_v'aabb'oovv, [iA; jA; aB; bB])]]));
  (n_v'ovov, ([iA; aB; iB; aA], [mono (-1) 1 [(n_v'aabb'ovov, [iA; aA; iB; aB])]]));
  (n_v'ovov, ([iB; aA; iA; aB], [mono (-1) 1 [(n_v'aabb'ovov, [iA; aA; iB; aB])]]));
  (n_v'ovov, ([iB; aA; jB; bA], [mono 1 1 [(n_v'bbaa'oovv, [iB; jB; aA; bA])]]));
  (n_v'ovov, ([iB; aB; jB; bB], [mono 1 1 [(n_v'bbbb'oovv, [iB; jB; aB; bB])]; mono (-1) 1 [(n_v'bbbb'ovov, [iB; bB; jB; aB])]]));
  (n_v'ovvv, ([iA; aA; bA; cA], [mono 1 1 [(n_v'aaaa'ovvv, [iA; bA; aA; cA])]; mono (-1) 1 [(n_v'aaaa'ovvv, [iA; cA; aA; bA])]]));
  (n_v'ovvv, ([iA; aB; aA; bB], [mono 1 1 [(n_v'aabb'ovvv, [iA; aA; aB; bB])]]));
  (n_v'ovvv, ([iA; aB; bB; aA], [mono (-1) 1 [(n_v'aabb'ovvv, [iA; aA; aB; bB])]]));
  (n_v'ovvv, ([iB; aA; bA; aB], [mono (-1) 1 [(n_v'bbaa'ovvv, [iB; aB; aA; bA])]]));
  (n_v'ovvv, ([iB; aA; aB; bA], [mono 1 1 [(n_v'bbaa'ovvv, [iB; aB; aA; bA])]]));
  (n_v'ovvv, ([iB; aB; bB; cB], [mono 1 1 [(n_v'bbbb'ovvv, [iB; bB; aB; cB])]; mono (-1) 1 [(n_v'bbbb'ovvv, [iB; cB; aB; bB])]]));
  (n_v'vvoo, ([aA; bA; iA; jA], [mono 1 1 [(n_v'aaaa'ovov, [iA; aA; jA; bA])]; mono (-1) 1 [(n_v'aaaa'ovov, [jA; aA; iA; bA])]]));
  (n_v'vvoo, ([aA; aB; iA; iB], [mono 1 1 [(n_v'aabb'ovov, [iA; aA; iB; aB])]]));
  (n_v'vvoo, ([aA; aB; iB; iA], [mono (-1) 1 [(n_v'aabb'ovov, [iA; aA; iB; aB])]]));
  (n_v'vvoo, ([aB; aA; iA; iB], [mono (-1) 1 [(n_v'aabb'ovov, [iA; aA; iB; aB])]]));
  (n_v'vvoo, ([aB; aA; iB; iA], [mono 1 1 [(n_v'aabb'ovov, [iA; aA; iB; aB])]]));
  (n_v'vvoo, ([aB; bB; iB; jB], [mono 1 1 [(n_v'bbbb'ovov, [iB; aB; jB; bB])]; mono (-1) 1 [(n_v'bbbb'ovov, [jB; aB; iB; bB])]]));
  (n_v'vvov, ([aA; bA; iA; cA], [mono 1 1 [(n_v'aaaa'ovvv, [iA; aA; bA; cA])]; mono (-1) 1 [(n_v'aaaa'ovvv, [iA; bA; aA; cA])]]));
  (n_v'vvov, ([aA; aB; iA; bB], [mono 1 1 [(n_v'aabb'ovvv, [iA; aA; aB; bB])]]));
  (n_v'vvov, ([aA; aB; iB; bA], [mono (-1) 1 [(n_v'bbaa'ovvv, [iB; aB; aA; bA])]]));
  (n_v'vvov, ([aB; aA; iA; bB], [mono (-1) 1 [(n_v'aabb'ovvv, [iA; aA; aB; bB])]]));
  (n_v'vvov, ([aB; aA; iB; bA], [mono 1 1 [(n_v'bbaa'ovvv, [iB; aB; aA; bA])]]));
  (n_v'vvov, ([aB; bB; iB; cB], [mono 1 1 [(n_v'bbbb'ovvv, [iB; aB; bB; cB])]; mono (-1) 1 [(n_v'bbbb'ovvv, [iB; bB; aB; cB])]]));
  (n_v'vvvv, ([aA; bA; cA; dA], [mono 1 1 [(n_v'aaaa'vvvv, [aA; cA; bA; dA])]; mono (-1) 1 [(n_v'aaaa'vvvv, [aA; dA; bA; cA])]]));
  (n_v'vvvv, ([aA; aB; bA; bB], [mono 1 1 [(n_v'aabb'vvvv, [aA; bA; aB; bB])]]));
  (n_v'vvvv, ([aA; aB; bB; bA], [mono (-1) 1 [(n_v'aabb'vvvv, [aA; bA; aB; bB])]]));
  (n_v'vvvv, ([aB; aA; bA; bB], [mono (-1) 1 [(n_v'aabb'vvvv, [aA; bA; aB; bB])]]));
  (n_v'vvvv, ([aB; aA; bB; bA], [mono 1 1 [(n_v'aabb'vvvv, [aA; bA; aB; bB])]]));
  (n_v'vvvv, ([aB; bB; cB; dB], [mono 1 1 [(n_v'bbbb'vvvv, [aB; cB; bB; dB])]; mono (-1) 1 [(n_v'bbbb'vvvv, [aB; dB; bB; cB])]]));
  (n_w, ([x; y], [mono 1 1 [(n_w, [x; y])]]))].

(** The results of a general function in terms of those of the unrestricted one. *)
Definition spin_orbital_results : table :=
 [(n_e_cc, ([], [mono 1 1 [(n_e_cc, [])]]));
  (n_e_mp, ([], [mono 1 1 [(n_e_mp, [])]]));
  (n_l1new, ([aA; iA], [mono 1 1 [(n_l1new'aa, [aA; iA])]]));
  (n_l1new, ([aB; iB], [mono 1 1 [(n_l1new'bb, [aB; iB])]]));
  (n_l2new, ([aA; bA; iA; jA], [mono 1 1 [(n_l2new'aaaa, [aA; bA; iA; jA])]]));
  (n_l2new, ([aA; aB; iA; iB], [mono 1 1 [(n_l2new'abab, [aA; aB; iA; iB])]]));
  (n_l2new, ([aA; aB; iB; iA], [mono (-1) 1 [(n_l2new'abab, [aA; aB; iA; iB])]]));
  (n_l2new, ([aB; aA; iA; iB], [mono (-1) 1 [(n_l2new'abab, [aA; aB; iA; iB])]]));
  (n_l2new, ([aB; aA; iB; iA], [mono 1 1 [(n_l2new'abab, [aA; aB; iA; iB])]]));
  (n_l2new, ([aB; bB; iB; jB], [mono 1 1 [(n_l2new'bbbb, [aB; bB; iB; jB])]]));
  (n_l3new, ([aA; bA; cA; iA; jA; kA], [mono 1 1 [(n_l3new'aaaaaa, [aA; bA; cA; iA; jA; kA])]]));
  (n_l3new, ([aA; bA; aB; iA; jA; iB], [mono 1 1 [(n_l3new'abaaba, [aA; aB; bA; iA; iB; jA])]]));
  (n_l3new, ([aA; bA; aB; iA; iB; jA], [mono (-1) 1 [(n_l3new'abaaba, [aA; aB; bA; iA; iB; jA])]]));
  (n_l3new, ([aA; bA; aB; iB; iA; jA], [mono 1 1 [(n_l3new'abaaba, [aA; aB; bA; iA; iB; jA])]]));
  (n_l3new, ([aA; aB; bA; iA; jA; iB], [mono (-1) 1 [(n_l3new'abaaba, [aA; aB; bA; iA; iB; jA])]]));
  (n_l3new, ([aA; aB; bA; iA; iB; jA], [mono 1 1 [(n_l3new'abaaba, [aA; aB; bA; iA; iB; jA])]]));
  (n_l3new, ([aA; aB; bA; iB; iA; jA], [mono (-1) 1 [(n_l3new'abaaba, [aA; aB; bA; iA; iB; jA])]]));
  (n_l3new, ([aA; aB; bB; iA; iB; jB], [mono 1 1 [(n_l3new'babbab, [aB; aA; bB; iB; iA; jB])]]));
  (n_l3new, ([aA; aB; bB; iB; iA; jB], [mono (-1) 1 [(n_l3new'babbab, [aB; aA; bB; iB; iA; jB])]]));
  (n_l3new, ([aA; aB; bB; iB; jB; iA], [mono 1 1 [(n_l3new'babbab, [aB; aA; bB; iB; iA; jB])]]));
  (n_l3new, ([aB; aA; bA; iA; jA; iB], [mono 1 1 [(n_l3new'abaaba, [aA; aB; bA; iA; iB; jA])]]));
  (n_l3new, ([aB; aA; bA; iA; iB; jA], [mono (-1) 1 [(n_l3new'abaaba, [aA; aB; bA; iA; iB; jA])]]));
  (n_l3new, ([aB; aA; bA; iB; iA; jA], [mono 1 1 [(n_l3new'abaaba, [aA; aB; bA; iA; iB; jA])]]));
  (n_l3new, ([aB; aA; bB; iA; iB; jB], [mono (-1) 1 [(n_l3new'babbab, [aB; aA; bB; iB; iA; jB])]]));
  (n_l3new, ([aB; aA; bB; iB; iA; jB], [mono 1 1 [(n_l3new'babbab, [aB; aA; bB; iB; iA; jB])]]));
  (n_l3new, ([aB; aA; bB; iB; jB; iA], [mono (-1) 1 [(n_l3new'babbab, [aB; aA; bB; iB; iA; jB])]]));
  (n_l3new, ([aB; bB; aA; iA; iB; jB], [mono 1 1 [(n_l3new'babbab, [aB; aA; bB; iB; iA; jB])]]));
  (n_l3new, ([aB; bB; aA; iB; iA; jB], [mono (-1) 1 [(n_l3new'babbab, [aB; aA; bB; iB; iA; jB])]]));
  (n_l3new, ([aB; bB; aA; iB; jB; iA], [mono 1 1 [(n_l3new'babbab, [aB; aA; bB; iB; iA; jB])]]));
  (n_l3new, ([aB; bB; cB; iB; jB; kB], [mono 1 1 [(n_l3new'bbbbbb, [aB; bB; cB; iB; jB; kB])]]));
  (n_ls1new, ([x], [mono 1 1 [(n_ls1new, [x])]]));
  (n_ls2new, ([x; y], [mono 1 1 [(n_ls2new, [x; y])]]));
  (n_lu11new, ([x; aA; iA], [mono 1 1 [(n_lu11new'aa, [x; aA; iA])]]));
  (n_lu11new, ([x; aB; iB], [mono 1 1 [(n_lu11new'bb, [x; aB; iB])]]));
  (n_lu12new, ([x; y; aA; iA], [mono 1 1 [(n_lu12new'aa, [x; y; aA; iA])]]));
  (n_lu12new, ([x; y; aB; iB], [mono 1 1 [(n_lu12new'bb, [x; y; aB; iB])]]));
  (n_s1new, ([x], [mono 1 1 [(n_s1new, [x])]]));
  (n_s2new, ([x; y], [mono 1 1 [(n_s2new, [x; y])]]));
  (n_t1new, ([iA; aA], [mono 1 1 [(n_t1new'aa, [iA; aA])]]));
  (n_t1new, ([iB; aB], [mono 1 1 [(n_t1new'bb, [iB; aB])]]));
  (n_t2new, ([iA; jA; aA; bA], [mono 1 1 [(n_t2new'aaaa, [iA; jA; aA; bA])]]));
  (n_t2new, ([iA; iB; aA; aB], [mono 1 1 [(n_t2new'abab, [iA; iB; aA; aB])]]));
  (n_t2new, ([iA; iB; aB; aA], [mono (-1) 1 [(n_t2new'abab, [iA; iB; aA; aB])]]));
  (n_t2new, ([iB; iA; aA; aB], [mono (-1) 1 [(n_t2new'abab, [iA; iB; aA; aB])]]));
  (n_t2new, ([iB; iA; aB; aA], [mono 1 1 [(n_t2new'abab, [iA; iB; aA; aB])]]));
  (n_t2new, ([iB; jB; aB; bB], [mono 1 1 [(n_t2new'bbbb, [iB; jB; aB; bB])]]));
  (n_t3new, ([iA; jA; kA; aA; bA; cA], [mono 1 1 [(n_t3new'aaaaaa, [iA; jA; kA; aA; bA; cA])]]));
  (n_t3new, ([iA; jA; iB; aA; bA; aB], [mono 1 1 [(n_t3new'abaaba, [iA; iB; jA; aA; aB; bA])]]));
  (n_t3new, ([iA; jA; iB; aA; aB; bA], [mono (-1) 1 [(n_t3new'abaaba, [iA; iB; jA; aA; aB; bA])]]));
  (n_t3new, ([iA; jA; iB; aB; aA; bA], [mono 1 1 [(n_t3new'abaaba, [iA; iB; jA; aA; aB; bA])]]));
  (n_t3new, ([iA; iB; jA; aA; bA; aB], [mono (-1) 1 [(n_t3new'abaaba, [iA; iB; jA; aA; aB; bA])]]));
  (n_t3new, ([iA; iB; jA; aA; aB; bA], [mono 1 1 [(n_t3new'abaaba, [iA; iB; jA; aA; aB; bA])]]));
  (n_t3new, ([iA; iB; jA; aB; aA; bA], [mono (-1) 1 [(n_t3new'abaaba, [iA; iB; jA; aA; aB; bA])]]));
  (n_t3new, ([iA; iB; jB; aA; aB; bB], [mono 1 1 [(n_t3new'babbab, [iB; iA; jB; aB; aA; bB])]]));
  (n_t3new, ([iA; iB; jB; aB; aA; bB], [mono (-1) 1 [(n_t3new'babbab, [iB; iA; jB; aB; aA; bB])]]));
  (n_t3new, ([iA; iB; jB; aB; bB; aA], [mono 1 1 [(n_t3new'babbab, [iB; iA; jB; aB; aA; bB])]]));
  (n_t3new, ([iB; iA; jA; aA; bA; aB], [mono 1 1 [(n_t3new'abaaba, [iA; iB; jA; aA; aB; bA])]]));
  (n_t3new, ([iB; iA; jA; aA; aB; bA], [mono (-1) 1 [(n_t3new'abaaba, [iA; iB; jA; aA; aB; bA])]]));
  (n_t3new, ([iB; iA; jA; aB; aA; bA], [mono 1 1 [(n_t3new'abaaba, [iA; iB; jA; aA; aB; bA])]]));
  (n_t3new, ([iB; iA; jB; aA; aB; bB], [mono (-1) 1 [(n_t3new'babbab, [iB; iA; jB; aB; aA; bB])]]));
  (n_t3new, ([iB; iA; jB; aB; aA; bB], [mono 1 1 [(n_t3new'babbab, [iB; iA; jB; aB; aA; bB])]]));
  (n_t3new, ([iB; iA; jB; aB; bB; aA], [mono (-1) 1 [(n_t3new'babbab, [iB; iA; jB; aB; aA; bB])]]));
  (n_t3new, ([iB; jB; iA; aA; aB; bB], [mono 1 1 [(n_t3new'babbab, [iB; iA; jB; aB; aA; bB])]]));
  (n_t3new, ([iB; jB; iA; aB; aA; bB], [mono (-1) 1 [(n_t3new'babbab, [iB; iA; jB; aB; aA; bB])]]));
  (n_t3new, ([iB; jB; iA; aB; bB; aA], [mono 1 1 [(n_t3new'babbab, [iB; iA; jB; aB; aA; bB])]]));
  (n_t3new, ([iB; jB; kB; aB; bB; cB], [mono 1 1 [(n_t3new'bbbbbb, [iB; jB; kB; aB; bB; cB])]]));
  (n_u11new, ([x; iA; aA], [mono 1 1 [(n_u11new'aa, [x; iA; aA])]]));
  (n_u11new, ([x; iB; aB], [mono 1 1 [(n_u11new'bb, [x; iB; aB])]]));
  (n_u12new, ([x; y; iA; aA], [mono 1 1 [(n_u12new'aa, [x; y; iA; aA])]]));
  (n_u12new, ([x; y; iB; aB], [mono 1 1 [(n_u12new'bb, [x; y; iB; aB])]]))].

