(** Generated by tools/density_tables.py: formulas that relate density matrices.  The names are those of the blocks which
    the functions compute before they put them together; rdm2_pqrs is <p+ q+ s r>.  Older modules have other names for the
    same blocks (rdm1_f_oo instead of rdm1.oo). *)

From Coq Require Import ZArith List.
From Verif Require Import CgModel CgFormSpec CgNames CgRelSpec.
Import ListNotations.

(** A number of electrons, c n_k + d where n_k is the number of orbitals of kind k: (c, k, d). *)
Definition factor := (Z * cls * Z)%type.

(** Labels of indices: occupied i.., virtual a..; with spin iA, iB; bosons x... *)
Local Notation i := 0%nat (only parsing).
Local Notation j := 1%nat (only parsing).
Local Notation k := 2%nat (only parsing).
Local Notation l := 3%nat (only parsing).
Local Notation m := 4%nat (only parsing).
Local Notation n := 5%nat (only parsing).
Local Notation a := 10%nat (only parsing).
Local Notation b := 11%nat (only parsing).
Local Notation c := 12%nat (only parsing).
Local Notation d := 13%nat (only parsing).
Local Notation e := 14%nat (only parsing).
Local Notation f := 15%nat (only parsing).
Local Notation iA := 40%nat (only parsing).
Local Notation jA := 41%nat (only parsing).
Local Notation kA := 42%nat (only parsing).
Local Notation lA := 43%nat (only parsing).
Local Notation mA := 44%nat (only parsing).
Local Notation nA := 45%nat (only parsing).
Local Notation aA := 50%nat (only parsing).
Local Notation bA := 51%nat (only parsing).
Local Notation cA := 52%nat (only parsing).
Local Notation dA := 53%nat (only parsing).
Local Notation eA := 54%nat (only parsing).
Local Notation fA := 55%nat (only parsing).
Local Notation iB := 60%nat (only parsing).
Local Notation jB := 61%nat (only parsing).
Local Notation kB := 62%nat (only parsing).
Local Notation lB := 63%nat (only parsing).
Local Notation mB := 64%nat (only parsing).
Local Notation nB := 65%nat (only parsing).
Local Notation aB := 70%nat (only parsing).
Local Notation bB := 71%nat (only parsing).
Local Notation cB := 72%nat (only parsing).
Local Notation dB := 73%nat (only parsing).
Local Notation eB := 74%nat (only parsing).
Local Notation fB := 75%nat (only parsing).
Local Notation x := 30%nat (only parsing).
Local Notation y := 31%nat (only parsing).

(** The density matrices of a general calculation in terms of those of the unrestricted one; blocks that do not conserve the spin are zero. *)
Definition spin_orbital_densities : table :=
 [(n_rdm1'oo, ([iA; jA], [mono 1 1 [(n_rdm1'aa'oo, [iA; jA])]]));
  (n_rdm1'oo, ([iB; jB], [mono 1 1 [(n_rdm1'bb'oo, [iB; jB])]]));
  (n_rdm1'ov, ([iA; aA], [mono 1 1 [(n_rdm1'aa'ov, [iA; aA])]]));
  (n_rdm1'ov, ([iB; aB], [mono 1 1 [(n_rdm1'bb'ov, [iB; aB])]]));
  (n_rdm1'vo, ([aA; iA], [mono 1 1 [(n_rdm1'aa'vo, [aA; iA])]]));
  (n_rdm1'vo, ([aB; iB], [mono 1 1 [(n_rdm1'bb'vo, [aB; iB])]]));
  (n_rdm1'vv, ([aA; bA], [mono 1 1 [(n_rdm1'aa'vv, [aA; bA])]]));
  (n_rdm1'vv, ([aB; bB], [mono 1 1 [(n_rdm1'bb'vv, [aB; bB])]]));
  (n_rdm2'oooo, ([iA; jA; kA; lA], [mono 1 1 [(n_rdm2'aaaa'oooo, [iA; jA; kA; lA])]]));
  (n_rdm2'oooo, ([iB; jB; kB; lB], [mono 1 1 [(n_rdm2'bbbb'oooo, [iB; jB; kB; lB])]]));
  (n_rdm2'oooo, ([iA; iB; jA; jB], [mono 1 1 [(n_rdm2'abab'oooo, [iA; iB; jA; jB])]]));
  (n_rdm2'oooo, ([iB; iA; jB; jA], [mono 1 1 [(n_rdm2'abab'oooo, [iA; iB; jA; jB])]]));
  (n_rdm2'oooo, ([iA; iB; jB; jA], [mono (-1) 1 [(n_rdm2'abab'oooo, [iA; iB; jA; jB])]]));
  (n_rdm2'oooo, ([iB; iA; jA; jB], [mono (-1) 1 [(n_rdm2'abab'oooo, [iA; iB; jA; jB])]]));
  (n_rdm2'ooov, ([iA; jA; kA; aA], [mono 1 1 [(n_rdm2'aaaa'ooov, [iA; jA; kA; aA])]]));
  (n_rdm2'ooov, ([iB; jB; kB; aB], [mono 1 1 [(n_rdm2'bbbb'ooov, [iB; jB; kB; aB])]]));
  (n_rdm2'ooov, ([iA; iB; jA; aB], [mono 1 1 [(n_rdm2'abab'ooov, [iA; iB; jA; aB])]]));
  (n_rdm2'ooov, ([iB; iA; jB; aA], [mono 1 1 [(n_rdm2'abab'oovo, [iA; iB; aA; jB])]]));
  (n_rdm2'ooov, ([iA; iB; jB; aA], [mono (-1) 1 [(n_rdm2'abab'oovo, [iA; iB; aA; jB])]]));
  (n_rdm2'ooov, ([iB; iA; jA; aB], [mono (-1) 1 [(n_rdm2'abab'ooov, [iA; iB; jA; aB])]]));
  (n_rdm2'oovo, ([iA; jA; aA; kA], [mono 1 1 [(n_rdm2'aaaa'oovo, [iA; jA; aA; kA])]]));
  (n_rdm2'oovo, ([iB; jB; aB; kB], [mono 1 1 [(n_rdm2'bbbb'oovo, [iB; jB; aB; kB])]]));
  (n_rdm2'oovo, ([iA; iB; aA; jB], [mono 1 1 [(n_rdm2'abab'oovo, [iA; iB; aA; jB])]]));
  (n_rdm2'oovo, ([iB; iA; aB; jA], [mono 1 1 [(n_rdm2'abab'ooov, [iA; iB; jA; aB])]]));
  (n_rdm2'oovo, ([iA; iB; aB; jA], [mono (-1) 1 [(n_rdm2'abab'ooov, [iA; iB; jA; aB])]]));
  (n_rdm2'oovo, ([iB; iA; aA; jB], [mono (-1) 1 [(n_rdm2'abab'oovo, [iA; iB; aA; jB])]]));
  (n_rdm2'ovoo, ([iA; aA; jA; kA], [mono 1 1 [(n_rdm2'aaaa'ovoo, [iA; aA; jA; kA])]]));
  (n_rdm2'ovoo, ([iB; aB; jB; kB], [mono 1 1 [(n_rdm2'bbbb'ovoo, [iB; aB; jB; kB])]]));
  (n_rdm2'ovoo, ([iA; aB; jA; iB], [mono 1 1 [(n_rdm2'abab'ovoo, [iA; aB; jA; iB])]]));
  (n_rdm2'ovoo, ([iB; aA; jB; iA], [mono 1 1 [(n_rdm2'abab'vooo, [aA; iB; iA; jB])]]));
  (n_rdm2'ovoo, ([iA; aB; iB; jA], [mono (-1) 1 [(n_rdm2'abab'ovoo, [iA; aB; jA; iB])]]));
  (n_rdm2'ovoo, ([iB; aA; iA; jB], [mono (-1) 1 [(n_rdm2'abab'vooo, [aA; iB; iA; jB])]]));
  (n_rdm2'vooo, ([aA; iA; jA; kA], [mono 1 1 [(n_rdm2'aaaa'vooo, [aA; iA; jA; kA])]]));
  (n_rdm2'vooo, ([aB; iB; jB; kB], [mono 1 1 [(n_rdm2'bbbb'vooo, [aB; iB; jB; kB])]]));
  (n_rdm2'vooo, ([aA; iB; iA; jB], [mono 1 1 [(n_rdm2'abab'vooo, [aA; iB; iA; jB])]]));
  (n_rdm2'vooo, ([aB; iA; iB; jA], [mono 1 1 [(n_rdm2'abab'ovoo, [iA; aB; jA; iB])]]));
  (n_rdm2'vooo, ([aA; iB; jB; iA], [mono (-1) 1 [(n_rdm2'abab'vooo, [aA; iB; iA; jB])]]));
  (n_rdm2'vooo, ([aB; iA; jA; iB], [mono (-1) 1 [(n_rdm2'abab'ovoo, [iA; aB; jA; iB])]]));
  (n_rdm2'oovv, ([iA; jA; aA; bA], [mono 1 1 [(n_rdm2'aaaa'oovv, [iA; jA; aA; bA])]]));
  (n_rdm2'oovv, ([iB; jB; aB; bB], [mono 1 1 [(n_rdm2'bbbb'oovv, [iB; jB; aB; bB])]]));
  (n_rdm2'oovv, ([iA; iB; aA; aB], [mono 1 1 [(n_rdm2'abab'oovv, [iA; iB; aA; aB])]]));
  (n_rdm2'oovv, ([iB; iA; aB; aA], [mono 1 1 [(n_rdm2'abab'oovv, [iA; iB; aA; aB])]]));
  (n_rdm2'oovv, ([iA; iB; aB; aA], [mono (-1) 1 [(n_rdm2'abab'oovv, [iA; iB; aA; aB])]]));
  (n_rdm2'oovv, ([iB; iA; aA; aB], [mono (-1) 1 [(n_rdm2'abab'oovv, [iA; iB; aA; aB])]]));
  (n_rdm2'ovov, ([iA; aA; jA; bA], [mono 1 1 [(n_rdm2'aaaa'ovov, [iA; aA; jA; bA])]]));
  (n_rdm2'ovov, ([iB; aB; jB; bB], [mono 1 1 [(n_rdm2'bbbb'ovov, [iB; aB; jB; bB])]]));
  (n_rdm2'ovov, ([iA; aB; jA; bB], [mono 1 1 [(n_rdm2'abab'ovov, [iA; aB; jA; bB])]]));
  (n_rdm2'ovov, ([iB; aA; jB; bA], [mono 1 1 [(n_rdm2'abab'vovo, [aA; iB; bA; jB])]]));
  (n_rdm2'ovov, ([iA; aB; iB; aA], [mono (-1) 1 [(n_rdm2'abab'ovvo, [iA; aB; aA; iB])]]));
  (n_rdm2'ovov, ([iB; aA; iA; aB], [mono (-1) 1 [(n_rdm2'abab'voov, [aA; iB; iA; aB])]]));
  (n_rdm2'ovvo, ([iA; aA; bA; jA], [mono 1 1 [(n_rdm2'aaaa'ovvo, [iA; aA; bA; jA])]]));
  (n_rdm2'ovvo, ([iB; aB; bB; jB], [mono 1 1 [(n_rdm2'bbbb'ovvo, [iB; aB; bB; jB])]]));
  (n_rdm2'ovvo, ([iA; aB; aA; iB], [mono 1 1 [(n_rdm2'abab'ovvo, [iA; aB; aA; iB])]]));
  (n_rdm2'ovvo, ([iB; aA; aB; iA], [mono 1 1 [(n_rdm2'abab'voov, [aA; iB; iA; aB])]]));
  (n_rdm2'ovvo, ([iA; aB; bB; jA], [mono (-1) 1 [(n_rdm2'abab'ovov, [iA; aB; jA; bB])]]));
  (n_rdm2'ovvo, ([iB; aA; bA; jB], [mono (-1) 1 [(n_rdm2'abab'vovo, [aA; iB; bA; jB])]]));
  (n_rdm2'voov, ([aA; iA; jA; bA], [mono 1 1 [(n_rdm2'aaaa'voov, [aA; iA; jA; bA])]]));
  (n_rdm2'voov, ([aB; iB; jB; bB], [mono 1 1 [(n_rdm2'bbbb'voov, [aB; iB; jB; bB])]]));
  (n_rdm2'voov, ([aA; iB; iA; aB], [mono 1 1 [(n_rdm2'abab'voov, [aA; iB; iA; aB])]]));
  (n_rdm2'voov, ([aB; iA; iB; aA], [mono 1 1 [(n_rdm2'abab'ovvo, [iA; aB; aA; iB])]]));
  (n_rdm2'voov, ([aA; iB; jB; bA], [mono (-1) 1 [(n_rdm2'abab'vovo, [aA; iB; bA; jB])]]));
  (n_rdm2'voov, ([aB; iA; jA; bB], [mono (-1) 1 [(n_rdm2'abab'ovov, [iA; aB; jA; bB])]]));
  (n_rdm2'vovo, ([aA; iA; bA; jA], [mono 1 1 [(n_rdm2'aaaa'vovo, [aA; iA; bA; jA])]]));
  (n_rdm2'vovo, ([aB; iB; bB; jB], [mono 1 1 [(n_rdm2'bbbb'vovo, [aB; iB; bB; jB])]]));
  (n_rdm2'vovo, ([aA; iB; bA; jB], [mono 1 1 [(n_rdm2'abab'vovo, [aA; iB; bA; jB])]]));
  (n_rdm2'vovo, ([aB; iA; bB; jA], [mono 1 1 [(n_rdm2'abab'ovov, [iA; aB; jA; bB])]]));
  (n_rdm2'vovo, ([aA; iB; aB; iA], [mono (-1) 1 [(n_rdm2'abab'voov, [aA; iB; iA; aB])]]));
  (n_rdm2'vovo, ([aB; iA; aA; iB], [mono (-1) 1 [(n_rdm2'abab'ovvo, [iA; aB; aA; iB])]]));
  (n_rdm2'vvoo, ([aA; bA; iA; jA], [mono 1 1 [(n_rdm2'aaaa'vvoo, [aA; bA; iA; jA])]]));
  (n_rdm2'vvoo, ([aB; bB; iB; jB], [mono 1 1 [(n_rdm2'bbbb'vvoo, [aB; bB; iB; jB])]]));
  (n_rdm2'vvoo, ([aA; aB; iA; iB], [mono 1 1 [(n_rdm2'abab'vvoo, [aA; aB; iA; iB])]]));
  (n_rdm2'vvoo, ([aB; aA; iB; iA], [mono 1 1 [(n_rdm2'abab'vvoo, [aA; aB; iA; iB])]]));
  (n_rdm2'vvoo, ([aA; aB; iB; iA], [mono (-1) 1 [(n_rdm2'abab'vvoo, [aA; aB; iA; iB])]]));
  (n_rdm2'vvoo, ([aB; aA; iA; iB], [mono (-1) 1 [(n_rdm2'abab'vvoo, [aA; aB; iA; iB])]]));
  (n_rdm2'ovvv, ([iA; aA; bA; cA], [mono 1 1 [(n_rdm2'aaaa'ovvv, [iA; aA; bA; cA])]]));
  (n_rdm2'ovvv, ([iB; aB; bB; cB], [mono 1 1 [(n_rdm2'bbbb'ovvv, [iB; aB; bB; cB])]]));
  (n_rdm2'ovvv, ([iA; aB; aA; bB], [mono 1 1 [(n_rdm2'abab'ovvv, [iA; aB; aA; bB])]]));
  (n_rdm2'ovvv, ([iB; aA; aB; bA], [mono 1 1 [(n_rdm2'abab'vovv, [aA; iB; bA; aB])]]));
  (n_rdm2'ovvv, ([iA; aB; bB; aA], [mono (-1) 1 [(n_rdm2'abab'ovvv, [iA; aB; aA; bB])]]));
  (n_rdm2'ovvv, ([iB; aA; bA; aB], [mono (-1) 1 [(n_rdm2'abab'vovv, [aA; iB; bA; aB])]]));
  (n_rdm2'vovv, ([aA; iA; bA; cA], [mono 1 1 [(n_rdm2'aaaa'vovv, [aA; iA; bA; cA])]]));
  (n_rdm2'vovv, ([aB; iB; bB; cB], [mono 1 1 [(n_rdm2'bbbb'vovv, [aB; iB; bB; cB])]]));
  (n_rdm2'vovv, ([aA; iB; bA; aB], [mono 1 1 [(n_rdm2'abab'vovv, [aA; iB; bA; aB])]]));
  (n_rdm2'vovv, ([aB; iA; bB; aA], [mono 1 1 [(n_rdm2'abab'ovvv, [iA; aB; aA; bB])]]));
  (n_rdm2'vovv, ([aA; iB; aB; bA], [mono (-1) 1 [(n_rdm2'abab'vovv, [aA; iB; bA; aB])]]));
  (n_rdm2'vovv, ([aB; iA; aA; bB], [mono (-1) 1 [(n_rdm2'abab'ovvv, [iA; aB; aA; bB])]]));
  (n_rdm2'vvov, ([aA; bA; iA; cA], [mono 1 1 [(n_rdm2'aaaa'vvov, [aA; bA; iA; cA])]]));
  (n_rdm2'vvov, ([aB; bB; iB; cB], [mono 1 1 [(n_rdm2'bbbb'vvov, [aB; bB; iB; cB])]]));
  (n_rdm2'vvov, ([aA; aB; iA; bB], [mono 1 1 [(n_rdm2'abab'vvov, [aA; aB; iA; bB])]]));
  (n_rdm2'vvov, ([aB; aA; iB; bA], [mono 1 1 [(n_rdm2'abab'vvvo, [aA; aB; bA; iB])]]));
  (n_rdm2'vvov, ([aA; aB; iB; bA], [mono (-1) 1 [(n_rdm2'abab'vvvo, [aA; aB; bA; iB])]]));
  (n_rdm2'vvov, ([aB; aA; iA; bB], [mono (-1) 1 [(n_rdm2'abab'vvov, [aA; aB; iA; bB])]]));
  (n_rdm2'vvvo, ([aA; bA; cA; iA], [mono 1 1 [(n_rdm2'aaaa'vvvo, [aA; bA; cA; iA])]]));
  (n_rdm2'vvvo, ([aB; bB; cB; iB], [mono 1 1 [(n_rdm2'bbbb'vvvo, [aB; bB; cB; iB])]]));
  (n_rdm2'vvvo, ([aA; aB; bA; iB], [mono 1 1 [(n_rdm2'abab'vvvo, [aA; aB; bA; iB])]]));
  (n_rdm2'vvvo, ([aB; aA; bB; iA], [mono 1 1 [(n_rdm2'abab'vvov, [aA; aB; iA; bB])]]));
  (n_rdm2'vvvo, ([aA; aB; bB; iA], [mono (-1) 1 [(n_rdm2'abab'vvov, [aA; aB; iA; bB])]]));
  (n_rdm2'vvvo, ([aB; aA; bA; iB], [mono (-1) 1 [(n_rdm2'abab'vvvo, [aA; aB; bA; iB])]]));
  (n_rdm2'vvvv, ([aA; bA; cA; dA], [mono 1 1 [(n_rdm2'aaaa'vvvv, [aA; bA; cA; dA])]]));
  (n_rdm2'vvvv, ([aB; bB; cB; dB], [mono 1 1 [(n_rdm2'bbbb'vvvv, [aB; bB; cB; dB])]]));
  (n_rdm2'vvvv, ([aA; aB; bA; bB], [mono 1 1 [(n_rdm2'abab'vvvv, [aA; aB; bA; bB])]]));
  (n_rdm2'vvvv, ([aB; aA; bB; bA], [mono 1 1 [(n_rdm2'abab'vvvv, [aA; aB; bA; bB])]]));
  (n_rdm2'vvvv, ([aA; aB; bB; bA], [mono (-1) 1 [(n_rdm2'abab'vvvv, [aA; aB; bA; bB])]]));
  (n_rdm2'vvvv, ([aB; aA; bA; bB], [mono (-1) 1 [(n_rdm2'abab'vvvv, [aA; aB; bA; bB])]]))].

(** The same in the modules for triples. *)
Definition spin_orbital_densities_t : table :=
 [(n_rdm1_f_oo, ([iA; jA], [mono 1 1 [(n_rdm1_f_aa_oo, [iA; jA])]]));
  (n_rdm1_f_oo, ([iB; jB], [mono 1 1 [(n_rdm1_f_bb_oo, [iB; jB])]]));
  (n_rdm1_f_ov, ([iA; aA], [mono 1 1 [(n_rdm1_f_aa_ov, [iA; aA])]]));
  (n_rdm1_f_ov, ([iB; aB], [mono 1 1 [(n_rdm1_f_bb_ov, [iB; aB])]]));
  (n_rdm1_f_vo, ([aA; iA], [mono 1 1 [(n_rdm1_f_aa_vo, [aA; iA])]]));
  (n_rdm1_f_vo, ([aB; iB], [mono 1 1 [(n_rdm1_f_bb_vo, [aB; iB])]]));
  (n_rdm1_f_vv, ([aA; bA], [mono 1 1 [(n_rdm1_f_aa_vv, [aA; bA])]]));
  (n_rdm1_f_vv, ([aB; bB], [mono 1 1 [(n_rdm1_f_bb_vv, [aB; bB])]]));
  (n_rdm2_f_oooo, ([iA; jA; kA; lA], [mono 1 1 [(n_rdm2_f_aaaa_oooo, [iA; jA; kA; lA])]]));
  (n_rdm2_f_oooo, ([iB; jB; kB; lB], [mono 1 1 [(n_rdm2_f_bbbb_oooo, [iB; jB; kB; lB])]]));
  (n_rdm2_f_oooo, ([iA; iB; jA; jB], [mono 1 1 [(n_rdm2_f_abab_oooo, [iA; iB; jA; jB])]]));
  (n_rdm2_f_oooo, ([iB; iA; jB; jA], [mono 1 1 [(n_rdm2_f_abab_oooo, [iA; iB; jA; jB])]]));
  (n_rdm2_f_oooo, ([iA; iB; jB; jA], [mono (-1) 1 [(n_rdm2_f_abab_oooo, [iA; iB; jA; jB])]]));
  (n_rdm2_f_oooo, ([iB; iA; jA; jB], [mono (-1) 1 [(n_rdm2_f_abab_oooo, [iA; iB; jA; jB])]]));
  (n_rdm2_f_ooov, ([iA; jA; kA; aA], [mono 1 1 [(n_rdm2_f_aaaa_ooov, [iA; jA; kA; aA])]]));
  (n_rdm2_f_ooov, ([iB; jB; kB; aB], [mono 1 1 [(n_rdm2_f_bbbb_ooov, [iB; jB; kB; aB])]]));
  (n_rdm2_f_ooov, ([iA; iB; jA; aB], [mono 1 1 [(n_rdm2_f_abab_ooov, [iA; iB; jA; aB])]]));
  (n_rdm2_f_ooov, ([iB; iA; jB; aA], [mono 1 1 [(n_rdm2_f_abab_oovo, [iA; iB; aA; jB])]]));
  (n_rdm2_f_ooov, ([iA; iB; jB; aA], [mono (-1) 1 [(n_rdm2_f_abab_oovo, [iA; iB; aA; jB])]]));
  (n_rdm2_f_ooov, ([iB; iA; jA; aB], [mono (-1) 1 [(n_rdm2_f_abab_ooov, [iA; iB; jA; aB])]]));
  (n_rdm2_f_oovo, ([iA; jA; aA; kA], [mono 1 1 [(n_rdm2_f_aaaa_oovo, [iA; jA; aA; kA])]]));
  (n_rdm2_f_oovo, ([iB; jB; aB; kB], [mono 1 1 [(n_rdm2_f_bbbb_oovo, [iB; jB; aB; kB])]]));
  (n_rdm2_f_oovo, ([iA; iB; aA; jB], [mono 1 1 [(n_rdm2_f_abab_oovo, [iA; iB; aA; jB])]]));
  (n_rdm2_f_oovo, ([iB; iA; aB; jA], [mono 1 1 [(n_rdm2_f_abab_ooov, [iA; iB; jA; aB])]]));
  (n_rdm2_f_oovo, ([iA; iB; aB; jA], [mono (-1) 1 [(n_rdm2_f_abab_ooov, [iA; iB; jA; aB])]]));
  (n_rdm2_f_oovo, ([iB; iA; aA; jB], [mono (-1) 1 [(n_rdm2_f_abab_oovo, [iA; iB; aA; jB])]]));
  (n_rdm2_f_ovoo, ([iA; aA; jA; kA], [mono 1 1 [(n_rdm2_f_aaaa_ovoo, [iA; aA; jA; kA])]]));
  (n_rdm2_f_ovoo, ([iB; aB; jB; kB], [mono 1 1 [(n_rdm2_f_bbbb_ovoo, [iB; aB; jB; kB])]]));
  (n_rdm2_f_ovoo, ([iA; aB; jA; iB], [mono 1 1 [(n_rdm2_f_abab_ovoo, [iA; aB; jA; iB])]]));
  (n_rdm2_f_ovoo, ([iB; aA; jB; iA], [mono 1 1 [(n_rdm2_f_abab_vooo, [aA; iB; iA; jB])]]));
  (n_rdm2_f_ovoo, ([iA; aB; iB; jA], [mono (-1) 1 [(n_rdm2_f_abab_ovoo, [iA; aB; jA; iB])]]));
  (n_rdm2_f_ovoo, ([iB; aA; iA; jB], [mono (-1) 1 [(n_rdm2_f_abab_vooo, [aA; iB; iA; jB])]]));
  (n_rdm2_f_vooo, ([aA; iA; jA; kA], [mono 1 1 [(n_rdm2_f_aaaa_vooo, [aA; iA; jA; kA])]]));
  (n_rdm2_f_vooo, ([aB; iB; jB; kB], [mono 1 1 [(n_rdm2_f_bbbb_vooo, [aB; iB; jB; kB])]]));
  (n_rdm2_f_vooo, ([aA; iB; iA; jB], [mono 1 1 [(n_rdm2_f_abab_vooo, [aA; iB; iA; jB])]]));
  (n_rdm2_f_vooo, ([aB; iA; iB; jA], [mono 1 1 [(n_rdm2_f_abab_ovoo, [iA; aB; jA; iB])]]));
  (n_rdm2_f_vooo, ([aA; iB; jB; iA], [mono (-1) 1 [(n_rdm2_f_abab_vooo, [aA; iB; iA; jB])]]));
  (n_rdm2_f_vooo, ([aB; iA; jA; iB], [mono (-1) 1 [(n_rdm2_f_abab_ovoo, [iA; aB; jA; iB])]]));
  (n_rdm2_f_oovv, ([iA; jA; aA; bA], [mono 1 1 [(n_rdm2_f_aaaa_oovv, [iA; jA; aA; bA])]]));
  (n_rdm2_f_oovv, ([iB; jB; aB; bB], [mono 1 1 [(n_rdm2_f_bbbb_oovv, [iB; jB; aB; bB])]]));
  (n_rdm2_f_oovv, ([iA; iB; aA; aB], [mono 1 1 [(n_rdm2_f_abab_oovv, [iA; iB; aA; aB])]]));
  (n_rdm2_f_oovv, ([iB; iA; aB; aA], [mono 1 1 [(n_rdm2_f_abab_oovv, [iA; iB; aA; aB])]]));
  (n_rdm2_f_oovv, ([iA; iB; aB; aA], [mono (-1) 1 [(n_rdm2_f_abab_oovv, [iA; iB; aA; aB])]]));
  (n_rdm2_f_oovv, ([iB; iA; aA; aB], [mono (-1) 1 [(n_rdm2_f_abab_oovv, [iA; iB; aA; aB])]]));
  (n_rdm2_f_ovov, ([iA; aA; jA; bA], [mono 1 1 [(n_rdm2_f_aaaa_ovov, [iA; aA; jA; bA])]]));
  (n_rdm2_f_ovov, ([iB; aB; jB; bB], [mono 1 1 [(n_rdm2_f_bbbb_ovov, [iB; aB; jB; bB])]]));
  (n_rdm2_f_ovov, ([iA; aB; jA; bB], [mono 1 1 [(n_rdm2_f_abab_ovov, [iA; aB; jA; bB])]]));
  (n_rdm2_f_ovov, ([iB; aA; jB; bA], [mono 1 1 [(n_rdm2_f_abab_vovo, [aA; iB; bA; jB])]]));
  (n_rdm2_f_ovov, ([iA; aB; iB; aA], [mono (-1) 1 [(n_rdm2_f_abab_ovvo, [iA; aB; aA; iB])]]));
  (n_rdm2_f_ovov, ([iB; aA; iA; aB], [mono (-1) 1 [(n_rdm2_f_abab_voov, [aA; iB; iA; aB])]]));
  (n_rdm2_f_ovvo, ([iA; aA; bA; jA], [mono 1 1 [(n_rdm2_f_aaaa_ovvo, [iA; aA; bA; jA])]]));
  (n_rdm2_f_ovvo, ([iB; aB; bB; jB], [mono 1 1 [(n_rdm2_f_bbbb_ovvo, [iB; aB; bB; jB])]]));
  (n_rdm2_f_ovvo, ([iA; aB; aA; iB], [mono 1 1 [(n_rdm2_f_abab_ovvo, [iA; aB; aA; iB])]]));
  (n_rdm2_f_ovvo, ([iB; aA; aB; iA], [mono 1 1 [(n_rdm2_f_abab_voov, [aA; iB; iA; aB])]]));
  (n_rdm2_f_ovvo, ([iA; aB; bB; jA], [mono (-1) 1 [(n_rdm2_f_abab_ovov, [iA; aB; jA; bB])]]));
  (n_rdm2_f_ovvo, ([iB; aA; bA; jB], [mono (-1) 1 [(n_rdm2_f_abab_vovo, [aA; iB; bA; jB])]]));
  (n_rdm2_f_voov, ([aA; iA; jA; bA], [mono 1 1 [(n_rdm2_f_aaaa_voov, [aA; iA; jA; bA])]]));
  (n_rdm2_f_voov, ([aB; iB; jB; bB], [mono 1 1 [(n_rdm2_f_bbbb_voov, [aB; iB; jB; bB])]]));
  (n_rdm2_f_voov, ([aA; iB; iA; aB], [mono 1 1 [(n_rdm2_f_abab_voov, [aA; iB; iA; aB])]]));
  (n_rdm2_f_voov, ([aB; iA; iB; aA], [mono 1 1 [(n_rdm2_f_abab_ovvo, [iA; aB; aA; iB])]]));
  (n_rdm2_f_voov, ([aA; iB; jB; bA], [mono (-1) 1 [(n_rdm2_f_abab_vovo, [aA; iB; bA; jB])]]));
  (n_rdm2_f_voov, ([aB; iA; jA; bB], [mono (-1) 1 [(n_rdm2_f_abab_ovov, [iA; aB; jA; bB])]]));
  (n_rdm2_f_vovo, ([aA; iA; bA; jA], [mono 1 1 [(n_rdm2_f_aaaa_vovo, [aA; iA; bA; jA])]]));
  (n_rdm2_f_vovo, ([aB; iB; bB; jB], [mono 1 1 [(n_rdm2_f_bbbb_vovo, [aB; iB; bB; jB])]]));
  (n_rdm2_f_vovo, ([aA; iB; bA; jB], [mono 1 1 [(n_rdm2_f_abab_vovo, [aA; iB; bA; jB])]]));
  (n_rdm2_f_vovo, ([aB; iA; bB; jA], [mono 1 1 [(n_rdm2_f_abab_ovov, [iA; aB; jA; bB])]]));
  (n_rdm2_f_vovo, ([aA; iB; aB; iA], [mono (-1) 1 [(n_rdm2_f_abab_voov, [aA; iB; iA; aB])]]));
  (n_rdm2_f_vovo, ([aB; iA; aA; iB], [mono (-1) 1 [(n_rdm2_f_abab_ovvo, [iA; aB; aA; iB])]]));
  (n_rdm2_f_vvoo, ([aA; bA; iA; jA], [mono 1 1 [(n_rdm2_f_aaaa_vvoo, [aA; bA; iA; jA])]]));
  (n_rdm2_f_vvoo, ([aB; bB; iB; jB], [mono 1 1 [(n_rdm2_f_bbbb_vvoo, [aB; bB; iB; jB])]]));
  (n_rdm2_f_vvoo, ([aA; aB; iA; iB], [mono 1 1 [(n_rdm2_f_abab_vvoo, [aA; aB; iA; iB])]]));
  (n_rdm2_f_vvoo, ([aB; aA; iB; iA], [mono 1 1 [(n_rdm2_f_abab_vvoo, [aA; aB; iA; iB])]]));
  (n_rdm2_f_vvoo, ([aA; aB; iB; iA], [mono (-1) 1 [(n_rdm2_f_abab_vvoo, [aA; aB; iA; iB])]]));
  (n_rdm2_f_vvoo, ([aB; aA; iA; iB], [mono (-1) 1 [(n_rdm2_f_abab_vvoo, [aA; aB; iA; iB])]]));
  (n_rdm2_f_ovvv, ([iA; aA; bA; cA], [mono 1 1 [(n_rdm2_f_aaaa_ovvv, [iA; aA; bA; cA])]]));
  (n_rdm2_f_ovvv, ([iB; aB; bB; cB], [mono 1 1 [(n_rdm2_f_bbbb_ovvv, [iB; aB; bB; cB])]]));
  (n_rdm2_f_ovvv, ([iA; aB; aA; bB], [mono 1 1 [(n_rdm2_f_abab_ovvv, [iA; aB; aA; bB])]]));
  (n_rdm2_f_ovvv, ([iB; aA; aB; bA], [mono 1 1 [(n_rdm2_f_abab_vovv, [aA; iB; bA; aB])]]));
  (n_rdm2_f_ovvv, ([iA; aB; bB; aA], [mono (-1) 1 [(n_rdm2_f_abab_ovvv, [iA; aB; aA; bB])]]));
  (n_rdm2_f_ovvv, ([iB; aA; bA; aB], [mono (-1) 1 [(n_rdm2_f_abab_vovv, [aA; iB; bA; aB])]]));
  (n_rdm2_f_vovv, ([aA; iA; bA; cA], [mono 1 1 [(n_rdm2_f_aaaa_vovv, [aA; iA; bA; cA])]]));
  (n_rdm2_f_vovv, ([aB; iB; bB; cB], [mono 1 1 [(n_rdm2_f_bbbb_vovv, [aB; iB; bB; cB])]]));
  (n_rdm2_f_vovv, ([aA; iB; bA; aB], [mono 1 1 [(n_rdm2_f_abab_vovv, [aA; iB; bA; aB])]]));
  (n_rdm2_f_vovv, ([aB; iA; bB; aA], [mono 1 1 [(n_rdm2_f_abab_ovvv, [iA; aB; aA; bB])]]));
  (n_rdm2_f_vovv, ([aA; iB; aB; bA], [mono (-1) 1 [(n_rdm2_f_abab_vovv, [aA; iB; bA; aB])]]));
  (n_rdm2_f_vovv, ([aB; iA; aA; bB], [mono (-1) 1 [(n_rdm2_f_abab_ovvv, [iA; aB; aA; bB])]]));
  (n_rdm2_f_vvov, ([aA; bA; iA; cA], [mono 1 1 [(n_rdm2_f_aaaa_vvov, [aA; bA; iA; cA])]]));
  (n_rdm2_f_vvov, ([aB; bB; iB; cB], [mono 1 1 [(n_rdm2_f_bbbb_vvov, [aB; bB; iB; cB])]]));
  (n_rdm2_f_vvov, ([aA; aB; iA; bB], [mono 1 1 [(n_rdm2_f_abab_vvov, [aA; aB; iA; bB])]]));
  (n_rdm2_f_vvov, ([aB; aA; iB; bA], [mono 1 1 [(n_rdm2_f_abab_vvvo, [aA; aB; bA; iB])]]));
  (n_rdm2_f_vvov, ([aA; aB; iB; bA], [mono (-1) 1 [(n_rdm2_f_abab_vvvo, [aA; aB; bA; iB])]]));
  (n_rdm2_f_vvov, ([aB; aA; iA; bB], [mono (-1) 1 [(n_rdm2_f_abab_vvov, [aA; aB; iA; bB])]]));
  (n_rdm2_f_vvvo, ([aA; bA; cA; iA], [mono 1 1 [(n_rdm2_f_aaaa_vvvo, [aA; bA; cA; iA])]]));
  (n_rdm2_f_vvvo, ([aB; bB; cB; iB], [mono 1 1 [(n_rdm2_f_bbbb_vvvo, [aB; bB; cB; iB])]]));
  (n_rdm2_f_vvvo, ([aA; aB; bA; iB], [mono 1 1 [(n_rdm2_f_abab_vvvo, [aA; aB; bA; iB])]]));
  (n_rdm2_f_vvvo, ([aB; aA; bB; iA], [mono 1 1 [(n_rdm2_f_abab_vvov, [aA; aB; iA; bB])]]));
  (n_rdm2_f_vvvo, ([aA; aB; bB; iA], [mono (-1) 1 [(n_rdm2_f_abab_vvov, [aA; aB; iA; bB])]]));
  (n_rdm2_f_vvvo, ([aB; aA; bA; iB], [mono (-1) 1 [(n_rdm2_f_abab_vvvo, [aA; aB; bA; iB])]]));
  (n_rdm2_f_vvvv, ([aA; bA; cA; dA], [mono 1 1 [(n_rdm2_f_aaaa_vvvv, [aA; bA; cA; dA])]]));
  (n_rdm2_f_vvvv, ([aB; bB; cB; dB], [mono 1 1 [(n_rdm2_f_bbbb_vvvv, [aB; bB; cB; dB])]]));
  (n_rdm2_f_vvvv, ([aA; aB; bA; bB], [mono 1 1 [(n_rdm2_f_abab_vvvv, [aA; aB; bA; bB])]]));
  (n_rdm2_f_vvvv, ([aB; aA; bB; bA], [mono 1 1 [(n_rdm2_f_abab_vvvv, [aA; aB; bA; bB])]]));
  (n_rdm2_f_vvvv, ([aA; aB; bB; bA], [mono (-1) 1 [(n_rdm2_f_abab_vvvv, [aA; aB; bA; bB])]]));
  (n_rdm2_f_vvvv, ([aB; aA; bA; bB], [mono (-1) 1 [(n_rdm2_f_abab_vvvv, [aA; aB; bA; bB])]]))].

(** The same with bosons. *)
Definition spin_orbital_densities_b : table :=
 [(n_rdm1_f_oo, ([iA; jA], [mono 1 1 [(n_rdm1_f_oo_aa, [iA; jA])]]));
  (n_rdm1_f_oo, ([iB; jB], [mono 1 1 [(n_rdm1_f_oo_bb, [iB; jB])]]));
  (n_rdm1_f_ov, ([iA; aA], [mono 1 1 [(n_rdm1_f_ov_aa, [iA; aA])]]));
  (n_rdm1_f_ov, ([iB; aB], [mono 1 1 [(n_rdm1_f_ov_bb, [iB; aB])]]));
  (n_rdm1_f_vo, ([aA; iA], [mono 1 1 [(n_rdm1_f_vo_aa, [aA; iA])]]));
  (n_rdm1_f_vo, ([aB; iB], [mono 1 1 [(n_rdm1_f_vo_bb, [aB; iB])]]));
  (n_rdm1_f_vv, ([aA; bA], [mono 1 1 [(n_rdm1_f_vv_aa, [aA; bA])]]));
  (n_rdm1_f_vv, ([aB; bB], [mono 1 1 [(n_rdm1_f_vv_bb, [aB; bB])]]));
  (n_rdm2_f_oooo, ([iA; jA; kA; lA], [mono 1 1 [(n_rdm2_f_oooo_aaaa, [iA; kA; jA; lA])]]));
  (n_rdm2_f_oooo, ([iB; jB; kB; lB], [mono 1 1 [(n_rdm2_f_oooo_bbbb, [iB; kB; jB; lB])]]));
  (n_rdm2_f_oooo, ([iA; iB; jA; jB], [mono 1 1 [(n_rdm2_f_oooo_aabb, [iA; jA; iB; jB])]]));
  (n_rdm2_f_oooo, ([iB; iA; jB; jA], [mono 1 1 [(n_rdm2_f_oooo_aabb, [iA; jA; iB; jB])]]));
  (n_rdm2_f_oooo, ([iA; iB; jB; jA], [mono (-1) 1 [(n_rdm2_f_oooo_aabb, [iA; jA; iB; jB])]]));
  (n_rdm2_f_oooo, ([iB; iA; jA; jB], [mono (-1) 1 [(n_rdm2_f_oooo_aabb, [iA; jA; iB; jB])]]));
  (n_rdm2_f_ooov, ([iA; jA; kA; aA], [mono 1 1 [(n_rdm2_f_ooov_aaaa, [iA; kA; jA; aA])]]));
  (n_rdm2_f_ooov, ([iB; jB; kB; aB], [mono 1 1 [(n_rdm2_f_ooov_bbbb, [iB; kB; jB; aB])]]));
  (n_rdm2_f_ooov, ([iA; iB; jA; aB], [mono 1 1 [(n_rdm2_f_ooov_aabb, [iA; jA; iB; aB])]]));
  (n_rdm2_f_ooov, ([iB; iA; jB; aA], [mono 1 1 [(n_rdm2_f_ovoo_aabb, [iA; aA; iB; jB])]]));
  (n_rdm2_f_ooov, ([iA; iB; jB; aA], [mono (-1) 1 [(n_rdm2_f_ovoo_aabb, [iA; aA; iB; jB])]]));
  (n_rdm2_f_ooov, ([iB; iA; jA; aB], [mono (-1) 1 [(n_rdm2_f_ooov_aabb, [iA; jA; iB; aB])]]));
  (n_rdm2_f_oovo, ([iA; jA; aA; kA], [mono 1 1 [(n_rdm2_f_ovoo_aaaa, [iA; aA; jA; kA])]]));
  (n_rdm2_f_oovo, ([iB; jB; aB; kB], [mono 1 1 [(n_rdm2_f_ovoo_bbbb, [iB; aB; jB; kB])]]));
  (n_rdm2_f_oovo, ([iA; iB; aA; jB], [mono 1 1 [(n_rdm2_f_ovoo_aabb, [iA; aA; iB; jB])]]));
  (n_rdm2_f_oovo, ([iB; iA; aB; jA], [mono 1 1 [(n_rdm2_f_ooov_aabb, [iA; jA; iB; aB])]]));
  (n_rdm2_f_oovo, ([iA; iB; aB; jA], [mono (-1) 1 [(n_rdm2_f_ooov_aabb, [iA; jA; iB; aB])]]));
  (n_rdm2_f_oovo, ([iB; iA; aA; jB], [mono (-1) 1 [(n_rdm2_f_ovoo_aabb, [iA; aA; iB; jB])]]));
  (n_rdm2_f_ovoo, ([iA; aA; jA; kA], [mono 1 1 [(n_rdm2_f_oovo_aaaa, [iA; jA; aA; kA])]]));
  (n_rdm2_f_ovoo, ([iB; aB; jB; kB], [mono 1 1 [(n_rdm2_f_oovo_bbbb, [iB; jB; aB; kB])]]));
  (n_rdm2_f_ovoo, ([iA; aB; jA; iB], [mono 1 1 [(n_rdm2_f_oovo_aabb, [iA; jA; aB; iB])]]));
  (n_rdm2_f_ovoo, ([iB; aA; jB; iA], [mono 1 1 [(n_rdm2_f_vooo_aabb, [aA; iA; iB; jB])]]));
  (n_rdm2_f_ovoo, ([iA; aB; iB; jA], [mono (-1) 1 [(n_rdm2_f_oovo_aabb, [iA; jA; aB; iB])]]));
  (n_rdm2_f_ovoo, ([iB; aA; iA; jB], [mono (-1) 1 [(n_rdm2_f_vooo_aabb, [aA; iA; iB; jB])]]));
  (n_rdm2_f_vooo, ([aA; iA; jA; kA], [mono 1 1 [(n_rdm2_f_vooo_aaaa, [aA; jA; iA; kA])]]));
  (n_rdm2_f_vooo, ([aB; iB; jB; kB], [mono 1 1 [(n_rdm2_f_vooo_bbbb, [aB; jB; iB; kB])]]));
  (n_rdm2_f_vooo, ([aA; iB; iA; jB], [mono 1 1 [(n_rdm2_f_vooo_aabb, [aA; iA; iB; jB])]]));
  (n_rdm2_f_vooo, ([aB; iA; iB; jA], [mono 1 1 [(n_rdm2_f_oovo_aabb, [iA; jA; aB; iB])]]));
  (n_rdm2_f_vooo, ([aA; iB; jB; iA], [mono (-1) 1 [(n_rdm2_f_vooo_aabb, [aA; iA; iB; jB])]]));
  (n_rdm2_f_vooo, ([aB; iA; jA; iB], [mono (-1) 1 [(n_rdm2_f_oovo_aabb, [iA; jA; aB; iB])]]));
  (n_rdm2_f_oovv, ([iA; jA; aA; bA], [mono 1 1 [(n_rdm2_f_ovov_aaaa, [iA; aA; jA; bA])]]));
  (n_rdm2_f_oovv, ([iB; jB; aB; bB], [mono 1 1 [(n_rdm2_f_ovov_bbbb, [iB; aB; jB; bB])]]));
  (n_rdm2_f_oovv, ([iA; iB; aA; aB], [mono 1 1 [(n_rdm2_f_ovov_aabb, [iA; aA; iB; aB])]]));
  (n_rdm2_f_oovv, ([iB; iA; aB; aA], [mono 1 1 [(n_rdm2_f_ovov_aabb, [iA; aA; iB; aB])]]));
  (n_rdm2_f_oovv, ([iA; iB; aB; aA], [mono (-1) 1 [(n_rdm2_f_ovov_aabb, [iA; aA; iB; aB])]]));
  (n_rdm2_f_oovv, ([iB; iA; aA; aB], [mono (-1) 1 [(n_rdm2_f_ovov_aabb, [iA; aA; iB; aB])]]));
  (n_rdm2_f_ovov, ([iA; aA; jA; bA], [mono 1 1 [(n_rdm2_f_oovv_aaaa, [iA; jA; aA; bA])]]));
  (n_rdm2_f_ovov, ([iB; aB; jB; bB], [mono 1 1 [(n_rdm2_f_oovv_bbbb, [iB; jB; aB; bB])]]));
  (n_rdm2_f_ovov, ([iA; aB; jA; bB], [mono 1 1 [(n_rdm2_f_oovv_aabb, [iA; jA; aB; bB])]]));
  (n_rdm2_f_ovov, ([iB; aA; jB; bA], [mono 1 1 [(n_rdm2_f_vvoo_aabb, [aA; bA; iB; jB])]]));
  (n_rdm2_f_ovov, ([iA; aB; iB; aA], [mono (-1) 1 [(n_rdm2_f_ovvo_aabb, [iA; aA; aB; iB])]]));
  (n_rdm2_f_ovov, ([iB; aA; iA; aB], [mono (-1) 1 [(n_rdm2_f_voov_aabb, [aA; iA; iB; aB])]]));
  (n_rdm2_f_ovvo, ([iA; aA; bA; jA], [mono 1 1 [(n_rdm2_f_ovvo_aaaa, [iA; bA; aA; jA])]]));
  (n_rdm2_f_ovvo, ([iB; aB; bB; jB], [mono 1 1 [(n_rdm2_f_ovvo_bbbb, [iB; bB; aB; jB])]]));
  (n_rdm2_f_ovvo, ([iA; aB; aA; iB], [mono 1 1 [(n_rdm2_f_ovvo_aabb, [iA; aA; aB; iB])]]));
  (n_rdm2_f_ovvo, ([iB; aA; aB; iA], [mono 1 1 [(n_rdm2_f_voov_aabb, [aA; iA; iB; aB])]]));
  (n_rdm2_f_ovvo, ([iA; aB; bB; jA], [mono (-1) 1 [(n_rdm2_f_oovv_aabb, [iA; jA; aB; bB])]]));
  (n_rdm2_f_ovvo, ([iB; aA; bA; jB], [mono (-1) 1 [(n_rdm2_f_vvoo_aabb, [aA; bA; iB; jB])]]));
  (n_rdm2_f_voov, ([aA; iA; jA; bA], [mono 1 1 [(n_rdm2_f_voov_aaaa, [aA; jA; iA; bA])]]));
  (n_rdm2_f_voov, ([aB; iB; jB; bB], [mono 1 1 [(n_rdm2_f_voov_bbbb, [aB; jB; iB; bB])]]));
  (n_rdm2_f_voov, ([aA; iB; iA; aB], [mono 1 1 [(n_rdm2_f_voov_aabb, [aA; iA; iB; aB])]]));
  (n_rdm2_f_voov, ([aB; iA; iB; aA], [mono 1 1 [(n_rdm2_f_ovvo_aabb, [iA; aA; aB; iB])]]));
  (n_rdm2_f_voov, ([aA; iB; jB; bA], [mono (-1) 1 [(n_rdm2_f_vvoo_aabb, [aA; bA; iB; jB])]]));
  (n_rdm2_f_voov, ([aB; iA; jA; bB], [mono (-1) 1 [(n_rdm2_f_oovv_aabb, [iA; jA; aB; bB])]]));
  (n_rdm2_f_vovo, ([aA; iA; bA; jA], [mono 1 1 [(n_rdm2_f_vvoo_aaaa, [aA; bA; iA; jA])]]));
  (n_rdm2_f_vovo, ([aB; iB; bB; jB], [mono 1 1 [(n_rdm2_f_vvoo_bbbb, [aB; bB; iB; jB])]]));
  (n_rdm2_f_vovo, ([aA; iB; bA; jB], [mono 1 1 [(n_rdm2_f_vvoo_aabb, [aA; bA; iB; jB])]]));
  (n_rdm2_f_vovo, ([aB; iA; bB; jA], [mono 1 1 [(n_rdm2_f_oovv_aabb, [iA; jA; aB; bB])]]));
  (n_rdm2_f_vovo, ([aA; iB; aB; iA], [mono (-1) 1 [(n_rdm2_f_voov_aabb, [aA; iA; iB; aB])]]));
  (n_rdm2_f_vovo, ([aB; iA; aA; iB], [mono (-1) 1 [(n_rdm2_f_ovvo_aabb, [iA; aA; aB; iB])]]));
  (n_rdm2_f_vvoo, ([aA; bA; iA; jA], [mono 1 1 [(n_rdm2_f_vovo_aaaa, [aA; iA; bA; jA])]]));
  (n_rdm2_f_vvoo, ([aB; bB; iB; jB], [mono 1 1 [(n_rdm2_f_vovo_bbbb, [aB; iB; bB; jB])]]));
  (n_rdm2_f_vvoo, ([aA; aB; iA; iB], [mono 1 1 [(n_rdm2_f_vovo_aabb, [aA; iA; aB; iB])]]));
  (n_rdm2_f_vvoo, ([aB; aA; iB; iA], [mono 1 1 [(n_rdm2_f_vovo_aabb, [aA; iA; aB; iB])]]));
  (n_rdm2_f_vvoo, ([aA; aB; iB; iA], [mono (-1) 1 [(n_rdm2_f_vovo_aabb, [aA; iA; aB; iB])]]));
  (n_rdm2_f_vvoo, ([aB; aA; iA; iB], [mono (-1) 1 [(n_rdm2_f_vovo_aabb, [aA; iA; aB; iB])]]));
  (n_rdm2_f_ovvv, ([iA; aA; bA; cA], [mono 1 1 [(n_rdm2_f_ovvv_aaaa, [iA; bA; aA; cA])]]));
  (n_rdm2_f_ovvv, ([iB; aB; bB; cB], [mono 1 1 [(n_rdm2_f_ovvv_bbbb, [iB; bB; aB; cB])]]));
  (n_rdm2_f_ovvv, ([iA; aB; aA; bB], [mono 1 1 [(n_rdm2_f_ovvv_aabb, [iA; aA; aB; bB])]]));
  (n_rdm2_f_ovvv, ([iB; aA; aB; bA], [mono 1 1 [(n_rdm2_f_vvov_aabb, [aA; bA; iB; aB])]]));
  (n_rdm2_f_ovvv, ([iA; aB; bB; aA], [mono (-1) 1 [(n_rdm2_f_ovvv_aabb, [iA; aA; aB; bB])]]));
  (n_rdm2_f_ovvv, ([iB; aA; bA; aB], [mono (-1) 1 [(n_rdm2_f_vvov_aabb, [aA; bA; iB; aB])]]));
  (n_rdm2_f_vovv, ([aA; iA; bA; cA], [mono 1 1 [(n_rdm2_f_vvov_aaaa, [aA; bA; iA; cA])]]));
  (n_rdm2_f_vovv, ([aB; iB; bB; cB], [mono 1 1 [(n_rdm2_f_vvov_bbbb, [aB; bB; iB; cB])]]));
  (n_rdm2_f_vovv, ([aA; iB; bA; aB], [mono 1 1 [(n_rdm2_f_vvov_aabb, [aA; bA; iB; aB])]]));
  (n_rdm2_f_vovv, ([aB; iA; bB; aA], [mono 1 1 [(n_rdm2_f_ovvv_aabb, [iA; aA; aB; bB])]]));
  (n_rdm2_f_vovv, ([aA; iB; aB; bA], [mono (-1) 1 [(n_rdm2_f_vvov_aabb, [aA; bA; iB; aB])]]));
  (n_rdm2_f_vovv, ([aB; iA; aA; bB], [mono (-1) 1 [(n_rdm2_f_ovvv_aabb, [iA; aA; aB; bB])]]));
  (n_rdm2_f_vvov, ([aA; bA; iA; cA], [mono 1 1 [(n_rdm2_f_vovv_aaaa, [aA; iA; bA; cA])]]));
  (n_rdm2_f_vvov, ([aB; bB; iB; cB], [mono 1 1 [(n_rdm2_f_vovv_bbbb, [aB; iB; bB; cB])]]));
  (n_rdm2_f_vvov, ([aA; aB; iA; bB], [mono 1 1 [(n_rdm2_f_vovv_aabb, [aA; iA; aB; bB])]]));
  (n_rdm2_f_vvov, ([aB; aA; iB; bA], [mono 1 1 [(n_rdm2_f_vvvo_aabb, [aA; bA; aB; iB])]]));
  (n_rdm2_f_vvov, ([aA; aB; iB; bA], [mono (-1) 1 [(n_rdm2_f_vvvo_aabb, [aA; bA; aB; iB])]]));
  (n_rdm2_f_vvov, ([aB; aA; iA; bB], [mono (-1) 1 [(n_rdm2_f_vovv_aabb, [aA; iA; aB; bB])]]));
  (n_rdm2_f_vvvo, ([aA; bA; cA; iA], [mono 1 1 [(n_rdm2_f_vvvo_aaaa, [aA; cA; bA; iA])]]));
  (n_rdm2_f_vvvo, ([aB; bB; cB; iB], [mono 1 1 [(n_rdm2_f_vvvo_bbbb, [aB; cB; bB; iB])]]));
  (n_rdm2_f_vvvo, ([aA; aB; bA; iB], [mono 1 1 [(n_rdm2_f_vvvo_aabb, [aA; bA; aB; iB])]]));
  (n_rdm2_f_vvvo, ([aB; aA; bB; iA], [mono 1 1 [(n_rdm2_f_vovv_aabb, [aA; iA; aB; bB])]]));
  (n_rdm2_f_vvvo, ([aA; aB; bB; iA], [mono (-1) 1 [(n_rdm2_f_vovv_aabb, [aA; iA; aB; bB])]]));
  (n_rdm2_f_vvvo, ([aB; aA; bA; iB], [mono (-1) 1 [(n_rdm2_f_vvvo_aabb, [aA; bA; aB; iB])]]));
  (n_rdm2_f_vvvv, ([aA; bA; cA; dA], [mono 1 1 [(n_rdm2_f_vvvv_aaaa, [aA; cA; bA; dA])]]));
  (n_rdm2_f_vvvv, ([aB; bB; cB; dB], [mono 1 1 [(n_rdm2_f_vvvv_bbbb, [aB; cB; bB; dB])]]));
  (n_rdm2_f_vvvv, ([aA; aB; bA; bB], [mono 1 1 [(n_rdm2_f_vvvv_aabb, [aA; bA; aB; bB])]]));
  (n_rdm2_f_vvvv, ([aB; aA; bB; bA], [mono 1 1 [(n_rdm2_f_vvvv_aabb, [aA; bA; aB; bB])]]));
  (n_rdm2_f_vvvv, ([aA; aB; bB; bA], [mono (-1) 1 [(n_rdm2_f_vvvv_aabb, [aA; bA; aB; bB])]]));
  (n_rdm2_f_vvvv, ([aB; aA; bA; bB], [mono (-1) 1 [(n_rdm2_f_vvvv_aabb, [aA; bA; aB; bB])]]));
  (n_rdm1_b, ([x; y], [mono 1 1 [(n_rdm1_b, [x; y])]]));
  (n_dm_b_cre, ([x], [mono 1 1 [(n_dm_b_cre, [x])]]));
  (n_dm_b_des, ([x], [mono 1 1 [(n_dm_b_des, [x])]]));
  (n_rdm_eb_cre_oo, ([x; iA; jA], [mono 1 1 [(n_rdm_eb_cre_oo_aa, [x; iA; jA])]]));
  (n_rdm_eb_cre_oo, ([x; iB; jB], [mono 1 1 [(n_rdm_eb_cre_oo_bb, [x; iB; jB])]]));
  (n_rdm_eb_cre_ov, ([x; iA; aA], [mono 1 1 [(n_rdm_eb_cre_ov_aa, [x; iA; aA])]]));
  (n_rdm_eb_cre_ov, ([x; iB; aB], [mono 1 1 [(n_rdm_eb_cre_ov_bb, [x; iB; aB])]]));
  (n_rdm_eb_cre_vo, ([x; aA; iA], [mono 1 1 [(n_rdm_eb_cre_vo_aa, [x; aA; iA])]]));
  (n_rdm_eb_cre_vo, ([x; aB; iB], [mono 1 1 [(n_rdm_eb_cre_vo_bb, [x; aB; iB])]]));
  (n_rdm_eb_cre_vv, ([x; aA; bA], [mono 1 1 [(n_rdm_eb_cre_vv_aa, [x; aA; bA])]]));
  (n_rdm_eb_cre_vv, ([x; aB; bB], [mono 1 1 [(n_rdm_eb_cre_vv_bb, [x; aB; bB])]]));
  (n_rdm_eb_des_oo, ([x; iA; jA], [mono 1 1 [(n_rdm_eb_des_oo_aa, [x; iA; jA])]]));
  (n_rdm_eb_des_oo, ([x; iB; jB], [mono 1 1 [(n_rdm_eb_des_oo_bb, [x; iB; jB])]]));
  (n_rdm_eb_des_ov, ([x; iA; aA], [mono 1 1 [(n_rdm_eb_des_ov_aa, [x; iA; aA])]]));
  (n_rdm_eb_des_ov, ([x; iB; aB], [mono 1 1 [(n_rdm_eb_des_ov_bb, [x; iB; aB])]]));
  (n_rdm_eb_des_vo, ([x; aA; iA], [mono 1 1 [(n_rdm_eb_des_vo_aa, [x; aA; iA])]]));
  (n_rdm_eb_des_vo, ([x; aB; iB], [mono 1 1 [(n_rdm_eb_des_vo_bb, [x; aB; iB])]]));
  (n_rdm_eb_des_vv, ([x; aA; bA], [mono 1 1 [(n_rdm_eb_des_vv_aa, [x; aA; bA])]]));
  (n_rdm_eb_des_vv, ([x; aB; bB], [mono 1 1 [(n_rdm_eb_des_vv_bb, [x; aB; bB])]]))].

(** The density matrices of a restricted calculation: those of the unrestricted one ([nm 1]), summed over spins. *)
Definition spin_summed_densities : table :=
 [(n_rdm1'oo, ([i; j], [mono 1 1 [(nm 1 n_rdm1'aa'oo, [i; j])]; mono 1 1 [(nm 1 n_rdm1'bb'oo, [i; j])]]));
  (n_rdm1'ov, ([i; a], [mono 1 1 [(nm 1 n_rdm1'aa'ov, [i; a])]; mono 1 1 [(nm 1 n_rdm1'bb'ov, [i; a])]]));
  (n_rdm1'vo, ([a; i], [mono 1 1 [(nm 1 n_rdm1'aa'vo, [a; i])]; mono 1 1 [(nm 1 n_rdm1'bb'vo, [a; i])]]));
  (n_rdm1'vv, ([a; b], [mono 1 1 [(nm 1 n_rdm1'aa'vv, [a; b])]; mono 1 1 [(nm 1 n_rdm1'bb'vv, [a; b])]]));
  (n_rdm2'oooo, ([i; j; k; l], [mono 1 1 [(nm 1 n_rdm2'aaaa'oooo, [i; j; k; l])]; mono 1 1 [(nm 1 n_rdm2'bbbb'oooo, [i; j; k; l])]; mono 1 1 [(nm 1 n_rdm2'abab'oooo, [i; j; k; l])]; mono 1 1 [(nm 1 n_rdm2'abab'oooo, [j; i; l; k])]]));
  (n_rdm2'ooov, ([i; j; k; a], [mono 1 1 [(nm 1 n_rdm2'aaaa'ooov, [i; j; k; a])]; mono 1 1 [(nm 1 n_rdm2'bbbb'ooov, [i; j; k; a])]; mono 1 1 [(nm 1 n_rdm2'abab'ooov, [i; j; k; a])]; mono 1 1 [(nm 1 n_rdm2'abab'oovo, [j; i; a; k])]]));
  (n_rdm2'oovo, ([i; j; a; k], [mono 1 1 [(nm 1 n_rdm2'aaaa'oovo, [i; j; a; k])]; mono 1 1 [(nm 1 n_rdm2'bbbb'oovo, [i; j; a; k])]; mono 1 1 [(nm 1 n_rdm2'abab'oovo, [i; j; a; k])]; mono 1 1 [(nm 1 n_rdm2'abab'ooov, [j; i; k; a])]]));
  (n_rdm2'ovoo, ([i; a; j; k], [mono 1 1 [(nm 1 n_rdm2'aaaa'ovoo, [i; a; j; k])]; mono 1 1 [(nm 1 n_rdm2'bbbb'ovoo, [i; a; j; k])]; mono 1 1 [(nm 1 n_rdm2'abab'ovoo, [i; a; j; k])]; mono 1 1 [(nm 1 n_rdm2'abab'vooo, [a; i; k; j])]]));
  (n_rdm2'vooo, ([a; i; j; k], [mono 1 1 [(nm 1 n_rdm2'aaaa'vooo, [a; i; j; k])]; mono 1 1 [(nm 1 n_rdm2'bbbb'vooo, [a; i; j; k])]; mono 1 1 [(nm 1 n_rdm2'abab'vooo, [a; i; j; k])]; mono 1 1 [(nm 1 n_rdm2'abab'ovoo, [i; a; k; j])]]));
  (n_rdm2'oovv, ([i; j; a; b], [mono 1 1 [(nm 1 n_rdm2'aaaa'oovv, [i; j; a; b])]; mono 1 1 [(nm 1 n_rdm2'bbbb'oovv, [i; j; a; b])]; mono 1 1 [(nm 1 n_rdm2'abab'oovv, [i; j; a; b])]; mono 1 1 [(nm 1 n_rdm2'abab'oovv, [j; i; b; a])]]));
  (n_rdm2'ovov, ([i; a; j; b], [mono 1 1 [(nm 1 n_rdm2'aaaa'ovov, [i; a; j; b])]; mono 1 1 [(nm 1 n_rdm2'bbbb'ovov, [i; a; j; b])]; mono 1 1 [(nm 1 n_rdm2'abab'ovov, [i; a; j; b])]; mono 1 1 [(nm 1 n_rdm2'abab'vovo, [a; i; b; j])]]));
  (n_rdm2'ovvo, ([i; a; b; j], [mono 1 1 [(nm 1 n_rdm2'aaaa'ovvo, [i; a; b; j])]; mono 1 1 [(nm 1 n_rdm2'bbbb'ovvo, [i; a; b; j])]; mono 1 1 [(nm 1 n_rdm2'abab'ovvo, [i; a; b; j])]; mono 1 1 [(nm 1 n_rdm2'abab'voov, [a; i; j; b])]]));
  (n_rdm2'voov, ([a; i; j; b], [mono 1 1 [(nm 1 n_rdm2'aaaa'voov, [a; i; j; b])]; mono 1 1 [(nm 1 n_rdm2'bbbb'voov, [a; i; j; b])]; mono 1 1 [(nm 1 n_rdm2'abab'voov, [a; i; j; b])]; mono 1 1 [(nm 1 n_rdm2'abab'ovvo, [i; a; b; j])]]));
  (n_rdm2'vovo, ([a; i; b; j], [mono 1 1 [(nm 1 n_rdm2'aaaa'vovo, [a; i; b; j])]; mono 1 1 [(nm 1 n_rdm2'bbbb'vovo, [a; i; b; j])]; mono 1 1 [(nm 1 n_rdm2'abab'vovo, [a; i; b; j])]; mono 1 1 [(nm 1 n_rdm2'abab'ovov, [i; a; j; b])]]));
  (n_rdm2'vvoo, ([a; b; i; j], [mono 1 1 [(nm 1 n_rdm2'aaaa'vvoo, [a; b; i; j])]; mono 1 1 [(nm 1 n_rdm2'bbbb'vvoo, [a; b; i; j])]; mono 1 1 [(nm 1 n_rdm2'abab'vvoo, [a; b; i; j])]; mono 1 1 [(nm 1 n_rdm2'abab'vvoo, [b; a; j; i])]]));
  (n_rdm2'ovvv, ([i; a; b; c], [mono 1 1 [(nm 1 n_rdm2'aaaa'ovvv, [i; a; b; c])]; mono 1 1 [(nm 1 n_rdm2'bbbb'ovvv, [i; a; b; c])]; mono 1 1 [(nm 1 n_rdm2'abab'ovvv, [i; a; b; c])]; mono 1 1 [(nm 1 n_rdm2'abab'vovv, [a; i; c; b])]]));
  (n_rdm2'vovv, ([a; i; b; c], [mono 1 1 [(nm 1 n_rdm2'aaaa'vovv, [a; i; b; c])]; mono 1 1 [(nm 1 n_rdm2'bbbb'vovv, [a; i; b; c])]; mono 1 1 [(nm 1 n_rdm2'abab'vovv, [a; i; b; c])]; mono 1 1 [(nm 1 n_rdm2'abab'ovvv, [i; a; c; b])]]));
  (n_rdm2'vvov, ([a; b; i; c], [mono 1 1 [(nm 1 n_rdm2'aaaa'vvov, [a; b; i; c])]; mono 1 1 [(nm 1 n_rdm2'bbbb'vvov, [a; b; i; c])]; mono 1 1 [(nm 1 n_rdm2'abab'vvov, [a; b; i; c])]; mono 1 1 [(nm 1 n_rdm2'abab'vvvo, [b; a; c; i])]]));
  (n_rdm2'vvvo, ([a; b; c; i], [mono 1 1 [(nm 1 n_rdm2'aaaa'vvvo, [a; b; c; i])]; mono 1 1 [(nm 1 n_rdm2'bbbb'vvvo, [a; b; c; i])]; mono 1 1 [(nm 1 n_rdm2'abab'vvvo, [a; b; c; i])]; mono 1 1 [(nm 1 n_rdm2'abab'vvov, [b; a; i; c])]]));
  (n_rdm2'vvvv, ([a; b; c; d], [mono 1 1 [(nm 1 n_rdm2'aaaa'vvvv, [a; b; c; d])]; mono 1 1 [(nm 1 n_rdm2'bbbb'vvvv, [a; b; c; d])]; mono 1 1 [(nm 1 n_rdm2'abab'vvvv, [a; b; c; d])]; mono 1 1 [(nm 1 n_rdm2'abab'vvvv, [b; a; d; c])]]))].

(** The same in the modules for triples. *)
Definition spin_summed_densities_t : table :=
 [(n_rdm1_f_oo, ([i; j], [mono 1 1 [(nm 1 n_rdm1_f_aa_oo, [i; j])]; mono 1 1 [(nm 1 n_rdm1_f_bb_oo, [i; j])]]));
  (n_rdm1_f_ov, ([i; a], [mono 1 1 [(nm 1 n_rdm1_f_aa_ov, [i; a])]; mono 1 1 [(nm 1 n_rdm1_f_bb_ov, [i; a])]]));
  (n_rdm1_f_vo, ([a; i], [mono 1 1 [(nm 1 n_rdm1_f_aa_vo, [a; i])]; mono 1 1 [(nm 1 n_rdm1_f_bb_vo, [a; i])]]));
  (n_rdm1_f_vv, ([a; b], [mono 1 1 [(nm 1 n_rdm1_f_aa_vv, [a; b])]; mono 1 1 [(nm 1 n_rdm1_f_bb_vv, [a; b])]]));
  (n_rdm2_f_oooo, ([i; j; k; l], [mono 1 1 [(nm 1 n_rdm2_f_aaaa_oooo, [i; j; k; l])]; mono 1 1 [(nm 1 n_rdm2_f_bbbb_oooo, [i; j; k; l])]; mono 1 1 [(nm 1 n_rdm2_f_abab_oooo, [i; j; k; l])]; mono 1 1 [(nm 1 n_rdm2_f_abab_oooo, [j; i; l; k])]]));
  (n_rdm2_f_ooov, ([i; j; k; a], [mono 1 1 [(nm 1 n_rdm2_f_aaaa_ooov, [i; j; k; a])]; mono 1 1 [(nm 1 n_rdm2_f_bbbb_ooov, [i; j; k; a])]; mono 1 1 [(nm 1 n_rdm2_f_abab_ooov, [i; j; k; a])]; mono 1 1 [(nm 1 n_rdm2_f_abab_oovo, [j; i; a; k])]]));
  (n_rdm2_f_oovo, ([i; j; a; k], [mono 1 1 [(nm 1 n_rdm2_f_aaaa_oovo, [i; j; a; k])]; mono 1 1 [(nm 1 n_rdm2_f_bbbb_oovo, [i; j; a; k])]; mono 1 1 [(nm 1 n_rdm2_f_abab_oovo, [i; j; a; k])]; mono 1 1 [(nm 1 n_rdm2_f_abab_ooov, [j; i; k; a])]]));
  (n_rdm2_f_ovoo, ([i; a; j; k], [mono 1 1 [(nm 1 n_rdm2_f_aaaa_ovoo, [i; a; j; k])]; mono 1 1 [(nm 1 n_rdm2_f_bbbb_ovoo, [i; a; j; k])]; mono 1 1 [(nm 1 n_rdm2_f_abab_ovoo, [i; a; j; k])]; mono 1 1 [(nm 1 n_rdm2_f_abab_vooo, [a; i; k; j])]]));
  (n_rdm2_f_vooo, ([a; i; j; k], [mono 1 1 [(nm 1 n_rdm2_f_aaaa_vooo, [a; i; j; k])]; mono 1 1 [(nm 1 n_rdm2_f_bbbb_vooo, [a; i; j; k])]; mono 1 1 [(nm 1 n_rdm2_f_abab_vooo, [a; i; j; k])]; mono 1 1 [(nm 1 n_rdm2_f_abab_ovoo, [i; a; k; j])]]));
  (n_rdm2_f_oovv, ([i; j; a; b], [mono 1 1 [(nm 1 n_rdm2_f_aaaa_oovv, [i; j; a; b])]; mono 1 1 [(nm 1 n_rdm2_f_bbbb_oovv, [i; j; a; b])]; mono 1 1 [(nm 1 n_rdm2_f_abab_oovv, [i; j; a; b])]; mono 1 1 [(nm 1 n_rdm2_f_abab_oovv, [j; i; b; a])]]));
  (n_rdm2_f_ovov, ([i; a; j; b], [mono 1 1 [(nm 1 n_rdm2_f_aaaa_ovov, [i; a; j; b])]; mono 1 1 [(nm 1 n_rdm2_f_bbbb_ovov, [i; a; j; b])]; mono 1 1 [(nm 1 n_rdm2_f_abab_ovov, [i; a; j; b])]; mono 1 1 [(nm 1 n_rdm2_f_abab_vovo, [a; i; b; j])]]));
  (n_rdm2_f_ovvo, ([i; a; b; j], [mono 1 1 [(nm 1 n_rdm2_f_aaaa_ovvo, [i; a; b; j])]; mono 1 1 [(nm 1 n_rdm2_f_bbbb_ovvo, [i; a; b; j])]; mono 1 1 [(nm 1 n_rdm2_f_abab_ovvo, [i; a; b; j])]; mono 1 1 [(nm 1 n_rdm2_f_abab_voov, [a; i; j; b])]]));
  (n_rdm2_f_voov, ([a; i; j; b], [mono 1 1 [(nm 1 n_rdm2_f_aaaa_voov, [a; i; j; b])]; mono 1 1 [(nm 1 n_rdm2_f_bbbb_voov, [a; i; j; b])]; mono 1 1 [(nm 1 n_rdm2_f_abab_voov, [a; i; j; b])]; mono 1 1 [(nm 1 n_rdm2_f_abab_ovvo, [i; a; b; j])]]));
  (n_rdm2_f_vovo, ([a; i; b; j], [mono 1 1 [(nm 1 n_rdm2_f_aaaa_vovo, [a; i; b; j])]; mono 1 1 [(nm 1 n_rdm2_f_bbbb_vovo, [a; i; b; j])]; mono 1 1 [(nm 1 n_rdm2_f_abab_vovo, [a; i; b; j])]; mono 1 1 [(nm 1 n_rdm2_f_abab_ovov, [i; a; j; b])]]));
  (n_rdm2_f_vvoo, ([a; b; i; j], [mono 1 1 [(nm 1 n_rdm2_f_aaaa_vvoo, [a; b; i; j])]; mono 1 1 [(nm 1 n_rdm2_f_bbbb_vvoo, [a; b; i; j])]; mono 1 1 [(nm 1 n_rdm2_f_abab_vvoo, [a; b; i; j])]; mono 1 1 [(nm 1 n_rdm2_f_abab_vvoo, [b; a; j; i])]]));
  (n_rdm2_f_ovvv, ([i; a; b; c], [mono 1 1 [(nm 1 n_rdm2_f_aaaa_ovvv, [i; a; b; c])]; mono 1 1 [(nm 1 n_rdm2_f_bbbb_ovvv, [i; a; b; c])]; mono 1 1 [(nm 1 n_rdm2_f_abab_ovvv, [i; a; b; c])]; mono 1 1 [(nm 1 n_rdm2_f_abab_vovv, [a; i; c; b])]]));
  (n_rdm2_f_vovv, ([a; i; b; c], [mono 1 1 [(nm 1 n_rdm2_f_aaaa_vovv, [a; i; b; c])]; mono 1 1 [(nm 1 n_rdm2_f_bbbb_vovv, [a; i; b; c])]; mono 1 1 [(nm 1 n_rdm2_f_abab_vovv, [a; i; b; c])]; mono 1 1 [(nm 1 n_rdm2_f_abab_ovvv, [i; a; c; b])]]));
  (n_rdm2_f_vvov, ([a; b; i; c], [mono 1 1 [(nm 1 n_rdm2_f_aaaa_vvov, [a; b; i; c])]; mono 1 1 [(nm 1 n_rdm2_f_bbbb_vvov, [a; b; i; c])]; mono 1 1 [(nm 1 n_rdm2_f_abab_vvov, [a; b; i; c])]; mono 1 1 [(nm 1 n_rdm2_f_abab_vvvo, [b; a; c; i])]]));
  (n_rdm2_f_vvvo, ([a; b; c; i], [mono 1 1 [(nm 1 n_rdm2_f_aaaa_vvvo, [a; b; c; i])]; mono 1 1 [(nm 1 n_rdm2_f_bbbb_vvvo, [a; b; c; i])]; mono 1 1 [(nm 1 n_rdm2_f_abab_vvvo, [a; b; c; i])]; mono 1 1 [(nm 1 n_rdm2_f_abab_vvov, [b; a; i; c])]]));
  (n_rdm2_f_vvvv, ([a; b; c; d], [mono 1 1 [(nm 1 n_rdm2_f_aaaa_vvvv, [a; b; c; d])]; mono 1 1 [(nm 1 n_rdm2_f_bbbb_vvvv, [a; b; c; d])]; mono 1 1 [(nm 1 n_rdm2_f_abab_vvvv, [a; b; c; d])]; mono 1 1 [(nm 1 n_rdm2_f_abab_vvvv, [b; a; d; c])]]))].

(** The same with bosons. *)
Definition spin_summed_densities_b : table :=
 [(n_rdm1_f_oo, ([i; j], [mono 1 1 [(nm 1 n_rdm1_f_oo_aa, [i; j])]; mono 1 1 [(nm 1 n_rdm1_f_oo_bb, [i; j])]]));
  (n_rdm1_f_ov, ([i; a], [mono 1 1 [(nm 1 n_rdm1_f_ov_aa, [i; a])]; mono 1 1 [(nm 1 n_rdm1_f_ov_bb, [i; a])]]));
  (n_rdm1_f_vo, ([a; i], [mono 1 1 [(nm 1 n_rdm1_f_vo_aa, [a; i])]; mono 1 1 [(nm 1 n_rdm1_f_vo_bb, [a; i])]]));
  (n_rdm1_f_vv, ([a; b], [mono 1 1 [(nm 1 n_rdm1_f_vv_aa, [a; b])]; mono 1 1 [(nm 1 n_rdm1_f_vv_bb, [a; b])]]));
  (n_rdm2_f_oooo, ([i; k; j; l], [mono 1 1 [(nm 1 n_rdm2_f_oooo_aaaa, [i; k; j; l])]; mono 1 1 [(nm 1 n_rdm2_f_oooo_bbbb, [i; k; j; l])]; mono 1 1 [(nm 1 n_rdm2_f_oooo_aabb, [i; k; j; l])]; mono 1 1 [(nm 1 n_rdm2_f_oooo_aabb, [j; l; i; k])]]));
  (n_rdm2_f_ooov, ([i; k; j; a], [mono 1 1 [(nm 1 n_rdm2_f_ooov_aaaa, [i; k; j; a])]; mono 1 1 [(nm 1 n_rdm2_f_ooov_bbbb, [i; k; j; a])]; mono 1 1 [(nm 1 n_rdm2_f_ooov_aabb, [i; k; j; a])]; mono 1 1 [(nm 1 n_rdm2_f_ovoo_aabb, [j; a; i; k])]]));
  (n_rdm2_f_ovoo, ([i; a; j; k], [mono 1 1 [(nm 1 n_rdm2_f_ovoo_aaaa, [i; a; j; k])]; mono 1 1 [(nm 1 n_rdm2_f_ovoo_bbbb, [i; a; j; k])]; mono 1 1 [(nm 1 n_rdm2_f_ovoo_aabb, [i; a; j; k])]; mono 1 1 [(nm 1 n_rdm2_f_ooov_aabb, [j; k; i; a])]]));
  (n_rdm2_f_oovo, ([i; j; a; k], [mono 1 1 [(nm 1 n_rdm2_f_oovo_aaaa, [i; j; a; k])]; mono 1 1 [(nm 1 n_rdm2_f_oovo_bbbb, [i; j; a; k])]; mono 1 1 [(nm 1 n_rdm2_f_oovo_aabb, [i; j; a; k])]; mono 1 1 [(nm 1 n_rdm2_f_vooo_aabb, [a; k; i; j])]]));
  (n_rdm2_f_vooo, ([a; j; i; k], [mono 1 1 [(nm 1 n_rdm2_f_vooo_aaaa, [a; j; i; k])]; mono 1 1 [(nm 1 n_rdm2_f_vooo_bbbb, [a; j; i; k])]; mono 1 1 [(nm 1 n_rdm2_f_vooo_aabb, [a; j; i; k])]; mono 1 1 [(nm 1 n_rdm2_f_oovo_aabb, [i; k; a; j])]]));
  (n_rdm2_f_ovov, ([i; a; j; b], [mono 1 1 [(nm 1 n_rdm2_f_ovov_aaaa, [i; a; j; b])]; mono 1 1 [(nm 1 n_rdm2_f_ovov_bbbb, [i; a; j; b])]; mono 1 1 [(nm 1 n_rdm2_f_ovov_aabb, [i; a; j; b])]; mono 1 1 [(nm 1 n_rdm2_f_ovov_aabb, [j; b; i; a])]]));
  (n_rdm2_f_oovv, ([i; j; a; b], [mono 1 1 [(nm 1 n_rdm2_f_oovv_aaaa, [i; j; a; b])]; mono 1 1 [(nm 1 n_rdm2_f_oovv_bbbb, [i; j; a; b])]; mono 1 1 [(nm 1 n_rdm2_f_oovv_aabb, [i; j; a; b])]; mono 1 1 [(nm 1 n_rdm2_f_vvoo_aabb, [a; b; i; j])]]));
  (n_rdm2_f_ovvo, ([i; b; a; j], [mono 1 1 [(nm 1 n_rdm2_f_ovvo_aaaa, [i; b; a; j])]; mono 1 1 [(nm 1 n_rdm2_f_ovvo_bbbb, [i; b; a; j])]; mono 1 1 [(nm 1 n_rdm2_f_ovvo_aabb, [i; b; a; j])]; mono 1 1 [(nm 1 n_rdm2_f_voov_aabb, [a; j; i; b])]]));
  (n_rdm2_f_voov, ([a; j; i; b], [mono 1 1 [(nm 1 n_rdm2_f_voov_aaaa, [a; j; i; b])]; mono 1 1 [(nm 1 n_rdm2_f_voov_bbbb, [a; j; i; b])]; mono 1 1 [(nm 1 n_rdm2_f_voov_aabb, [a; j; i; b])]; mono 1 1 [(nm 1 n_rdm2_f_ovvo_aabb, [i; b; a; j])]]));
  (n_rdm2_f_vvoo, ([a; b; i; j], [mono 1 1 [(nm 1 n_rdm2_f_vvoo_aaaa, [a; b; i; j])]; mono 1 1 [(nm 1 n_rdm2_f_vvoo_bbbb, [a; b; i; j])]; mono 1 1 [(nm 1 n_rdm2_f_vvoo_aabb, [a; b; i; j])]; mono 1 1 [(nm 1 n_rdm2_f_oovv_aabb, [i; j; a; b])]]));
  (n_rdm2_f_vovo, ([a; i; b; j], [mono 1 1 [(nm 1 n_rdm2_f_vovo_aaaa, [a; i; b; j])]; mono 1 1 [(nm 1 n_rdm2_f_vovo_bbbb, [a; i; b; j])]; mono 1 1 [(nm 1 n_rdm2_f_vovo_aabb, [a; i; b; j])]; mono 1 1 [(nm 1 n_rdm2_f_vovo_aabb, [b; j; a; i])]]));
  (n_rdm2_f_ovvv, ([i; b; a; c], [mono 1 1 [(nm 1 n_rdm2_f_ovvv_aaaa, [i; b; a; c])]; mono 1 1 [(nm 1 n_rdm2_f_ovvv_bbbb, [i; b; a; c])]; mono 1 1 [(nm 1 n_rdm2_f_ovvv_aabb, [i; b; a; c])]; mono 1 1 [(nm 1 n_rdm2_f_vvov_aabb, [a; c; i; b])]]));
  (n_rdm2_f_vvov, ([a; b; i; c], [mono 1 1 [(nm 1 n_rdm2_f_vvov_aaaa, [a; b; i; c])]; mono 1 1 [(nm 1 n_rdm2_f_vvov_bbbb, [a; b; i; c])]; mono 1 1 [(nm 1 n_rdm2_f_vvov_aabb, [a; b; i; c])]; mono 1 1 [(nm 1 n_rdm2_f_ovvv_aabb, [i; c; a; b])]]));
  (n_rdm2_f_vovv, ([a; i; b; c], [mono 1 1 [(nm 1 n_rdm2_f_vovv_aaaa, [a; i; b; c])]; mono 1 1 [(nm 1 n_rdm2_f_vovv_bbbb, [a; i; b; c])]; mono 1 1 [(nm 1 n_rdm2_f_vovv_aabb, [a; i; b; c])]; mono 1 1 [(nm 1 n_rdm2_f_vvvo_aabb, [b; c; a; i])]]));
  (n_rdm2_f_vvvo, ([a; c; b; i], [mono 1 1 [(nm 1 n_rdm2_f_vvvo_aaaa, [a; c; b; i])]; mono 1 1 [(nm 1 n_rdm2_f_vvvo_bbbb, [a; c; b; i])]; mono 1 1 [(nm 1 n_rdm2_f_vvvo_aabb, [a; c; b; i])]; mono 1 1 [(nm 1 n_rdm2_f_vovv_aabb, [b; i; a; c])]]));
  (n_rdm2_f_vvvv, ([a; c; b; d], [mono 1 1 [(nm 1 n_rdm2_f_vvvv_aaaa, [a; c; b; d])]; mono 1 1 [(nm 1 n_rdm2_f_vvvv_bbbb, [a; c; b; d])]; mono 1 1 [(nm 1 n_rdm2_f_vvvv_aabb, [a; c; b; d])]; mono 1 1 [(nm 1 n_rdm2_f_vvvv_aabb, [b; d; a; c])]]));
  (n_rdm1_b, ([x; y], [mono 1 1 [(nm 1 n_rdm1_b, [x; y])]]));
  (n_dm_b_cre, ([x], [mono 1 1 [(nm 1 n_dm_b_cre, [x])]]));
  (n_dm_b_des, ([x], [mono 1 1 [(nm 1 n_dm_b_des, [x])]]));
  (n_rdm_eb_cre_oo, ([x; i; j], [mono 1 1 [(nm 1 n_rdm_eb_cre_oo_aa, [x; i; j])]; mono 1 1 [(nm 1 n_rdm_eb_cre_oo_bb, [x; i; j])]]));
  (n_rdm_eb_cre_ov, ([x; i; a], [mono 1 1 [(nm 1 n_rdm_eb_cre_ov_aa, [x; i; a])]; mono 1 1 [(nm 1 n_rdm_eb_cre_ov_bb, [x; i; a])]]));
  (n_rdm_eb_cre_vo, ([x; a; i], [mono 1 1 [(nm 1 n_rdm_eb_cre_vo_aa, [x; a; i])]; mono 1 1 [(nm 1 n_rdm_eb_cre_vo_bb, [x; a; i])]]));
  (n_rdm_eb_cre_vv, ([x; a; b], [mono 1 1 [(nm 1 n_rdm_eb_cre_vv_aa, [x; a; b])]; mono 1 1 [(nm 1 n_rdm_eb_cre_vv_bb, [x; a; b])]]));
  (n_rdm_eb_des_oo, ([x; i; j], [mono 1 1 [(nm 1 n_rdm_eb_des_oo_aa, [x; i; j])]; mono 1 1 [(nm 1 n_rdm_eb_des_oo_bb, [x; i; j])]]));
  (n_rdm_eb_des_ov, ([x; i; a], [mono 1 1 [(nm 1 n_rdm_eb_des_ov_aa, [x; i; a])]; mono 1 1 [(nm 1 n_rdm_eb_des_ov_bb, [x; i; a])]]));
  (n_rdm_eb_des_vo, ([x; a; i], [mono 1 1 [(nm 1 n_rdm_eb_des_vo_aa, [x; a; i])]; mono 1 1 [(nm 1 n_rdm_eb_des_vo_bb, [x; a; i])]]));
  (n_rdm_eb_des_vv, ([x; a; b], [mono 1 1 [(nm 1 n_rdm_eb_des_vv_aa, [x; a; b])]; mono 1 1 [(nm 1 n_rdm_eb_des_vv_bb, [x; a; b])]]))].

(** Exchange of the creation operators changes the sign. *)
Definition creators_exchanged : table :=
 [(n_rdm2'oooo, ([i; j; k; l], [mono (-1) 1 [(n_rdm2'oooo, [j; i; k; l])]]));
  (n_rdm2'ooov, ([i; j; k; a], [mono (-1) 1 [(n_rdm2'ooov, [j; i; k; a])]]));
  (n_rdm2'oovo, ([i; j; a; k], [mono (-1) 1 [(n_rdm2'oovo, [j; i; a; k])]]));
  (n_rdm2'ovoo, ([i; a; j; k], [mono (-1) 1 [(n_rdm2'vooo, [a; i; j; k])]]));
  (n_rdm2'vooo, ([a; i; j; k], [mono (-1) 1 [(n_rdm2'ovoo, [i; a; j; k])]]));
  (n_rdm2'oovv, ([i; j; a; b], [mono (-1) 1 [(n_rdm2'oovv, [j; i; a; b])]]));
  (n_rdm2'ovov, ([i; a; j; b], [mono (-1) 1 [(n_rdm2'voov, [a; i; j; b])]]));
  (n_rdm2'ovvo, ([i; a; b; j], [mono (-1) 1 [(n_rdm2'vovo, [a; i; b; j])]]));
  (n_rdm2'voov, ([a; i; j; b], [mono (-1) 1 [(n_rdm2'ovov, [i; a; j; b])]]));
  (n_rdm2'vovo, ([a; i; b; j], [mono (-1) 1 [(n_rdm2'ovvo, [i; a; b; j])]]));
  (n_rdm2'vvoo, ([a; b; i; j], [mono (-1) 1 [(n_rdm2'vvoo, [b; a; i; j])]]));
  (n_rdm2'ovvv, ([i; a; b; c], [mono (-1) 1 [(n_rdm2'vovv, [a; i; b; c])]]));
  (n_rdm2'vovv, ([a; i; b; c], [mono (-1) 1 [(n_rdm2'ovvv, [i; a; b; c])]]));
  (n_rdm2'vvov, ([a; b; i; c], [mono (-1) 1 [(n_rdm2'vvov, [b; a; i; c])]]));
  (n_rdm2'vvvo, ([a; b; c; i], [mono (-1) 1 [(n_rdm2'vvvo, [b; a; c; i])]]));
  (n_rdm2'vvvv, ([a; b; c; d], [mono (-1) 1 [(n_rdm2'vvvv, [b; a; c; d])]]));
  (n_rdm2_f_oooo, ([i; j; k; l], [mono (-1) 1 [(n_rdm2_f_oooo, [j; i; k; l])]]));
  (n_rdm2_f_ooov, ([i; j; k; a], [mono (-1) 1 [(n_rdm2_f_ooov, [j; i; k; a])]]));
  (n_rdm2_f_oovo, ([i; j; a; k], [mono (-1) 1 [(n_rdm2_f_oovo, [j; i; a; k])]]));
  (n_rdm2_f_ovoo, ([i; a; j; k], [mono (-1) 1 [(n_rdm2_f_vooo, [a; i; j; k])]]));
  (n_rdm2_f_vooo, ([a; i; j; k], [mono (-1) 1 [(n_rdm2_f_ovoo, [i; a; j; k])]]));
  (n_rdm2_f_oovv, ([i; j; a; b], [mono (-1) 1 [(n_rdm2_f_oovv, [j; i; a; b])]]));
  (n_rdm2_f_ovov, ([i; a; j; b], [mono (-1) 1 [(n_rdm2_f_voov, [a; i; j; b])]]));
  (n_rdm2_f_ovvo, ([i; a; b; j], [mono (-1) 1 [(n_rdm2_f_vovo, [a; i; b; j])]]));
  (n_rdm2_f_voov, ([a; i; j; b], [mono (-1) 1 [(n_rdm2_f_ovov, [i; a; j; b])]]));
  (n_rdm2_f_vovo, ([a; i; b; j], [mono (-1) 1 [(n_rdm2_f_ovvo, [i; a; b; j])]]));
  (n_rdm2_f_vvoo, ([a; b; i; j], [mono (-1) 1 [(n_rdm2_f_vvoo, [b; a; i; j])]]));
  (n_rdm2_f_ovvv, ([i; a; b; c], [mono (-1) 1 [(n_rdm2_f_vovv, [a; i; b; c])]]));
  (n_rdm2_f_vovv, ([a; i; b; c], [mono (-1) 1 [(n_rdm2_f_ovvv, [i; a; b; c])]]));
  (n_rdm2_f_vvov, ([a; b; i; c], [mono (-1) 1 [(n_rdm2_f_vvov, [b; a; i; c])]]));
  (n_rdm2_f_vvvo, ([a; b; c; i], [mono (-1) 1 [(n_rdm2_f_vvvo, [b; a; c; i])]]));
  (n_rdm2_f_vvvv, ([a; b; c; d], [mono (-1) 1 [(n_rdm2_f_vvvv, [b; a; c; d])]]))].

(** The same for equal spins. *)
Definition unrestricted_creators_exchanged : table :=
 [(n_rdm2'aaaa'oooo, ([iA; jA; kA; lA], [mono (-1) 1 [(n_rdm2'aaaa'oooo, [jA; iA; kA; lA])]]));
  (n_rdm2'aaaa'ooov, ([iA; jA; kA; aA], [mono (-1) 1 [(n_rdm2'aaaa'ooov, [jA; iA; kA; aA])]]));
  (n_rdm2'aaaa'oovo, ([iA; jA; aA; kA], [mono (-1) 1 [(n_rdm2'aaaa'oovo, [jA; iA; aA; kA])]]));
  (n_rdm2'aaaa'ovoo, ([iA; aA; jA; kA], [mono (-1) 1 [(n_rdm2'aaaa'vooo, [aA; iA; jA; kA])]]));
  (n_rdm2'aaaa'vooo, ([aA; iA; jA; kA], [mono (-1) 1 [(n_rdm2'aaaa'ovoo, [iA; aA; jA; kA])]]));
  (n_rdm2'aaaa'oovv, ([iA; jA; aA; bA], [mono (-1) 1 [(n_rdm2'aaaa'oovv, [jA; iA; aA; bA])]]));
  (n_rdm2'aaaa'ovov, ([iA; aA; jA; bA], [mono (-1) 1 [(n_rdm2'aaaa'voov, [aA; iA; jA; bA])]]));
  (n_rdm2'aaaa'ovvo, ([iA; aA; bA; jA], [mono (-1) 1 [(n_rdm2'aaaa'vovo, [aA; iA; bA; jA])]]));
  (n_rdm2'aaaa'voov, ([aA; iA; jA; bA], [mono (-1) 1 [(n_rdm2'aaaa'ovov, [iA; aA; jA; bA])]]));
  (n_rdm2'aaaa'vovo, ([aA; iA; bA; jA], [mono (-1) 1 [(n_rdm2'aaaa'ovvo, [iA; aA; bA; jA])]]));
  (n_rdm2'aaaa'vvoo, ([aA; bA; iA; jA], [mono (-1) 1 [(n_rdm2'aaaa'vvoo, [bA; aA; iA; jA])]]));
  (n_rdm2'aaaa'ovvv, ([iA; aA; bA; cA], [mono (-1) 1 [(n_rdm2'aaaa'vovv, [aA; iA; bA; cA])]]));
  (n_rdm2'aaaa'vovv, ([aA; iA; bA; cA], [mono (-1) 1 [(n_rdm2'aaaa'ovvv, [iA; aA; bA; cA])]]));
  (n_rdm2'aaaa'vvov, ([aA; bA; iA; cA], [mono (-1) 1 [(n_rdm2'aaaa'vvov, [bA; aA; iA; cA])]]));
  (n_rdm2'aaaa'vvvo, ([aA; bA; cA; iA], [mono (-1) 1 [(n_rdm2'aaaa'vvvo, [bA; aA; cA; iA])]]));
  (n_rdm2'aaaa'vvvv, ([aA; bA; cA; dA], [mono (-1) 1 [(n_rdm2'aaaa'vvvv, [bA; aA; cA; dA])]]));
  (n_rdm2'bbbb'oooo, ([iB; jB; kB; lB], [mono (-1) 1 [(n_rdm2'bbbb'oooo, [jB; iB; kB; lB])]]));
  (n_rdm2'bbbb'ooov, ([iB; jB; kB; aB], [mono (-1) 1 [(n_rdm2'bbbb'ooov, [jB; iB; kB; aB])]]));
  (n_rdm2'bbbb'oovo, ([iB; jB; aB; kB], [mono (-1) 1 [(n_rdm2'bbbb'oovo, [jB; iB; aB; kB])]]));
  (n_rdm2'bbbb'ovoo, ([iB; aB; jB; kB], [mono (-1) 1 [(n_rdm2'bbbb'vooo, [aB; iB; jB; kB])]]));
  (n_rdm2'bbbb'vooo, ([aB; iB; jB; kB], [mono (-1) 1 [(n_rdm2'bbbb'ovoo, [iB; aB; jB; kB])]]));
  (n_rdm2'bbbb'oovv, ([iB; jB; aB; bB], [mono (-1) 1 [(n_rdm2'bbbb'oovv, [jB; iB; aB; bB])]]));
  (n_rdm2'bbbb'ovov, ([iB; aB; jB; bB], [mono (-1) 1 [(n_rdm2'bbbb'voov, [aB; iB; jB; bB])]]));
  (n_rdm2'bbbb'ovvo, ([iB; aB; bB; jB], [mono (-1) 1 [(n_rdm2'bbbb'vovo, [aB; iB; bB; jB])]]));
  (n_rdm2'bbbb'voov, ([aB; iB; jB; bB], [mono (-1) 1 [(n_rdm2'bbbb'ovov, [iB; aB; jB; bB])]]));
  (n_rdm2'bbbb'vovo, ([aB; iB; bB; jB], [mono (-1) 1 [(n_rdm2'bbbb'ovvo, [iB; aB; bB; jB])]]));
  (n_rdm2'bbbb'vvoo, ([aB; bB; iB; jB], [mono (-1) 1 [(n_rdm2'bbbb'vvoo, [bB; aB; iB; jB])]]));
  (n_rdm2'bbbb'ovvv, ([iB; aB; bB; cB], [mono (-1) 1 [(n_rdm2'bbbb'vovv, [aB; iB; bB; cB])]]));
  (n_rdm2'bbbb'vovv, ([aB; iB; bB; cB], [mono (-1) 1 [(n_rdm2'bbbb'ovvv, [iB; aB; bB; cB])]]));
  (n_rdm2'bbbb'vvov, ([aB; bB; iB; cB], [mono (-1) 1 [(n_rdm2'bbbb'vvov, [bB; aB; iB; cB])]]));
  (n_rdm2'bbbb'vvvo, ([aB; bB; cB; iB], [mono (-1) 1 [(n_rdm2'bbbb'vvvo, [bB; aB; cB; iB])]]));
  (n_rdm2'bbbb'vvvv, ([aB; bB; cB; dB], [mono (-1) 1 [(n_rdm2'bbbb'vvvv, [bB; aB; cB; dB])]]));
  (n_rdm2'abab'oooo, ([iA; iB; jA; jB], [mono 1 1 [(n_rdm2'abab'oooo, [iA; iB; jA; jB])]]));
  (n_rdm2'abab'ooov, ([iA; iB; jA; aB], [mono 1 1 [(n_rdm2'abab'ooov, [iA; iB; jA; aB])]]));
  (n_rdm2'abab'oovo, ([iA; iB; aA; jB], [mono 1 1 [(n_rdm2'abab'oovo, [iA; iB; aA; jB])]]));
  (n_rdm2'abab'ovoo, ([iA; aB; jA; iB], [mono 1 1 [(n_rdm2'abab'ovoo, [iA; aB; jA; iB])]]));
  (n_rdm2'abab'vooo, ([aA; iB; iA; jB], [mono 1 1 [(n_rdm2'abab'vooo, [aA; iB; iA; jB])]]));
  (n_rdm2'abab'oovv, ([iA; iB; aA; aB], [mono 1 1 [(n_rdm2'abab'oovv, [iA; iB; aA; aB])]]));
  (n_rdm2'abab'ovov, ([iA; aB; jA; bB], [mono 1 1 [(n_rdm2'abab'ovov, [iA; aB; jA; bB])]]));
  (n_rdm2'abab'ovvo, ([iA; aB; aA; iB], [mono 1 1 [(n_rdm2'abab'ovvo, [iA; aB; aA; iB])]]));
  (n_rdm2'abab'voov, ([aA; iB; iA; aB], [mono 1 1 [(n_rdm2'abab'voov, [aA; iB; iA; aB])]]));
  (n_rdm2'abab'vovo, ([aA; iB; bA; jB], [mono 1 1 [(n_rdm2'abab'vovo, [aA; iB; bA; jB])]]));
  (n_rdm2'abab'vvoo, ([aA; aB; iA; iB], [mono 1 1 [(n_rdm2'abab'vvoo, [aA; aB; iA; iB])]]));
  (n_rdm2'abab'ovvv, ([iA; aB; aA; bB], [mono 1 1 [(n_rdm2'abab'ovvv, [iA; aB; aA; bB])]]));
  (n_rdm2'abab'vovv, ([aA; iB; bA; aB], [mono 1 1 [(n_rdm2'abab'vovv, [aA; iB; bA; aB])]]));
  (n_rdm2'abab'vvov, ([aA; aB; iA; bB], [mono 1 1 [(n_rdm2'abab'vvov, [aA; aB; iA; bB])]]));
  (n_rdm2'abab'vvvo, ([aA; aB; bA; iB], [mono 1 1 [(n_rdm2'abab'vvvo, [aA; aB; bA; iB])]]));
  (n_rdm2'abab'vvvv, ([aA; aB; bA; bB], [mono 1 1 [(n_rdm2'abab'vvvv, [aA; aB; bA; bB])]]))].

(** Exchange of the annihilation operators changes the sign. *)
Definition annihilators_exchanged : table :=
 [(n_rdm2'oooo, ([i; j; k; l], [mono (-1) 1 [(n_rdm2'oooo, [i; j; l; k])]]));
  (n_rdm2'ooov, ([i; j; k; a], [mono (-1) 1 [(n_rdm2'oovo, [i; j; a; k])]]));
  (n_rdm2'oovo, ([i; j; a; k], [mono (-1) 1 [(n_rdm2'ooov, [i; j; k; a])]]));
  (n_rdm2'ovoo, ([i; a; j; k], [mono (-1) 1 [(n_rdm2'ovoo, [i; a; k; j])]]));
  (n_rdm2'vooo, ([a; i; j; k], [mono (-1) 1 [(n_rdm2'vooo, [a; i; k; j])]]));
  (n_rdm2'oovv, ([i; j; a; b], [mono (-1) 1 [(n_rdm2'oovv, [i; j; b; a])]]));
  (n_rdm2'ovov, ([i; a; j; b], [mono (-1) 1 [(n_rdm2'ovvo, [i; a; b; j])]]));
  (n_rdm2'ovvo, ([i; a; b; j], [mono (-1) 1 [(n_rdm2'ovov, [i; a; j; b])]]));
  (n_rdm2'voov, ([a; i; j; b], [mono (-1) 1 [(n_rdm2'vovo, [a; i; b; j])]]));
  (n_rdm2'vovo, ([a; i; b; j], [mono (-1) 1 [(n_rdm2'voov, [a; i; j; b])]]));
  (n_rdm2'vvoo, ([a; b; i; j], [mono (-1) 1 [(n_rdm2'vvoo, [a; b; j; i])]]));
  (n_rdm2'ovvv, ([i; a; b; c], [mono (-1) 1 [(n_rdm2'ovvv, [i; a; c; b])]]));
  (n_rdm2'vovv, ([a; i; b; c], [mono (-1) 1 [(n_rdm2'vovv, [a; i; c; b])]]));
  (n_rdm2'vvov, ([a; b; i; c], [mono (-1) 1 [(n_rdm2'vvvo, [a; b; c; i])]]));
  (n_rdm2'vvvo, ([a; b; c; i], [mono (-1) 1 [(n_rdm2'vvov, [a; b; i; c])]]));
  (n_rdm2'vvvv, ([a; b; c; d], [mono (-1) 1 [(n_rdm2'vvvv, [a; b; d; c])]]));
  (n_rdm2_f_oooo, ([i; j; k; l], [mono (-1) 1 [(n_rdm2_f_oooo, [i; j; l; k])]]));
  (n_rdm2_f_ooov, ([i; j; k; a], [mono (-1) 1 [(n_rdm2_f_oovo, [i; j; a; k])]]));
  (n_rdm2_f_oovo, ([i; j; a; k], [mono (-1) 1 [(n_rdm2_f_ooov, [i; j; k; a])]]));
  (n_rdm2_f_ovoo, ([i; a; j; k], [mono (-1) 1 [(n_rdm2_f_ovoo, [i; a; k; j])]]));
  (n_rdm2_f_vooo, ([a; i; j; k], [mono (-1) 1 [(n_rdm2_f_vooo, [a; i; k; j])]]));
  (n_rdm2_f_oovv, ([i; j; a; b], [mono (-1) 1 [(n_rdm2_f_oovv, [i; j; b; a])]]));
  (n_rdm2_f_ovov, ([i; a; j; b], [mono (-1) 1 [(n_rdm2_f_ovvo, [i; a; b; j])]]));
  (n_rdm2_f_ovvo, ([i; a; b; j], [mono (-1) 1 [(n_rdm2_f_ovov, [i; a; j; b])]]));
  (n_rdm2_f_voov, ([a; i; j; b], [mono (-1) 1 [(n_rdm2_f_vovo, [a; i; b; j])]]));
  (n_rdm2_f_vovo, ([a; i; b; j], [mono (-1) 1 [(n_rdm2_f_voov, [a; i; j; b])]]));
  (n_rdm2_f_vvoo, ([a; b; i; j], [mono (-1) 1 [(n_rdm2_f_vvoo, [a; b; j; i])]]));
  (n_rdm2_f_ovvv, ([i; a; b; c], [mono (-1) 1 [(n_rdm2_f_ovvv, [i; a; c; b])]]));
  (n_rdm2_f_vovv, ([a; i; b; c], [mono (-1) 1 [(n_rdm2_f_vovv, [a; i; c; b])]]));
  (n_rdm2_f_vvov, ([a; b; i; c], [mono (-1) 1 [(n_rdm2_f_vvvo, [a; b; c; i])]]));
  (n_rdm2_f_vvvo, ([a; b; c; i], [mono (-1) 1 [(n_rdm2_f_vvov, [a; b; i; c])]]));
  (n_rdm2_f_vvvv, ([a; b; c; d], [mono (-1) 1 [(n_rdm2_f_vvvv, [a; b; d; c])]]))].

(** The same for equal spins. *)
Definition unrestricted_annihilators_exchanged : table :=
 [(n_rdm2'aaaa'oooo, ([iA; jA; kA; lA], [mono (-1) 1 [(n_rdm2'aaaa'oooo, [iA; jA; lA; kA])]]));
  (n_rdm2'aaaa'ooov, ([iA; jA; kA; aA], [mono (-1) 1 [(n_rdm2'aaaa'oovo, [iA; jA; aA; kA])]]));
  (n_rdm2'aaaa'oovo, ([iA; jA; aA; kA], [mono (-1) 1 [(n_rdm2'aaaa'ooov, [iA; jA; kA; aA])]]));
  (n_rdm2'aaaa'ovoo, ([iA; aA; jA; kA], [mono (-1) 1 [(n_rdm2'aaaa'ovoo, [iA; aA; kA; jA])]]));
  (n_rdm2'aaaa'vooo, ([aA; iA; jA; kA], [mono (-1) 1 [(n_rdm2'aaaa'vooo, [aA; iA; kA; jA])]]));
  (n_rdm2'aaaa'oovv, ([iA; jA; aA; bA], [mono (-1) 1 [(n_rdm2'aaaa'oovv, [iA; jA; bA; aA])]]));
  (n_rdm2'aaaa'ovov, ([iA; aA; jA; bA], [mono (-1) 1 [(n_rdm2'aaaa'ovvo, [iA; aA; bA; jA])]]));
  (n_rdm2'aaaa'ovvo, ([iA; aA; bA; jA], [mono (-1) 1 [(n_rdm2'aaaa'ovov, [iA; aA; jA; bA])]]));
  (n_rdm2'aaaa'voov, ([aA; iA; jA; bA], [mono (-1) 1 [(n_rdm2'aaaa'vovo, [aA; iA; bA; jA])]]));
  (n_rdm2'aaaa'vovo, ([aA; iA; bA; jA], [mono (-1) 1 [(n_rdm2'aaaa'voov, [aA; iA; jA; bA])]]));
  (n_rdm2'aaaa'vvoo, ([aA; bA; iA; jA], [mono (-1) 1 [(n_rdm2'aaaa'vvoo, [aA; bA; jA; iA])]]));
  (n_rdm2'aaaa'ovvv, ([iA; aA; bA; cA], [mono (-1) 1 [(n_rdm2'aaaa'ovvv, [iA; aA; cA; bA])]]));
  (n_rdm2'aaaa'vovv, ([aA; iA; bA; cA], [mono (-1) 1 [(n_rdm2'aaaa'vovv, [aA; iA; cA; bA])]]));
  (n_rdm2'aaaa'vvov, ([aA; bA; iA; cA], [mono (-1) 1 [(n_rdm2'aaaa'vvvo, [aA; bA; cA; iA])]]));
  (n_rdm2'aaaa'vvvo, ([aA; bA; cA; iA], [mono (-1) 1 [(n_rdm2'aaaa'vvov, [aA; bA; iA; cA])]]));
  (n_rdm2'aaaa'vvvv, ([aA; bA; cA; dA], [mono (-1) 1 [(n_rdm2'aaaa'vvvv, [aA; bA; dA; cA])]]));
  (n_rdm2'bbbb'oooo, ([iB; jB; kB; lB], [mono (-1) 1 [(n_rdm2'bbbb'oooo, [iB; jB; lB; kB])]]));
  (n_rdm2'bbbb'ooov, ([iB; jB; kB; aB], [mono (-1) 1 [(n_rdm2'bbbb'oovo, [iB; jB; aB; kB])]]));
  (n_rdm2'bbbb'oovo, ([iB; jB; aB; kB], [mono (-1) 1 [(n_rdm2'bbbb'ooov, [iB; jB; kB; aB])]]));
  (n_rdm2'bbbb'ovoo, ([iB; aB; jB; kB], [mono (-1) 1 [(n_rdm2'bbbb'ovoo, [iB; aB; kB; jB])]]));
  (n_rdm2'bbbb'vooo, ([aB; iB; jB; kB], [mono (-1) 1 [(n_rdm2'bbbb'vooo, [aB; iB; kB; jB])]]));
  (n_rdm2'bbbb'oovv, ([iB; jB; aB; bB], [mono (-1) 1 [(n_rdm2'bbbb'oovv, [iB; jB; bB; aB])]]));
  (n_rdm2'bbbb'ovov, ([iB; aB; jB; bB], [mono (-1) 1 [(n_rdm2'bbbb'ovvo, [iB; aB; bB; jB])]]));
  (n_rdm2'bbbb'ovvo, ([iB; aB; bB; jB], [mono (-1) 1 [(n_rdm2'bbbb'ovov, [iB; aB; jB; bB])]]));
  (n_rdm2'bbbb'voov, ([aB; iB; jB; bB], [mono (-1) 1 [(n_rdm2'bbbb'vovo, [aB; iB; bB; jB])]]));
  (n_rdm2'bbbb'vovo, ([aB; iB; bB; jB], [mono (-1) 1 [(n_rdm2'bbbb'voov, [aB; iB; jB; bB])]]));
  (n_rdm2'bbbb'vvoo, ([aB; bB; iB; jB], [mono (-1) 1 [(n_rdm2'bbbb'vvoo, [aB; bB; jB; iB])]]));
  (n_rdm2'bbbb'ovvv, ([iB; aB; bB; cB], [mono (-1) 1 [(n_rdm2'bbbb'ovvv, [iB; aB; cB; bB])]]));
  (n_rdm2'bbbb'vovv, ([aB; iB; bB; cB], [mono (-1) 1 [(n_rdm2'bbbb'vovv, [aB; iB; cB; bB])]]));
  (n_rdm2'bbbb'vvov, ([aB; bB; iB; cB], [mono (-1) 1 [(n_rdm2'bbbb'vvvo, [aB; bB; cB; iB])]]));
  (n_rdm2'bbbb'vvvo, ([aB; bB; cB; iB], [mono (-1) 1 [(n_rdm2'bbbb'vvov, [aB; bB; iB; cB])]]));
  (n_rdm2'bbbb'vvvv, ([aB; bB; cB; dB], [mono (-1) 1 [(n_rdm2'bbbb'vvvv, [aB; bB; dB; cB])]]));
  (n_rdm2'abab'oooo, ([iA; iB; jA; jB], [mono 1 1 [(n_rdm2'abab'oooo, [iA; iB; jA; jB])]]));
  (n_rdm2'abab'ooov, ([iA; iB; jA; aB], [mono 1 1 [(n_rdm2'abab'ooov, [iA; iB; jA; aB])]]));
  (n_rdm2'abab'oovo, ([iA; iB; aA; jB], [mono 1 1 [(n_rdm2'abab'oovo, [iA; iB; aA; jB])]]));
  (n_rdm2'abab'ovoo, ([iA; aB; jA; iB], [mono 1 1 [(n_rdm2'abab'ovoo, [iA; aB; jA; iB])]]));
  (n_rdm2'abab'vooo, ([aA; iB; iA; jB], [mono 1 1 [(n_rdm2'abab'vooo, [aA; iB; iA; jB])]]));
  (n_rdm2'abab'oovv, ([iA; iB; aA; aB], [mono 1 1 [(n_rdm2'abab'oovv, [iA; iB; aA; aB])]]));
  (n_rdm2'abab'ovov, ([iA; aB; jA; bB], [mono 1 1 [(n_rdm2'abab'ovov, [iA; aB; jA; bB])]]));
  (n_rdm2'abab'ovvo, ([iA; aB; aA; iB], [mono 1 1 [(n_rdm2'abab'ovvo, [iA; aB; aA; iB])]]));
  (n_rdm2'abab'voov, ([aA; iB; iA; aB], [mono 1 1 [(n_rdm2'abab'voov, [aA; iB; iA; aB])]]));
  (n_rdm2'abab'vovo, ([aA; iB; bA; jB], [mono 1 1 [(n_rdm2'abab'vovo, [aA; iB; bA; jB])]]));
  (n_rdm2'abab'vvoo, ([aA; aB; iA; iB], [mono 1 1 [(n_rdm2'abab'vvoo, [aA; aB; iA; iB])]]));
  (n_rdm2'abab'ovvv, ([iA; aB; aA; bB], [mono 1 1 [(n_rdm2'abab'ovvv, [iA; aB; aA; bB])]]));
  (n_rdm2'abab'vovv, ([aA; iB; bA; aB], [mono 1 1 [(n_rdm2'abab'vovv, [aA; iB; bA; aB])]]));
  (n_rdm2'abab'vvov, ([aA; aB; iA; bB], [mono 1 1 [(n_rdm2'abab'vvov, [aA; aB; iA; bB])]]));
  (n_rdm2'abab'vvvo, ([aA; aB; bA; iB], [mono 1 1 [(n_rdm2'abab'vvvo, [aA; aB; bA; iB])]]));
  (n_rdm2'abab'vvvv, ([aA; aB; bA; bB], [mono 1 1 [(n_rdm2'abab'vvvv, [aA; aB; bA; bB])]]))].

(** Exchange of both changes nothing. *)
Definition particles_exchanged : table :=
 [(n_rdm2'oooo, ([i; j; k; l], [mono 1 1 [(n_rdm2'oooo, [j; i; l; k])]]));
  (n_rdm2'ooov, ([i; j; k; a], [mono 1 1 [(n_rdm2'oovo, [j; i; a; k])]]));
  (n_rdm2'oovo, ([i; j; a; k], [mono 1 1 [(n_rdm2'ooov, [j; i; k; a])]]));
  (n_rdm2'ovoo, ([i; a; j; k], [mono 1 1 [(n_rdm2'vooo, [a; i; k; j])]]));
  (n_rdm2'vooo, ([a; i; j; k], [mono 1 1 [(n_rdm2'ovoo, [i; a; k; j])]]));
  (n_rdm2'oovv, ([i; j; a; b], [mono 1 1 [(n_rdm2'oovv, [j; i; b; a])]]));
  (n_rdm2'ovov, ([i; a; j; b], [mono 1 1 [(n_rdm2'vovo, [a; i; b; j])]]));
  (n_rdm2'ovvo, ([i; a; b; j], [mono 1 1 [(n_rdm2'voov, [a; i; j; b])]]));
  (n_rdm2'voov, ([a; i; j; b], [mono 1 1 [(n_rdm2'ovvo, [i; a; b; j])]]));
  (n_rdm2'vovo, ([a; i; b; j], [mono 1 1 [(n_rdm2'ovov, [i; a; j; b])]]));
  (n_rdm2'vvoo, ([a; b; i; j], [mono 1 1 [(n_rdm2'vvoo, [b; a; j; i])]]));
  (n_rdm2'ovvv, ([i; a; b; c], [mono 1 1 [(n_rdm2'vovv, [a; i; c; b])]]));
  (n_rdm2'vovv, ([a; i; b; c], [mono 1 1 [(n_rdm2'ovvv, [i; a; c; b])]]));
  (n_rdm2'vvov, ([a; b; i; c], [mono 1 1 [(n_rdm2'vvvo, [b; a; c; i])]]));
  (n_rdm2'vvvo, ([a; b; c; i], [mono 1 1 [(n_rdm2'vvov, [b; a; i; c])]]));
  (n_rdm2'vvvv, ([a; b; c; d], [mono 1 1 [(n_rdm2'vvvv, [b; a; d; c])]]));
  (n_rdm2_f_oooo, ([i; j; k; l], [mono 1 1 [(n_rdm2_f_oooo, [j; i; l; k])]]));
  (n_rdm2_f_ooov, ([i; j; k; a], [mono 1 1 [(n_rdm2_f_oovo, [j; i; a; k])]]));
  (n_rdm2_f_oovo, ([i; j; a; k], [mono 1 1 [(n_rdm2_f_ooov, [j; i; k; a])]]));
  (n_rdm2_f_ovoo, ([i; a; j; k], [mono 1 1 [(n_rdm2_f_vooo, [a; i; k; j])]]));
  (n_rdm2_f_vooo, ([a; i; j; k], [mono 1 1 [(n_rdm2_f_ovoo, [i; a; k; j])]]));
  (n_rdm2_f_oovv, ([i; j; a; b], [mono 1 1 [(n_rdm2_f_oovv, [j; i; b; a])]]));
  (n_rdm2_f_ovov, ([i; a; j; b], [mono 1 1 [(n_rdm2_f_vovo, [a; i; b; j])]]));
  (n_rdm2_f_ovvo, ([i; a; b; j], [mono 1 1 [(n_rdm2_f_voov, [a; i; j; b])]]));
  (n_rdm2_f_voov, ([a; i; j; b], [mono 1 1 [(n_rdm2_f_ovvo, [i; a; b; j])]]));
  (n_rdm2_f_vovo, ([a; i; b; j], [mono 1 1 [(n_rdm2_f_ovov, [i; a; j; b])]]));
  (n_rdm2_f_vvoo, ([a; b; i; j], [mono 1 1 [(n_rdm2_f_vvoo, [b; a; j; i])]]));
  (n_rdm2_f_ovvv, ([i; a; b; c], [mono 1 1 [(n_rdm2_f_vovv, [a; i; c; b])]]));
  (n_rdm2_f_vovv, ([a; i; b; c], [mono 1 1 [(n_rdm2_f_ovvv, [i; a; c; b])]]));
  (n_rdm2_f_vvov, ([a; b; i; c], [mono 1 1 [(n_rdm2_f_vvvo, [b; a; c; i])]]));
  (n_rdm2_f_vvvo, ([a; b; c; i], [mono 1 1 [(n_rdm2_f_vvov, [b; a; i; c])]]));
  (n_rdm2_f_vvvv, ([a; b; c; d], [mono 1 1 [(n_rdm2_f_vvvv, [b; a; d; c])]]))].

(** sum_pq h_pq rdm1_pq, where h_pq = f_pq - sum_l <pl||ql> is the one-electron operator.  [nm 0] are the given tensors, [nm 1] is the result of make_rdm1_f. *)
Definition one_body : formula :=
 [mono 1 1 [(nm 0 n_f'oo, [i; j]); (nm 1 n_rdm1'oo, [i; j])];
  mono (-1) 1 [(nm 0 n_v'oooo, [i; l; j; l]); (nm 1 n_rdm1'oo, [i; j])];
  mono 1 1 [(nm 0 n_f'ov, [i; a]); (nm 1 n_rdm1'ov, [i; a])];
  mono 1 1 [(nm 0 n_v'ooov, [i; l; l; a]); (nm 1 n_rdm1'ov, [i; a])];
  mono 1 1 [(nm 0 n_f'ov, [i; a]); (nm 1 n_rdm1'vo, [a; i])];
  mono 1 1 [(nm 0 n_v'ooov, [i; l; l; a]); (nm 1 n_rdm1'vo, [a; i])];
  mono 1 1 [(nm 0 n_f'vv, [a; b]); (nm 1 n_rdm1'vv, [a; b])];
  mono (-1) 1 [(nm 0 n_v'ovov, [l; a; l; b]); (nm 1 n_rdm1'vv, [a; b])]].

(** 1/4 sum_pqrs <pq||rs> rdm2_pqrs.  [nm 2] is the result of make_rdm2_f. *)
Definition two_body : formula :=
 [mono 1 4 [(nm 0 n_v'oooo, [i; j; k; l]); (nm 2 n_rdm2'oooo, [i; j; k; l])];
  mono 1 4 [(nm 0 n_v'ooov, [i; j; k; a]); (nm 2 n_rdm2'ooov, [i; j; k; a])];
  mono (-1) 4 [(nm 0 n_v'ooov, [i; j; k; a]); (nm 2 n_rdm2'oovo, [i; j; a; k])];
  mono 1 4 [(nm 0 n_v'ooov, [j; k; i; a]); (nm 2 n_rdm2'ovoo, [i; a; j; k])];
  mono (-1) 4 [(nm 0 n_v'ooov, [j; k; i; a]); (nm 2 n_rdm2'vooo, [a; i; j; k])];
  mono 1 4 [(nm 0 n_v'oovv, [i; j; a; b]); (nm 2 n_rdm2'oovv, [i; j; a; b])];
  mono 1 4 [(nm 0 n_v'ovov, [i; a; j; b]); (nm 2 n_rdm2'ovov, [i; a; j; b])];
  mono (-1) 4 [(nm 0 n_v'ovov, [i; a; j; b]); (nm 2 n_rdm2'ovvo, [i; a; b; j])];
  mono (-1) 4 [(nm 0 n_v'ovov, [i; a; j; b]); (nm 2 n_rdm2'voov, [a; i; j; b])];
  mono 1 4 [(nm 0 n_v'ovov, [i; a; j; b]); (nm 2 n_rdm2'vovo, [a; i; b; j])];
  mono 1 4 [(nm 0 n_v'oovv, [i; j; a; b]); (nm 2 n_rdm2'vvoo, [a; b; i; j])];
  mono 1 4 [(nm 0 n_v'ovvv, [i; a; b; c]); (nm 2 n_rdm2'ovvv, [i; a; b; c])];
  mono (-1) 4 [(nm 0 n_v'ovvv, [i; a; b; c]); (nm 2 n_rdm2'vovv, [a; i; b; c])];
  mono 1 4 [(nm 0 n_v'ovvv, [i; c; a; b]); (nm 2 n_rdm2'vvov, [a; b; i; c])];
  mono (-1) 4 [(nm 0 n_v'ovvv, [i; c; a; b]); (nm 2 n_rdm2'vvvo, [a; b; c; i])];
  mono 1 4 [(nm 0 n_v'vvvv, [a; b; c; d]); (nm 2 n_rdm2'vvvv, [a; b; c; d])]].

(** sum_p rdm1_pp = n and sum_r rdm2_prqr = (n - 1) rdm1_pq, where n is  the number of occupied orbitals: indices, formula, factor, formula. *)
Definition traces : list (list nat * formula * factor * formula) :=
 [([], [mono 1 1 [(nm 1 n_rdm1'oo, [i; i])]; mono 1 1 [(nm 1 n_rdm1'vv, [a; a])]], (1%Z, 0, 0%Z), [mono 1 1 []]);
  ([i; j], [mono 1 1 [(nm 2 n_rdm2'oooo, [i; l; j; l])]; mono 1 1 [(nm 2 n_rdm2'ovov, [i; d; j; d])]], (1%Z, 0, (-1)%Z), [mono 1 1 [(nm 1 n_rdm1'oo, [i; j])]]);
  ([i; a], [mono 1 1 [(nm 2 n_rdm2'oovo, [i; l; a; l])]; mono 1 1 [(nm 2 n_rdm2'ovvv, [i; d; a; d])]], (1%Z, 0, (-1)%Z), [mono 1 1 [(nm 1 n_rdm1'ov, [i; a])]]);
  ([a; i], [mono 1 1 [(nm 2 n_rdm2'vooo, [a; l; i; l])]; mono 1 1 [(nm 2 n_rdm2'vvov, [a; d; i; d])]], (1%Z, 0, (-1)%Z), [mono 1 1 [(nm 1 n_rdm1'vo, [a; i])]]);
  ([a; b], [mono 1 1 [(nm 2 n_rdm2'vovo, [a; l; b; l])]; mono 1 1 [(nm 2 n_rdm2'vvvv, [a; d; b; d])]], (1%Z, 0, (-1)%Z), [mono 1 1 [(nm 1 n_rdm1'vv, [a; b])]])].

(** sum_p rdm1_pp = n and sum_r rdm2_prqr = (n - 1) rdm1_pq, where n is twice the number of occupied orbitals: indices, formula, factor, formula. *)
Definition restricted_traces : list (list nat * formula * factor * formula) :=
 [([], [mono 1 1 [(nm 1 n_rdm1'oo, [i; i])]; mono 1 1 [(nm 1 n_rdm1'vv, [a; a])]], (2%Z, 0, 0%Z), [mono 1 1 []]);
  ([i; j], [mono 1 1 [(nm 2 n_rdm2'oooo, [i; l; j; l])]; mono 1 1 [(nm 2 n_rdm2'ovov, [i; d; j; d])]], (2%Z, 0, (-1)%Z), [mono 1 1 [(nm 1 n_rdm1'oo, [i; j])]]);
  ([i; a], [mono 1 1 [(nm 2 n_rdm2'oovo, [i; l; a; l])]; mono 1 1 [(nm 2 n_rdm2'ovvv, [i; d; a; d])]], (2%Z, 0, (-1)%Z), [mono 1 1 [(nm 1 n_rdm1'ov, [i; a])]]);
  ([a; i], [mono 1 1 [(nm 2 n_rdm2'vooo, [a; l; i; l])]; mono 1 1 [(nm 2 n_rdm2'vvov, [a; d; i; d])]], (2%Z, 0, (-1)%Z), [mono 1 1 [(nm 1 n_rdm1'vo, [a; i])]]);
  ([a; b], [mono 1 1 [(nm 2 n_rdm2'vovo, [a; l; b; l])]; mono 1 1 [(nm 2 n_rdm2'vvvv, [a; d; b; d])]], (2%Z, 0, (-1)%Z), [mono 1 1 [(nm 1 n_rdm1'vv, [a; b])]])].

(** sum_pq h_pq rdm1_pq, where h_pq = f_pq - sum_l <pl||ql> is the one-electron operator.  [nm 0] are the given tensors, [nm 1] is the result of make_rdm1_f. *)
Definition one_body_old : formula :=
 [mono 1 1 [(nm 0 n_f'oo, [i; j]); (nm 1 n_rdm1_f_oo, [i; j])];
  mono (-1) 1 [(nm 0 n_v'oooo, [i; l; j; l]); (nm 1 n_rdm1_f_oo, [i; j])];
  mono 1 1 [(nm 0 n_f'ov, [i; a]); (nm 1 n_rdm1_f_ov, [i; a])];
  mono 1 1 [(nm 0 n_v'ooov, [i; l; l; a]); (nm 1 n_rdm1_f_ov, [i; a])];
  mono 1 1 [(nm 0 n_f'ov, [i; a]); (nm 1 n_rdm1_f_vo, [a; i])];
  mono 1 1 [(nm 0 n_v'ooov, [i; l; l; a]); (nm 1 n_rdm1_f_vo, [a; i])];
  mono 1 1 [(nm 0 n_f'vv, [a; b]); (nm 1 n_rdm1_f_vv, [a; b])];
  mono (-1) 1 [(nm 0 n_v'ovov, [l; a; l; b]); (nm 1 n_rdm1_f_vv, [a; b])]].

(** 1/4 sum_pqrs <pq||rs> rdm2_pqrs.  [nm 2] is the result of make_rdm2_f. *)
Definition two_body_old : formula :=
 [mono 1 4 [(nm 0 n_v'oooo, [i; j; k; l]); (nm 2 n_rdm2_f_oooo, [i; j; k; l])];
  mono 1 4 [(nm 0 n_v'ooov, [i; j; k; a]); (nm 2 n_rdm2_f_ooov, [i; j; k; a])];
  mono (-1) 4 [(nm 0 n_v'ooov, [i; j; k; a]); (nm 2 n_rdm2_f_oovo, [i; j; a; k])];
  mono 1 4 [(nm 0 n_v'ooov, [j; k; i; a]); (nm 2 n_rdm2_f_ovoo, [i; a; j; k])];
  mono (-1) 4 [(nm 0 n_v'ooov, [j; k; i; a]); (nm 2 n_rdm2_f_vooo, [a; i; j; k])];
  mono 1 4 [(nm 0 n_v'oovv, [i; j; a; b]); (nm 2 n_rdm2_f_oovv, [i; j; a; b])];
  mono 1 4 [(nm 0 n_v'ovov, [i; a; j; b]); (nm 2 n_rdm2_f_ovov, [i; a; j; b])];
  mono (-1) 4 [(nm 0 n_v'ovov, [i; a; j; b]); (nm 2 n_rdm2_f_ovvo, [i; a; b; j])];
  mono (-1) 4 [(nm 0 n_v'ovov, [i; a; j; b]); (nm 2 n_rdm2_f_voov, [a; i; j; b])];
  mono 1 4 [(nm 0 n_v'ovov, [i; a; j; b]); (nm 2 n_rdm2_f_vovo, [a; i; b; j])];
  mono 1 4 [(nm 0 n_v'oovv, [i; j; a; b]); (nm 2 n_rdm2_f_vvoo, [a; b; i; j])];
  mono 1 4 [(nm 0 n_v'ovvv, [i; a; b; c]); (nm 2 n_rdm2_f_ovvv, [i; a; b; c])];
  mono (-1) 4 [(nm 0 n_v'ovvv, [i; a; b; c]); (nm 2 n_rdm2_f_vovv, [a; i; b; c])];
  mono 1 4 [(nm 0 n_v'ovvv, [i; c; a; b]); (nm 2 n_rdm2_f_vvov, [a; b; i; c])];
  mono (-1) 4 [(nm 0 n_v'ovvv, [i; c; a; b]); (nm 2 n_rdm2_f_vvvo, [a; b; c; i])];
  mono 1 4 [(nm 0 n_v'vvvv, [a; b; c; d]); (nm 2 n_rdm2_f_vvvv, [a; b; c; d])]].

(** sum_p rdm1_pp = n and sum_r rdm2_prqr = (n - 1) rdm1_pq, where n is  the number of occupied orbitals: indices, formula, factor, formula. *)
Definition traces_old : list (list nat * formula * factor * formula) :=
 [([], [mono 1 1 [(nm 1 n_rdm1_f_oo, [i; i])]; mono 1 1 [(nm 1 n_rdm1_f_vv, [a; a])]], (1%Z, 0, 0%Z), [mono 1 1 []]);
  ([i; j], [mono 1 1 [(nm 2 n_rdm2_f_oooo, [i; l; j; l])]; mono 1 1 [(nm 2 n_rdm2_f_ovov, [i; d; j; d])]], (1%Z, 0, (-1)%Z), [mono 1 1 [(nm 1 n_rdm1_f_oo, [i; j])]]);
  ([i; a], [mono 1 1 [(nm 2 n_rdm2_f_oovo, [i; l; a; l])]; mono 1 1 [(nm 2 n_rdm2_f_ovvv, [i; d; a; d])]], (1%Z, 0, (-1)%Z), [mono 1 1 [(nm 1 n_rdm1_f_ov, [i; a])]]);
  ([a; i], [mono 1 1 [(nm 2 n_rdm2_f_vooo, [a; l; i; l])]; mono 1 1 [(nm 2 n_rdm2_f_vvov, [a; d; i; d])]], (1%Z, 0, (-1)%Z), [mono 1 1 [(nm 1 n_rdm1_f_vo, [a; i])]]);
  ([a; b], [mono 1 1 [(nm 2 n_rdm2_f_vovo, [a; l; b; l])]; mono 1 1 [(nm 2 n_rdm2_f_vvvv, [a; d; b; d])]], (1%Z, 0, (-1)%Z), [mono 1 1 [(nm 1 n_rdm1_f_vv, [a; b])]])].

(** sum_p rdm1_pp = n and sum_r rdm2_prqr = (n - 1) rdm1_pq, where n is twice the number of occupied orbitals: indices, formula, factor, formula. *)
Definition restricted_traces_old : list (list nat * formula * factor * formula) :=
 [([], [mono 1 1 [(nm 1 n_rdm1_f_oo, [i; i])]; mono 1 1 [(nm 1 n_rdm1_f_vv, [a; a])]], (2%Z, 0, 0%Z), [mono 1 1 []]);
  ([i; j], [mono 1 1 [(nm 2 n_rdm2_f_oooo, [i; l; j; l])]; mono 1 1 [(nm 2 n_rdm2_f_ovov, [i; d; j; d])]], (2%Z, 0, (-1)%Z), [mono 1 1 [(nm 1 n_rdm1_f_oo, [i; j])]]);
  ([i; a], [mono 1 1 [(nm 2 n_rdm2_f_oovo, [i; l; a; l])]; mono 1 1 [(nm 2 n_rdm2_f_ovvv, [i; d; a; d])]], (2%Z, 0, (-1)%Z), [mono 1 1 [(nm 1 n_rdm1_f_ov, [i; a])]]);
  ([a; i], [mono 1 1 [(nm 2 n_rdm2_f_vooo, [a; l; i; l])]; mono 1 1 [(nm 2 n_rdm2_f_vvov, [a; d; i; d])]], (2%Z, 0, (-1)%Z), [mono 1 1 [(nm 1 n_rdm1_f_vo, [a; i])]]);
  ([a; b], [mono 1 1 [(nm 2 n_rdm2_f_vovo, [a; l; b; l])]; mono 1 1 [(nm 2 n_rdm2_f_vvvv, [a; d; b; d])]], (2%Z, 0, (-1)%Z), [mono 1 1 [(nm 1 n_rdm1_f_vv, [a; b])]])].

(** The same in the restricted modules with bosons. *)
Definition restricted_traces_chem : list (list nat * formula * factor * formula) :=
 [([], [mono 1 1 [(nm 1 n_rdm1_f_oo, [i; i])]; mono 1 1 [(nm 1 n_rdm1_f_vv, [a; a])]], (2%Z, 0, 0%Z), [mono 1 1 []]);
  ([i; j], [mono 1 1 [(nm 2 n_rdm2_f_oooo, [i; j; l; l])]; mono 1 1 [(nm 2 n_rdm2_f_oovv, [i; j; d; d])]], (2%Z, 0, (-1)%Z), [mono 1 1 [(nm 1 n_rdm1_f_oo, [i; j])]]);
  ([i; a], [mono 1 1 [(nm 2 n_rdm2_f_ovoo, [i; a; l; l])]; mono 1 1 [(nm 2 n_rdm2_f_ovvv, [i; a; d; d])]], (2%Z, 0, (-1)%Z), [mono 1 1 [(nm 1 n_rdm1_f_ov, [i; a])]]);
  ([a; i], [mono 1 1 [(nm 2 n_rdm2_f_vooo, [a; i; l; l])]; mono 1 1 [(nm 2 n_rdm2_f_vovv, [a; i; d; d])]], (2%Z, 0, (-1)%Z), [mono 1 1 [(nm 1 n_rdm1_f_vo, [a; i])]]);
  ([a; b], [mono 1 1 [(nm 2 n_rdm2_f_vvoo, [a; b; l; l])]; mono 1 1 [(nm 2 n_rdm2_f_vvvv, [a; b; d; d])]], (2%Z, 0, (-1)%Z), [mono 1 1 [(nm 1 n_rdm1_f_vv, [a; b])]])].

(** The same for either spin, and sum_r rdm2_prqr = n rdm1_pq where n is the number of electrons of the other spin. *)
Definition unrestricted_traces : list (list nat * formula * factor * formula) :=
 [([], [mono 1 1 [(nm 1 n_rdm1'aa'oo, [iA; iA])]; mono 1 1 [(nm 1 n_rdm1'aa'vv, [aA; aA])]], (1%Z, 4, 0%Z), [mono 1 1 []]);
  ([], [mono 1 1 [(nm 1 n_rdm1'bb'oo, [iB; iB])]; mono 1 1 [(nm 1 n_rdm1'bb'vv, [aB; aB])]], (1%Z, 6, 0%Z), [mono 1 1 []]);
  ([iA; jA], [mono 1 1 [(nm 2 n_rdm2'aaaa'oooo, [iA; lA; jA; lA])]; mono 1 1 [(nm 2 n_rdm2'aaaa'ovov, [iA; dA; jA; dA])]], (1%Z, 4, (-1)%Z), [mono 1 1 [(nm 1 n_rdm1'aa'oo, [iA; jA])]]);
  ([iA; aA], [mono 1 1 [(nm 2 n_rdm2'aaaa'oovo, [iA; lA; aA; lA])]; mono 1 1 [(nm 2 n_rdm2'aaaa'ovvv, [iA; dA; aA; dA])]], (1%Z, 4, (-1)%Z), [mono 1 1 [(nm 1 n_rdm1'aa'ov, [iA; aA])]]);
  ([aA; iA], [mono 1 1 [(nm 2 n_rdm2'aaaa'vooo, [aA; lA; iA; lA])]; mono 1 1 [(nm 2 n_rdm2'aaaa'vvov, [aA; dA; iA; dA])]], (1%Z, 4, (-1)%Z), [mono 1 1 [(nm 1 n_rdm1'aa'vo, [aA; iA])]]);
  ([aA; bA], [mono 1 1 [(nm 2 n_rdm2'aaaa'vovo, [aA; lA; bA; lA])]; mono 1 1 [(nm 2 n_rdm2'aaaa'vvvv, [aA; dA; bA; dA])]], (1%Z, 4, (-1)%Z), [mono 1 1 [(nm 1 n_rdm1'aa'vv, [aA; bA])]]);
  ([iA; jA], [mono 1 1 [(nm 2 n_rdm2'abab'oooo, [iA; lB; jA; lB])]; mono 1 1 [(nm 2 n_rdm2'abab'ovov, [iA; dB; jA; dB])]], (1%Z, 6, (0)%Z), [mono 1 1 [(nm 1 n_rdm1'aa'oo, [iA; jA])]]);
  ([iA; aA], [mono 1 1 [(nm 2 n_rdm2'abab'oovo, [iA; lB; aA; lB])]; mono 1 1 [(nm 2 n_rdm2'abab'ovvv, [iA; dB; aA; dB])]], (1%Z, 6, (0)%Z), [mono 1 1 [(nm 1 n_rdm1'aa'ov, [iA; aA])]]);
  ([aA; iA], [mono 1 1 [(nm 2 n_rdm2'abab'vooo, [aA; lB; iA; lB])]; mono 1 1 [(nm 2 n_rdm2'abab'vvov, [aA; dB; iA; dB])]], (1%Z, 6, (0)%Z), [mono 1 1 [(nm 1 n_rdm1'aa'vo, [aA; iA])]]);
  ([aA; bA], [mono 1 1 [(nm 2 n_rdm2'abab'vovo, [aA; lB; bA; lB])]; mono 1 1 [(nm 2 n_rdm2'abab'vvvv, [aA; dB; bA; dB])]], (1%Z, 6, (0)%Z), [mono 1 1 [(nm 1 n_rdm1'aa'vv, [aA; bA])]]);
  ([iB; jB], [mono 1 1 [(nm 2 n_rdm2'abab'oooo, [lA; iB; lA; jB])]; mono 1 1 [(nm 2 n_rdm2'abab'vovo, [dA; iB; dA; jB])]], (1%Z, 4, (0)%Z), [mono 1 1 [(nm 1 n_rdm1'bb'oo, [iB; jB])]]);
  ([iB; aB], [mono 1 1 [(nm 2 n_rdm2'abab'ooov, [lA; iB; lA; aB])]; mono 1 1 [(nm 2 n_rdm2'abab'vovv, [dA; iB; dA; aB])]], (1%Z, 4, (0)%Z), [mono 1 1 [(nm 1 n_rdm1'bb'ov, [iB; aB])]]);
  ([aB; iB], [mono 1 1 [(nm 2 n_rdm2'abab'ovoo, [lA; aB; lA; iB])]; mono 1 1 [(nm 2 n_rdm2'abab'vvvo, [dA; aB; dA; iB])]], (1%Z, 4, (0)%Z), [mono 1 1 [(nm 1 n_rdm1'bb'vo, [aB; iB])]]);
  ([aB; bB], [mono 1 1 [(nm 2 n_rdm2'abab'ovov, [lA; aB; lA; bB])]; mono 1 1 [(nm 2 n_rdm2'abab'vvvv, [dA; aB; dA; bB])]], (1%Z, 4, (0)%Z), [mono 1 1 [(nm 1 n_rdm1'bb'vv, [aB; bB])]]);
  ([iB; jB], [mono 1 1 [(nm 2 n_rdm2'bbbb'oooo, [iB; lB; jB; lB])]; mono 1 1 [(nm 2 n_rdm2'bbbb'ovov, [iB; dB; jB; dB])]], (1%Z, 6, (-1)%Z), [mono 1 1 [(nm 1 n_rdm1'bb'oo, [iB; jB])]]);
  ([iB; aB], [mono 1 1 [(nm 2 n_rdm2'bbbb'oovo, [iB; lB; aB; lB])]; mono 1 1 [(nm 2 n_rdm2'bbbb'ovvv, [iB; dB; aB; dB])]], (1%Z, 6, (-1)%Z), [mono 1 1 [(nm 1 n_rdm1'bb'ov, [iB; aB])]]);
  ([aB; iB], [mono 1 1 [(nm 2 n_rdm2'bbbb'vooo, [aB; lB; iB; lB])]; mono 1 1 [(nm 2 n_rdm2'bbbb'vvov, [aB; dB; iB; dB])]], (1%Z, 6, (-1)%Z), [mono 1 1 [(nm 1 n_rdm1'bb'vo, [aB; iB])]]);
  ([aB; bB], [mono 1 1 [(nm 2 n_rdm2'bbbb'vovo, [aB; lB; bB; lB])]; mono 1 1 [(nm 2 n_rdm2'bbbb'vvvv, [aB; dB; bB; dB])]], (1%Z, 6, (-1)%Z), [mono 1 1 [(nm 1 n_rdm1'bb'vv, [aB; bB])]])].

(** The part of the energy with bosons: sum_x (G_x - sum_l g_xll) <b+_x + b_x> + sum_xy w_xy <b+_x b_y> + sum_xpq g_xpq <b_x p+ q> + sum_xpq g_xqp <b+_x p+ q>.  (The
    argument G holds the sum over occupied orbitals of the coupling, cc/rebcc.py get_mean_field_G.)  [nm 5] is the result of make_sing_b_dm, [nm 6] that of
    make_rdm1_b, [nm 7] that of make_eb_coup_rdm. *)
Definition boson_energy : formula :=
 [mono 1 1 [(nm 0 n_G, [x]); (nm 5 n_dm_b_cre, [x])];
  mono (-1) 1 [(nm 0 n_g'boo, [x; l; l]); (nm 5 n_dm_b_cre, [x])];
  mono 1 1 [(nm 0 n_G, [x]); (nm 5 n_dm_b_des, [x])];
  mono (-1) 1 [(nm 0 n_g'boo, [x; l; l]); (nm 5 n_dm_b_des, [x])];
  mono 1 1 [(nm 0 n_w, [x; y]); (nm 6 n_rdm1_b, [x; y])];
  mono 1 1 [(nm 0 n_g'boo, [x; i; j]); (nm 7 n_rdm_eb_des_oo, [x; i; j])];
  mono 1 1 [(nm 0 n_g'boo, [x; j; i]); (nm 7 n_rdm_eb_cre_oo, [x; i; j])];
  mono 1 1 [(nm 0 n_g'bov, [x; i; a]); (nm 7 n_rdm_eb_des_ov, [x; i; a])];
  mono 1 1 [(nm 0 n_g'bvo, [x; a; i]); (nm 7 n_rdm_eb_cre_ov, [x; i; a])];
  mono 1 1 [(nm 0 n_g'bvo, [x; a; i]); (nm 7 n_rdm_eb_des_vo, [x; a; i])];
  mono 1 1 [(nm 0 n_g'bov, [x; i; a]); (nm 7 n_rdm_eb_cre_vo, [x; a; i])];
  mono 1 1 [(nm 0 n_g'bvv, [x; a; b]); (nm 7 n_rdm_eb_des_vv, [x; a; b])];
  mono 1 1 [(nm 0 n_g'bvv, [x; b; a]); (nm 7 n_rdm_eb_cre_vv, [x; a; b])]].

(** The energy of the reference: sum_i f_ii - 1/2 sum_ij <ij||ij>. *)
Definition reference : formula :=
 [mono 1 1 [(nm 0 n_f'oo, [i; i])];
  mono (-1) 2 [(nm 0 n_v'oooo, [i; j; i; j])]].

(** The energy function, [nm 3]. *)
Definition correlation : formula :=
 [mono 1 1 [(nm 3 n_e_cc, [])]].

(** Multipliers times the results of update_amps, [nm 4]. *)
Definition singles_part : formula :=
 [mono 1 1 [(nm 0 n_l1, [a; i]); (nm 4 n_t1new, [i; a])]].

(** Each determinant counts once. *)
Definition doubles_part : formula :=
 [mono 1 4 [(nm 0 n_l2, [a; b; i; j]); (nm 4 n_t2new, [i; j; a; b])]].

(** Triples. *)
Definition triples_part : formula :=
 [mono 1 36 [(nm 0 n_l3, [a; b; c; i; j; k]); (nm 4 n_t3new, [i; j; k; a; b; c])]].

(** One boson. *)
Definition boson_part : formula :=
 [mono 1 1 [(nm 0 n_ls1, [x]); (nm 4 n_s1new, [x])];
  mono 1 1 [(nm 0 n_lu11, [x; a; i]); (nm 4 n_u11new, [x; i; a])]].

(** Two bosons. *)
Definition two_bosons_part : formula :=
 [mono 1 2 [(nm 0 n_ls2, [x; y]); (nm 4 n_s2new, [x; y])]].

(** Two bosons and an excitation. *)
Definition two_bosons_single_part : formula :=
 [mono 1 2 [(nm 0 n_lu12, [x; y; a; i]); (nm 4 n_u12new, [x; y; i; a])]].

(** The same for restricted calculations: h_pq = f_pq - sum_l [2 (pq|ll) - (pl|lq)]. *)
Definition restricted_one_body : formula :=
 [mono 1 1 [(nm 0 n_f'oo, [i; j]); (nm 1 n_rdm1'oo, [i; j])];
  mono (-2) 1 [(nm 0 n_v'oooo, [i; j; l; l]); (nm 1 n_rdm1'oo, [i; j])];
  mono 1 1 [(nm 0 n_v'oooo, [i; l; l; j]); (nm 1 n_rdm1'oo, [i; j])];
  mono 1 1 [(nm 0 n_f'ov, [i; a]); (nm 1 n_rdm1'ov, [i; a])];
  mono (-2) 1 [(nm 0 n_v'ooov, [l; l; i; a]); (nm 1 n_rdm1'ov, [i; a])];
  mono 1 1 [(nm 0 n_v'ooov, [i; l; l; a]); (nm 1 n_rdm1'ov, [i; a])];
  mono 1 1 [(nm 0 n_f'ov, [i; a]); (nm 1 n_rdm1'vo, [a; i])];
  mono (-2) 1 [(nm 0 n_v'ooov, [l; l; i; a]); (nm 1 n_rdm1'vo, [a; i])];
  mono 1 1 [(nm 0 n_v'ooov, [l; i; l; a]); (nm 1 n_rdm1'vo, [a; i])];
  mono 1 1 [(nm 0 n_f'vv, [a; b]); (nm 1 n_rdm1'vv, [a; b])];
  mono (-2) 1 [(nm 0 n_v'oovv, [l; l; a; b]); (nm 1 n_rdm1'vv, [a; b])];
  mono 1 1 [(nm 0 n_v'ovov, [l; a; l; b]); (nm 1 n_rdm1'vv, [a; b])]].

(** 1/2 sum_pqrs (pr|qs) rdm2_pqrs. *)
Definition restricted_two_body : formula :=
 [mono 1 2 [(nm 0 n_v'oooo, [i; k; j; l]); (nm 2 n_rdm2'oooo, [i; j; k; l])];
  mono 1 2 [(nm 0 n_v'ooov, [i; k; j; a]); (nm 2 n_rdm2'ooov, [i; j; k; a])];
  mono 1 2 [(nm 0 n_v'ooov, [j; k; i; a]); (nm 2 n_rdm2'oovo, [i; j; a; k])];
  mono 1 2 [(nm 0 n_v'ooov, [i; j; k; a]); (nm 2 n_rdm2'ovoo, [i; a; j; k])];
  mono 1 2 [(nm 0 n_v'ooov, [i; k; j; a]); (nm 2 n_rdm2'vooo, [a; i; j; k])];
  mono 1 2 [(nm 0 n_v'ovov, [i; a; j; b]); (nm 2 n_rdm2'oovv, [i; j; a; b])];
  mono 1 2 [(nm 0 n_v'oovv, [i; j; a; b]); (nm 2 n_rdm2'ovov, [i; a; j; b])];
  mono 1 2 [(nm 0 n_v'ovov, [i; b; j; a]); (nm 2 n_rdm2'ovvo, [i; a; b; j])];
  mono 1 2 [(nm 0 n_v'ovov, [j; a; i; b]); (nm 2 n_rdm2'voov, [a; i; j; b])];
  mono 1 2 [(nm 0 n_v'oovv, [i; j; a; b]); (nm 2 n_rdm2'vovo, [a; i; b; j])];
  mono 1 2 [(nm 0 n_v'ovov, [i; a; j; b]); (nm 2 n_rdm2'vvoo, [a; b; i; j])];
  mono 1 2 [(nm 0 n_v'ovvv, [i; b; a; c]); (nm 2 n_rdm2'ovvv, [i; a; b; c])];
  mono 1 2 [(nm 0 n_v'ovvv, [i; c; a; b]); (nm 2 n_rdm2'vovv, [a; i; b; c])];
  mono 1 2 [(nm 0 n_v'ovvv, [i; a; b; c]); (nm 2 n_rdm2'vvov, [a; b; i; c])];
  mono 1 2 [(nm 0 n_v'ovvv, [i; b; a; c]); (nm 2 n_rdm2'vvvo, [a; b; c; i])];
  mono 1 2 [(nm 0 n_v'vvvv, [a; c; b; d]); (nm 2 n_rdm2'vvvv, [a; b; c; d])]].

(** The same for restricted calculations: h_pq = f_pq - sum_l [2 (pq|ll) - (pl|lq)]. *)
Definition restricted_one_body_old : formula :=
 [mono 1 1 [(nm 0 n_f'oo, [i; j]); (nm 1 n_rdm1_f_oo, [i; j])];
  mono (-2) 1 [(nm 0 n_v'oooo, [i; j; l; l]); (nm 1 n_rdm1_f_oo, [i; j])];
  mono 1 1 [(nm 0 n_v'oooo, [i; l; l; j]); (nm 1 n_rdm1_f_oo, [i; j])];
  mono 1 1 [(nm 0 n_f'ov, [i; a]); (nm 1 n_rdm1_f_ov, [i; a])];
  mono (-2) 1 [(nm 0 n_v'ooov, [l; l; i; a]); (nm 1 n_rdm1_f_ov, [i; a])];
  mono 1 1 [(nm 0 n_v'ooov, [i; l; l; a]); (nm 1 n_rdm1_f_ov, [i; a])];
  mono 1 1 [(nm 0 n_f'ov, [i; a]); (nm 1 n_rdm1_f_vo, [a; i])];
  mono (-2) 1 [(nm 0 n_v'ooov, [l; l; i; a]); (nm 1 n_rdm1_f_vo, [a; i])];
  mono 1 1 [(nm 0 n_v'ooov, [l; i; l; a]); (nm 1 n_rdm1_f_vo, [a; i])];
  mono 1 1 [(nm 0 n_f'vv, [a; b]); (nm 1 n_rdm1_f_vv, [a; b])];
  mono (-2) 1 [(nm 0 n_v'oovv, [l; l; a; b]); (nm 1 n_rdm1_f_vv, [a; b])];
  mono 1 1 [(nm 0 n_v'ovov, [l; a; l; b]); (nm 1 n_rdm1_f_vv, [a; b])]].

(** 1/2 sum_pqrs (pr|qs) rdm2_pqrs. *)
Definition restricted_two_body_old : formula :=
 [mono 1 2 [(nm 0 n_v'oooo, [i; k; j; l]); (nm 2 n_rdm2_f_oooo, [i; j; k; l])];
  mono 1 2 [(nm 0 n_v'ooov, [i; k; j; a]); (nm 2 n_rdm2_f_ooov, [i; j; k; a])];
  mono 1 2 [(nm 0 n_v'ooov, [j; k; i; a]); (nm 2 n_rdm2_f_oovo, [i; j; a; k])];
  mono 1 2 [(nm 0 n_v'ooov, [i; j; k; a]); (nm 2 n_rdm2_f_ovoo, [i; a; j; k])];
  mono 1 2 [(nm 0 n_v'ooov, [i; k; j; a]); (nm 2 n_rdm2_f_vooo, [a; i; j; k])];
  mono 1 2 [(nm 0 n_v'ovov, [i; a; j; b]); (nm 2 n_rdm2_f_oovv, [i; j; a; b])];
  mono 1 2 [(nm 0 n_v'oovv, [i; j; a; b]); (nm 2 n_rdm2_f_ovov, [i; a; j; b])];
  mono 1 2 [(nm 0 n_v'ovov, [i; b; j; a]); (nm 2 n_rdm2_f_ovvo, [i; a; b; j])];
  mono 1 2 [(nm 0 n_v'ovov, [j; a; i; b]); (nm 2 n_rdm2_f_voov, [a; i; j; b])];
  mono 1 2 [(nm 0 n_v'oovv, [i; j; a; b]); (nm 2 n_rdm2_f_vovo, [a; i; b; j])];
  mono 1 2 [(nm 0 n_v'ovov, [i; a; j; b]); (nm 2 n_rdm2_f_vvoo, [a; b; i; j])];
  mono 1 2 [(nm 0 n_v'ovvv, [i; b; a; c]); (nm 2 n_rdm2_f_ovvv, [i; a; b; c])];
  mono 1 2 [(nm 0 n_v'ovvv, [i; c; a; b]); (nm 2 n_rdm2_f_vovv, [a; i; b; c])];
  mono 1 2 [(nm 0 n_v'ovvv, [i; a; b; c]); (nm 2 n_rdm2_f_vvov, [a; b; i; c])];
  mono 1 2 [(nm 0 n_v'ovvv, [i; b; a; c]); (nm 2 n_rdm2_f_vvvo, [a; b; c; i])];
  mono 1 2 [(nm 0 n_v'vvvv, [a; c; b; d]); (nm 2 n_rdm2_f_vvvv, [a; b; c; d])]].

(** The same for restricted calculations: h_pq = f_pq - sum_l [2 (pq|ll) - (pl|lq)]. *)
Definition restricted_one_body_chem : formula :=
 [mono 1 1 [(nm 0 n_f'oo, [i; j]); (nm 1 n_rdm1_f_oo, [i; j])];
  mono (-2) 1 [(nm 0 n_v'oooo, [i; j; l; l]); (nm 1 n_rdm1_f_oo, [i; j])];
  mono 1 1 [(nm 0 n_v'oooo, [i; l; l; j]); (nm 1 n_rdm1_f_oo, [i; j])];
  mono 1 1 [(nm 0 n_f'ov, [i; a]); (nm 1 n_rdm1_f_ov, [i; a])];
  mono (-2) 1 [(nm 0 n_v'ooov, [l; l; i; a]); (nm 1 n_rdm1_f_ov, [i; a])];
  mono 1 1 [(nm 0 n_v'ooov, [i; l; l; a]); (nm 1 n_rdm1_f_ov, [i; a])];
  mono 1 1 [(nm 0 n_f'ov, [i; a]); (nm 1 n_rdm1_f_vo, [a; i])];
  mono (-2) 1 [(nm 0 n_v'ooov, [l; l; i; a]); (nm 1 n_rdm1_f_vo, [a; i])];
  mono 1 1 [(nm 0 n_v'ooov, [l; i; l; a]); (nm 1 n_rdm1_f_vo, [a; i])];
  mono 1 1 [(nm 0 n_f'vv, [a; b]); (nm 1 n_rdm1_f_vv, [a; b])];
  mono (-2) 1 [(nm 0 n_v'oovv, [l; l; a; b]); (nm 1 n_rdm1_f_vv, [a; b])];
  mono 1 1 [(nm 0 n_v'ovov, [l; a; l; b]); (nm 1 n_rdm1_f_vv, [a; b])]].

(** 1/2 sum_pqrs (pr|qs) rdm2_pqrs. *)
Definition restricted_two_body_chem : formula :=
 [mono 1 2 [(nm 0 n_v'oooo, [i; k; j; l]); (nm 2 n_rdm2_f_oooo, [i; k; j; l])];
  mono 1 2 [(nm 0 n_v'ooov, [i; k; j; a]); (nm 2 n_rdm2_f_ooov, [i; k; j; a])];
  mono 1 2 [(nm 0 n_v'ooov, [j; k; i; a]); (nm 2 n_rdm2_f_ovoo, [i; a; j; k])];
  mono 1 2 [(nm 0 n_v'ooov, [i; j; k; a]); (nm 2 n_rdm2_f_oovo, [i; j; a; k])];
  mono 1 2 [(nm 0 n_v'ooov, [i; k; j; a]); (nm 2 n_rdm2_f_vooo, [a; j; i; k])];
  mono 1 2 [(nm 0 n_v'ovov, [i; a; j; b]); (nm 2 n_rdm2_f_ovov, [i; a; j; b])];
  mono 1 2 [(nm 0 n_v'oovv, [i; j; a; b]); (nm 2 n_rdm2_f_oovv, [i; j; a; b])];
  mono 1 2 [(nm 0 n_v'ovov, [i; b; j; a]); (nm 2 n_rdm2_f_ovvo, [i; b; a; j])];
  mono 1 2 [(nm 0 n_v'ovov, [j; a; i; b]); (nm 2 n_rdm2_f_voov, [a; j; i; b])];
  mono 1 2 [(nm 0 n_v'oovv, [i; j; a; b]); (nm 2 n_rdm2_f_vvoo, [a; b; i; j])];
  mono 1 2 [(nm 0 n_v'ovov, [i; a; j; b]); (nm 2 n_rdm2_f_vovo, [a; i; b; j])];
  mono 1 2 [(nm 0 n_v'ovvv, [i; b; a; c]); (nm 2 n_rdm2_f_ovvv, [i; b; a; c])];
  mono 1 2 [(nm 0 n_v'ovvv, [i; c; a; b]); (nm 2 n_rdm2_f_vvov, [a; b; i; c])];
  mono 1 2 [(nm 0 n_v'ovvv, [i; a; b; c]); (nm 2 n_rdm2_f_vovv, [a; i; b; c])];
  mono 1 2 [(nm 0 n_v'ovvv, [i; b; a; c]); (nm 2 n_rdm2_f_vvvo, [a; c; b; i])];
  mono 1 2 [(nm 0 n_v'vvvv, [a; c; b; d]); (nm 2 n_rdm2_f_vvvv, [a; c; b; d])]].

(** 2 sum_i f_ii - sum_ij [2 (ii|jj) - (ij|ji)]. *)
Definition restricted_reference : formula :=
 [mono 2 1 [(nm 0 n_f'oo, [i; i])];
  mono (-2) 1 [(nm 0 n_v'oooo, [i; i; j; j])];
  mono 1 1 [(nm 0 n_v'oooo, [i; j; j; i])]].

(** Both spins. *)
Definition restricted_singles_part : formula :=
 [mono 2 1 [(nm 0 n_l1, [a; i]); (nm 4 n_t1new, [i; a])]].

(** Both spins. *)
Definition restricted_doubles_part : formula :=
 [mono 2 1 [(nm 0 n_l2, [a; b; i; j]); (nm 4 n_t2new, [i; j; a; b])];
  mono (-1) 1 [(nm 0 n_l2, [a; b; i; j]); (nm 4 n_t2new, [i; j; b; a])]].

(** The same for unrestricted calculations, with one-electron operators for either spin. *)
Definition unrestricted_one_body : formula :=
 [mono 1 1 [(nm 0 n_f'aa'oo, [iA; jA]); (nm 1 n_rdm1'aa'oo, [iA; jA])];
  mono (-1) 1 [(nm 0 n_v'aaaa'oooo, [iA; jA; lA; lA]); (nm 1 n_rdm1'aa'oo, [iA; jA])];
  mono 1 1 [(nm 0 n_v'aaaa'oooo, [iA; lA; lA; jA]); (nm 1 n_rdm1'aa'oo, [iA; jA])];
  mono (-1) 1 [(nm 0 n_v'aabb'oooo, [iA; jA; lB; lB]); (nm 1 n_rdm1'aa'oo, [iA; jA])];
  mono 1 1 [(nm 0 n_f'aa'ov, [iA; aA]); (nm 1 n_rdm1'aa'ov, [iA; aA])];
  mono (-1) 1 [(nm 0 n_v'aaaa'ooov, [lA; lA; iA; aA]); (nm 1 n_rdm1'aa'ov, [iA; aA])];
  mono 1 1 [(nm 0 n_v'aaaa'ooov, [iA; lA; lA; aA]); (nm 1 n_rdm1'aa'ov, [iA; aA])];
  mono (-1) 1 [(nm 0 n_v'aabb'ovoo, [iA; aA; lB; lB]); (nm 1 n_rdm1'aa'ov, [iA; aA])];
  mono 1 1 [(nm 0 n_f'aa'ov, [iA; aA]); (nm 1 n_rdm1'aa'vo, [aA; iA])];
  mono (-1) 1 [(nm 0 n_v'aaaa'ooov, [lA; lA; iA; aA]); (nm 1 n_rdm1'aa'vo, [aA; iA])];
  mono 1 1 [(nm 0 n_v'aaaa'ooov, [lA; iA; lA; aA]); (nm 1 n_rdm1'aa'vo, [aA; iA])];
  mono (-1) 1 [(nm 0 n_v'aabb'ovoo, [iA; aA; lB; lB]); (nm 1 n_rdm1'aa'vo, [aA; iA])];
  mono 1 1 [(nm 0 n_f'aa'vv, [aA; bA]); (nm 1 n_rdm1'aa'vv, [aA; bA])];
  mono (-1) 1 [(nm 0 n_v'aaaa'oovv, [lA; lA; aA; bA]); (nm 1 n_rdm1'aa'vv, [aA; bA])];
  mono 1 1 [(nm 0 n_v'aaaa'ovov, [lA; aA; lA; bA]); (nm 1 n_rdm1'aa'vv, [aA; bA])];
  mono (-1) 1 [(nm 0 n_v'bbaa'oovv, [lB; lB; aA; bA]); (nm 1 n_rdm1'aa'vv, [aA; bA])];
  mono 1 1 [(nm 0 n_f'bb'oo, [iB; jB]); (nm 1 n_rdm1'bb'oo, [iB; jB])];
  mono (-1) 1 [(nm 0 n_v'bbbb'oooo, [iB; jB; lB; lB]); (nm 1 n_rdm1'bb'oo, [iB; jB])];
  mono 1 1 [(nm 0 n_v'bbbb'oooo, [iB; lB; lB; jB]); (nm 1 n_rdm1'bb'oo, [iB; jB])];
  mono (-1) 1 [(nm 0 n_v'aabb'oooo, [lA; lA; iB; jB]); (nm 1 n_rdm1'bb'oo, [iB; jB])];
  mono 1 1 [(nm 0 n_f'bb'ov, [iB; aB]); (nm 1 n_rdm1'bb'ov, [iB; aB])];
  mono (-1) 1 [(nm 0 n_v'bbbb'ooov, [lB; lB; iB; aB]); (nm 1 n_rdm1'bb'ov, [iB; aB])];
  mono 1 1 [(nm 0 n_v'bbbb'ooov, [iB; lB; lB; aB]); (nm 1 n_rdm1'bb'ov, [iB; aB])];
  mono (-1) 1 [(nm 0 n_v'aabb'ooov, [lA; lA; iB; aB]); (nm 1 n_rdm1'bb'ov, [iB; aB])];
  mono 1 1 [(nm 0 n_f'bb'ov, [iB; aB]); (nm 1 n_rdm1'bb'vo, [aB; iB])];
  mono (-1) 1 [(nm 0 n_v'bbbb'ooov, [lB; lB; iB; aB]); (nm 1 n_rdm1'bb'vo, [aB; iB])];
  mono 1 1 [(nm 0 n_v'bbbb'ooov, [lB; iB; lB; aB]); (nm 1 n_rdm1'bb'vo, [aB; iB])];
  mono (-1) 1 [(nm 0 n_v'aabb'ooov, [lA; lA; iB; aB]); (nm 1 n_rdm1'bb'vo, [aB; iB])];
  mono 1 1 [(nm 0 n_f'bb'vv, [aB; bB]); (nm 1 n_rdm1'bb'vv, [aB; bB])];
  mono (-1) 1 [(nm 0 n_v'bbbb'oovv, [lB; lB; aB; bB]); (nm 1 n_rdm1'bb'vv, [aB; bB])];
  mono 1 1 [(nm 0 n_v'bbbb'ovov, [lB; aB; lB; bB]); (nm 1 n_rdm1'bb'vv, [aB; bB])];
  mono (-1) 1 [(nm 0 n_v'aabb'oovv, [lA; lA; aB; bB]); (nm 1 n_rdm1'bb'vv, [aB; bB])]].

(** 1/2 sum_pqrs (pr|qs) rdm2_pqrs for equal spins and sum_pqrs (pr|qs) rdm2_pqrs for opposite spins. *)
Definition unrestricted_two_body : formula :=
 [mono 1 2 [(nm 0 n_v'aaaa'oooo, [iA; kA; jA; lA]); (nm 2 n_rdm2'aaaa'oooo, [iA; jA; kA; lA])];
  mono 1 2 [(nm 0 n_v'bbbb'oooo, [iB; kB; jB; lB]); (nm 2 n_rdm2'bbbb'oooo, [iB; jB; kB; lB])];
  mono 1 1 [(nm 0 n_v'aabb'oooo, [iA; jA; iB; jB]); (nm 2 n_rdm2'abab'oooo, [iA; iB; jA; jB])];
  mono 1 2 [(nm 0 n_v'aaaa'ooov, [iA; kA; jA; aA]); (nm 2 n_rdm2'aaaa'ooov, [iA; jA; kA; aA])];
  mono 1 2 [(nm 0 n_v'bbbb'ooov, [iB; kB; jB; aB]); (nm 2 n_rdm2'bbbb'ooov, [iB; jB; kB; aB])];
  mono 1 1 [(nm 0 n_v'aabb'ooov, [iA; jA; iB; aB]); (nm 2 n_rdm2'abab'ooov, [iA; iB; jA; aB])];
  mono 1 2 [(nm 0 n_v'aaaa'ooov, [jA; kA; iA; aA]); (nm 2 n_rdm2'aaaa'oovo, [iA; jA; aA; kA])];
  mono 1 2 [(nm 0 n_v'bbbb'ooov, [jB; kB; iB; aB]); (nm 2 n_rdm2'bbbb'oovo, [iB; jB; aB; kB])];
  mono 1 1 [(nm 0 n_v'aabb'ovoo, [iA; aA; iB; jB]); (nm 2 n_rdm2'abab'oovo, [iA; iB; aA; jB])];
  mono 1 2 [(nm 0 n_v'aaaa'ooov, [iA; jA; kA; aA]); (nm 2 n_rdm2'aaaa'ovoo, [iA; aA; jA; kA])];
  mono 1 2 [(nm 0 n_v'bbbb'ooov, [iB; jB; kB; aB]); (nm 2 n_rdm2'bbbb'ovoo, [iB; aB; jB; kB])];
  mono 1 1 [(nm 0 n_v'aabb'ooov, [iA; jA; iB; aB]); (nm 2 n_rdm2'abab'ovoo, [iA; aB; jA; iB])];
  mono 1 2 [(nm 0 n_v'aaaa'ooov, [iA; kA; jA; aA]); (nm 2 n_rdm2'aaaa'vooo, [aA; iA; jA; kA])];
  mono 1 2 [(nm 0 n_v'bbbb'ooov, [iB; kB; jB; aB]); (nm 2 n_rdm2'bbbb'vooo, [aB; iB; jB; kB])];
  mono 1 1 [(nm 0 n_v'aabb'ovoo, [iA; aA; iB; jB]); (nm 2 n_rdm2'abab'vooo, [aA; iB; iA; jB])];
  mono 1 2 [(nm 0 n_v'aaaa'ovov, [iA; aA; jA; bA]); (nm 2 n_rdm2'aaaa'oovv, [iA; jA; aA; bA])];
  mono 1 2 [(nm 0 n_v'bbbb'ovov, [iB; aB; jB; bB]); (nm 2 n_rdm2'bbbb'oovv, [iB; jB; aB; bB])];
  mono 1 1 [(nm 0 n_v'aabb'ovov, [iA; aA; iB; aB]); (nm 2 n_rdm2'abab'oovv, [iA; iB; aA; aB])];
  mono 1 2 [(nm 0 n_v'aaaa'oovv, [iA; jA; aA; bA]); (nm 2 n_rdm2'aaaa'ovov, [iA; aA; jA; bA])];
  mono 1 2 [(nm 0 n_v'bbbb'oovv, [iB; jB; aB; bB]); (nm 2 n_rdm2'bbbb'ovov, [iB; aB; jB; bB])];
  mono 1 1 [(nm 0 n_v'aabb'oovv, [iA; jA; aB; bB]); (nm 2 n_rdm2'abab'ovov, [iA; aB; jA; bB])];
  mono 1 2 [(nm 0 n_v'aaaa'ovov, [iA; bA; jA; aA]); (nm 2 n_rdm2'aaaa'ovvo, [iA; aA; bA; jA])];
  mono 1 2 [(nm 0 n_v'bbbb'ovov, [iB; bB; jB; aB]); (nm 2 n_rdm2'bbbb'ovvo, [iB; aB; bB; jB])];
  mono 1 1 [(nm 0 n_v'aabb'ovov, [iA; aA; iB; aB]); (nm 2 n_rdm2'abab'ovvo, [iA; aB; aA; iB])];
  mono 1 2 [(nm 0 n_v'aaaa'ovov, [jA; aA; iA; bA]); (nm 2 n_rdm2'aaaa'voov, [aA; iA; jA; bA])];
  mono 1 2 [(nm 0 n_v'bbbb'ovov, [jB; aB; iB; bB]); (nm 2 n_rdm2'bbbb'voov, [aB; iB; jB; bB])];
  mono 1 1 [(nm 0 n_v'aabb'ovov, [iA; aA; iB; aB]); (nm 2 n_rdm2'abab'voov, [aA; iB; iA; aB])];
  mono 1 2 [(nm 0 n_v'aaaa'oovv, [iA; jA; aA; bA]); (nm 2 n_rdm2'aaaa'vovo, [aA; iA; bA; jA])];
  mono 1 2 [(nm 0 n_v'bbbb'oovv, [iB; jB; aB; bB]); (nm 2 n_rdm2'bbbb'vovo, [aB; iB; bB; jB])];
  mono 1 1 [(nm 0 n_v'bbaa'oovv, [iB; jB; aA; bA]); (nm 2 n_rdm2'abab'vovo, [aA; iB; bA; jB])];
  mono 1 2 [(nm 0 n_v'aaaa'ovov, [iA; aA; jA; bA]); (nm 2 n_rdm2'aaaa'vvoo, [aA; bA; iA; jA])];
  mono 1 2 [(nm 0 n_v'bbbb'ovov, [iB; aB; jB; bB]); (nm 2 n_rdm2'bbbb'vvoo, [aB; bB; iB; jB])];
  mono 1 1 [(nm 0 n_v'aabb'ovov, [iA; aA; iB; aB]); (nm 2 n_rdm2'abab'vvoo, [aA; aB; iA; iB])];
  mono 1 2 [(nm 0 n_v'aaaa'ovvv, [iA; bA; aA; cA]); (nm 2 n_rdm2'aaaa'ovvv, [iA; aA; bA; cA])];
  mono 1 2 [(nm 0 n_v'bbbb'ovvv, [iB; bB; aB; cB]); (nm 2 n_rdm2'bbbb'ovvv, [iB; aB; bB; cB])];
  mono 1 1 [(nm 0 n_v'aabb'ovvv, [iA; aA; aB; bB]); (nm 2 n_rdm2'abab'ovvv, [iA; aB; aA; bB])];
  mono 1 2 [(nm 0 n_v'aaaa'ovvv, [iA; cA; aA; bA]); (nm 2 n_rdm2'aaaa'vovv, [aA; iA; bA; cA])];
  mono 1 2 [(nm 0 n_v'bbbb'ovvv, [iB; cB; aB; bB]); (nm 2 n_rdm2'bbbb'vovv, [aB; iB; bB; cB])];
  mono 1 1 [(nm 0 n_v'bbaa'ovvv, [iB; aB; aA; bA]); (nm 2 n_rdm2'abab'vovv, [aA; iB; bA; aB])];
  mono 1 2 [(nm 0 n_v'aaaa'ovvv, [iA; aA; bA; cA]); (nm 2 n_rdm2'aaaa'vvov, [aA; bA; iA; cA])];
  mono 1 2 [(nm 0 n_v'bbbb'ovvv, [iB; aB; bB; cB]); (nm 2 n_rdm2'bbbb'vvov, [aB; bB; iB; cB])];
  mono 1 1 [(nm 0 n_v'aabb'ovvv, [iA; aA; aB; bB]); (nm 2 n_rdm2'abab'vvov, [aA; aB; iA; bB])];
  mono 1 2 [(nm 0 n_v'aaaa'ovvv, [iA; bA; aA; cA]); (nm 2 n_rdm2'aaaa'vvvo, [aA; bA; cA; iA])];
  mono 1 2 [(nm 0 n_v'bbbb'ovvv, [iB; bB; aB; cB]); (nm 2 n_rdm2'bbbb'vvvo, [aB; bB; cB; iB])];
  mono 1 1 [(nm 0 n_v'bbaa'ovvv, [iB; aB; aA; bA]); (nm 2 n_rdm2'abab'vvvo, [aA; aB; bA; iB])];
  mono 1 2 [(nm 0 n_v'aaaa'vvvv, [aA; cA; bA; dA]); (nm 2 n_rdm2'aaaa'vvvv, [aA; bA; cA; dA])];
  mono 1 2 [(nm 0 n_v'bbbb'vvvv, [aB; cB; bB; dB]); (nm 2 n_rdm2'bbbb'vvvv, [aB; bB; cB; dB])];
  mono 1 1 [(nm 0 n_v'aabb'vvvv, [aA; bA; aB; bB]); (nm 2 n_rdm2'abab'vvvv, [aA; aB; bA; bB])]].

(** The energy of the reference. *)
Definition unrestricted_reference : formula :=
 [mono 1 1 [(nm 0 n_f'aa'oo, [iA; iA])];
  mono (-1) 2 [(nm 0 n_v'aaaa'oooo, [iA; iA; jA; jA])];
  mono 1 2 [(nm 0 n_v'aaaa'oooo, [iA; jA; jA; iA])];
  mono 1 1 [(nm 0 n_f'bb'oo, [iB; iB])];
  mono (-1) 2 [(nm 0 n_v'bbbb'oooo, [iB; iB; jB; jB])];
  mono 1 2 [(nm 0 n_v'bbbb'oooo, [iB; jB; jB; iB])];
  mono (-1) 1 [(nm 0 n_v'aabb'oooo, [iA; iA; iB; iB])]].

(** Singles. *)
Definition unrestricted_singles_part : formula :=
 [mono 1 1 [(nm 0 n_l1'aa, [aA; iA]); (nm 4 n_t1new'aa, [iA; aA])];
  mono 1 1 [(nm 0 n_l1'bb, [aB; iB]); (nm 4 n_t1new'bb, [iB; aB])]].

(** Doubles (equal-spin amplitudes, but not their residuals, are stored with a factor 1/2). *)
Definition unrestricted_doubles_part : formula :=
 [mono 1 2 [(nm 0 n_l2'aaaa, [aA; bA; iA; jA]); (nm 4 n_t2new'aaaa, [iA; jA; aA; bA])];
  mono 1 2 [(nm 0 n_l2'bbbb, [aB; bB; iB; jB]); (nm 4 n_t2new'bbbb, [iB; jB; aB; bB])];
  mono 1 1 [(nm 0 n_l2'abab, [aA; aB; iA; iB]); (nm 4 n_t2new'abab, [iA; iB; aA; aB])]].

