(** Generated by tools/translate_codegen.py from ebcc/codegen/GMP3.py; one statement per source line
    (the number in the comment before it). *)
From Coq Require Import ZArith List.
From Verif Require Import CgModel CgNames.
Import ListNotations.

(** ebcc/codegen/GMP3.py:19-44 [energy] *)
Definition GMP3_energy : prog := mkprog
 [(n_t2,[0;0;1;1]); (n_v'oovv,[0;0;1;1]); (n_v'ovov,[0;1;0;1]); (n_v'vvvv,[1;1;1;1]); (n_v'oooo,[0;0;0;0])]
 [(*35*) Assign (T 1) (Plain (Einsum [(n_t2,[0;1;2;3]); (n_t2,[4;5;2;3])] [4;0;1;5]));
  (*36*) Assign (T 2) (Times (Copy n_v'oovv) (2) 1);
  (*37*) AddTo (T 2) (Times (Einsum [(n_v'ovov,[0;1;2;3]); (n_t2,[4;2;5;1])] [0;4;3;5]) (-8) 1);
  (*38*) AddTo (T 2) (Plain (Einsum [(n_t2,[0;1;2;3]); (n_v'vvvv,[4;5;2;3])] [0;1;4;5]));
  (*39*) Assign n_e_mp (Times (Einsum [(n_v'oooo,[0;1;2;3]); (T 1,[3;0;1;2])] []) (-1) 8);
  (*40*) Del (T 1);
  (*41*) AddTo n_e_mp (Times (Einsum [(T 2,[0;1;2;3]); (n_t2,[0;1;2;3])] []) (1) 8);
  (*42*) Del (T 2)]
 [(n_e_mp,[])].

