(** Generated by tools/translate_codegen.py from ebcc/codegen/GLCCD.py; one statement per source line
    (the number in the comment before it). *)
From Coq Require Import ZArith List.
From Verif Require Import CgModel CgNames.
Import ListNotations.

(** ebcc/codegen/GLCCD.py:17-30 [energy] *)
Definition GLCCD_energy : prog := mkprog
 [(n_t2,[0;0;1;1]); (n_v'oovv,[0;0;1;1])]
 [(*28*) Assign n_e_cc (Times (Einsum [(n_t2,[0;1;2;3]); (n_v'oovv,[0;1;2;3])] []) (1) 4)]
 [(n_e_cc,[])].

(** ebcc/codegen/GLCCD.py:32-62 [update_amps] *)
Definition GLCCD_update_amps : prog := mkprog
 [(n_t2,[0;0;1;1]); (n_v'oooo,[0;0;0;0]); (n_v'oovv,[0;0;1;1]); (n_v'vvvv,[1;1;1;1]); (n_f'vv,[1;1]); (n_f'oo,[0;0]); (n_v'ovov,[0;1;0;1])]
 [(*44*) Assign n_t2new (Times (Einsum [(n_t2,[0;1;2;3]); (n_v'oooo,[4;5;0;1])] [4;5;2;3]) (1) 2);
  (*45*) AddTo n_t2new (Plain (Copy n_v'oovv));
  (*46*) AddTo n_t2new (Times (Einsum [(n_t2,[0;1;2;3]); (n_v'vvvv,[4;5;2;3])] [0;1;4;5]) (1) 2);
  (*47*) Assign (T 1) (Plain (Einsum [(n_t2,[0;1;2;3]); (n_f'vv,[4;3])] [0;1;4;2]));
  (*48*) AddTo n_t2new (Plain (Transpose (T 1) [1;0;2;3]));
  (*49*) AddTo n_t2new (Times (Transpose (T 1) [1;0;3;2]) (-1) 1);
  (*50*) Del (T 1);
  (*51*) Assign (T 2) (Plain (Einsum [(n_t2,[0;1;2;3]); (n_f'oo,[4;1])] [4;0;2;3]));
  (*52*) AddTo n_t2new (Times (Transpose (T 2) [0;1;3;2]) (-1) 1);
  (*53*) AddTo n_t2new (Plain (Transpose (T 2) [1;0;3;2]));
  (*54*) Del (T 2);
  (*55*) Assign (T 3) (Plain (Einsum [(n_t2,[0;1;2;3]); (n_v'ovov,[4;3;1;5])] [0;4;2;5]));
  (*56*) AddTo n_t2new (Times (Copy (T 3)) (-1) 1);
  (*57*) AddTo n_t2new (Plain (Transpose (T 3) [0;1;3;2]));
  (*58*) AddTo n_t2new (Plain (Transpose (T 3) [1;0;2;3]));
  (*59*) AddTo n_t2new (Times (Transpose (T 3) [1;0;3;2]) (-1) 1);
  (*60*) Del (T 3)]
 [(n_t2new,[0;0;1;1])].

