(** Generated by tools/translate_codegen.py from ebcc/codegen/RLCCD.py; one statement per source line
    (the number in the comment before it). *)
From Coq Require Import ZArith List.
From Verif Require Import CgModel CgNames.
Import ListNotations.

(** ebcc/codegen/RLCCD.py:17-31 [energy] *)
Definition RLCCD_energy : prog := mkprog
 [(n_t2,[0;0;1;1]); (n_v'ovov,[0;1;0;1])]
 [(*28*) Assign n_e_cc (Times (Einsum [(n_t2,[0;1;2;3]); (n_v'ovov,[0;2;1;3])] []) (2) 1);
  (*29*) AddTo n_e_cc (Times (Einsum [(n_v'ovov,[0;1;2;3]); (n_t2,[0;2;3;1])] []) (-1) 1)]
 [(n_e_cc,[])].

(** ebcc/codegen/RLCCD.py:33-74 [update_amps] *)
Definition RLCCD_update_amps : prog := mkprog
 [(n_v'oooo,[0;0;0;0]); (n_t2,[0;0;1;1]); (n_v'ovov,[0;1;0;1]); (n_v'vvvv,[1;1;1;1]); (n_f'vv,[1;1]); (n_f'oo,[0;0]); (n_v'oovv,[0;0;1;1])]
 [(*45*) Assign n_t2new (Plain (Einsum [(n_v'oooo,[0;1;2;3]); (n_t2,[3;1;4;5])] [0;2;5;4]));
  (*46*) AddTo n_t2new (Plain (Transpose n_v'ovov [0;2;1;3]));
  (*47*) AddTo n_t2new (Plain (Einsum [(n_t2,[0;1;2;3]); (n_v'vvvv,[4;2;5;3])] [0;1;4;5]));
  (*48*) Assign (T 1) (Plain (Einsum [(n_t2,[0;1;2;3]); (n_f'vv,[4;3])] [0;1;4;2]));
  (*49*) AddTo n_t2new (Plain (Transpose (T 1) [0;1;3;2]));
  (*50*) AddTo n_t2new (Plain (Transpose (T 1) [1;0;2;3]));
  (*51*) Del (T 1);
  (*52*) Assign (T 2) (Plain (Einsum [(n_t2,[0;1;2;3]); (n_f'oo,[4;1])] [4;0;2;3]));
  (*53*) Assign (T 4) (Plain (Copy (T 2)));
  (*54*) Del (T 2);
  (*55*) Assign (T 3) (Plain (Einsum [(n_t2,[0;1;2;3]); (n_v'oovv,[4;1;5;2])] [0;4;3;5]));
  (*56*) AddTo (T 4) (Plain (Copy (T 3)));
  (*57*) Del (T 3);
  (*58*) AddTo n_t2new (Times (Transpose (T 4) [0;1;3;2]) (-1) 1);
  (*59*) AddTo n_t2new (Times (Transpose (T 4) [1;0;2;3]) (-1) 1);
  (*60*) Del (T 4);
  (*61*) Assign (T 5) (Plain (Einsum [(n_v'oovv,[0;1;2;3]); (n_t2,[4;1;5;3])] [4;0;5;2]));
  (*62*) Assign (T 8) (Plain (Copy (T 5)));
  (*63*) Del (T 5);
  (*64*) Assign (T 6) (Times (Transpose n_t2 [0;1;3;2]) (2) 1);
  (*65*) AddTo (T 6) (Times (Copy n_t2) (-1) 1);
  (*66*) Assign (T 7) (Plain (Einsum [(T 6,[0;1;2;3]); (n_v'ovov,[4;5;0;3])] [1;4;2;5]));
  (*67*) Del (T 6);
  (*68*) AddTo (T 8) (Times (Copy (T 7)) (-1) 1);
  (*69*) Del (T 7);
  (*70*) AddTo n_t2new (Times (Copy (T 8)) (-1) 1);
  (*71*) AddTo n_t2new (Times (Transpose (T 8) [1;0;3;2]) (-1) 1);
  (*72*) Del (T 8)]
 [(n_t2new,[0;0;1;1])].

