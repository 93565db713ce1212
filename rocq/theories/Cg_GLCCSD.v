(** Generated by tools/translate_codegen.py from ebcc/codegen/GLCCSD.py; one statement per source line
    (the number in the comment before it). *)
From Coq Require Import ZArith List.
From Verif Require Import CgModel CgNames.
Import ListNotations.

(** ebcc/codegen/GLCCSD.py:17-33 [energy] *)
Definition GLCCSD_energy : prog := mkprog
 [(n_t1,[0;1]); (n_f'ov,[0;1]); (n_v'oovv,[0;0;1;1]); (n_t2,[0;0;1;1])]
 [(*30*) Assign n_e_cc (Plain (Einsum [(n_t1,[0;1]); (n_f'ov,[0;1])] []));
  (*31*) AddTo n_e_cc (Times (Einsum [(n_v'oovv,[0;1;2;3]); (n_t2,[0;1;2;3])] []) (1) 4)]
 [(n_e_cc,[])].

(** ebcc/codegen/GLCCSD.py:35-84 [update_amps] *)
Definition GLCCSD_update_amps : prog := mkprog
 [(n_t1,[0;1]); (n_f'vv,[1;1]); (n_t2,[0;0;1;1]); (n_v'ovoo,[0;1;0;0]); (n_v'ovov,[0;1;0;1]); (n_f'ov,[0;1]); (n_f'oo,[0;0]); (n_v'ovvv,[0;1;1;1]); (n_v'oooo,[0;0;0;0]); (n_v'oovv,[0;0;1;1]); (n_v'vvvv,[1;1;1;1]); (n_v'ooov,[0;0;0;1])]
 [(*49*) Assign n_t1new (Plain (Einsum [(n_t1,[0;1]); (n_f'vv,[2;1])] [0;2]));
  (*50*) AddTo n_t1new (Times (Einsum [(n_t2,[0;1;2;3]); (n_v'ovoo,[4;3;0;1])] [4;2]) (-1) 2);
  (*51*) AddTo n_t1new (Times (Einsum [(n_v'ovov,[0;1;2;3]); (n_t1,[2;1])] [0;3]) (-1) 1);
  (*52*) AddTo n_t1new (Plain (Einsum [(n_t2,[0;1;2;3]); (n_f'ov,[1;3])] [0;2]));
  (*53*) AddTo n_t1new (Plain (Copy n_f'ov));
  (*54*) AddTo n_t1new (Times (Einsum [(n_f'oo,[0;1]); (n_t1,[1;2])] [0;2]) (-1) 1);
  (*55*) AddTo n_t1new (Times (Einsum [(n_t2,[0;1;2;3]); (n_v'ovvv,[1;4;2;3])] [0;4]) (-1) 2);
  (*56*) Assign n_t2new (Times (Einsum [(n_t2,[0;1;2;3]); (n_v'oooo,[4;5;0;1])] [4;5;2;3]) (1) 2);
  (*57*) AddTo n_t2new (Plain (Copy n_v'oovv));
  (*58*) AddTo n_t2new (Times (Einsum [(n_v'vvvv,[0;1;2;3]); (n_t2,[4;5;2;3])] [4;5;0;1]) (1) 2);
  (*59*) Assign (T 1) (Plain (Einsum [(n_t2,[0;1;2;3]); (n_v'ovov,[4;3;1;5])] [0;4;2;5]));
  (*60*) AddTo n_t2new (Times (Copy (T 1)) (-1) 1);
  (*61*) AddTo n_t2new (Plain (Transpose (T 1) [0;1;3;2]));
  (*62*) AddTo n_t2new (Plain (Transpose (T 1) [1;0;2;3]));
  (*63*) AddTo n_t2new (Times (Transpose (T 1) [1;0;3;2]) (-1) 1);
  (*64*) Del (T 1);
  (*65*) Assign (T 2) (Plain (Einsum [(n_v'ooov,[0;1;2;3]); (n_t1,[2;4])] [0;1;4;3]));
  (*66*) Assign (T 4) (Times (Transpose (T 2) [1;0;2;3]) (-1) 1);
  (*67*) Del (T 2);
  (*68*) Assign (T 3) (Plain (Einsum [(n_t2,[0;1;2;3]); (n_f'vv,[4;3])] [0;1;4;2]));
  (*69*) AddTo (T 4) (Times (Transpose (T 3) [1;0;2;3]) (-1) 1);
  (*70*) Del (T 3);
  (*71*) AddTo n_t2new (Times (Copy (T 4)) (-1) 1);
  (*72*) AddTo n_t2new (Plain (Transpose (T 4) [0;1;3;2]));
  (*73*) Del (T 4);
  (*74*) Assign (T 5) (Plain (Einsum [(n_t2,[0;1;2;3]); (n_f'oo,[4;1])] [4;0;2;3]));
  (*75*) Assign (T 7) (Times (Transpose (T 5) [0;1;3;2]) (-1) 1);
  (*76*) Del (T 5);
  (*77*) Assign (T 6) (Plain (Einsum [(n_v'ovvv,[0;1;2;3]); (n_t1,[4;1])] [4;0;2;3]));
  (*78*) AddTo (T 7) (Plain (Transpose (T 6) [0;1;3;2]));
  (*79*) Del (T 6);
  (*80*) AddTo n_t2new (Plain (Copy (T 7)));
  (*81*) AddTo n_t2new (Times (Transpose (T 7) [1;0;2;3]) (-1) 1);
  (*82*) Del (T 7)]
 [(n_t1new,[0;1]); (n_t2new,[0;0;1;1])].

