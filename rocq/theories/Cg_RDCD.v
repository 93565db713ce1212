(** Generated by tools/translate_codegen.py from ebcc/codegen/RDCD.py; one statement per source line
    (the number in the comment before it). *)
From Coq Require Import ZArith List.
From Verif Require Import CgModel CgNames.
Import ListNotations.

(** ebcc/codegen/RDCD.py:19-39 [energy] *)
Definition RDCD_energy : prog := mkprog
 [(n_t2,[0;0;1;1]); (n_v'ovov,[0;1;0;1])]
 [(*36*) Assign n_e_cc (Times (Einsum [(n_t2,[0;1;2;3]); (n_v'ovov,[0;2;1;3])] []) (2) 1);
  (*37*) AddTo n_e_cc (Times (Einsum [(n_t2,[0;1;2;3]); (n_v'ovov,[0;3;1;2])] []) (-1) 1)]
 [(n_e_cc,[])].

(** ebcc/codegen/RDCD.py:41-112 [update_amps] *)
Definition RDCD_update_amps : prog := mkprog
 [(n_v'ovov,[0;1;0;1]); (n_t2,[0;0;1;1]); (n_f'vv,[1;1]); (n_v'oovv,[0;0;1;1]); (n_f'oo,[0;0]); (n_v'vvvv,[1;1;1;1]); (n_v'oooo,[0;0;0;0])]
 [(*60*) Assign (T 7) (Plain (Transpose n_v'ovov [0;2;3;1]));
  (*61*) AddTo (T 7) (Times (Transpose n_v'ovov [0;2;1;3]) (-1) 2);
  (*62*) Assign (T 8) (Plain (Einsum [(n_t2,[0;1;2;3]); (T 7,[0;1;3;4])] [2;4]));
  (*63*) Assign (T 1) (Plain (Einsum [(n_v'ovov,[0;1;2;3]); (n_t2,[4;2;3;5])] [4;0;5;1]));
  (*64*) Assign (T 10) (Times (Einsum [(n_t2,[0;1;2;3]); (T 7,[1;4;2;3])] [0;4]) (2) 1);
  (*65*) Del (T 7);
  (*66*) Assign (T 2) (Plain (Einsum [(n_v'ovov,[0;1;2;3]); (n_t2,[4;2;5;3])] [4;0;5;1]));
  (*67*) Assign (T 9) (Plain (Einsum [(n_t2,[0;1;2;3]); (T 8,[4;2])] [0;1;3;4]));
  (*68*) Del (T 8);
  (*69*) Assign (T 6) (Plain (Einsum [(n_t2,[0;1;2;3]); (T 1,[4;1;5;3])] [0;4;2;5]));
  (*70*) Assign (T 11) (Times (Einsum [(n_t2,[0;1;2;3]); (T 10,[4;1])] [0;4;3;2]) (1) 2);
  (*71*) Del (T 10);
  (*72*) Assign (T 3) (Plain (Einsum [(n_t2,[0;1;2;3]); (n_f'vv,[4;3])] [0;1;4;2]));
  (*73*) Assign (T 4) (Plain (Einsum [(n_v'oovv,[0;1;2;3]); (n_t2,[4;1;3;5])] [4;0;5;2]));
  (*74*) Assign (T 15) (Times (Transpose n_v'ovov [0;2;1;3]) (2) 1);
  (*75*) AddTo (T 15) (Times (Copy n_v'oovv) (-1) 1);
  (*76*) AddTo (T 15) (Times (Copy (T 2)) (4) 1);
  (*77*) Assign (T 12) (Times (Copy (T 6)) (2) 1);
  (*78*) Del (T 6);
  (*79*) AddTo (T 12) (Plain (Transpose (T 9) [1;0;2;3]));
  (*80*) Del (T 9);
  (*81*) AddTo (T 12) (Plain (Transpose (T 11) [0;1;3;2]));
  (*82*) Del (T 11);
  (*83*) Assign (T 14) (Times (Transpose n_v'ovov [0;2;1;3]) (-1) 1);
  (*84*) AddTo (T 14) (Plain (Copy (T 1)));
  (*85*) Assign (T 5) (Plain (Copy (T 3)));
  (*86*) Del (T 3);
  (*87*) AddTo (T 5) (Times (Copy (T 4)) (-1) 1);
  (*88*) Del (T 4);
  (*89*) Assign (T 13) (Plain (Einsum [(n_t2,[0;1;2;3]); (n_f'oo,[4;1])] [4;0;2;3]));
  (*90*) Assign n_t2new (Times (Einsum [(n_v'oovv,[0;1;2;3]); (n_t2,[4;1;5;3])] [0;4;2;5]) (-1) 1);
  (*91*) AddTo n_t2new (Times (Transpose (T 1) [1;0;3;2]) (-1) 1);
  (*92*) Del (T 1);
  (*93*) AddTo n_t2new (Times (Transpose (T 2) [1;0;3;2]) (2) 1);
  (*94*) Del (T 2);
  (*95*) AddTo n_t2new (Plain (Einsum [(n_v'vvvv,[0;1;2;3]); (n_t2,[4;5;1;3])] [4;5;0;2]));
  (*96*) AddTo n_t2new (Plain (Transpose n_v'ovov [0;2;1;3]));
  (*97*) AddTo n_t2new (Plain (Einsum [(n_t2,[0;1;2;3]); (n_v'oooo,[4;1;5;0])] [4;5;3;2]));
  (*98*) AddTo n_t2new (Plain (Transpose (T 5) [0;1;3;2]));
  (*99*) AddTo n_t2new (Plain (Transpose (T 5) [1;0;2;3]));
  (*100*) Del (T 5);
  (*101*) AddTo n_t2new (Times (Copy (T 12)) (-1) 1);
  (*102*) AddTo n_t2new (Times (Transpose (T 12) [1;0;3;2]) (-1) 1);
  (*103*) Del (T 12);
  (*104*) AddTo n_t2new (Times (Transpose (T 13) [0;1;3;2]) (-1) 1);
  (*105*) AddTo n_t2new (Times (Transpose (T 13) [1;0;2;3]) (-1) 1);
  (*106*) Del (T 13);
  (*107*) AddTo n_t2new (Plain (Einsum [(T 14,[0;1;2;3]); (n_t2,[4;1;3;5])] [4;0;5;2]));
  (*108*) Del (T 14);
  (*109*) AddTo n_t2new (Plain (Einsum [(T 15,[0;1;2;3]); (n_t2,[4;1;5;3])] [4;0;5;2]));
  (*110*) Del (T 15)]
 [(n_t2new,[0;0;1;1])].

