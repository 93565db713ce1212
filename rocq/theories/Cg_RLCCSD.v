(** Generated by tools/translate_codegen.py from ebcc/codegen/RLCCSD.py; one statement per source line
    (the number in the comment before it). *)
From Coq Require Import ZArith List.
From Verif Require Import CgModel CgNames.
Import ListNotations.

(** ebcc/codegen/RLCCSD.py:17-34 [energy] *)
Definition RLCCSD_energy : prog := mkprog
 [(n_v'ovov,[0;1;0;1]); (n_t2,[0;0;1;1]); (n_t1,[0;1]); (n_f'ov,[0;1])]
 [(*30*) Assign n_e_cc (Times (Einsum [(n_v'ovov,[0;1;2;3]); (n_t2,[0;2;1;3])] []) (2) 1);
  (*31*) AddTo n_e_cc (Times (Einsum [(n_t2,[0;1;2;3]); (n_v'ovov,[0;3;1;2])] []) (-1) 1);
  (*32*) AddTo n_e_cc (Times (Einsum [(n_t1,[0;1]); (n_f'ov,[0;1])] []) (2) 1)]
 [(n_e_cc,[])].

(** ebcc/codegen/RLCCSD.py:36-106 [update_amps] *)
Definition RLCCSD_update_amps : prog := mkprog
 [(n_f'ov,[0;1]); (n_t1,[0;1]); (n_f'oo,[0;0]); (n_f'vv,[1;1]); (n_v'ovvv,[0;1;1;1]); (n_t2,[0;0;1;1]); (n_v'ooov,[0;0;0;1]); (n_v'ovoo,[0;1;0;0]); (n_v'ovov,[0;1;0;1]); (n_v'oovv,[0;0;1;1]); (n_v'vvvv,[1;1;1;1]); (n_v'oooo,[0;0;0;0])]
 [(*50*) Assign n_t1new (Plain (Copy n_f'ov));
  (*51*) AddTo n_t1new (Times (Einsum [(n_t1,[0;1]); (n_f'oo,[2;0])] [2;1]) (-1) 1);
  (*52*) AddTo n_t1new (Plain (Einsum [(n_f'vv,[0;1]); (n_t1,[2;1])] [2;0]));
  (*53*) Assign (T 1) (Times (Copy n_v'ovvv) (-1) 2);
  (*54*) AddTo (T 1) (Plain (Transpose n_v'ovvv [0;2;1;3]));
  (*55*) AddTo n_t1new (Times (Einsum [(n_t2,[0;1;2;3]); (T 1,[1;2;3;4])] [0;4]) (2) 1);
  (*56*) Del (T 1);
  (*57*) Assign (T 2) (Times (Copy n_v'ooov) (-1) 2);
  (*58*) AddTo (T 2) (Plain (Transpose n_v'ovoo [0;2;3;1]));
  (*59*) AddTo n_t1new (Times (Einsum [(T 2,[0;1;2;3]); (n_t2,[0;2;3;4])] [1;4]) (-2) 1);
  (*60*) Del (T 2);
  (*61*) Assign (T 3) (Plain (Transpose n_v'ovov [0;2;1;3]));
  (*62*) AddTo (T 3) (Times (Copy n_v'oovv) (-1) 2);
  (*63*) AddTo n_t1new (Times (Einsum [(n_t1,[0;1]); (T 3,[0;2;1;3])] [2;3]) (2) 1);
  (*64*) Del (T 3);
  (*65*) Assign (T 4) (Times (Transpose n_t2 [0;1;3;2]) (-1) 2);
  (*66*) AddTo (T 4) (Plain (Copy n_t2));
  (*67*) AddTo n_t1new (Times (Einsum [(n_f'ov,[0;1]); (T 4,[0;2;1;3])] [2;3]) (2) 1);
  (*68*) Del (T 4);
  (*69*) Assign n_t2new (Plain (Einsum [(n_v'vvvv,[0;1;2;3]); (n_t2,[4;5;1;3])] [4;5;0;2]));
  (*70*) AddTo n_t2new (Plain (Transpose n_v'ovov [0;2;1;3]));
  (*71*) AddTo n_t2new (Plain (Einsum [(n_t2,[0;1;2;3]); (n_v'oooo,[4;1;5;0])] [4;5;3;2]));
  (*72*) Assign (T 5) (Plain (Einsum [(n_v'ooov,[0;1;2;3]); (n_t1,[1;4])] [0;2;4;3]));
  (*73*) Assign (T 9) (Plain (Copy (T 5)));
  (*74*) Del (T 5);
  (*75*) Assign (T 6) (Plain (Einsum [(n_v'oovv,[0;1;2;3]); (n_t2,[4;1;5;3])] [4;0;5;2]));
  (*76*) AddTo (T 9) (Plain (Copy (T 6)));
  (*77*) Del (T 6);
  (*78*) Assign (T 7) (Times (Transpose n_t2 [0;1;3;2]) (-1) 1);
  (*79*) AddTo (T 7) (Times (Copy n_t2) (2) 1);
  (*80*) Assign (T 8) (Plain (Einsum [(T 7,[0;1;2;3]); (n_v'ovov,[4;5;0;2])] [4;1;5;3]));
  (*81*) Del (T 7);
  (*82*) AddTo (T 9) (Times (Transpose (T 8) [1;0;3;2]) (-1) 1);
  (*83*) Del (T 8);
  (*84*) AddTo n_t2new (Times (Copy (T 9)) (-1) 1);
  (*85*) AddTo n_t2new (Times (Transpose (T 9) [1;0;3;2]) (-1) 1);
  (*86*) Del (T 9);
  (*87*) Assign (T 10) (Plain (Einsum [(n_t2,[0;1;2;3]); (n_f'oo,[4;1])] [4;0;2;3]));
  (*88*) Assign (T 12) (Plain (Copy (T 10)));
  (*89*) Del (T 10);
  (*90*) Assign (T 11) (Plain (Einsum [(n_v'oovv,[0;1;2;3]); (n_t2,[4;1;3;5])] [4;0;5;2]));
  (*91*) AddTo (T 12) (Plain (Copy (T 11)));
  (*92*) Del (T 11);
  (*93*) AddTo n_t2new (Times (Transpose (T 12) [0;1;3;2]) (-1) 1);
  (*94*) AddTo n_t2new (Times (Transpose (T 12) [1;0;2;3]) (-1) 1);
  (*95*) Del (T 12);
  (*96*) Assign (T 13) (Plain (Einsum [(n_f'vv,[0;1]); (n_t2,[2;3;4;1])] [2;3;0;4]));
  (*97*) Assign (T 15) (Plain (Copy (T 13)));
  (*98*) Del (T 13);
  (*99*) Assign (T 14) (Plain (Einsum [(n_t1,[0;1]); (n_v'ovvv,[2;3;4;1])] [0;2;3;4]));
  (*100*) AddTo (T 15) (Plain (Copy (T 14)));
  (*101*) Del (T 14);
  (*102*) AddTo n_t2new (Plain (Transpose (T 15) [0;1;3;2]));
  (*103*) AddTo n_t2new (Plain (Transpose (T 15) [1;0;2;3]));
  (*104*) Del (T 15)]
 [(n_t1new,[0;1]); (n_t2new,[0;0;1;1])].

