(** Generated by tools/translate_codegen.py from ebcc/codegen/GQCISD.py; one statement per source line
    (the number in the comment before it). *)
From Coq Require Import ZArith List.
From Verif Require Import CgModel CgNames.
Import ListNotations.

(** ebcc/codegen/GQCISD.py:19-38 [energy] *)
Definition GQCISD_energy : prog := mkprog
 [(n_t2,[0;0;1;1]); (n_v'oovv,[0;0;1;1])]
 [(*36*) Assign n_e_cc (Times (Einsum [(n_t2,[0;1;2;3]); (n_v'oovv,[0;1;2;3])] []) (1) 4)]
 [(n_e_cc,[])].

(** ebcc/codegen/GQCISD.py:40-126 [update_amps] *)
Definition GQCISD_update_amps : prog := mkprog
 [(n_v'oovv,[0;0;1;1]); (n_t2,[0;0;1;1]); (n_f'vv,[1;1]); (n_v'ooov,[0;0;0;1]); (n_t1,[0;1]); (n_v'ovvv,[0;1;1;1]); (n_v'ovov,[0;1;0;1]); (n_f'oo,[0;0]); (n_v'oooo,[0;0;0;0]); (n_v'ovoo,[0;1;0;0]); (n_f'ov,[0;1]); (n_v'vvvv,[1;1;1;1])]
 [(*63*) Assign (T 8) (Plain (Einsum [(n_v'oovv,[0;1;2;3]); (n_t2,[0;1;4;3])] [4;2]));
  (*64*) Assign (T 3) (Plain (Einsum [(n_t2,[0;1;2;3]); (n_v'oovv,[4;1;2;3])] [0;4]));
  (*65*) Assign (T 12) (Plain (Einsum [(n_f'vv,[0;1]); (n_t2,[2;3;4;1])] [2;3;0;4]));
  (*66*) Assign (T 11) (Plain (Einsum [(n_v'ooov,[0;1;2;3]); (n_t1,[2;4])] [0;1;4;3]));
  (*67*) Assign (T 6) (Plain (Einsum [(n_t2,[0;1;2;3]); (n_v'oovv,[4;1;5;3])] [0;4;2;5]));
  (*68*) Assign (T 15) (Plain (Einsum [(n_v'ovvv,[0;1;2;3]); (n_t1,[4;1])] [4;0;2;3]));
  (*69*) Assign (T 9) (Plain (Einsum [(T 8,[0;1]); (n_t2,[2;3;4;1])] [2;3;4;0]));
  (*70*) Del (T 8);
  (*71*) Assign (T 5) (Plain (Einsum [(n_v'ovov,[0;1;2;3]); (n_t2,[4;2;5;1])] [4;0;5;3]));
  (*72*) Assign (T 14) (Plain (Einsum [(n_f'oo,[0;1]); (n_t2,[2;1;3;4])] [0;2;3;4]));
  (*73*) Assign (T 10) (Plain (Einsum [(T 3,[0;1]); (n_t2,[2;1;3;4])] [2;0;3;4]));
  (*74*) Assign (T 16) (Plain (Copy n_v'oooo));
  (*75*) AddTo (T 16) (Times (Einsum [(n_t2,[0;1;2;3]); (n_v'oovv,[4;5;2;3])] [4;5;0;1]) (1) 2);
  (*76*) Assign (T 13) (Times (Transpose (T 11) [1;0;2;3]) (-1) 1);
  (*77*) Del (T 11);
  (*78*) AddTo (T 13) (Times (Transpose (T 12) [1;0;2;3]) (-1) 1);
  (*79*) Del (T 12);
  (*80*) Assign (T 7) (Plain (Einsum [(T 6,[0;1;2;3]); (n_t2,[4;1;5;3])] [4;0;5;2]));
  (*81*) Del (T 6);
  (*82*) Assign (T 4) (Times (Copy n_f'oo) (2) 1);
  (*83*) AddTo (T 4) (Plain (Transpose (T 3) [1;0]));
  (*84*) Del (T 3);
  (*85*) Assign (T 1) (Times (Transpose n_v'ovoo [0;2;3;1]) (-1) 1);
  (*86*) AddTo (T 1) (Plain (Einsum [(n_v'oovv,[0;1;2;3]); (n_t1,[4;3])] [4;0;1;2]));
  (*87*) Assign (T 2) (Plain (Copy n_f'ov));
  (*88*) AddTo (T 2) (Plain (Einsum [(n_t1,[0;1]); (n_v'oovv,[2;0;3;1])] [2;3]));
  (*89*) Assign n_t2new (Times (Einsum [(n_v'vvvv,[0;1;2;3]); (n_t2,[4;5;2;3])] [4;5;0;1]) (1) 2);
  (*90*) AddTo n_t2new (Plain (Copy n_v'oovv));
  (*91*) AddTo n_t2new (Times (Copy (T 5)) (-1) 1);
  (*92*) AddTo n_t2new (Plain (Transpose (T 5) [0;1;3;2]));
  (*93*) AddTo n_t2new (Plain (Transpose (T 5) [1;0;2;3]));
  (*94*) AddTo n_t2new (Times (Transpose (T 5) [1;0;3;2]) (-1) 1);
  (*95*) Del (T 5);
  (*96*) AddTo n_t2new (Plain (Copy (T 7)));
  (*97*) AddTo n_t2new (Times (Transpose (T 7) [0;1;3;2]) (-1) 1);
  (*98*) Del (T 7);
  (*99*) AddTo n_t2new (Times (Copy (T 9)) (-1) 2);
  (*100*) AddTo n_t2new (Times (Transpose (T 9) [0;1;3;2]) (1) 2);
  (*101*) Del (T 9);
  (*102*) AddTo n_t2new (Times (Transpose (T 10) [0;1;3;2]) (1) 2);
  (*103*) AddTo n_t2new (Times (Transpose (T 10) [1;0;3;2]) (-1) 2);
  (*104*) Del (T 10);
  (*105*) AddTo n_t2new (Times (Copy (T 13)) (-1) 1);
  (*106*) AddTo n_t2new (Plain (Transpose (T 13) [0;1;3;2]));
  (*107*) Del (T 13);
  (*108*) AddTo n_t2new (Times (Transpose (T 14) [0;1;3;2]) (-1) 1);
  (*109*) AddTo n_t2new (Plain (Transpose (T 14) [1;0;3;2]));
  (*110*) Del (T 14);
  (*111*) AddTo n_t2new (Plain (Transpose (T 15) [0;1;3;2]));
  (*112*) AddTo n_t2new (Times (Transpose (T 15) [1;0;3;2]) (-1) 1);
  (*113*) Del (T 15);
  (*114*) AddTo n_t2new (Times (Einsum [(n_t2,[0;1;2;3]); (T 16,[0;1;4;5])] [4;5;2;3]) (1) 2);
  (*115*) Del (T 16);
  (*116*) Assign n_t1new (Times (Einsum [(n_t1,[0;1]); (n_v'ovov,[2;1;0;3])] [2;3]) (-1) 1);
  (*117*) AddTo n_t1new (Plain (Einsum [(n_f'vv,[0;1]); (n_t1,[2;1])] [2;0]));
  (*118*) AddTo n_t1new (Times (Einsum [(n_v'ovvv,[0;1;2;3]); (n_t2,[4;0;2;3])] [4;1]) (-1) 2);
  (*119*) AddTo n_t1new (Times (Einsum [(T 1,[0;1;2;3]); (n_t2,[1;2;4;3])] [0;4]) (1) 2);
  (*120*) Del (T 1);
  (*121*) AddTo n_t1new (Plain (Einsum [(n_t2,[0;1;2;3]); (T 2,[1;3])] [0;2]));
  (*122*) Del (T 2);
  (*123*) AddTo n_t1new (Times (Einsum [(T 4,[0;1]); (n_t1,[0;2])] [1;2]) (-1) 2);
  (*124*) Del (T 4)]
 [(n_t1new,[0;1]); (n_t2new,[0;0;1;1])].

