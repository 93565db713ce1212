(** Generated by tools/translate_codegen.py from ebcc/codegen/RDFLCCSD.py; one statement per source line
    (the number in the comment before it). *)
From Coq Require Import ZArith List.
From Verif Require Import CgModel CgNames.
Import ListNotations.

(** ebcc/codegen/RDFLCCSD.py:17-38 [energy] *)
Definition RDFLCCSD_energy : prog := mkprog
 [(n_f'ov,[0;1]); (n_t1,[0;1]); (n_t2,[0;0;1;1]); (n_v'xov,[2;0;1])]
 [(*30*) Assign n_e_cc (Times (Einsum [(n_f'ov,[0;1]); (n_t1,[0;1])] []) (2) 1);
  (*31*) Assign (T 1) (Times (Transpose n_t2 [1;0;2;3]) (2) 1);
  (*32*) AddTo (T 1) (Times (Transpose n_t2 [1;0;3;2]) (-1) 1);
  (*33*) Assign (T 2) (Times (Einsum [(T 1,[0;1;2;3]); (n_v'xov,[4;0;3])] [1;2;4]) (1) 2);
  (*34*) Del (T 1);
  (*35*) AddTo n_e_cc (Times (Einsum [(n_v'xov,[0;1;2]); (T 2,[1;2;0])] []) (2) 1);
  (*36*) Del (T 2)]
 [(n_e_cc,[])].

(** ebcc/codegen/RDFLCCSD.py:40-116 [update_amps] *)
Definition RDFLCCSD_update_amps : prog := mkprog
 [(n_f'vv,[1;1]); (n_t1,[0;1]); (n_f'ov,[0;1]); (n_v'xov,[2;0;1]); (n_f'oo,[0;0]); (n_v'xoo,[2;0;0]); (n_t2,[0;0;1;1]); (n_v'xvv,[2;1;1])]
 [(*54*) Assign n_t1new (Plain (Einsum [(n_f'vv,[0;1]); (n_t1,[2;1])] [2;0]));
  (*55*) AddTo n_t1new (Plain (Copy n_f'ov));
  (*56*) Assign (T 1) (Plain (Einsum [(n_v'xov,[0;1;2]); (n_t1,[1;2])] [0]));
  (*57*) AddTo n_t1new (Times (Einsum [(n_v'xov,[0;1;2]); (T 1,[0])] [1;2]) (2) 1);
  (*58*) Del (T 1);
  (*59*) AddTo n_t1new (Times (Einsum [(n_t1,[0;1]); (n_f'oo,[2;0])] [2;1]) (-1) 1);
  (*60*) Assign (T 2) (Plain (Einsum [(n_v'xoo,[0;1;2]); (n_v'xov,[0;3;4])] [1;2;3;4]));
  (*61*) Assign (T 3) (Times (Transpose n_t2 [0;1;3;2]) (2) 1);
  (*62*) AddTo (T 3) (Times (Copy n_t2) (-1) 1);
  (*63*) AddTo n_t1new (Times (Einsum [(T 2,[0;1;2;3]); (T 3,[2;0;4;3])] [1;4]) (-1) 1);
  (*64*) Del (T 2);
  (*64*) Del (T 3);
  (*65*) Assign (T 4) (Plain (Einsum [(n_t1,[0;1]); (n_v'xoo,[2;3;0])] [3;1;2]));
  (*66*) Assign (T 7) (Plain (Copy (T 4)));
  (*67*) Del (T 4);
  (*68*) Assign (T 5) (Plain (Transpose n_t2 [0;1;3;2]));
  (*69*) AddTo (T 5) (Times (Copy n_t2) (-1) 2);
  (*70*) Assign (T 6) (Times (Einsum [(T 5,[0;1;2;3]); (n_v'xov,[4;0;3])] [1;2;4]) (2) 1);
  (*71*) AddTo (T 7) (Times (Copy (T 6)) (-1) 1);
  (*72*) Del (T 6);
  (*73*) AddTo n_t1new (Times (Einsum [(n_v'xvv,[0;1;2]); (T 7,[3;2;0])] [3;1]) (-1) 1);
  (*74*) AddTo n_t1new (Times (Einsum [(T 5,[0;1;2;3]); (n_f'ov,[0;3])] [1;2]) (2) 1);
  (*75*) Del (T 5);
  (*76*) Assign (T 8) (Plain (Einsum [(n_v'xvv,[0;1;2]); (n_v'xvv,[0;3;4])] [1;3;4;2]));
  (*77*) Assign n_t2new (Plain (Einsum [(n_t2,[0;1;2;3]); (T 8,[4;3;5;2])] [0;1;4;5]));
  (*78*) Del (T 8);
  (*79*) AddTo n_t2new (Plain (Einsum [(n_v'xov,[0;1;2]); (n_v'xov,[0;3;4])] [1;3;2;4]));
  (*80*) Assign (T 9) (Plain (Einsum [(n_v'xoo,[0;1;2]); (n_v'xoo,[0;3;4])] [1;3;4;2]));
  (*81*) AddTo n_t2new (Plain (Einsum [(T 9,[0;1;2;3]); (n_t2,[1;3;4;5])] [2;0;4;5]));
  (*82*) Del (T 9);
  (*83*) Assign (T 10) (Plain (Einsum [(n_v'xoo,[0;1;2]); (n_v'xvv,[0;3;4])] [1;2;3;4]));
  (*84*) Assign (T 11) (Plain (Einsum [(T 10,[0;1;2;3]); (n_t2,[4;1;5;3])] [4;0;5;2]));
  (*85*) Assign (T 13) (Plain (Copy (T 11)));
  (*86*) Del (T 11);
  (*87*) Assign (T 12) (Plain (Einsum [(n_v'xov,[0;1;2]); (T 7,[3;4;0])] [1;3;2;4]));
  (*88*) Del (T 7);
  (*89*) AddTo (T 13) (Plain (Transpose (T 12) [1;0;3;2]));
  (*90*) Del (T 12);
  (*91*) AddTo n_t2new (Times (Copy (T 13)) (-1) 1);
  (*92*) AddTo n_t2new (Times (Transpose (T 13) [1;0;3;2]) (-1) 1);
  (*93*) Del (T 13);
  (*94*) Assign (T 14) (Plain (Einsum [(n_f'oo,[0;1]); (n_t2,[2;1;3;4])] [0;2;3;4]));
  (*95*) Assign (T 16) (Plain (Copy (T 14)));
  (*96*) Del (T 14);
  (*97*) Assign (T 15) (Plain (Einsum [(n_t2,[0;1;2;3]); (T 10,[4;1;5;2])] [0;4;3;5]));
  (*98*) Del (T 10);
  (*99*) AddTo (T 16) (Plain (Copy (T 15)));
  (*100*) Del (T 15);
  (*101*) AddTo n_t2new (Times (Transpose (T 16) [0;1;3;2]) (-1) 1);
  (*102*) AddTo n_t2new (Times (Transpose (T 16) [1;0;2;3]) (-1) 1);
  (*103*) Del (T 16);
  (*104*) Assign (T 17) (Plain (Einsum [(n_f'vv,[0;1]); (n_t2,[2;3;4;1])] [2;3;0;4]));
  (*105*) Assign (T 20) (Plain (Copy (T 17)));
  (*106*) Del (T 17);
  (*107*) Assign (T 18) (Plain (Einsum [(n_t1,[0;1]); (n_v'xvv,[2;3;1])] [0;3;2]));
  (*108*) Assign (T 19) (Plain (Einsum [(T 18,[0;1;2]); (n_v'xov,[2;3;4])] [0;3;4;1]));
  (*109*) Del (T 18);
  (*110*) AddTo (T 20) (Plain (Copy (T 19)));
  (*111*) Del (T 19);
  (*112*) AddTo n_t2new (Plain (Transpose (T 20) [0;1;3;2]));
  (*113*) AddTo n_t2new (Plain (Transpose (T 20) [1;0;2;3]));
  (*114*) Del (T 20)]
 [(n_t1new,[0;1]); (n_t2new,[0;0;1;1])].

