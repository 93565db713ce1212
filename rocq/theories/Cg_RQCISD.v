(** Generated by tools/translate_codegen.py from ebcc/codegen/RQCISD.py; one statement per source line
    (the number in the comment before it). *)
From Coq Require Import ZArith List.
From Verif Require Import CgModel CgNames.
Import ListNotations.

(** ebcc/codegen/RQCISD.py:19-39 [energy] *)
Definition RQCISD_energy : prog := mkprog
 [(n_t2,[0;0;1;1]); (n_v'ovov,[0;1;0;1])]
 [(*36*) Assign n_e_cc (Times (Einsum [(n_t2,[0;1;2;3]); (n_v'ovov,[0;2;1;3])] []) (2) 1);
  (*37*) AddTo n_e_cc (Times (Einsum [(n_t2,[0;1;2;3]); (n_v'ovov,[0;3;1;2])] []) (-1) 1)]
 [(n_e_cc,[])].

(** ebcc/codegen/RQCISD.py:41-166 [update_amps] *)
Definition RQCISD_update_amps : prog := mkprog
 [(n_v'ovov,[0;1;0;1]); (n_t2,[0;0;1;1]); (n_v'ovvv,[0;1;1;1]); (n_t1,[0;1]); (n_f'vv,[1;1]); (n_v'ooov,[0;0;0;1]); (n_f'oo,[0;0]); (n_v'oovv,[0;0;1;1]); (n_v'oooo,[0;0;0;0]); (n_f'ov,[0;1]); (n_v'vvvv,[1;1;1;1])]
 [(*64*) Assign (T 20) (Plain (Transpose n_v'ovov [0;2;3;1]));
  (*65*) AddTo (T 20) (Times (Transpose n_v'ovov [0;2;1;3]) (-1) 2);
  (*66*) Assign (T 13) (Times (Transpose n_v'ovov [0;2;3;1]) (-1) 1);
  (*67*) AddTo (T 13) (Times (Transpose n_v'ovov [0;2;1;3]) (2) 1);
  (*68*) Assign (T 21) (Plain (Einsum [(n_t2,[0;1;2;3]); (T 20,[0;1;4;2])] [3;4]));
  (*69*) Assign (T 23) (Times (Einsum [(n_t2,[0;1;2;3]); (T 20,[1;4;2;3])] [0;4]) (2) 1);
  (*70*) Del (T 20);
  (*71*) Assign (T 14) (Plain (Einsum [(T 13,[0;1;2;3]); (n_t2,[4;0;5;2])] [4;1;5;3]));
  (*72*) Del (T 13);
  (*73*) Assign (T 18) (Plain (Einsum [(n_v'ovvv,[0;1;2;3]); (n_t1,[4;3])] [4;0;1;2]));
  (*74*) Assign (T 17) (Plain (Einsum [(n_f'vv,[0;1]); (n_t2,[2;3;4;1])] [2;3;0;4]));
  (*75*) Assign (T 22) (Times (Einsum [(T 21,[0;1]); (n_t2,[2;3;1;4])] [2;3;4;0]) (2) 1);
  (*76*) Del (T 21);
  (*77*) Assign (T 24) (Plain (Einsum [(n_t2,[0;1;2;3]); (T 23,[4;1])] [0;4;3;2]));
  (*78*) Del (T 23);
  (*79*) Assign (T 10) (Plain (Einsum [(n_t2,[0;1;2;3]); (n_v'ovov,[4;5;1;2])] [0;4;3;5]));
  (*80*) Assign (T 15) (Plain (Einsum [(n_t2,[0;1;2;3]); (T 14,[4;1;5;2])] [0;4;3;5]));
  (*81*) Assign (T 12) (Plain (Einsum [(n_t1,[0;1]); (n_v'ooov,[2;0;3;4])] [2;3;1;4]));
  (*82*) Assign (T 4) (Times (Transpose n_v'ovov [0;2;3;1]) (2) 1);
  (*83*) AddTo (T 4) (Times (Transpose n_v'ovov [0;2;1;3]) (-1) 1);
  (*84*) Assign (T 2) (Plain (Einsum [(n_t1,[0;1]); (n_v'ovov,[2;3;4;1])] [0;2;4;3]));
  (*85*) Assign (T 8) (Times (Transpose n_v'ovov [0;2;3;1]) (2) 1);
  (*86*) AddTo (T 8) (Times (Transpose n_v'ovov [0;2;1;3]) (-1) 1);
  (*87*) Assign (T 19) (Plain (Copy (T 17)));
  (*88*) Del (T 17);
  (*89*) AddTo (T 19) (Plain (Copy (T 18)));
  (*90*) Del (T 18);
  (*91*) Assign (T 25) (Plain (Transpose (T 22) [1;0;2;3]));
  (*92*) Del (T 22);
  (*93*) AddTo (T 25) (Plain (Transpose (T 24) [0;1;3;2]));
  (*94*) Del (T 24);
  (*95*) Assign (T 28) (Times (Transpose n_v'ovov [0;2;1;3]) (-1) 1);
  (*96*) AddTo (T 28) (Plain (Copy (T 10)));
  (*97*) Assign (T 11) (Plain (Einsum [(n_t2,[0;1;2;3]); (n_f'oo,[4;1])] [4;0;2;3]));
  (*98*) Assign (T 26) (Times (Transpose n_v'ovov [0;2;1;3]) (2) 1);
  (*99*) AddTo (T 26) (Times (Copy n_v'oovv) (-1) 1);
  (*100*) AddTo (T 26) (Times (Copy (T 14)) (2) 1);
  (*101*) Del (T 14);
  (*102*) Assign (T 16) (Plain (Copy (T 12)));
  (*103*) Del (T 12);
  (*104*) AddTo (T 16) (Plain (Transpose (T 15) [1;0;3;2]));
  (*105*) Del (T 15);
  (*106*) Assign (T 29) (Times (Copy n_v'oovv) (-1) 1);
  (*107*) AddTo (T 29) (Plain (Einsum [(n_v'ovov,[0;1;2;3]); (n_t2,[4;2;1;5])] [4;0;5;3]));
  (*108*) Assign (T 27) (Plain (Copy n_v'oooo));
  (*109*) AddTo (T 27) (Plain (Einsum [(n_v'ovov,[0;1;2;3]); (n_t2,[4;5;1;3])] [0;4;5;2]));
  (*110*) Assign (T 1) (Plain (Copy n_v'ovvv));
  (*111*) AddTo (T 1) (Times (Transpose n_v'ovvv [0;2;1;3]) (-1) 2);
  (*112*) Assign (T 6) (Times (Transpose n_t2 [0;1;3;2]) (2) 1);
  (*113*) AddTo (T 6) (Times (Copy n_t2) (-1) 1);
  (*114*) Assign (T 5) (Plain (Copy n_f'ov));
  (*115*) AddTo (T 5) (Plain (Einsum [(n_t1,[0;1]); (T 4,[0;2;3;1])] [2;3]));
  (*116*) Del (T 4);
  (*117*) Assign (T 7) (Times (Transpose n_v'ovov [0;2;1;3]) (2) 1);
  (*118*) AddTo (T 7) (Times (Copy n_v'oovv) (-1) 1);
  (*119*) Assign (T 3) (Times (Copy n_v'ooov) (-1) 2);
  (*120*) AddTo (T 3) (Plain (Transpose n_v'ooov [0;2;1;3]));
  (*121*) AddTo (T 3) (Plain (Copy (T 2)));
  (*122*) AddTo (T 3) (Times (Transpose (T 2) [0;2;1;3]) (-1) 2);
  (*123*) Del (T 2);
  (*124*) Assign (T 9) (Plain (Copy n_f'oo));
  (*125*) AddTo (T 9) (Plain (Einsum [(n_t2,[0;1;2;3]); (T 8,[1;4;2;3])] [4;0]));
  (*126*) Del (T 8);
  (*127*) Assign n_t2new (Plain (Transpose n_v'ovov [0;2;1;3]));
  (*128*) AddTo n_t2new (Times (Einsum [(n_v'oovv,[0;1;2;3]); (n_t2,[4;1;5;3])] [0;4;2;5]) (-1) 1);
  (*129*) AddTo n_t2new (Times (Transpose (T 10) [1;0;3;2]) (-1) 1);
  (*130*) Del (T 10);
  (*131*) AddTo n_t2new (Times (Einsum [(n_t2,[0;1;2;3]); (n_v'oovv,[4;1;5;2])] [0;4;5;3]) (-1) 1);
  (*132*) AddTo n_t2new (Times (Einsum [(n_t2,[0;1;2;3]); (n_v'ovov,[4;5;1;3])] [4;0;5;2]) (2) 1);
  (*133*) AddTo n_t2new (Plain (Einsum [(n_v'vvvv,[0;1;2;3]); (n_t2,[4;5;1;3])] [4;5;0;2]));
  (*134*) AddTo n_t2new (Times (Transpose (T 11) [0;1;3;2]) (-1) 1);
  (*135*) AddTo n_t2new (Times (Transpose (T 11) [1;0;2;3]) (-1) 1);
  (*136*) Del (T 11);
  (*137*) AddTo n_t2new (Times (Copy (T 16)) (-1) 1);
  (*138*) AddTo n_t2new (Times (Transpose (T 16) [1;0;3;2]) (-1) 1);
  (*139*) Del (T 16);
  (*140*) AddTo n_t2new (Plain (Transpose (T 19) [0;1;3;2]));
  (*141*) AddTo n_t2new (Plain (Transpose (T 19) [1;0;2;3]));
  (*142*) Del (T 19);
  (*143*) AddTo n_t2new (Times (Copy (T 25)) (-1) 1);
  (*144*) AddTo n_t2new (Times (Transpose (T 25) [1;0;3;2]) (-1) 1);
  (*145*) Del (T 25);
  (*146*) AddTo n_t2new (Plain (Einsum [(T 26,[0;1;2;3]); (n_t2,[4;1;5;3])] [4;0;5;2]));
  (*147*) Del (T 26);
  (*148*) AddTo n_t2new (Plain (Einsum [(T 27,[0;1;2;3]); (n_t2,[0;3;4;5])] [2;1;5;4]));
  (*149*) Del (T 27);
  (*150*) AddTo n_t2new (Plain (Einsum [(T 28,[0;1;2;3]); (n_t2,[4;1;3;5])] [4;0;5;2]));
  (*151*) Del (T 28);
  (*152*) AddTo n_t2new (Plain (Einsum [(T 29,[0;1;2;3]); (n_t2,[4;1;3;5])] [0;4;5;2]));
  (*153*) Del (T 29);
  (*154*) Assign n_t1new (Plain (Einsum [(n_t1,[0;1]); (n_f'vv,[2;1])] [0;2]));
  (*155*) AddTo n_t1new (Times (Einsum [(T 1,[0;1;2;3]); (n_t2,[4;0;2;1])] [4;3]) (2) 1);
  (*156*) Del (T 1);
  (*157*) AddTo n_t1new (Times (Einsum [(n_t2,[0;1;2;3]); (T 3,[4;0;1;2])] [4;3]) (-2) 1);
  (*158*) Del (T 3);
  (*159*) AddTo n_t1new (Plain (Einsum [(T 5,[0;1]); (T 6,[0;2;3;1])] [2;3]));
  (*160*) Del (T 5);
  (*160*) Del (T 6);
  (*161*) AddTo n_t1new (Plain (Einsum [(T 7,[0;1;2;3]); (n_t1,[0;2])] [1;3]));
  (*162*) Del (T 7);
  (*163*) AddTo n_t1new (Times (Einsum [(n_t1,[0;1]); (T 9,[0;2])] [2;1]) (-1) 1);
  (*164*) Del (T 9)]
 [(n_t1new,[0;1]); (n_t2new,[0;0;1;1])].

