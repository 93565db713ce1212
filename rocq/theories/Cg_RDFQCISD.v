(** Generated by tools/translate_codegen.py from ebcc/codegen/RDFQCISD.py; one statement per source line
    (the number in the comment before it). *)
From Coq Require Import ZArith List.
From Verif Require Import CgModel CgNames.
Import ListNotations.

(** ebcc/codegen/RDFQCISD.py:19-43 [energy] *)
Definition RDFQCISD_energy : prog := mkprog
 [(n_t2,[0;0;1;1]); (n_v'xov,[2;0;1])]
 [(*36*) Assign (T 1) (Times (Transpose n_t2 [0;1;3;2]) (2) 1);
  (*37*) AddTo (T 1) (Times (Copy n_t2) (-1) 1);
  (*38*) Assign (T 2) (Times (Einsum [(n_v'xov,[0;1;2]); (T 1,[1;3;4;2])] [3;4;0]) (1) 2);
  (*39*) Del (T 1);
  (*40*) Assign n_e_cc (Times (Einsum [(n_v'xov,[0;1;2]); (T 2,[1;2;0])] []) (2) 1);
  (*41*) Del (T 2)]
 [(n_e_cc,[])].

(** ebcc/codegen/RDFQCISD.py:45-185 [update_amps] *)
Definition RDFQCISD_update_amps : prog := mkprog
 [(n_t2,[0;0;1;1]); (n_v'xov,[2;0;1]); (n_v'xoo,[2;0;0]); (n_t1,[0;1]); (n_v'xvv,[2;1;1]); (n_f'vv,[1;1]); (n_f'oo,[0;0]); (n_f'ov,[0;1])]
 [(*68*) Assign (T 15) (Plain (Einsum [(n_t2,[0;1;2;3]); (n_v'xov,[4;1;2])] [0;3;4]));
  (*69*) Assign (T 20) (Plain (Transpose n_v'xov [1;2;0]));
  (*70*) AddTo (T 20) (Times (Copy (T 15)) (-1) 1);
  (*71*) Assign (T 14) (Plain (Einsum [(n_v'xov,[0;1;2]); (n_v'xov,[0;3;4])] [1;3;2;4]));
  (*72*) Assign (T 6) (Times (Transpose n_t2 [0;1;3;2]) (2) 1);
  (*73*) AddTo (T 6) (Times (Copy n_t2) (-1) 1);
  (*74*) Assign (T 7) (Plain (Einsum [(n_v'xoo,[0;1;2]); (n_t1,[2;3])] [1;3;0]));
  (*75*) Assign (T 21) (Plain (Einsum [(T 20,[0;1;2]); (n_v'xov,[2;3;4])] [0;3;1;4]));
  (*76*) Del (T 20);
  (*77*) Assign (T 19) (Plain (Einsum [(n_v'xoo,[0;1;2]); (n_v'xvv,[0;3;4])] [1;2;3;4]));
  (*78*) Assign (T 16) (Plain (Einsum [(n_t2,[0;1;2;3]); (T 14,[1;4;5;2])] [0;4;3;5]));
  (*79*) Assign (T 27) (Plain (Einsum [(n_v'xov,[0;1;2]); (T 6,[1;3;4;2])] [3;4;0]));
  (*80*) Assign (T 24) (Plain (Copy (T 7)));
  (*81*) AddTo (T 24) (Plain (Copy (T 15)));
  (*82*) Assign (T 22) (Plain (Transpose (T 19) [1;0;3;2]));
  (*83*) AddTo (T 22) (Times (Copy (T 16)) (-1) 1);
  (*84*) AddTo (T 22) (Times (Copy (T 21)) (-2) 1);
  (*85*) Del (T 21);
  (*86*) Assign (T 34) (Plain (Einsum [(n_t1,[0;1]); (n_v'xvv,[2;3;1])] [0;3;2]));
  (*87*) Assign (T 28) (Times (Einsum [(T 27,[0;1;2]); (n_v'xov,[2;0;3])] [1;3]) (1) 2);
  (*88*) Assign (T 30) (Plain (Einsum [(T 27,[0;1;2]); (n_v'xov,[2;3;1])] [0;3]));
  (*89*) Del (T 27);
  (*90*) Assign (T 1) (Plain (Einsum [(n_v'xov,[0;1;2]); (n_t1,[1;2])] [0]));
  (*91*) Assign (T 3) (Plain (Einsum [(n_v'xov,[0;1;2]); (n_t1,[3;2])] [3;1;0]));
  (*92*) Assign (T 39) (Times (Transpose (T 14) [1;0;2;3]) (-1) 1);
  (*93*) AddTo (T 39) (Times (Transpose (T 14) [1;0;3;2]) (2) 1);
  (*94*) Assign (T 25) (Plain (Einsum [(n_v'xov,[0;1;2]); (T 24,[3;4;0])] [3;1;4;2]));
  (*95*) Del (T 24);
  (*96*) Assign (T 23) (Plain (Einsum [(n_t2,[0;1;2;3]); (T 22,[4;1;5;3])] [4;0;5;2]));
  (*97*) Del (T 22);
  (*98*) Assign (T 35) (Plain (Einsum [(T 34,[0;1;2]); (n_v'xov,[2;3;4])] [0;3;4;1]));
  (*99*) Del (T 34);
  (*100*) Assign (T 36) (Plain (Einsum [(T 19,[0;1;2;3]); (n_t2,[4;1;3;5])] [4;0;5;2]));
  (*101*) Del (T 19);
  (*102*) Assign (T 33) (Plain (Einsum [(n_t2,[0;1;2;3]); (n_f'vv,[4;3])] [0;1;4;2]));
  (*103*) Assign (T 29) (Times (Einsum [(T 28,[0;1]); (n_t2,[2;3;1;4])] [2;3;0;4]) (2) 1);
  (*104*) Del (T 28);
  (*105*) Assign (T 31) (Plain (Einsum [(T 30,[0;1]); (n_t2,[2;1;3;4])] [0;2;4;3]));
  (*106*) Del (T 30);
  (*107*) Assign (T 2) (Plain (Einsum [(T 1,[0]); (n_v'xov,[0;1;2])] [1;2]));
  (*108*) Del (T 1);
  (*109*) Assign (T 12) (Times (Einsum [(n_v'xov,[0;1;2]); (T 6,[1;3;4;2])] [3;4;0]) (1) 2);
  (*110*) Assign (T 8) (Plain (Transpose n_t2 [0;1;3;2]));
  (*111*) AddTo (T 8) (Times (Copy n_t2) (-1) 2);
  (*112*) Assign (T 4) (Plain (Transpose n_v'xoo [1;2;0]));
  (*113*) AddTo (T 4) (Plain (Transpose (T 3) [1;0;2]));
  (*114*) Assign (T 17) (Plain (Einsum [(n_v'xvv,[0;1;2]); (n_v'xvv,[0;3;4])] [3;1;2;4]));
  (*115*) Assign (T 40) (Plain (Einsum [(T 39,[0;1;2;3]); (n_t2,[4;0;5;2])] [4;1;5;3]));
  (*116*) Del (T 39);
  (*117*) Assign (T 26) (Plain (Transpose (T 23) [1;0;3;2]));
  (*118*) Del (T 23);
  (*119*) AddTo (T 26) (Plain (Copy (T 25)));
  (*120*) Del (T 25);
  (*121*) Assign (T 37) (Plain (Copy (T 33)));
  (*122*) Del (T 33);
  (*123*) AddTo (T 37) (Plain (Copy (T 35)));
  (*124*) Del (T 35);
  (*125*) AddTo (T 37) (Times (Copy (T 36)) (-1) 1);
  (*126*) Del (T 36);
  (*127*) Assign (T 38) (Plain (Einsum [(n_v'xoo,[0;1;2]); (n_v'xoo,[0;3;4])] [3;1;2;4]));
  (*128*) AddTo (T 38) (Plain (Einsum [(n_t2,[0;1;2;3]); (T 14,[4;5;3;2])] [4;0;5;1]));
  (*129*) Assign (T 18) (Plain (Einsum [(n_f'oo,[0;1]); (n_t2,[2;1;3;4])] [0;2;3;4]));
  (*130*) Assign (T 32) (Plain (Transpose (T 29) [1;0;3;2]));
  (*131*) Del (T 29);
  (*132*) AddTo (T 32) (Plain (Transpose (T 31) [1;0;3;2]));
  (*133*) Del (T 31);
  (*134*) Assign (T 10) (Plain (Copy n_f'ov));
  (*135*) AddTo (T 10) (Times (Copy (T 2)) (2) 1);
  (*136*) AddTo (T 10) (Times (Einsum [(n_v'xov,[0;1;2]); (T 3,[1;3;0])] [3;2]) (-1) 1);
  (*137*) Del (T 3);
  (*138*) Assign (T 13) (Plain (Copy n_f'oo));
  (*139*) AddTo (T 13) (Times (Einsum [(n_v'xov,[0;1;2]); (T 12,[3;2;0])] [1;3]) (2) 1);
  (*140*) Del (T 12);
  (*141*) Assign (T 9) (Times (Copy (T 7)) (1) 2);
  (*142*) Del (T 7);
  (*143*) AddTo (T 9) (Times (Einsum [(T 8,[0;1;2;3]); (n_v'xov,[4;0;3])] [1;2;4]) (-1) 1);
  (*144*) Del (T 8);
  (*145*) Assign (T 5) (Plain (Einsum [(n_v'xov,[0;1;2]); (T 4,[3;4;0])] [4;1;3;2]));
  (*146*) Del (T 4);
  (*147*) Assign (T 11) (Times (Transpose n_t2 [0;1;3;2]) (2) 1);
  (*148*) AddTo (T 11) (Times (Copy n_t2) (-1) 1);
  (*149*) Assign n_t2new (Plain (Transpose (T 14) [1;0;3;2]));
  (*150*) Del (T 14);
  (*151*) AddTo n_t2new (Plain (Einsum [(T 15,[0;1;2]); (T 15,[3;4;2])] [0;3;1;4]));
  (*152*) Del (T 15);
  (*153*) AddTo n_t2new (Plain (Einsum [(n_t2,[0;1;2;3]); (T 16,[4;1;5;2])] [0;4;5;3]));
  (*154*) Del (T 16);
  (*155*) AddTo n_t2new (Plain (Einsum [(T 17,[0;1;2;3]); (n_t2,[4;5;3;1])] [4;5;0;2]));
  (*156*) Del (T 17);
  (*157*) AddTo n_t2new (Times (Transpose (T 18) [0;1;3;2]) (-1) 1);
  (*158*) AddTo n_t2new (Times (Transpose (T 18) [1;0;2;3]) (-1) 1);
  (*159*) Del (T 18);
  (*160*) AddTo n_t2new (Times (Copy (T 26)) (-1) 1);
  (*161*) AddTo n_t2new (Times (Transpose (T 26) [1;0;3;2]) (-1) 1);
  (*162*) Del (T 26);
  (*163*) AddTo n_t2new (Times (Copy (T 32)) (-1) 1);
  (*164*) AddTo n_t2new (Times (Transpose (T 32) [1;0;3;2]) (-1) 1);
  (*165*) Del (T 32);
  (*166*) AddTo n_t2new (Plain (Transpose (T 37) [0;1;3;2]));
  (*167*) AddTo n_t2new (Plain (Transpose (T 37) [1;0;2;3]));
  (*168*) Del (T 37);
  (*169*) AddTo n_t2new (Plain (Einsum [(T 38,[0;1;2;3]); (n_t2,[0;2;4;5])] [1;3;5;4]));
  (*170*) Del (T 38);
  (*171*) AddTo n_t2new (Times (Einsum [(T 40,[0;1;2;3]); (n_t2,[4;1;5;3])] [0;4;2;5]) (2) 1);
  (*172*) Del (T 40);
  (*173*) Assign n_t1new (Times (Copy (T 2)) (2) 1);
  (*174*) Del (T 2);
  (*175*) AddTo n_t1new (Plain (Einsum [(n_f'vv,[0;1]); (n_t1,[2;1])] [2;0]));
  (*176*) AddTo n_t1new (Times (Einsum [(T 6,[0;1;2;3]); (T 5,[4;0;1;3])] [4;2]) (-1) 1);
  (*177*) Del (T 6);
  (*177*) Del (T 5);
  (*178*) AddTo n_t1new (Times (Einsum [(n_v'xvv,[0;1;2]); (T 9,[3;2;0])] [3;1]) (-2) 1);
  (*179*) Del (T 9);
  (*180*) AddTo n_t1new (Plain (Einsum [(T 10,[0;1]); (T 11,[0;2;3;1])] [2;3]));
  (*181*) Del (T 10);
  (*181*) Del (T 11);
  (*182*) AddTo n_t1new (Times (Einsum [(n_t1,[0;1]); (T 13,[0;2])] [2;1]) (-1) 1);
  (*183*) Del (T 13)]
 [(n_t1new,[0;1]); (n_t2new,[0;0;1;1])].

