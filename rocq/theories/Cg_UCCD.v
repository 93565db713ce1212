(** Generated by tools/translate_codegen.py from ebcc/codegen/UCCD.py; one statement per source line
    (the number in the comment before it). *)
From Coq Require Import ZArith List.
From Verif Require Import CgModel CgNames.
Import ListNotations.

(** ebcc/codegen/UCCD.py:19-40 [energy] *)
Definition UCCD_energy : prog := mkprog
 [(n_v'bbbb'ovov,[6;7;6;7]); (n_t2'bbbb,[6;6;7;7]); (n_t2'abab,[4;6;5;7]); (n_v'aabb'ovov,[4;5;6;7]); (n_v'aaaa'ovov,[4;5;4;5]); (n_t2'aaaa,[4;4;5;5])]
 [(*36*) Assign n_e_cc (Times (Einsum [(n_v'bbbb'ovov,[0;1;2;3]); (n_t2'bbbb,[0;2;3;1])] []) (-1) 1);
  (*37*) AddTo n_e_cc (Plain (Einsum [(n_t2'abab,[0;1;2;3]); (n_v'aabb'ovov,[0;2;1;3])] []));
  (*38*) AddTo n_e_cc (Times (Einsum [(n_v'aaaa'ovov,[0;1;2;3]); (n_t2'aaaa,[0;2;3;1])] []) (-1) 1)]
 [(n_e_cc,[])].

(** ebcc/codegen/UCCD.py:42-268 [update_amps] *)
Definition UCCD_update_amps : prog := mkprog
 [(n_v'bbbb'ovov,[6;7;6;7]); (n_v'aaaa'ovov,[4;5;4;5]); (n_t2'bbbb,[6;6;7;7]); (n_t2'abab,[4;6;5;7]); (n_v'aabb'ovov,[4;5;6;7]); (n_t2'aaaa,[4;4;5;5]); (n_v'bbbb'oovv,[6;6;7;7]); (n_v'aaaa'oovv,[4;4;5;5]); (n_f'bb'oo,[6;6]); (n_f'bb'vv,[7;7]); (n_v'bbbb'oooo,[6;6;6;6]); (n_f'aa'vv,[5;5]); (n_v'aabb'vvoo,[5;5;6;6]); (n_v'aabb'oooo,[4;4;6;6]); (n_v'aaaa'oooo,[4;4;4;4]); (n_f'aa'oo,[4;4]); (n_v'bbbb'vvvv,[7;7;7;7]); (n_v'aabb'oovv,[4;4;7;7]); (n_v'aabb'vvvv,[5;5;7;7]); (n_v'aaaa'vvvv,[5;5;5;5])]
 [(*62*) Assign (T 14) (Plain (Transpose n_v'bbbb'ovov [0;2;3;1]));
  (*63*) AddTo (T 14) (Times (Transpose n_v'bbbb'ovov [0;2;1;3]) (-1) 1);
  (*64*) Assign (T 10) (Plain (Transpose n_v'aaaa'ovov [0;2;3;1]));
  (*65*) AddTo (T 10) (Times (Transpose n_v'aaaa'ovov [0;2;1;3]) (-1) 1);
  (*66*) Assign (T 36) (Plain (Einsum [(n_v'bbbb'ovov,[0;1;2;3]); (n_t2'bbbb,[4;2;1;3])] [4;0]));
  (*67*) Assign (T 35) (Plain (Einsum [(n_t2'abab,[0;1;2;3]); (n_v'aabb'ovov,[0;2;4;3])] [1;4]));
  (*68*) Assign (T 45) (Plain (Einsum [(n_t2'bbbb,[0;1;2;3]); (T 14,[1;4;5;3])] [0;4;2;5]));
  (*69*) Assign (T 11) (Plain (Einsum [(n_t2'aaaa,[0;1;2;3]); (T 10,[1;4;5;3])] [0;4;2;5]));
  (*70*) Assign (T 20) (Times (Einsum [(n_t2'aaaa,[0;1;2;3]); (n_v'aaaa'ovov,[4;3;1;2])] [0;4]) (-1) 1);
  (*71*) Assign (T 21) (Plain (Einsum [(n_t2'abab,[0;1;2;3]); (n_v'aabb'ovov,[4;2;1;3])] [0;4]));
  (*72*) Assign (T 37) (Plain (Copy (T 35)));
  (*73*) Del (T 35);
  (*74*) AddTo (T 37) (Times (Copy (T 36)) (2) 1);
  (*75*) Del (T 36);
  (*76*) Assign (T 51) (Times (Einsum [(n_t2'bbbb,[0;1;2;3]); (n_v'bbbb'ovov,[4;3;5;2])] [0;1;4;5]) (-1) 1);
  (*77*) Assign (T 25) (Plain (Einsum [(n_v'aabb'ovov,[0;1;2;3]); (n_t2'abab,[0;2;1;4])] [4;3]));
  (*78*) Assign (T 26) (Plain (Einsum [(n_t2'bbbb,[0;1;2;3]); (n_v'bbbb'ovov,[0;4;1;3])] [2;4]));
  (*79*) Assign (T 46) (Plain (Copy n_v'bbbb'oovv));
  (*80*) AddTo (T 46) (Times (Copy (T 45)) (-2) 1);
  (*81*) Del (T 45);
  (*82*) Assign (T 28) (Plain (Einsum [(n_v'aabb'ovov,[0;1;2;3]); (n_t2'bbbb,[4;2;5;3])] [0;4;1;5]));
  (*83*) Assign (T 48) (Plain (Einsum [(n_t2'abab,[0;1;2;3]); (T 10,[0;4;5;2])] [4;1;5;3]));
  (*84*) Assign (T 3) (Times (Einsum [(n_v'aaaa'ovov,[0;1;2;3]); (n_t2'aaaa,[0;2;4;1])] [4;3]) (-1) 1);
  (*85*) Assign (T 4) (Plain (Einsum [(n_t2'abab,[0;1;2;3]); (n_v'aabb'ovov,[0;4;1;3])] [2;4]));
  (*86*) Assign (T 32) (Plain (Einsum [(n_v'aabb'ovov,[0;1;2;3]); (n_t2'aaaa,[4;0;5;1])] [4;2;5;3]));
  (*87*) Assign (T 15) (Plain (Einsum [(T 14,[0;1;2;3]); (n_t2'abab,[4;0;5;2])] [4;1;5;3]));
  (*88*) Del (T 14);
  (*89*) Assign (T 7) (Plain (Einsum [(n_t2'abab,[0;1;2;3]); (n_v'aabb'ovov,[4;5;1;3])] [0;4;2;5]));
  (*90*) Assign (T 18) (Times (Einsum [(n_v'aaaa'ovov,[0;1;2;3]); (n_t2'aaaa,[4;5;3;1])] [4;5;0;2]) (-1) 1);
  (*91*) Assign (T 12) (Plain (Copy n_v'aaaa'oovv));
  (*92*) AddTo (T 12) (Times (Copy (T 11)) (-2) 1);
  (*93*) Del (T 11);
  (*94*) Assign (T 22) (Times (Copy (T 20)) (2) 1);
  (*95*) AddTo (T 22) (Plain (Copy (T 21)));
  (*96*) Assign (T 41) (Plain (Einsum [(n_t2'abab,[0;1;2;3]); (n_v'aabb'ovov,[0;2;4;5])] [1;4;3;5]));
  (*97*) Assign (T 42) (Plain (Einsum [(n_t2'bbbb,[0;1;2;3]); (n_v'bbbb'ovov,[4;5;1;3])] [0;4;2;5]));
  (*98*) Assign (T 53) (Times (Einsum [(T 37,[0;1]); (n_t2'bbbb,[2;1;3;4])] [2;0;3;4]) (-1) 1);
  (*99*) Assign (T 52) (Plain (Einsum [(T 51,[0;1;2;3]); (n_t2'bbbb,[3;2;4;5])] [1;0;4;5]));
  (*100*) Del (T 51);
  (*101*) Assign (T 50) (Plain (Einsum [(n_t2'bbbb,[0;1;2;3]); (n_v'bbbb'oovv,[4;1;5;3])] [0;4;2;5]));
  (*102*) Assign (T 27) (Times (Copy (T 25)) (1) 2);
  (*103*) AddTo (T 27) (Plain (Copy (T 26)));
  (*104*) Assign (T 47) (Plain (Einsum [(n_t2'bbbb,[0;1;2;3]); (T 46,[4;1;5;3])] [0;4;2;5]));
  (*105*) Del (T 46);
  (*106*) Assign (T 39) (Plain (Einsum [(n_t2'bbbb,[0;1;2;3]); (n_f'bb'oo,[4;1])] [4;0;2;3]));
  (*107*) Assign (T 44) (Plain (Einsum [(n_t2'abab,[0;1;2;3]); (T 28,[0;4;2;5])] [1;4;3;5]));
  (*108*) Assign (T 43) (Times (Copy n_f'bb'vv) (-1) 1);
  (*109*) AddTo (T 43) (Plain (Copy (T 25)));
  (*110*) Del (T 25);
  (*111*) AddTo (T 43) (Times (Copy (T 26)) (2) 1);
  (*112*) Del (T 26);
  (*113*) Assign (T 40) (Times (Einsum [(n_v'bbbb'oooo,[0;1;2;3]); (n_t2'bbbb,[3;1;4;5])] [0;2;4;5]) (-1) 1);
  (*114*) Assign (T 49) (Plain (Einsum [(T 48,[0;1;2;3]); (n_t2'abab,[0;4;2;5])] [1;4;3;5]));
  (*115*) Del (T 48);
  (*116*) Assign (T 29) (Times (Copy n_f'aa'vv) (-1) 1);
  (*117*) AddTo (T 29) (Times (Transpose (T 3) [1;0]) (2) 1);
  (*118*) AddTo (T 29) (Plain (Transpose (T 4) [1;0]));
  (*119*) Assign (T 34) (Plain (Einsum [(n_t2'abab,[0;1;2;3]); (n_v'aabb'ovov,[4;2;5;3])] [0;4;1;5]));
  (*120*) Assign (T 30) (Plain (Transpose n_v'aabb'vvoo [2;3;0;1]));
  (*121*) AddTo (T 30) (Times (Einsum [(n_t2'abab,[0;1;2;3]); (n_v'aabb'ovov,[0;4;5;3])] [5;1;4;2]) (-1) 1);
  (*122*) Assign (T 33) (Times (Copy (T 32)) (2) 1);
  (*123*) AddTo (T 33) (Times (Copy (T 15)) (-1) 1);
  (*124*) Assign (T 31) (Plain (Copy n_v'aaaa'oovv));
  (*125*) AddTo (T 31) (Times (Transpose (T 7) [1;0;3;2]) (-1) 1);
  (*126*) AddTo (T 31) (Times (Einsum [(T 10,[0;1;2;3]); (n_t2'aaaa,[4;0;5;2])] [1;4;3;5]) (2) 1);
  (*127*) Del (T 10);
  (*128*) Assign (T 24) (Plain (Einsum [(n_t2'abab,[0;1;2;3]); (n_v'aabb'oooo,[4;0;5;1])] [4;5;2;3]));
  (*129*) Assign (T 38) (Plain (Copy (T 20)));
  (*130*) Del (T 20);
  (*131*) AddTo (T 38) (Times (Copy (T 21)) (1) 2);
  (*132*) Del (T 21);
  (*133*) Assign (T 6) (Plain (Einsum [(n_t2'aaaa,[0;1;2;3]); (n_v'aaaa'ovov,[4;5;1;3])] [0;4;2;5]));
  (*134*) Assign (T 19) (Plain (Einsum [(n_t2'aaaa,[0;1;2;3]); (T 18,[4;5;1;0])] [5;4;2;3]));
  (*135*) Del (T 18);
  (*136*) Assign (T 16) (Times (Einsum [(T 15,[0;1;2;3]); (n_t2'abab,[4;1;5;3])] [4;0;5;2]) (-1) 1);
  (*137*) Del (T 15);
  (*138*) Assign (T 5) (Plain (Copy (T 3)));
  (*139*) AddTo (T 5) (Times (Copy (T 4)) (1) 2);
  (*140*) Assign (T 13) (Plain (Einsum [(T 12,[0;1;2;3]); (n_t2'aaaa,[4;1;5;3])] [4;0;5;2]));
  (*141*) Del (T 12);
  (*142*) Assign (T 2) (Plain (Einsum [(n_v'aaaa'oooo,[0;1;2;3]); (n_t2'aaaa,[1;3;4;5])] [0;2;4;5]));
  (*143*) Assign (T 17) (Plain (Einsum [(n_t2'aaaa,[0;1;2;3]); (n_v'aaaa'oovv,[4;1;5;3])] [0;4;2;5]));
  (*144*) Assign (T 1) (Plain (Einsum [(n_f'aa'oo,[0;1]); (n_t2'aaaa,[2;1;3;4])] [0;2;3;4]));
  (*145*) Assign (T 8) (Times (Copy n_f'aa'vv) (-1) 1);
  (*146*) AddTo (T 8) (Times (Copy (T 3)) (2) 1);
  (*147*) Del (T 3);
  (*148*) AddTo (T 8) (Plain (Copy (T 4)));
  (*149*) Del (T 4);
  (*150*) Assign (T 9) (Plain (Einsum [(n_t2'aaaa,[0;1;2;3]); (T 7,[4;1;5;3])] [0;4;2;5]));
  (*151*) Assign (T 23) (Times (Einsum [(T 22,[0;1]); (n_t2'aaaa,[2;1;3;4])] [0;2;3;4]) (-1) 1);
  (*152*) Del (T 22);
  (*153*) Assign n_t2new'bbbb (Times (Transpose (T 39) [1;0;3;2]) (2) 1);
  (*154*) AddTo n_t2new'bbbb (Times (Transpose (T 40) [1;0;3;2]) (2) 1);
  (*155*) Del (T 40);
  (*156*) AddTo n_t2new'bbbb (Times (Transpose (T 39) [0;1;3;2]) (-2) 1);
  (*157*) Del (T 39);
  (*158*) AddTo n_t2new'bbbb (Times (Einsum [(T 27,[0;1]); (n_t2'bbbb,[2;3;4;1])] [2;3;4;0]) (-4) 1);
  (*159*) AddTo n_t2new'bbbb (Plain (Transpose (T 41) [1;0;3;2]));
  (*160*) AddTo n_t2new'bbbb (Times (Transpose (T 42) [1;0;3;2]) (2) 1);
  (*161*) AddTo n_t2new'bbbb (Times (Einsum [(n_t2'bbbb,[0;1;2;3]); (T 43,[4;3])] [0;1;4;2]) (2) 1);
  (*162*) Del (T 43);
  (*163*) AddTo n_t2new'bbbb (Times (Transpose (T 41) [1;0;2;3]) (-1) 1);
  (*164*) AddTo n_t2new'bbbb (Times (Einsum [(n_f'bb'vv,[0;1]); (n_t2'bbbb,[2;3;4;1])] [2;3;4;0]) (2) 1);
  (*165*) AddTo n_t2new'bbbb (Times (Transpose (T 42) [1;0;2;3]) (-2) 1);
  (*166*) AddTo n_t2new'bbbb (Plain (Transpose n_v'bbbb'ovov [0;2;1;3]));
  (*167*) AddTo n_t2new'bbbb (Times (Transpose n_v'bbbb'ovov [0;2;3;1]) (-1) 1);
  (*168*) AddTo n_t2new'bbbb (Times (Transpose (T 41) [0;1;3;2]) (-1) 1);
  (*169*) AddTo n_t2new'bbbb (Times (Transpose (T 42) [0;1;3;2]) (-2) 1);
  (*170*) AddTo n_t2new'bbbb (Times (Transpose (T 44) [0;1;3;2]) (-2) 1);
  (*171*) AddTo n_t2new'bbbb (Times (Transpose (T 44) [1;0;2;3]) (-2) 1);
  (*172*) AddTo n_t2new'bbbb (Times (Transpose (T 47) [0;1;3;2]) (2) 1);
  (*173*) AddTo n_t2new'bbbb (Times (Transpose (T 49) [1;0;2;3]) (-1) 1);
  (*174*) AddTo n_t2new'bbbb (Times (Copy (T 44)) (2) 1);
  (*175*) AddTo n_t2new'bbbb (Times (Transpose (T 44) [1;0;3;2]) (2) 1);
  (*176*) Del (T 44);
  (*177*) AddTo n_t2new'bbbb (Times (Transpose (T 47) [1;0;3;2]) (-2) 1);
  (*178*) Del (T 47);
  (*179*) AddTo n_t2new'bbbb (Plain (Copy (T 49)));
  (*180*) Del (T 49);
  (*181*) AddTo n_t2new'bbbb (Plain (Copy (T 41)));
  (*182*) Del (T 41);
  (*183*) AddTo n_t2new'bbbb (Times (Copy (T 42)) (2) 1);
  (*184*) Del (T 42);
  (*185*) AddTo n_t2new'bbbb (Times (Copy (T 50)) (-2) 1);
  (*186*) AddTo n_t2new'bbbb (Times (Transpose (T 50) [1;0;2;3]) (2) 1);
  (*187*) Del (T 50);
  (*188*) AddTo n_t2new'bbbb (Times (Einsum [(n_v'bbbb'vvvv,[0;1;2;3]); (n_t2'bbbb,[4;5;3;1])] [4;5;0;2]) (-2) 1);
  (*189*) AddTo n_t2new'bbbb (Times (Transpose (T 52) [0;1;3;2]) (-2) 1);
  (*190*) Del (T 52);
  (*191*) AddTo n_t2new'bbbb (Times (Transpose (T 53) [0;1;3;2]) (-2) 1);
  (*192*) AddTo n_t2new'bbbb (Times (Transpose (T 53) [1;0;3;2]) (2) 1);
  (*193*) Del (T 53);
  (*194*) Assign n_t2new'abab (Times (Einsum [(n_f'bb'oo,[0;1]); (n_t2'abab,[2;1;3;4])] [2;0;3;4]) (-1) 1);
  (*195*) AddTo n_t2new'abab (Plain (Copy (T 24)));
  (*196*) Del (T 24);
  (*197*) AddTo n_t2new'abab (Times (Einsum [(n_t2'abab,[0;1;2;3]); (n_f'aa'oo,[4;0])] [4;1;2;3]) (-1) 1);
  (*198*) AddTo n_t2new'abab (Times (Einsum [(n_t2'abab,[0;1;2;3]); (T 27,[4;3])] [0;1;2;4]) (-2) 1);
  (*199*) Del (T 27);
  (*200*) AddTo n_t2new'abab (Times (Copy (T 28)) (2) 1);
  (*201*) Del (T 28);
  (*202*) AddTo n_t2new'abab (Plain (Einsum [(n_t2'abab,[0;1;2;3]); (n_v'aaaa'ovov,[4;5;0;2])] [4;1;5;3]));
  (*203*) AddTo n_t2new'abab (Times (Einsum [(T 29,[0;1]); (n_t2'abab,[2;3;0;4])] [2;3;1;4]) (-1) 1);
  (*204*) Del (T 29);
  (*205*) AddTo n_t2new'abab (Plain (Einsum [(n_f'bb'vv,[0;1]); (n_t2'abab,[2;3;4;1])] [2;3;4;0]));
  (*206*) AddTo n_t2new'abab (Plain (Transpose n_v'aabb'ovov [0;2;1;3]));
  (*207*) AddTo n_t2new'abab (Times (Einsum [(n_t2'abab,[0;1;2;3]); (T 30,[1;4;2;5])] [0;4;5;3]) (-1) 1);
  (*208*) Del (T 30);
  (*209*) AddTo n_t2new'abab (Times (Einsum [(n_t2'abab,[0;1;2;3]); (T 31,[0;4;2;5])] [4;1;5;3]) (-1) 1);
  (*210*) Del (T 31);
  (*211*) AddTo n_t2new'abab (Times (Einsum [(n_t2'bbbb,[0;1;2;3]); (T 33,[4;1;5;3])] [4;0;5;2]) (2) 1);
  (*212*) Del (T 33);
  (*213*) AddTo n_t2new'abab (Times (Copy (T 32)) (2) 1);
  (*214*) Del (T 32);
  (*215*) AddTo n_t2new'abab (Plain (Einsum [(n_v'bbbb'ovov,[0;1;2;3]); (n_t2'abab,[4;2;5;3])] [4;0;5;1]));
  (*216*) AddTo n_t2new'abab (Times (Einsum [(n_v'bbbb'oovv,[0;1;2;3]); (n_t2'abab,[4;1;5;3])] [4;0;5;2]) (-1) 1);
  (*217*) AddTo n_t2new'abab (Times (Einsum [(n_t2'abab,[0;1;2;3]); (n_v'aabb'oovv,[4;0;5;3])] [4;1;2;5]) (-1) 1);
  (*218*) AddTo n_t2new'abab (Plain (Einsum [(n_t2'abab,[0;1;2;3]); (n_v'aabb'vvvv,[4;2;5;3])] [0;1;4;5]));
  (*219*) AddTo n_t2new'abab (Plain (Einsum [(n_t2'abab,[0;1;2;3]); (T 34,[4;0;5;1])] [4;5;2;3]));
  (*220*) Del (T 34);
  (*221*) AddTo n_t2new'abab (Times (Einsum [(n_t2'abab,[0;1;2;3]); (T 37,[4;1])] [0;4;2;3]) (-1) 1);
  (*222*) Del (T 37);
  (*223*) AddTo n_t2new'abab (Times (Einsum [(T 38,[0;1]); (n_t2'abab,[1;2;3;4])] [0;2;3;4]) (-2) 1);
  (*224*) Del (T 38);
  (*225*) Assign n_t2new'aaaa (Times (Transpose (T 1) [1;0;3;2]) (2) 1);
  (*226*) AddTo n_t2new'aaaa (Times (Transpose (T 2) [1;0;3;2]) (2) 1);
  (*227*) Del (T 2);
  (*228*) AddTo n_t2new'aaaa (Times (Transpose (T 1) [0;1;3;2]) (-2) 1);
  (*229*) Del (T 1);
  (*230*) AddTo n_t2new'aaaa (Times (Einsum [(T 5,[0;1]); (n_t2'aaaa,[2;3;4;1])] [2;3;4;0]) (-4) 1);
  (*231*) Del (T 5);
  (*232*) AddTo n_t2new'aaaa (Times (Transpose (T 6) [1;0;3;2]) (2) 1);
  (*233*) AddTo n_t2new'aaaa (Plain (Transpose (T 7) [1;0;3;2]));
  (*234*) AddTo n_t2new'aaaa (Times (Einsum [(n_t2'aaaa,[0;1;2;3]); (T 8,[4;3])] [0;1;4;2]) (2) 1);
  (*235*) Del (T 8);
  (*236*) AddTo n_t2new'aaaa (Times (Transpose (T 6) [1;0;2;3]) (-2) 1);
  (*237*) AddTo n_t2new'aaaa (Times (Einsum [(n_f'aa'vv,[0;1]); (n_t2'aaaa,[2;3;4;1])] [2;3;4;0]) (2) 1);
  (*238*) AddTo n_t2new'aaaa (Times (Transpose (T 7) [1;0;2;3]) (-1) 1);
  (*239*) AddTo n_t2new'aaaa (Plain (Transpose n_v'aaaa'ovov [0;2;1;3]));
  (*240*) AddTo n_t2new'aaaa (Times (Transpose n_v'aaaa'ovov [0;2;3;1]) (-1) 1);
  (*241*) AddTo n_t2new'aaaa (Times (Transpose (T 6) [0;1;3;2]) (-2) 1);
  (*242*) AddTo n_t2new'aaaa (Times (Transpose (T 7) [0;1;3;2]) (-1) 1);
  (*243*) AddTo n_t2new'aaaa (Times (Transpose (T 9) [0;1;3;2]) (-2) 1);
  (*244*) AddTo n_t2new'aaaa (Times (Transpose (T 9) [1;0;2;3]) (-2) 1);
  (*245*) AddTo n_t2new'aaaa (Times (Transpose (T 13) [0;1;3;2]) (2) 1);
  (*246*) AddTo n_t2new'aaaa (Times (Transpose (T 16) [1;0;2;3]) (-1) 1);
  (*247*) AddTo n_t2new'aaaa (Times (Copy (T 9)) (2) 1);
  (*248*) AddTo n_t2new'aaaa (Times (Transpose (T 9) [1;0;3;2]) (2) 1);
  (*249*) Del (T 9);
  (*250*) AddTo n_t2new'aaaa (Times (Transpose (T 13) [1;0;3;2]) (-2) 1);
  (*251*) Del (T 13);
  (*252*) AddTo n_t2new'aaaa (Plain (Transpose (T 16) [1;0;3;2]));
  (*253*) Del (T 16);
  (*254*) AddTo n_t2new'aaaa (Times (Copy (T 6)) (2) 1);
  (*255*) Del (T 6);
  (*256*) AddTo n_t2new'aaaa (Plain (Copy (T 7)));
  (*257*) Del (T 7);
  (*258*) AddTo n_t2new'aaaa (Times (Copy (T 17)) (-2) 1);
  (*259*) AddTo n_t2new'aaaa (Times (Transpose (T 17) [1;0;2;3]) (2) 1);
  (*260*) Del (T 17);
  (*261*) AddTo n_t2new'aaaa (Times (Einsum [(n_v'aaaa'vvvv,[0;1;2;3]); (n_t2'aaaa,[4;5;1;3])] [4;5;0;2]) (2) 1);
  (*262*) AddTo n_t2new'aaaa (Times (Transpose (T 19) [0;1;3;2]) (-2) 1);
  (*263*) Del (T 19);
  (*264*) AddTo n_t2new'aaaa (Times (Transpose (T 23) [1;0;3;2]) (-2) 1);
  (*265*) AddTo n_t2new'aaaa (Times (Transpose (T 23) [0;1;3;2]) (2) 1);
  (*266*) Del (T 23)]
 [(n_t2new'bbbb,[6;6;7;7]); (n_t2new'abab,[4;6;5;7]); (n_t2new'aaaa,[4;4;5;5])].

(** ebcc/codegen/UCCD.py:270-586 [update_lams] *)
Definition UCCD_update_lams : prog := mkprog
 [(n_t2'bbbb,[6;6;7;7]); (n_l2'bbbb,[7;7;6;6]); (n_l2'abab,[5;7;4;6]); (n_t2'abab,[4;6;5;7]); (n_v'bbbb'ovov,[6;7;6;7]); (n_v'aabb'ovov,[4;5;6;7]); (n_t2'aaaa,[4;4;5;5]); (n_v'aaaa'ovov,[4;5;4;5]); (n_l2'aaaa,[5;5;4;4]); (n_f'bb'vv,[7;7]); (n_v'bbbb'oovv,[6;6;7;7]); (n_f'bb'oo,[6;6]); (n_f'aa'vv,[5;5]); (n_v'aaaa'oovv,[4;4;5;5]); (n_v'bbbb'oooo,[6;6;6;6]); (n_v'bbbb'vvvv,[7;7;7;7]); (n_f'aa'oo,[4;4]); (n_v'aabb'oooo,[4;4;6;6]); (n_v'aabb'vvvv,[5;5;7;7]); (n_v'aaaa'vvvv,[5;5;5;5]); (n_v'aaaa'oooo,[4;4;4;4]); (n_v'aabb'vvoo,[5;5;6;6]); (n_v'aabb'oovv,[4;4;7;7])]
 [(*292*) Assign (T 39) (Plain (Einsum [(n_t2'bbbb,[0;1;2;3]); (n_l2'bbbb,[4;3;0;1])] [4;2]));
  (*293*) Assign (T 38) (Plain (Einsum [(n_l2'abab,[0;1;2;3]); (n_t2'abab,[2;3;0;4])] [1;4]));
  (*294*) Assign (T 48) (Times (Einsum [(n_v'bbbb'ovov,[0;1;2;3]); (n_t2'bbbb,[0;2;4;1])] [4;3]) (-1) 1);
  (*295*) Assign (T 47) (Plain (Einsum [(n_v'aabb'ovov,[0;1;2;3]); (n_t2'abab,[0;2;1;4])] [4;3]));
  (*296*) Assign (T 78) (Plain (Einsum [(n_l2'abab,[0;1;2;3]); (n_t2'abab,[2;4;0;5])] [3;4;1;5]));
  (*297*) Assign (T 79) (Plain (Einsum [(n_t2'bbbb,[0;1;2;3]); (n_l2'bbbb,[4;3;5;1])] [5;0;4;2]));
  (*298*) Assign (T 55) (Plain (Einsum [(n_v'bbbb'ovov,[0;1;2;3]); (n_t2'abab,[4;2;5;3])] [4;0;5;1]));
  (*299*) Assign (T 54) (Plain (Einsum [(n_t2'aaaa,[0;1;2;3]); (n_v'aabb'ovov,[1;3;4;5])] [0;4;2;5]));
  (*300*) Assign (T 59) (Plain (Einsum [(n_l2'abab,[0;1;2;3]); (n_t2'abab,[2;4;0;1])] [3;4]));
  (*301*) Assign (T 60) (Plain (Einsum [(n_t2'bbbb,[0;1;2;3]); (n_l2'bbbb,[2;3;4;1])] [4;0]));
  (*302*) Assign (T 52) (Plain (Einsum [(n_t2'bbbb,[0;1;2;3]); (n_v'bbbb'ovov,[4;5;1;3])] [0;4;2;5]));
  (*303*) Assign (T 51) (Plain (Einsum [(n_t2'abab,[0;1;2;3]); (n_v'aabb'ovov,[0;2;4;5])] [1;4;3;5]));
  (*304*) Assign (T 42) (Times (Einsum [(n_t2'bbbb,[0;1;2;3]); (n_v'bbbb'ovov,[4;3;1;2])] [0;4]) (-1) 1);
  (*305*) Assign (T 41) (Plain (Einsum [(n_t2'abab,[0;1;2;3]); (n_v'aabb'ovov,[0;2;4;3])] [1;4]));
  (*306*) Assign (T 20) (Plain (Einsum [(n_v'aaaa'ovov,[0;1;2;3]); (n_t2'aaaa,[0;2;4;3])] [4;1]));
  (*307*) Assign (T 21) (Plain (Einsum [(n_t2'abab,[0;1;2;3]); (n_v'aabb'ovov,[0;4;1;3])] [2;4]));
  (*308*) Assign (T 8) (Plain (Einsum [(n_t2'abab,[0;1;2;3]); (n_v'aaaa'ovov,[4;5;0;2])] [4;1;5;3]));
  (*309*) Assign (T 9) (Plain (Einsum [(n_v'aabb'ovov,[0;1;2;3]); (n_t2'bbbb,[4;2;5;3])] [0;4;1;5]));
  (*310*) Assign (T 6) (Plain (Einsum [(n_t2'abab,[0;1;2;3]); (n_v'aabb'ovov,[4;5;1;3])] [0;4;2;5]));
  (*311*) Assign (T 5) (Plain (Einsum [(n_v'aaaa'ovov,[0;1;2;3]); (n_t2'aaaa,[4;2;5;3])] [4;0;5;1]));
  (*312*) Assign (T 32) (Plain (Einsum [(n_t2'aaaa,[0;1;2;3]); (n_l2'aaaa,[2;3;4;1])] [4;0]));
  (*313*) Assign (T 33) (Plain (Einsum [(n_l2'abab,[0;1;2;3]); (n_t2'abab,[4;3;0;1])] [2;4]));
  (*314*) Assign (T 28) (Plain (Einsum [(n_t2'aaaa,[0;1;2;3]); (n_l2'aaaa,[4;3;5;1])] [5;0;4;2]));
  (*315*) Assign (T 29) (Plain (Einsum [(n_l2'abab,[0;1;2;3]); (n_t2'abab,[4;3;5;1])] [2;4;0;5]));
  (*316*) Assign (T 1) (Plain (Einsum [(n_l2'aaaa,[0;1;2;3]); (n_t2'aaaa,[2;3;4;1])] [0;4]));
  (*317*) Assign (T 2) (Plain (Einsum [(n_l2'abab,[0;1;2;3]); (n_t2'abab,[2;3;4;1])] [0;4]));
  (*318*) Assign (T 40) (Plain (Copy (T 38)));
  (*319*) Del (T 38);
  (*320*) AddTo (T 40) (Times (Copy (T 39)) (2) 1);
  (*321*) Del (T 39);
  (*322*) Assign (T 49) (Times (Copy n_f'bb'vv) (-1) 1);
  (*323*) AddTo (T 49) (Plain (Copy (T 47)));
  (*324*) Del (T 47);
  (*325*) AddTo (T 49) (Times (Copy (T 48)) (2) 1);
  (*326*) Del (T 48);
  (*327*) Assign (T 80) (Plain (Copy (T 78)));
  (*328*) Del (T 78);
  (*329*) AddTo (T 80) (Times (Copy (T 79)) (4) 1);
  (*330*) Del (T 79);
  (*331*) Assign (T 56) (Plain (Transpose n_v'aabb'ovov [0;2;1;3]));
  (*332*) AddTo (T 56) (Times (Copy (T 54)) (2) 1);
  (*333*) Del (T 54);
  (*334*) AddTo (T 56) (Plain (Copy (T 55)));
  (*335*) Del (T 55);
  (*336*) Assign (T 72) (Plain (Einsum [(n_l2'bbbb,[0;1;2;3]); (n_t2'bbbb,[4;5;0;1])] [2;3;4;5]));
  (*337*) Assign (T 61) (Times (Copy (T 59)) (1) 2);
  (*338*) AddTo (T 61) (Plain (Copy (T 60)));
  (*339*) Assign (T 66) (Plain (Transpose n_v'bbbb'ovov [0;2;1;3]));
  (*340*) AddTo (T 66) (Times (Copy n_v'bbbb'oovv) (-1) 1);
  (*341*) AddTo (T 66) (Plain (Copy (T 51)));
  (*342*) AddTo (T 66) (Times (Copy (T 52)) (2) 1);
  (*343*) Assign (T 69) (Plain (Copy n_f'bb'oo));
  (*344*) AddTo (T 69) (Plain (Copy (T 41)));
  (*345*) AddTo (T 69) (Times (Copy (T 42)) (2) 1);
  (*346*) Assign (T 82) (Plain (Copy (T 59)));
  (*347*) Del (T 59);
  (*348*) AddTo (T 82) (Times (Copy (T 60)) (2) 1);
  (*349*) Del (T 60);
  (*350*) Assign (T 53) (Plain (Transpose n_v'bbbb'ovov [0;2;1;3]));
  (*351*) AddTo (T 53) (Times (Copy n_v'bbbb'oovv) (-1) 1);
  (*352*) AddTo (T 53) (Plain (Copy (T 51)));
  (*353*) Del (T 51);
  (*354*) AddTo (T 53) (Times (Copy (T 52)) (2) 1);
  (*355*) Del (T 52);
  (*356*) Assign (T 13) (Plain (Einsum [(n_t2'abab,[0;1;2;3]); (n_v'aabb'ovov,[4;2;1;3])] [0;4]));
  (*357*) Assign (T 12) (Plain (Einsum [(n_t2'aaaa,[0;1;2;3]); (n_v'aaaa'ovov,[4;2;1;3])] [0;4]));
  (*358*) Assign (T 45) (Plain (Einsum [(n_t2'abab,[0;1;2;3]); (n_l2'abab,[2;3;4;5])] [4;0;5;1]));
  (*359*) Assign (T 22) (Times (Copy n_f'aa'vv) (-1) 1);
  (*360*) AddTo (T 22) (Times (Copy (T 20)) (2) 1);
  (*361*) Del (T 20);
  (*362*) AddTo (T 22) (Plain (Copy (T 21)));
  (*363*) Del (T 21);
  (*364*) Assign (T 18) (Plain (Einsum [(n_t2'aaaa,[0;1;2;3]); (n_l2'aaaa,[2;3;4;5])] [4;5;0;1]));
  (*365*) Assign (T 10) (Plain (Transpose n_v'aabb'ovov [0;2;1;3]));
  (*366*) AddTo (T 10) (Plain (Copy (T 8)));
  (*367*) Del (T 8);
  (*368*) AddTo (T 10) (Times (Copy (T 9)) (2) 1);
  (*369*) Del (T 9);
  (*370*) Assign (T 26) (Plain (Transpose n_v'aaaa'ovov [0;2;1;3]));
  (*371*) AddTo (T 26) (Times (Copy n_v'aaaa'oovv) (-1) 1);
  (*372*) AddTo (T 26) (Times (Copy (T 5)) (2) 1);
  (*373*) AddTo (T 26) (Plain (Copy (T 6)));
  (*374*) Assign (T 36) (Plain (Copy (T 32)));
  (*375*) AddTo (T 36) (Times (Copy (T 33)) (1) 2);
  (*376*) Assign (T 34) (Times (Copy (T 32)) (2) 1);
  (*377*) Del (T 32);
  (*378*) AddTo (T 34) (Plain (Copy (T 33)));
  (*379*) Del (T 33);
  (*380*) Assign (T 30) (Times (Copy (T 28)) (4) 1);
  (*381*) Del (T 28);
  (*382*) AddTo (T 30) (Plain (Copy (T 29)));
  (*383*) Del (T 29);
  (*384*) Assign (T 3) (Times (Copy (T 1)) (2) 1);
  (*385*) AddTo (T 3) (Plain (Copy (T 2)));
  (*386*) Assign (T 76) (Plain (Einsum [(T 40,[0;1]); (n_v'bbbb'ovov,[2;3;4;1])] [2;4;0;3]));
  (*387*) Assign (T 65) (Plain (Einsum [(n_v'bbbb'ovov,[0;1;2;3]); (T 40,[4;1])] [0;2;4;3]));
  (*388*) Assign (T 74) (Times (Einsum [(T 49,[0;1]); (n_l2'bbbb,[2;0;3;4])] [3;4;2;1]) (-1) 1);
  (*389*) Assign (T 81) (Plain (Einsum [(T 80,[0;1;2;3]); (n_v'bbbb'ovov,[4;3;1;5])] [0;4;2;5]));
  (*390*) Del (T 80);
  (*391*) Assign (T 75) (Plain (Copy n_v'bbbb'oooo));
  (*392*) AddTo (T 75) (Plain (Einsum [(n_t2'bbbb,[0;1;2;3]); (n_v'bbbb'ovov,[4;2;5;3])] [0;4;5;1]));
  (*393*) Assign (T 68) (Plain (Einsum [(T 56,[0;1;2;3]); (n_l2'abab,[2;4;0;5])] [1;5;3;4]));
  (*394*) Assign (T 73) (Times (Einsum [(T 72,[0;1;2;3]); (n_v'bbbb'ovov,[3;4;2;5])] [1;0;5;4]) (-1) 1);
  (*395*) Del (T 72);
  (*396*) Assign (T 84) (Times (Einsum [(T 61,[0;1]); (n_v'bbbb'ovov,[2;3;1;4])] [0;2;4;3]) (2) 1);
  (*397*) Assign (T 71) (Plain (Einsum [(n_l2'bbbb,[0;1;2;3]); (n_v'bbbb'vvvv,[4;0;5;1])] [2;3;4;5]));
  (*398*) Assign (T 67) (Times (Einsum [(T 66,[0;1;2;3]); (n_l2'bbbb,[4;2;5;0])] [5;1;4;3]) (2) 1);
  (*399*) Del (T 66);
  (*400*) Assign (T 70) (Times (Einsum [(n_l2'bbbb,[0;1;2;3]); (T 69,[3;4])] [2;4;0;1]) (-2) 1);
  (*401*) Del (T 69);
  (*402*) Assign (T 83) (Plain (Einsum [(T 82,[0;1]); (n_v'bbbb'ovov,[2;3;1;4])] [0;2;4;3]));
  (*403*) Del (T 82);
  (*404*) Assign (T 77) (Plain (Einsum [(T 53,[0;1;2;3]); (n_l2'bbbb,[4;2;5;0])] [5;1;4;3]));
  (*405*) Assign (T 16) (Plain (Copy n_f'aa'oo));
  (*406*) AddTo (T 16) (Times (Copy (T 12)) (2) 1);
  (*407*) AddTo (T 16) (Plain (Copy (T 13)));
  (*408*) Assign (T 58) (Plain (Einsum [(n_t2'abab,[0;1;2;3]); (n_v'aabb'ovov,[4;2;1;5])] [0;4;3;5]));
  (*409*) Assign (T 63) (Plain (Einsum [(n_l2'abab,[0;1;2;3]); (n_t2'aaaa,[4;2;5;0])] [4;3;5;1]));
  (*410*) AddTo (T 63) (Plain (Einsum [(n_l2'bbbb,[0;1;2;3]); (n_t2'abab,[4;3;5;1])] [4;2;5;0]));
  (*411*) Assign (T 46) (Plain (Einsum [(T 45,[0;1;2;3]); (n_v'aabb'ovov,[1;4;3;5])] [0;2;4;5]));
  (*412*) Del (T 45);
  (*413*) Assign (T 50) (Plain (Copy n_v'aabb'oooo));
  (*414*) AddTo (T 50) (Plain (Einsum [(n_t2'abab,[0;1;2;3]); (n_v'aabb'ovov,[4;2;5;3])] [0;4;1;5]));
  (*415*) Assign (T 44) (Plain (Einsum [(n_v'aabb'vvvv,[0;1;2;3]); (n_l2'abab,[1;3;4;5])] [4;5;0;2]));
  (*416*) Assign (T 62) (Plain (Copy (T 1)));
  (*417*) Del (T 1);
  (*418*) AddTo (T 62) (Times (Copy (T 2)) (1) 2);
  (*419*) Del (T 2);
  (*420*) Assign (T 64) (Plain (Einsum [(n_t2'abab,[0;1;2;3]); (n_l2'aaaa,[4;2;5;0])] [5;1;4;3]));
  (*421*) AddTo (T 64) (Plain (Einsum [(n_t2'bbbb,[0;1;2;3]); (n_l2'abab,[4;3;5;1])] [5;0;4;2]));
  (*422*) Assign (T 43) (Times (Copy n_f'bb'oo) (1) 2);
  (*423*) AddTo (T 43) (Times (Copy (T 41)) (1) 2);
  (*424*) Del (T 41);
  (*425*) AddTo (T 43) (Plain (Copy (T 42)));
  (*426*) Del (T 42);
  (*427*) Assign (T 15) (Plain (Transpose n_v'aaaa'ovov [0;2;1;3]));
  (*428*) AddTo (T 15) (Times (Copy n_v'aaaa'oovv) (-1) 1);
  (*429*) AddTo (T 15) (Times (Copy (T 5)) (2) 1);
  (*430*) AddTo (T 15) (Plain (Copy (T 6)));
  (*431*) Assign (T 57) (Plain (Einsum [(n_t2'abab,[0;1;2;3]); (n_v'aabb'ovov,[0;4;5;3])] [1;5;2;4]));
  (*432*) Assign (T 23) (Times (Einsum [(T 22,[0;1]); (n_l2'aaaa,[2;0;3;4])] [3;4;1;2]) (-1) 1);
  (*433*) Assign (T 7) (Times (Transpose n_v'aaaa'ovov [0;2;1;3]) (1) 2);
  (*434*) AddTo (T 7) (Times (Copy n_v'aaaa'oovv) (-1) 2);
  (*435*) AddTo (T 7) (Plain (Copy (T 5)));
  (*436*) Del (T 5);
  (*437*) AddTo (T 7) (Times (Copy (T 6)) (1) 2);
  (*438*) Del (T 6);
  (*439*) Assign (T 14) (Times (Copy n_f'aa'oo) (1) 2);
  (*440*) AddTo (T 14) (Plain (Copy (T 12)));
  (*441*) Del (T 12);
  (*442*) AddTo (T 14) (Times (Copy (T 13)) (1) 2);
  (*443*) Del (T 13);
  (*444*) Assign (T 19) (Times (Einsum [(n_v'aaaa'ovov,[0;1;2;3]); (T 18,[4;5;2;0])] [5;4;3;1]) (-1) 1);
  (*445*) Del (T 18);
  (*446*) Assign (T 11) (Plain (Einsum [(T 10,[0;1;2;3]); (n_l2'abab,[4;3;5;1])] [0;5;2;4]));
  (*447*) Assign (T 27) (Plain (Einsum [(n_l2'aaaa,[0;1;2;3]); (T 26,[3;4;1;5])] [4;2;5;0]));
  (*448*) Del (T 26);
  (*449*) Assign (T 37) (Times (Einsum [(n_v'aaaa'ovov,[0;1;2;3]); (T 36,[4;2])] [0;4;3;1]) (2) 1);
  (*450*) Assign (T 17) (Times (Einsum [(n_v'aaaa'vvvv,[0;1;2;3]); (n_l2'aaaa,[3;1;4;5])] [4;5;0;2]) (-1) 1);
  (*451*) Assign (T 35) (Plain (Einsum [(n_v'aaaa'ovov,[0;1;2;3]); (T 34,[4;2])] [0;4;3;1]));
  (*452*) Del (T 34);
  (*453*) Assign (T 31) (Plain (Einsum [(n_v'aaaa'ovov,[0;1;2;3]); (T 30,[4;2;5;1])] [0;4;3;5]));
  (*454*) Del (T 30);
  (*455*) Assign (T 25) (Plain (Einsum [(T 3,[0;1]); (n_v'aaaa'ovov,[2;3;4;1])] [2;4;3;0]));
  (*456*) Assign (T 4) (Plain (Einsum [(n_v'aaaa'ovov,[0;1;2;3]); (T 3,[4;1])] [0;2;3;4]));
  (*457*) Del (T 3);
  (*458*) Assign (T 24) (Plain (Copy n_v'aaaa'oooo));
  (*459*) AddTo (T 24) (Times (Einsum [(n_t2'aaaa,[0;1;2;3]); (n_v'aaaa'ovov,[4;3;5;2])] [0;4;1;5]) (-1) 1);
  (*460*) Assign n_l2new'bbbb (Plain (Transpose n_v'bbbb'ovov [1;3;0;2]));
  (*461*) AddTo n_l2new'bbbb (Times (Transpose (T 65) [3;2;1;0]) (-1) 1);
  (*462*) AddTo n_l2new'bbbb (Times (Transpose n_v'bbbb'ovov [3;1;0;2]) (-1) 1);
  (*463*) AddTo n_l2new'bbbb (Plain (Transpose (T 65) [2;3;1;0]));
  (*464*) Del (T 65);
  (*465*) AddTo n_l2new'bbbb (Times (Transpose (T 67) [3;2;0;1]) (-1) 1);
  (*466*) AddTo n_l2new'bbbb (Times (Transpose (T 68) [2;3;1;0]) (-1) 1);
  (*467*) AddTo n_l2new'bbbb (Times (Transpose (T 70) [3;2;0;1]) (-1) 1);
  (*468*) AddTo n_l2new'bbbb (Plain (Transpose (T 67) [3;2;1;0]));
  (*469*) Del (T 67);
  (*470*) AddTo n_l2new'bbbb (Plain (Transpose (T 68) [2;3;0;1]));
  (*471*) AddTo n_l2new'bbbb (Plain (Transpose (T 70) [3;2;1;0]));
  (*472*) Del (T 70);
  (*473*) AddTo n_l2new'bbbb (Times (Transpose (T 71) [3;2;1;0]) (2) 1);
  (*474*) Del (T 71);
  (*475*) AddTo n_l2new'bbbb (Times (Transpose (T 73) [3;2;1;0]) (2) 1);
  (*476*) Del (T 73);
  (*477*) AddTo n_l2new'bbbb (Times (Transpose (T 74) [3;2;1;0]) (2) 1);
  (*478*) AddTo n_l2new'bbbb (Times (Transpose (T 74) [2;3;1;0]) (-2) 1);
  (*479*) Del (T 74);
  (*480*) AddTo n_l2new'bbbb (Times (Einsum [(n_l2'bbbb,[0;1;2;3]); (T 75,[2;4;5;3])] [0;1;5;4]) (-2) 1);
  (*481*) Del (T 75);
  (*482*) AddTo n_l2new'bbbb (Plain (Transpose (T 76) [3;2;1;0]));
  (*483*) AddTo n_l2new'bbbb (Times (Transpose (T 77) [2;3;0;1]) (2) 1);
  (*484*) AddTo n_l2new'bbbb (Plain (Transpose (T 68) [3;2;1;0]));
  (*485*) AddTo n_l2new'bbbb (Times (Transpose (T 77) [2;3;1;0]) (-2) 1);
  (*486*) Del (T 77);
  (*487*) AddTo n_l2new'bbbb (Times (Transpose (T 68) [3;2;0;1]) (-1) 1);
  (*488*) Del (T 68);
  (*489*) AddTo n_l2new'bbbb (Plain (Transpose (T 81) [3;2;0;1]));
  (*490*) AddTo n_l2new'bbbb (Times (Transpose (T 83) [2;3;0;1]) (-1) 1);
  (*491*) AddTo n_l2new'bbbb (Times (Transpose (T 81) [2;3;0;1]) (-1) 1);
  (*492*) AddTo n_l2new'bbbb (Plain (Transpose (T 83) [3;2;0;1]));
  (*493*) Del (T 83);
  (*494*) AddTo n_l2new'bbbb (Times (Transpose (T 81) [3;2;1;0]) (-1) 1);
  (*495*) AddTo n_l2new'bbbb (Plain (Transpose (T 84) [2;3;1;0]));
  (*496*) AddTo n_l2new'bbbb (Plain (Transpose (T 81) [2;3;1;0]));
  (*497*) Del (T 81);
  (*498*) AddTo n_l2new'bbbb (Times (Transpose (T 84) [3;2;1;0]) (-1) 1);
  (*499*) Del (T 84);
  (*500*) AddTo n_l2new'bbbb (Times (Transpose (T 76) [2;3;1;0]) (-1) 1);
  (*501*) Del (T 76);
  (*502*) Assign n_l2new'abab (Plain (Transpose n_v'aabb'ovov [1;3;0;2]));
  (*503*) AddTo n_l2new'abab (Times (Einsum [(n_v'aabb'ovov,[0;1;2;3]); (T 40,[4;3])] [1;4;0;2]) (-1) 1);
  (*504*) Del (T 40);
  (*505*) AddTo n_l2new'abab (Times (Einsum [(n_v'aabb'vvoo,[0;1;2;3]); (n_l2'abab,[1;4;5;3])] [0;4;5;2]) (-1) 1);
  (*506*) AddTo n_l2new'abab (Times (Einsum [(T 43,[0;1]); (n_l2'abab,[2;3;4;0])] [2;3;4;1]) (-2) 1);
  (*507*) Del (T 43);
  (*508*) AddTo n_l2new'abab (Plain (Einsum [(T 15,[0;1;2;3]); (n_l2'abab,[2;4;0;5])] [3;4;1;5]));
  (*509*) AddTo n_l2new'abab (Times (Einsum [(n_l2'bbbb,[0;1;2;3]); (T 10,[4;3;5;1])] [5;0;4;2]) (2) 1);
  (*510*) Del (T 10);
  (*511*) AddTo n_l2new'abab (Times (Einsum [(n_l2'abab,[0;1;2;3]); (T 16,[2;4])] [0;1;4;3]) (-1) 1);
  (*512*) AddTo n_l2new'abab (Plain (Transpose (T 44) [2;3;0;1]));
  (*513*) Del (T 44);
  (*514*) AddTo n_l2new'abab (Plain (Transpose (T 46) [2;3;0;1]));
  (*515*) Del (T 46);
  (*516*) AddTo n_l2new'abab (Times (Einsum [(T 22,[0;1]); (n_l2'abab,[0;2;3;4])] [1;2;3;4]) (-1) 1);
  (*517*) Del (T 22);
  (*518*) AddTo n_l2new'abab (Times (Einsum [(n_l2'abab,[0;1;2;3]); (T 49,[1;4])] [0;4;2;3]) (-1) 1);
  (*519*) Del (T 49);
  (*520*) AddTo n_l2new'abab (Plain (Einsum [(T 50,[0;1;2;3]); (n_l2'abab,[4;5;0;2])] [4;5;1;3]));
  (*521*) Del (T 50);
  (*522*) AddTo n_l2new'abab (Plain (Einsum [(T 53,[0;1;2;3]); (n_l2'abab,[4;2;5;0])] [4;3;5;1]));
  (*523*) Del (T 53);
  (*524*) AddTo n_l2new'abab (Times (Einsum [(n_l2'aaaa,[0;1;2;3]); (T 56,[3;4;1;5])] [0;5;2;4]) (2) 1);
  (*525*) Del (T 56);
  (*526*) AddTo n_l2new'abab (Times (Einsum [(n_l2'abab,[0;1;2;3]); (n_v'aabb'oovv,[4;2;5;1])] [0;5;4;3]) (-1) 1);
  (*527*) AddTo n_l2new'abab (Plain (Einsum [(n_l2'abab,[0;1;2;3]); (T 57,[3;4;0;5])] [5;1;2;4]));
  (*528*) Del (T 57);
  (*529*) AddTo n_l2new'abab (Times (Einsum [(n_v'aabb'ovov,[0;1;2;3]); (T 36,[4;0])] [1;3;4;2]) (-2) 1);
  (*530*) Del (T 36);
  (*531*) AddTo n_l2new'abab (Plain (Einsum [(T 58,[0;1;2;3]); (n_l2'abab,[4;2;0;5])] [4;3;1;5]));
  (*532*) Del (T 58);
  (*533*) AddTo n_l2new'abab (Times (Einsum [(T 61,[0;1]); (n_v'aabb'ovov,[2;3;1;4])] [3;4;2;0]) (-2) 1);
  (*534*) Del (T 61);
  (*535*) AddTo n_l2new'abab (Times (Einsum [(T 62,[0;1]); (n_v'aabb'ovov,[2;1;3;4])] [0;4;2;3]) (-2) 1);
  (*536*) Del (T 62);
  (*537*) AddTo n_l2new'abab (Times (Einsum [(T 63,[0;1;2;3]); (n_v'aaaa'ovov,[4;2;0;5])] [5;3;4;1]) (-2) 1);
  (*538*) Del (T 63);
  (*539*) AddTo n_l2new'abab (Times (Einsum [(n_v'bbbb'ovov,[0;1;2;3]); (T 64,[4;2;5;1])] [5;3;4;0]) (-2) 1);
  (*540*) Del (T 64);
  (*541*) Assign n_l2new'aaaa (Plain (Transpose n_v'aaaa'ovov [1;3;0;2]));
  (*542*) AddTo n_l2new'aaaa (Times (Transpose (T 4) [2;3;1;0]) (-1) 1);
  (*543*) AddTo n_l2new'aaaa (Times (Transpose n_v'aaaa'ovov [3;1;0;2]) (-1) 1);
  (*544*) AddTo n_l2new'aaaa (Plain (Transpose (T 4) [3;2;1;0]));
  (*545*) Del (T 4);
  (*546*) AddTo n_l2new'aaaa (Times (Einsum [(n_l2'aaaa,[0;1;2;3]); (T 7,[3;4;1;5])] [5;0;2;4]) (-4) 1);
  (*547*) Del (T 7);
  (*548*) AddTo n_l2new'aaaa (Times (Transpose (T 11) [2;3;1;0]) (-1) 1);
  (*549*) AddTo n_l2new'aaaa (Times (Einsum [(n_l2'aaaa,[0;1;2;3]); (T 14,[3;4])] [0;1;2;4]) (-4) 1);
  (*550*) Del (T 14);
  (*551*) AddTo n_l2new'aaaa (Times (Einsum [(n_l2'aaaa,[0;1;2;3]); (T 15,[3;4;1;5])] [5;0;4;2]) (2) 1);
  (*552*) Del (T 15);
  (*553*) AddTo n_l2new'aaaa (Plain (Transpose (T 11) [2;3;0;1]));
  (*554*) AddTo n_l2new'aaaa (Times (Einsum [(T 16,[0;1]); (n_l2'aaaa,[2;3;4;0])] [2;3;1;4]) (2) 1);
  (*555*) Del (T 16);
  (*556*) AddTo n_l2new'aaaa (Times (Transpose (T 17) [3;2;1;0]) (2) 1);
  (*557*) Del (T 17);
  (*558*) AddTo n_l2new'aaaa (Times (Transpose (T 19) [3;2;1;0]) (2) 1);
  (*559*) Del (T 19);
  (*560*) AddTo n_l2new'aaaa (Times (Transpose (T 23) [2;3;1;0]) (2) 1);
  (*561*) AddTo n_l2new'aaaa (Times (Transpose (T 23) [3;2;1;0]) (-2) 1);
  (*562*) Del (T 23);
  (*563*) AddTo n_l2new'aaaa (Times (Einsum [(T 24,[0;1;2;3]); (n_l2'aaaa,[4;5;0;2])] [4;5;1;3]) (2) 1);
  (*564*) Del (T 24);
  (*565*) AddTo n_l2new'aaaa (Plain (Transpose (T 25) [2;3;1;0]));
  (*566*) AddTo n_l2new'aaaa (Times (Transpose (T 27) [3;2;1;0]) (2) 1);
  (*567*) AddTo n_l2new'aaaa (Plain (Transpose (T 11) [3;2;1;0]));
  (*568*) AddTo n_l2new'aaaa (Times (Transpose (T 27) [3;2;0;1]) (-2) 1);
  (*569*) Del (T 27);
  (*570*) AddTo n_l2new'aaaa (Times (Transpose (T 11) [3;2;0;1]) (-1) 1);
  (*571*) Del (T 11);
  (*572*) AddTo n_l2new'aaaa (Plain (Transpose (T 31) [2;3;1;0]));
  (*573*) AddTo n_l2new'aaaa (Times (Transpose (T 35) [2;3;1;0]) (-1) 1);
  (*574*) AddTo n_l2new'aaaa (Times (Transpose (T 31) [3;2;1;0]) (-1) 1);
  (*575*) AddTo n_l2new'aaaa (Plain (Transpose (T 35) [3;2;1;0]));
  (*576*) Del (T 35);
  (*577*) AddTo n_l2new'aaaa (Times (Transpose (T 31) [2;3;0;1]) (-1) 1);
  (*578*) AddTo n_l2new'aaaa (Plain (Transpose (T 37) [2;3;0;1]));
  (*579*) AddTo n_l2new'aaaa (Plain (Transpose (T 31) [3;2;0;1]));
  (*580*) Del (T 31);
  (*581*) AddTo n_l2new'aaaa (Times (Transpose (T 37) [3;2;0;1]) (-1) 1);
  (*582*) Del (T 37);
  (*583*) AddTo n_l2new'aaaa (Times (Transpose (T 25) [3;2;1;0]) (-1) 1);
  (*584*) Del (T 25)]
 [(n_l2new'bbbb,[7;7;6;6]); (n_l2new'abab,[5;7;4;6]); (n_l2new'aaaa,[5;5;4;4])].

(** ebcc/codegen/UCCD.py:588-630 [make_rdm1_f]; assembly (line 627) not translated; assembly (line 628) not translated *)
Definition UCCD_make_rdm1_f : prog := mkprog
 [(n_t2'aaaa,[4;4;5;5]); (n_t2'bbbb,[6;6;7;7]); (n_l2'abab,[5;7;4;6]); (n_t2'abab,[4;6;5;7]); (n_l2'bbbb,[7;7;6;6]); (n_l2'aaaa,[5;5;4;4])]
 [(*608*) Assign n_delta'aa'oo (Plain (Eye 4));
  (*608*) Assign n_delta'aa'vv (Plain (Eye 5));
  (*608*) Assign n_delta'bb'oo (Plain (Eye 6));
  (*608*) Assign n_delta'bb'vv (Plain (Eye 7));
  (*612*) Assign n_rdm1'bb'vv (Plain (Einsum [(n_l2'abab,[0;1;2;3]); (n_t2'abab,[2;3;0;4])] [1;4]));
  (*613*) AddTo n_rdm1'bb'vv (Times (Einsum [(n_t2'bbbb,[0;1;2;3]); (n_l2'bbbb,[4;3;0;1])] [4;2]) (2) 1);
  (*614*) Assign n_rdm1'aa'vv (Times (Einsum [(n_l2'aaaa,[0;1;2;3]); (n_t2'aaaa,[2;3;4;1])] [0;4]) (2) 1);
  (*615*) AddTo n_rdm1'aa'vv (Plain (Einsum [(n_l2'abab,[0;1;2;3]); (n_t2'abab,[2;3;4;1])] [0;4]));
  (*616*) Assign n_rdm1'bb'oo (Times (Einsum [(n_t2'abab,[0;1;2;3]); (n_l2'abab,[2;3;0;4])] [1;4]) (-1) 1);
  (*617*) AddTo n_rdm1'bb'oo (Times (Einsum [(n_l2'bbbb,[0;1;2;3]); (n_t2'bbbb,[4;3;0;1])] [4;2]) (-2) 1);
  (*618*) AddTo n_rdm1'bb'oo (Plain (Copy n_delta'bb'oo));
  (*619*) Assign n_rdm1'aa'oo (Times (Einsum [(n_t2'aaaa,[0;1;2;3]); (n_l2'aaaa,[2;3;4;1])] [0;4]) (-2) 1);
  (*620*) AddTo n_rdm1'aa'oo (Plain (Copy n_delta'aa'oo));
  (*621*) Del n_delta'aa'oo;
  (*621*) Del n_delta'aa'vv;
  (*621*) Del n_delta'bb'oo;
  (*621*) Del n_delta'bb'vv;
  (*622*) AddTo n_rdm1'aa'oo (Times (Einsum [(n_t2'abab,[0;1;2;3]); (n_l2'abab,[2;3;4;1])] [0;4]) (-1) 1);
  (*623*) Assign n_rdm1'aa'ov (Plain (Zeros [4;5]));
  (*624*) Assign n_rdm1'aa'vo (Plain (Zeros [5;4]));
  (*625*) Assign n_rdm1'bb'ov (Plain (Zeros [6;7]));
  (*626*) Assign n_rdm1'bb'vo (Plain (Zeros [7;6]))]
 [(n_rdm1'aa'oo,[4;4]); (n_rdm1'aa'ov,[4;5]); (n_rdm1'aa'vo,[5;4]); (n_rdm1'aa'vv,[5;5]); (n_rdm1'bb'oo,[6;6]); (n_rdm1'bb'ov,[6;7]); (n_rdm1'bb'vo,[7;6]); (n_rdm1'bb'vv,[7;7])].

(** ebcc/codegen/UCCD.py:632-882 [make_rdm2_f]; assembly (line 873) not translated; assembly (line 874) not translated; assembly (line 875) not translated *)
Definition UCCD_make_rdm2_f : prog := mkprog
 [(n_t2'aaaa,[4;4;5;5]); (n_t2'bbbb,[6;6;7;7]); (n_l2'abab,[5;7;4;6]); (n_t2'abab,[4;6;5;7]); (n_l2'bbbb,[7;7;6;6]); (n_l2'aaaa,[5;5;4;4])]
 [(*653*) Assign n_delta'aa'oo (Plain (Eye 4));
  (*653*) Assign n_delta'aa'vv (Plain (Eye 5));
  (*653*) Assign n_delta'bb'oo (Plain (Eye 6));
  (*653*) Assign n_delta'bb'vv (Plain (Eye 7));
  (*657*) Assign (T 6) (Plain (Einsum [(n_l2'abab,[0;1;2;3]); (n_t2'abab,[2;4;0;1])] [3;4]));
  (*658*) Assign (T 7) (Plain (Einsum [(n_l2'bbbb,[0;1;2;3]); (n_t2'bbbb,[4;3;0;1])] [2;4]));
  (*659*) Assign (T 1) (Plain (Einsum [(n_t2'aaaa,[0;1;2;3]); (n_l2'aaaa,[2;3;4;1])] [4;0]));
  (*660*) Assign (T 2) (Plain (Einsum [(n_l2'abab,[0;1;2;3]); (n_t2'abab,[4;3;0;1])] [2;4]));
  (*661*) Assign (T 28) (Plain (Einsum [(n_t2'bbbb,[0;1;2;3]); (n_l2'bbbb,[4;3;0;1])] [4;2]));
  (*662*) Assign (T 27) (Plain (Einsum [(n_l2'abab,[0;1;2;3]); (n_t2'abab,[2;3;0;4])] [1;4]));
  (*663*) Assign (T 15) (Plain (Einsum [(n_t2'aaaa,[0;1;2;3]); (n_l2'aaaa,[4;3;0;1])] [4;2]));
  (*664*) Assign (T 16) (Plain (Einsum [(n_l2'abab,[0;1;2;3]); (n_t2'abab,[2;3;4;1])] [0;4]));
  (*665*) Assign (T 35) (Plain (Einsum [(n_t2'bbbb,[0;1;2;3]); (n_l2'abab,[4;3;5;1])] [5;0;4;2]));
  (*666*) Assign (T 12) (Plain (Copy (T 6)));
  (*667*) AddTo (T 12) (Times (Copy (T 7)) (2) 1);
  (*668*) Assign (T 14) (Plain (Einsum [(n_l2'bbbb,[0;1;2;3]); (n_t2'bbbb,[4;5;0;1])] [2;3;4;5]));
  (*669*) Assign (T 32) (Plain (Einsum [(n_t2'bbbb,[0;1;2;3]); (n_l2'bbbb,[4;3;5;1])] [5;0;4;2]));
  (*670*) Assign (T 34) (Plain (Einsum [(n_t2'abab,[0;1;2;3]); (n_l2'aaaa,[4;2;5;0])] [5;1;4;3]));
  (*671*) Assign (T 31) (Plain (Einsum [(n_l2'abab,[0;1;2;3]); (n_t2'abab,[2;4;0;5])] [3;4;1;5]));
  (*672*) Assign (T 5) (Plain (Einsum [(n_t2'aaaa,[0;1;2;3]); (n_l2'aaaa,[2;3;4;5])] [4;5;0;1]));
  (*673*) Assign (T 24) (Plain (Einsum [(n_l2'abab,[0;1;2;3]); (n_t2'abab,[4;3;5;1])] [2;4;0;5]));
  (*674*) Assign (T 22) (Plain (Einsum [(n_t2'aaaa,[0;1;2;3]); (n_l2'aaaa,[4;3;5;1])] [5;0;4;2]));
  (*675*) Assign (T 9) (Times (Copy (T 1)) (2) 1);
  (*676*) AddTo (T 9) (Plain (Copy (T 2)));
  (*677*) Assign (T 20) (Plain (Einsum [(n_l2'bbbb,[0;1;2;3]); (n_t2'abab,[4;3;5;1])] [4;2;5;0]));
  (*678*) Assign (T 44) (Plain (Einsum [(n_l2'bbbb,[0;1;2;3]); (n_t2'bbbb,[2;3;4;5])] [0;1;4;5]));
  (*679*) Assign (T 43) (Plain (Einsum [(n_l2'aaaa,[0;1;2;3]); (n_t2'aaaa,[2;3;4;5])] [0;1;4;5]));
  (*680*) Assign (T 42) (Plain (Copy (T 27)));
  (*681*) AddTo (T 42) (Times (Copy (T 28)) (2) 1);
  (*682*) Assign (T 26) (Times (Copy (T 15)) (2) 1);
  (*683*) AddTo (T 26) (Plain (Copy (T 16)));
  (*684*) Assign (T 29) (Times (Copy (T 27)) (1) 2);
  (*685*) Del (T 27);
  (*686*) AddTo (T 29) (Plain (Copy (T 28)));
  (*687*) Del (T 28);
  (*688*) Assign (T 17) (Plain (Copy (T 15)));
  (*689*) Del (T 15);
  (*690*) AddTo (T 17) (Times (Copy (T 16)) (1) 2);
  (*691*) Del (T 16);
  (*692*) Assign (T 30) (Plain (Einsum [(n_t2'abab,[0;1;2;3]); (n_l2'abab,[2;4;5;1])] [5;0;4;3]));
  (*693*) Assign (T 41) (Plain (Einsum [(n_t2'abab,[0;1;2;3]); (T 35,[0;4;2;5])] [1;4;3;5]));
  (*694*) Assign (T 37) (Times (Einsum [(T 12,[0;1]); (n_t2'bbbb,[2;0;3;4])] [2;1;3;4]) (-1) 1);
  (*695*) Assign (T 38) (Plain (Einsum [(T 14,[0;1;2;3]); (n_t2'bbbb,[1;0;4;5])] [3;2;4;5]));
  (*696*) Assign (T 39) (Plain (Einsum [(n_t2'bbbb,[0;1;2;3]); (T 32,[1;4;3;5])] [0;4;2;5]));
  (*697*) Assign (T 40) (Plain (Einsum [(T 34,[0;1;2;3]); (n_t2'abab,[0;4;2;5])] [1;4;3;5]));
  (*698*) Assign (T 33) (Plain (Copy (T 31)));
  (*699*) AddTo (T 33) (Times (Copy (T 32)) (4) 1);
  (*700*) Assign (T 4) (Plain (Copy (T 1)));
  (*701*) AddTo (T 4) (Times (Copy (T 2)) (1) 2);
  (*702*) Assign (T 36) (Plain (Copy (T 34)));
  (*703*) AddTo (T 36) (Plain (Copy (T 35)));
  (*704*) Assign (T 10) (Plain (Einsum [(n_t2'abab,[0;1;2;3]); (n_l2'abab,[2;3;4;5])] [4;0;5;1]));
  (*705*) Assign (T 19) (Plain (Einsum [(n_t2'aaaa,[0;1;2;3]); (T 5,[1;0;4;5])] [5;4;2;3]));
  (*706*) Assign (T 25) (Plain (Einsum [(n_t2'aaaa,[0;1;2;3]); (T 24,[1;4;3;5])] [0;4;2;5]));
  (*707*) Assign (T 23) (Plain (Einsum [(T 22,[0;1;2;3]); (n_t2'aaaa,[4;0;5;2])] [4;1;5;3]));
  (*708*) Assign (T 18) (Times (Einsum [(T 9,[0;1]); (n_t2'aaaa,[2;0;3;4])] [2;1;3;4]) (-1) 1);
  (*709*) Assign (T 21) (Plain (Einsum [(T 20,[0;1;2;3]); (n_t2'abab,[4;1;5;3])] [4;0;5;2]));
  (*710*) Assign (T 11) (Times (Copy n_delta'bb'oo) (-1) 1);
  (*711*) AddTo (T 11) (Plain (Copy (T 6)));
  (*712*) AddTo (T 11) (Times (Copy (T 7)) (2) 1);
  (*713*) Assign (T 13) (Times (Copy (T 6)) (1) 2);
  (*714*) AddTo (T 13) (Plain (Copy (T 7)));
  (*715*) Assign (T 8) (Times (Copy n_delta'bb'oo) (-1) 2);
  (*716*) AddTo (T 8) (Times (Copy (T 6)) (1) 2);
  (*717*) Del (T 6);
  (*718*) AddTo (T 8) (Plain (Copy (T 7)));
  (*719*) Del (T 7);
  (*720*) Assign (T 3) (Times (Copy n_delta'aa'oo) (-1) 1);
  (*721*) AddTo (T 3) (Times (Copy (T 1)) (2) 1);
  (*722*) Del (T 1);
  (*723*) AddTo (T 3) (Plain (Copy (T 2)));
  (*724*) Del (T 2);
  (*725*) Assign n_rdm2'bbbb'vvvv (Times (Transpose (T 44) [1;0;3;2]) (2) 1);
  (*726*) Del (T 44);
  (*727*) Assign n_rdm2'abab'vvvv (Plain (Einsum [(n_t2'abab,[0;1;2;3]); (n_l2'abab,[4;5;0;1])] [4;5;2;3]));
  (*728*) Assign n_rdm2'aaaa'vvvv (Times (Transpose (T 43) [1;0;3;2]) (2) 1);
  (*729*) Del (T 43);
  (*730*) Assign n_rdm2'bbbb'vvoo (Times (Copy n_l2'bbbb) (2) 1);
  (*731*) Assign n_rdm2'abab'vvoo (Plain (Copy n_l2'abab));
  (*732*) Assign n_rdm2'aaaa'vvoo (Times (Copy n_l2'aaaa) (2) 1);
  (*733*) Assign n_rdm2'bbbb'vovo (Plain (Einsum [(T 42,[0;1]); (n_delta'bb'oo,[2;3])] [0;2;1;3]));
  (*734*) AddTo n_rdm2'bbbb'vovo (Times (Transpose (T 31) [2;1;3;0]) (-1) 1);
  (*735*) AddTo n_rdm2'bbbb'vovo (Times (Transpose (T 32) [2;1;3;0]) (-4) 1);
  (*736*) Assign n_rdm2'abab'vovo (Plain (Einsum [(T 26,[0;1]); (n_delta'bb'oo,[2;3])] [0;2;1;3]));
  (*737*) AddTo n_rdm2'abab'vovo (Times (Einsum [(n_l2'abab,[0;1;2;3]); (n_t2'abab,[2;4;5;1])] [0;4;5;3]) (-1) 1);
  (*738*) Assign n_rdm2'aaaa'vovo (Plain (Einsum [(n_delta'aa'oo,[0;1]); (T 26,[2;3])] [2;0;3;1]));
  (*739*) AddTo n_rdm2'aaaa'vovo (Times (Transpose (T 22) [2;1;3;0]) (-4) 1);
  (*740*) AddTo n_rdm2'aaaa'vovo (Times (Transpose (T 24) [2;1;3;0]) (-1) 1);
  (*741*) Assign n_rdm2'bbbb'voov (Times (Einsum [(T 29,[0;1]); (n_delta'bb'oo,[2;3])] [0;2;3;1]) (-2) 1);
  (*742*) AddTo n_rdm2'bbbb'voov (Plain (Transpose (T 31) [2;1;0;3]));
  (*743*) AddTo n_rdm2'bbbb'voov (Times (Transpose (T 32) [2;1;0;3]) (4) 1);
  (*744*) Assign n_rdm2'abab'voov (Times (Transpose (T 34) [2;1;0;3]) (2) 1);
  (*745*) Del (T 34);
  (*746*) AddTo n_rdm2'abab'voov (Times (Transpose (T 35) [2;1;0;3]) (2) 1);
  (*747*) Del (T 35);
  (*748*) Assign n_rdm2'aaaa'voov (Times (Einsum [(n_delta'aa'oo,[0;1]); (T 17,[2;3])] [2;0;1;3]) (-2) 1);
  (*749*) AddTo n_rdm2'aaaa'voov (Times (Transpose (T 22) [2;1;0;3]) (4) 1);
  (*750*) AddTo n_rdm2'aaaa'voov (Plain (Transpose (T 24) [2;1;0;3]));
  (*751*) Assign n_rdm2'bbbb'ovvo (Times (Einsum [(T 42,[0;1]); (n_delta'bb'oo,[2;3])] [2;0;1;3]) (-1) 1);
  (*752*) AddTo n_rdm2'bbbb'ovvo (Plain (Transpose (T 31) [1;2;3;0]));
  (*753*) AddTo n_rdm2'bbbb'ovvo (Times (Transpose (T 32) [1;2;3;0]) (4) 1);
  (*754*) Assign n_rdm2'abab'ovvo (Times (Einsum [(n_l2'abab,[0;1;2;3]); (n_t2'aaaa,[4;2;5;0])] [4;1;5;3]) (2) 1);
  (*755*) AddTo n_rdm2'abab'ovvo (Times (Transpose (T 20) [0;3;2;1]) (2) 1);
  (*756*) Del (T 20);
  (*757*) Assign n_rdm2'aaaa'ovvo (Times (Einsum [(n_delta'aa'oo,[0;1]); (T 26,[2;3])] [0;2;3;1]) (-1) 1);
  (*758*) AddTo n_rdm2'aaaa'ovvo (Times (Transpose (T 22) [1;2;3;0]) (4) 1);
  (*759*) AddTo n_rdm2'aaaa'ovvo (Plain (Transpose (T 24) [1;2;3;0]));
  (*760*) Assign n_rdm2'bbbb'ovov (Times (Einsum [(T 29,[0;1]); (n_delta'bb'oo,[2;3])] [2;0;3;1]) (2) 1);
  (*761*) AddTo n_rdm2'bbbb'ovov (Times (Transpose (T 31) [1;2;0;3]) (-1) 1);
  (*762*) Del (T 31);
  (*763*) AddTo n_rdm2'bbbb'ovov (Times (Transpose (T 32) [1;2;0;3]) (-4) 1);
  (*764*) Del (T 32);
  (*765*) Assign n_rdm2'abab'ovov (Times (Einsum [(n_delta'aa'oo,[0;1]); (T 29,[2;3])] [0;2;1;3]) (2) 1);
  (*766*) AddTo n_rdm2'abab'ovov (Times (Transpose (T 30) [1;2;0;3]) (-1) 1);
  (*767*) Assign n_rdm2'aaaa'ovov (Times (Einsum [(n_delta'aa'oo,[0;1]); (T 17,[2;3])] [0;2;1;3]) (2) 1);
  (*768*) AddTo n_rdm2'aaaa'ovov (Times (Transpose (T 22) [1;2;0;3]) (-4) 1);
  (*769*) Del (T 22);
  (*770*) AddTo n_rdm2'aaaa'ovov (Times (Transpose (T 24) [1;2;0;3]) (-1) 1);
  (*771*) Del (T 24);
  (*772*) Assign n_rdm2'bbbb'oovv (Times (Copy n_t2'bbbb) (2) 1);
  (*773*) AddTo n_rdm2'bbbb'oovv (Times (Einsum [(T 29,[0;1]); (n_t2'bbbb,[2;3;4;0])] [2;3;4;1]) (-4) 1);
  (*774*) AddTo n_rdm2'bbbb'oovv (Times (Transpose (T 37) [1;0;3;2]) (2) 1);
  (*775*) AddTo n_rdm2'bbbb'oovv (Times (Transpose (T 37) [0;1;3;2]) (-2) 1);
  (*776*) Del (T 37);
  (*777*) AddTo n_rdm2'bbbb'oovv (Times (Transpose (T 38) [0;1;3;2]) (-2) 1);
  (*778*) Del (T 38);
  (*779*) AddTo n_rdm2'bbbb'oovv (Times (Transpose (T 39) [0;1;3;2]) (-8) 1);
  (*780*) AddTo n_rdm2'bbbb'oovv (Times (Transpose (T 40) [0;1;3;2]) (-2) 1);
  (*781*) AddTo n_rdm2'bbbb'oovv (Times (Transpose (T 41) [0;1;3;2]) (-2) 1);
  (*782*) AddTo n_rdm2'bbbb'oovv (Times (Transpose (T 41) [1;0;2;3]) (-2) 1);
  (*783*) AddTo n_rdm2'bbbb'oovv (Times (Copy (T 39)) (8) 1);
  (*784*) Del (T 39);
  (*785*) AddTo n_rdm2'bbbb'oovv (Times (Transpose (T 40) [1;0;3;2]) (2) 1);
  (*786*) Del (T 40);
  (*787*) AddTo n_rdm2'bbbb'oovv (Times (Copy (T 41)) (2) 1);
  (*788*) AddTo n_rdm2'bbbb'oovv (Times (Transpose (T 41) [1;0;3;2]) (2) 1);
  (*789*) Del (T 41);
  (*790*) AddTo n_rdm2'bbbb'oovv (Times (Einsum [(n_t2'bbbb,[0;1;2;3]); (T 42,[3;4])] [0;1;4;2]) (2) 1);
  (*791*) Del (T 42);
  (*792*) Assign n_rdm2'abab'oovv (Plain (Copy n_t2'abab));
  (*793*) AddTo n_rdm2'abab'oovv (Times (Einsum [(T 29,[0;1]); (n_t2'abab,[2;3;4;0])] [2;3;4;1]) (-2) 1);
  (*794*) Del (T 29);
  (*795*) AddTo n_rdm2'abab'oovv (Times (Einsum [(T 4,[0;1]); (n_t2'abab,[0;2;3;4])] [1;2;3;4]) (-2) 1);
  (*796*) AddTo n_rdm2'abab'oovv (Times (Einsum [(n_t2'abab,[0;1;2;3]); (T 12,[1;4])] [0;4;2;3]) (-1) 1);
  (*797*) AddTo n_rdm2'abab'oovv (Plain (Einsum [(n_t2'abab,[0;1;2;3]); (T 10,[0;4;1;5])] [4;5;2;3]));
  (*798*) AddTo n_rdm2'abab'oovv (Plain (Einsum [(n_t2'abab,[0;1;2;3]); (T 30,[0;4;3;5])] [4;1;2;5]));
  (*799*) Del (T 30);
  (*800*) AddTo n_rdm2'abab'oovv (Plain (Einsum [(T 33,[0;1;2;3]); (n_t2'abab,[4;0;5;2])] [4;1;5;3]));
  (*801*) Del (T 33);
  (*802*) AddTo n_rdm2'abab'oovv (Times (Einsum [(n_t2'aaaa,[0;1;2;3]); (T 36,[1;4;3;5])] [0;4;2;5]) (4) 1);
  (*803*) Del (T 36);
  (*804*) AddTo n_rdm2'abab'oovv (Times (Einsum [(T 17,[0;1]); (n_t2'abab,[2;3;0;4])] [2;3;1;4]) (-2) 1);
  (*805*) Assign n_rdm2'aaaa'oovv (Times (Copy n_t2'aaaa) (2) 1);
  (*806*) AddTo n_rdm2'aaaa'oovv (Times (Einsum [(T 17,[0;1]); (n_t2'aaaa,[2;3;4;0])] [2;3;4;1]) (-4) 1);
  (*807*) Del (T 17);
  (*808*) AddTo n_rdm2'aaaa'oovv (Times (Transpose (T 18) [1;0;3;2]) (2) 1);
  (*809*) AddTo n_rdm2'aaaa'oovv (Times (Transpose (T 18) [0;1;3;2]) (-2) 1);
  (*810*) Del (T 18);
  (*811*) AddTo n_rdm2'aaaa'oovv (Times (Transpose (T 19) [0;1;3;2]) (-2) 1);
  (*812*) Del (T 19);
  (*813*) AddTo n_rdm2'aaaa'oovv (Times (Transpose (T 21) [0;1;3;2]) (-2) 1);
  (*814*) AddTo n_rdm2'aaaa'oovv (Times (Transpose (T 23) [0;1;3;2]) (-8) 1);
  (*815*) AddTo n_rdm2'aaaa'oovv (Times (Transpose (T 25) [0;1;3;2]) (-2) 1);
  (*816*) AddTo n_rdm2'aaaa'oovv (Times (Transpose (T 25) [1;0;2;3]) (-2) 1);
  (*817*) AddTo n_rdm2'aaaa'oovv (Times (Copy (T 21)) (2) 1);
  (*818*) Del (T 21);
  (*819*) AddTo n_rdm2'aaaa'oovv (Times (Copy (T 23)) (8) 1);
  (*820*) Del (T 23);
  (*821*) AddTo n_rdm2'aaaa'oovv (Times (Copy (T 25)) (2) 1);
  (*822*) AddTo n_rdm2'aaaa'oovv (Times (Transpose (T 25) [1;0;3;2]) (2) 1);
  (*823*) Del (T 25);
  (*824*) AddTo n_rdm2'aaaa'oovv (Times (Einsum [(T 26,[0;1]); (n_t2'aaaa,[2;3;4;0])] [2;3;1;4]) (2) 1);
  (*825*) Del (T 26);
  (*826*) Assign n_rdm2'bbbb'oooo (Times (Einsum [(n_delta'bb'oo,[0;1]); (T 8,[2;3])] [0;3;1;2]) (-2) 1);
  (*827*) AddTo n_rdm2'bbbb'oooo (Plain (Einsum [(T 11,[0;1]); (n_delta'bb'oo,[2;3])] [1;2;3;0]));
  (*828*) Del (T 11);
  (*829*) AddTo n_rdm2'bbbb'oooo (Times (Einsum [(n_delta'bb'oo,[0;1]); (T 12,[2;3])] [3;0;2;1]) (-1) 1);
  (*830*) Del (T 12);
  (*831*) AddTo n_rdm2'bbbb'oooo (Times (Einsum [(T 13,[0;1]); (n_delta'bb'oo,[2;3])] [2;1;0;3]) (2) 1);
  (*832*) Del (T 13);
  (*833*) AddTo n_rdm2'bbbb'oooo (Times (Transpose (T 14) [3;2;1;0]) (2) 1);
  (*834*) Del (T 14);
  (*835*) Assign n_rdm2'abab'oooo (Times (Einsum [(n_delta'aa'oo,[0;1]); (T 8,[2;3])] [0;3;1;2]) (-2) 1);
  (*836*) Del (T 8);
  (*837*) AddTo n_rdm2'abab'oooo (Times (Einsum [(n_delta'bb'oo,[0;1]); (T 9,[2;3])] [3;0;2;1]) (-1) 1);
  (*838*) Del (T 9);
  (*839*) AddTo n_rdm2'abab'oooo (Plain (Transpose (T 10) [1;3;0;2]));
  (*840*) Del (T 10);
  (*841*) Assign n_rdm2'aaaa'oooo (Times (Einsum [(T 3,[0;1]); (n_delta'aa'oo,[2;3])] [2;1;3;0]) (-1) 1);
  (*842*) AddTo n_rdm2'aaaa'oooo (Plain (Einsum [(T 3,[0;1]); (n_delta'aa'oo,[2;3])] [1;2;3;0]));
  (*843*) Del (T 3);
  (*844*) AddTo n_rdm2'aaaa'oooo (Times (Einsum [(T 4,[0;1]); (n_delta'aa'oo,[2;3])] [1;2;0;3]) (-2) 1);
  (*845*) AddTo n_rdm2'aaaa'oooo (Times (Einsum [(T 4,[0;1]); (n_delta'aa'oo,[2;3])] [2;1;0;3]) (2) 1);
  (*846*) Del n_delta'aa'oo;
  (*846*) Del n_delta'aa'vv;
  (*846*) Del n_delta'bb'oo;
  (*846*) Del n_delta'bb'vv;
  (*846*) Del (T 4);
  (*847*) AddTo n_rdm2'aaaa'oooo (Times (Transpose (T 5) [3;2;1;0]) (2) 1);
  (*848*) Del (T 5);
  (*849*) Assign n_rdm2'aaaa'ooov (Plain (Zeros [4;4;4;5]));
  (*850*) Assign n_rdm2'aaaa'oovo (Plain (Zeros [4;4;5;4]));
  (*851*) Assign n_rdm2'aaaa'ovoo (Plain (Zeros [4;5;4;4]));
  (*852*) Assign n_rdm2'aaaa'vooo (Plain (Zeros [5;4;4;4]));
  (*853*) Assign n_rdm2'aaaa'ovvv (Plain (Zeros [4;5;5;5]));
  (*854*) Assign n_rdm2'aaaa'vovv (Plain (Zeros [5;4;5;5]));
  (*855*) Assign n_rdm2'aaaa'vvov (Plain (Zeros [5;5;4;5]));
  (*856*) Assign n_rdm2'aaaa'vvvo (Plain (Zeros [5;5;5;4]));
  (*857*) Assign n_rdm2'abab'ooov (Plain (Zeros [4;6;4;7]));
  (*858*) Assign n_rdm2'abab'oovo (Plain (Zeros [4;6;5;6]));
  (*859*) Assign n_rdm2'abab'ovoo (Plain (Zeros [4;7;4;6]));
  (*860*) Assign n_rdm2'abab'vooo (Plain (Zeros [5;6;4;6]));
  (*861*) Assign n_rdm2'abab'ovvv (Plain (Zeros [4;7;5;7]));
  (*862*) Assign n_rdm2'abab'vovv (Plain (Zeros [5;6;5;7]));
  (*863*) Assign n_rdm2'abab'vvov (Plain (Zeros [5;7;4;7]));
  (*864*) Assign n_rdm2'abab'vvvo (Plain (Zeros [5;7;5;6]));
  (*865*) Assign n_rdm2'bbbb'ooov (Plain (Zeros [6;6;6;7]));
  (*866*) Assign n_rdm2'bbbb'oovo (Plain (Zeros [6;6;7;6]));
  (*867*) Assign n_rdm2'bbbb'ovoo (Plain (Zeros [6;7;6;6]));
  (*868*) Assign n_rdm2'bbbb'vooo (Plain (Zeros [7;6;6;6]));
  (*869*) Assign n_rdm2'bbbb'ovvv (Plain (Zeros [6;7;7;7]));
  (*870*) Assign n_rdm2'bbbb'vovv (Plain (Zeros [7;6;7;7]));
  (*871*) Assign n_rdm2'bbbb'vvov (Plain (Zeros [7;7;6;7]));
  (*872*) Assign n_rdm2'bbbb'vvvo (Plain (Zeros [7;7;7;6]))]
 [(n_rdm2'aaaa'oooo,[4;4;4;4]); (n_rdm2'aaaa'ooov,[4;4;4;5]); (n_rdm2'aaaa'oovo,[4;4;5;4]); (n_rdm2'aaaa'ovoo,[4;5;4;4]); (n_rdm2'aaaa'vooo,[5;4;4;4]); (n_rdm2'aaaa'oovv,[4;4;5;5]); (n_rdm2'aaaa'ovov,[4;5;4;5]); (n_rdm2'aaaa'ovvo,[4;5;5;4]); (n_rdm2'aaaa'voov,[5;4;4;5]); (n_rdm2'aaaa'vovo,[5;4;5;4]); (n_rdm2'aaaa'vvoo,[5;5;4;4]); (n_rdm2'aaaa'ovvv,[4;5;5;5]); (n_rdm2'aaaa'vovv,[5;4;5;5]); (n_rdm2'aaaa'vvov,[5;5;4;5]); (n_rdm2'aaaa'vvvo,[5;5;5;4]); (n_rdm2'aaaa'vvvv,[5;5;5;5]); (n_rdm2'abab'oooo,[4;6;4;6]); (n_rdm2'abab'ooov,[4;6;4;7]); (n_rdm2'abab'oovo,[4;6;5;6]); (n_rdm2'abab'ovoo,[4;7;4;6]); (n_rdm2'abab'vooo,[5;6;4;6]); (n_rdm2'abab'oovv,[4;6;5;7]); (n_rdm2'abab'ovov,[4;7;4;7]); (n_rdm2'abab'ovvo,[4;7;5;6]); (n_rdm2'abab'voov,[5;6;4;7]); (n_rdm2'abab'vovo,[5;6;5;6]); (n_rdm2'abab'vvoo,[5;7;4;6]); (n_rdm2'abab'ovvv,[4;7;5;7]); (n_rdm2'abab'vovv,[5;6;5;7]); (n_rdm2'abab'vvov,[5;7;4;7]); (n_rdm2'abab'vvvo,[5;7;5;6]); (n_rdm2'abab'vvvv,[5;7;5;7]); (n_rdm2'bbbb'oooo,[6;6;6;6]); (n_rdm2'bbbb'ooov,[6;6;6;7]); (n_rdm2'bbbb'oovo,[6;6;7;6]); (n_rdm2'bbbb'ovoo,[6;7;6;6]); (n_rdm2'bbbb'vooo,[7;6;6;6]); (n_rdm2'bbbb'oovv,[6;6;7;7]); (n_rdm2'bbbb'ovov,[6;7;6;7]); (n_rdm2'bbbb'ovvo,[6;7;7;6]); (n_rdm2'bbbb'voov,[7;6;6;7]); (n_rdm2'bbbb'vovo,[7;6;7;6]); (n_rdm2'bbbb'vvoo,[7;7;6;6]); (n_rdm2'bbbb'ovvv,[6;7;7;7]); (n_rdm2'bbbb'vovv,[7;6;7;7]); (n_rdm2'bbbb'vvov,[7;7;6;7]); (n_rdm2'bbbb'vvvo,[7;7;7;6]); (n_rdm2'bbbb'vvvv,[7;7;7;7])].

(** ebcc/codegen/UCCD.py:884-1020 [hbar_matvec_ip_intermediates] *)
Definition UCCD_hbar_matvec_ip_intermediates : prog := mkprog
 [(n_t2'bbbb,[6;6;7;7]); (n_f'bb'ov,[6;7]); (n_t2'abab,[4;6;5;7]); (n_v'aabb'ovoo,[4;5;6;6]); (n_v'bbbb'ooov,[6;6;6;7]); (n_v'bbbb'ovov,[6;7;6;7]); (n_v'bbbb'ovvv,[6;7;7;7]); (n_v'aabb'ovvv,[4;5;7;7]); (n_v'aabb'ovov,[4;5;6;7]); (n_f'aa'ov,[4;5]); (n_v'aaaa'ovov,[4;5;4;5]); (n_v'aabb'ooov,[4;4;6;7]); (n_v'aaaa'ooov,[4;4;4;5]); (n_t2'aaaa,[4;4;5;5]); (n_v'aabb'vvov,[5;5;6;7]); (n_v'aaaa'ovvv,[4;5;5;5])]
 [(*960*) Assign (T 152) (Plain (Einsum [(n_t2'bbbb,[0;1;2;3]); (n_f'bb'ov,[4;3])] [4;0;1;2]));
  (*961*) Assign (T 142) (Plain (Einsum [(n_t2'abab,[0;1;2;3]); (n_v'aabb'ovoo,[0;2;4;5])] [1;4;5;3]));
  (*962*) Assign (T 140) (Plain (Einsum [(n_t2'bbbb,[0;1;2;3]); (n_v'bbbb'ooov,[4;5;1;3])] [0;4;5;2]));
  (*963*) Assign (T 138) (Plain (Einsum [(n_t2'bbbb,[0;1;2;3]); (n_v'bbbb'ooov,[4;1;5;3])] [0;4;5;2]));
  (*964*) Assign (T 134) (Plain (Einsum [(n_t2'bbbb,[0;1;2;3]); (n_v'bbbb'ovov,[4;2;5;3])] [0;1;4;5]));
  (*965*) Assign (T 132) (Times (Einsum [(n_t2'bbbb,[0;1;2;3]); (n_v'bbbb'ovvv,[4;3;5;2])] [0;1;4;5]) (-1) 1);
  (*966*) Assign (T 128) (Plain (Einsum [(n_t2'abab,[0;1;2;3]); (n_v'aabb'ovvv,[0;2;4;3])] [1;4]));
  (*967*) Assign (T 127) (Times (Einsum [(n_t2'bbbb,[0;1;2;3]); (n_v'bbbb'ovvv,[1;3;4;2])] [0;4]) (-1) 1);
  (*968*) Assign (T 120) (Plain (Einsum [(n_t2'abab,[0;1;2;3]); (n_v'aabb'ovov,[4;2;1;5])] [0;4;3;5]));
  (*969*) Assign (T 118) (Plain (Einsum [(n_v'aabb'ovov,[0;1;2;3]); (n_t2'abab,[0;2;1;4])] [4;3]));
  (*970*) Assign (T 116) (Times (Einsum [(n_v'bbbb'ovov,[0;1;2;3]); (n_t2'bbbb,[0;2;4;1])] [4;3]) (-1) 1);
  (*971*) Assign (T 115) (Plain (Einsum [(n_v'aabb'ovoo,[0;1;2;3]); (n_t2'abab,[4;3;1;5])] [4;0;2;5]));
  (*972*) Assign (T 114) (Plain (Einsum [(n_v'aabb'ovoo,[0;1;2;3]); (n_t2'abab,[0;3;1;4])] [2;4]));
  (*973*) Assign (T 113) (Times (Einsum [(n_t2'bbbb,[0;1;2;3]); (n_v'bbbb'ooov,[4;1;0;3])] [4;2]) (-1) 1);
  (*974*) Assign (T 112) (Plain (Einsum [(n_f'aa'ov,[0;1]); (n_t2'abab,[2;3;1;4])] [0;2;3;4]));
  (*975*) Assign (T 111) (Plain (Einsum [(n_t2'abab,[0;1;2;3]); (n_v'aabb'ovov,[0;2;4;5])] [1;4;3;5]));
  (*976*) Assign (T 109) (Plain (Einsum [(n_v'aabb'ovov,[0;1;2;3]); (n_t2'bbbb,[4;2;5;3])] [0;4;1;5]));
  (*977*) Assign (T 107) (Plain (Einsum [(n_t2'bbbb,[0;1;2;3]); (n_v'bbbb'ovov,[4;5;1;3])] [0;4;2;5]));
  (*978*) Assign (T 105) (Plain (Einsum [(n_t2'bbbb,[0;1;2;3]); (n_v'bbbb'ovov,[4;3;1;5])] [0;4;2;5]));
  (*979*) Assign (T 103) (Plain (Einsum [(n_v'aaaa'ovov,[0;1;2;3]); (n_t2'abab,[2;4;3;5])] [0;4;1;5]));
  (*980*) Assign (T 101) (Plain (Einsum [(n_v'aaaa'ovov,[0;1;2;3]); (n_t2'abab,[2;4;1;5])] [0;4;3;5]));
  (*981*) Assign (T 99) (Plain (Einsum [(n_t2'bbbb,[0;1;2;3]); (n_v'aabb'ooov,[4;5;1;3])] [4;5;0;2]));
  (*982*) Assign (T 98) (Plain (Einsum [(n_v'aaaa'ooov,[0;1;2;3]); (n_t2'abab,[2;4;3;5])] [0;1;4;5]));
  (*983*) Assign (T 97) (Plain (Einsum [(n_v'aaaa'ooov,[0;1;2;3]); (n_t2'abab,[1;4;3;5])] [0;2;4;5]));
  (*984*) Assign (T 95) (Plain (Einsum [(n_f'bb'ov,[0;1]); (n_t2'bbbb,[2;0;3;1])] [2;3]));
  (*985*) Assign (T 94) (Plain (Einsum [(n_t2'abab,[0;1;2;3]); (n_f'aa'ov,[0;2])] [1;3]));
  (*986*) Assign (T 91) (Plain (Einsum [(n_t2'abab,[0;1;2;3]); (n_v'aabb'ovvv,[4;2;5;3])] [0;4;1;5]));
  (*987*) Assign (T 81) (Plain (Einsum [(n_t2'abab,[0;1;2;3]); (n_v'aabb'ovov,[0;4;5;3])] [1;5;2;4]));
  (*988*) Assign (T 78) (Plain (Einsum [(n_v'aabb'ooov,[0;1;2;3]); (n_t2'abab,[1;4;5;3])] [0;4;2;5]));
  (*989*) Assign (T 77) (Plain (Einsum [(n_t2'abab,[0;1;2;3]); (n_f'bb'ov,[4;3])] [0;4;1;2]));
  (*990*) Assign (T 70) (Plain (Einsum [(n_v'aabb'ovoo,[0;1;2;3]); (n_t2'aaaa,[4;0;5;1])] [4;2;3;5]));
  (*991*) Assign (T 69) (Plain (Einsum [(n_v'bbbb'ooov,[0;1;2;3]); (n_t2'abab,[4;2;5;3])] [4;0;1;5]));
  (*992*) Assign (T 68) (Plain (Einsum [(n_t2'abab,[0;1;2;3]); (n_v'bbbb'ooov,[4;1;5;3])] [0;4;5;2]));
  (*993*) Assign (T 65) (Plain (Einsum [(n_t2'abab,[0;1;2;3]); (n_v'aabb'ovov,[4;2;5;3])] [0;4;1;5]));
  (*994*) Assign (T 63) (Plain (Einsum [(n_v'aabb'vvov,[0;1;2;3]); (n_t2'abab,[4;5;1;3])] [4;5;2;0]));
  (*995*) Assign (T 52) (Plain (Einsum [(n_t2'aaaa,[0;1;2;3]); (n_f'aa'ov,[4;3])] [4;0;1;2]));
  (*996*) Assign (T 50) (Plain (Einsum [(n_v'aabb'ovov,[0;1;2;3]); (n_t2'aaaa,[4;0;5;1])] [4;2;5;3]));
  (*997*) Assign (T 48) (Plain (Einsum [(n_t2'abab,[0;1;2;3]); (n_v'aabb'ovov,[4;5;1;3])] [0;4;2;5]));
  (*998*) Assign (T 46) (Plain (Einsum [(n_v'bbbb'ovov,[0;1;2;3]); (n_t2'abab,[4;2;5;3])] [4;0;5;1]));
  (*999*) Assign (T 44) (Plain (Einsum [(n_v'bbbb'ovov,[0;1;2;3]); (n_t2'abab,[4;2;5;1])] [4;0;5;3]));
  (*1000*) Assign (T 42) (Plain (Einsum [(n_t2'aaaa,[0;1;2;3]); (n_v'aaaa'ovov,[4;5;1;3])] [0;4;2;5]));
  (*1001*) Assign (T 40) (Plain (Einsum [(n_t2'aaaa,[0;1;2;3]); (n_v'aaaa'ovov,[4;3;1;5])] [0;4;2;5]));
  (*1002*) Assign (T 38) (Plain (Einsum [(n_t2'abab,[0;1;2;3]); (n_v'aabb'ovov,[0;4;1;3])] [2;4]));
  (*1003*) Assign (T 36) (Plain (Einsum [(n_v'aaaa'ovov,[0;1;2;3]); (n_t2'aaaa,[0;2;4;3])] [4;1]));
  (*1004*) Assign (T 34) (Plain (Einsum [(n_v'aabb'ooov,[0;1;2;3]); (n_t2'abab,[4;2;5;3])] [4;0;1;5]));
  (*1005*) Assign (T 32) (Plain (Einsum [(n_t2'aaaa,[0;1;2;3]); (n_v'aaaa'ooov,[4;5;1;3])] [0;4;5;2]));
  (*1006*) Assign (T 30) (Plain (Einsum [(n_v'aaaa'ooov,[0;1;2;3]); (n_t2'aaaa,[4;1;5;3])] [4;0;2;5]));
  (*1007*) Assign (T 29) (Plain (Einsum [(n_v'aabb'ooov,[0;1;2;3]); (n_t2'abab,[1;2;4;3])] [0;4]));
  (*1008*) Assign (T 28) (Plain (Einsum [(n_v'aaaa'ooov,[0;1;2;3]); (n_t2'aaaa,[1;2;4;3])] [0;4]));
  (*1009*) Assign (T 26) (Plain (Einsum [(n_t2'abab,[0;1;2;3]); (n_f'bb'ov,[1;3])] [0;2]));
  (*1010*) Assign (T 25) (Plain (Einsum [(n_f'aa'ov,[0;1]); (n_t2'aaaa,[2;0;3;1])] [2;3]));
  (*1011*) Assign (T 22) (Plain (Einsum [(n_t2'aaaa,[0;1;2;3]); (n_v'aaaa'ovov,[4;2;5;3])] [0;1;4;5]));
  (*1012*) Assign (T 20) (Times (Einsum [(n_v'aaaa'ovvv,[0;1;2;3]); (n_t2'aaaa,[4;5;3;1])] [4;5;0;2]) (-1) 1);
  (*1013*) Assign (T 19) (Plain (Einsum [(n_v'aabb'vvov,[0;1;2;3]); (n_t2'abab,[4;2;1;3])] [4;0]));
  (*1014*) Assign (T 18) (Times (Einsum [(n_v'aaaa'ovvv,[0;1;2;3]); (n_t2'aaaa,[4;0;3;1])] [4;2]) (-1) 1);
  (*1015*) Assign (T 13) (Plain (Einsum [(n_t2'abab,[0;1;2;3]); (n_v'aabb'ovov,[0;2;4;3])] [1;4]));
  (*1016*) Assign (T 11) (Times (Einsum [(n_t2'bbbb,[0;1;2;3]); (n_v'bbbb'ovov,[4;3;1;2])] [0;4]) (-1) 1);
  (*1017*) Assign (T 6) (Plain (Einsum [(n_t2'abab,[0;1;2;3]); (n_v'aabb'ovov,[4;2;1;3])] [0;4]));
  (*1018*) Assign (T 4) (Plain (Einsum [(n_v'aaaa'ovov,[0;1;2;3]); (n_t2'aaaa,[4;2;1;3])] [4;0]))]
 [(T 11,[6;6]); (T 101,[4;6;5;7]); (T 103,[4;6;5;7]); (T 105,[6;6;7;7]); (T 107,[6;6;7;7]); (T 109,[4;6;5;7]); (T 111,[6;6;7;7]); (T 112,[4;4;6;7]); (T 113,[6;7]); (T 114,[6;7]); (T 115,[4;4;6;7]); (T 116,[7;7]); (T 118,[7;7]); (T 120,[4;4;7;7]); (T 13,[6;6]); (T 127,[6;7]); (T 128,[6;7]); (T 132,[6;6;6;7]); (T 134,[6;6;6;6]); (T 138,[6;6;6;7]); (T 140,[6;6;6;7]); (T 142,[6;6;6;7]); (T 152,[6;6;6;7]); (T 18,[4;5]); (T 19,[4;5]); (T 20,[4;4;4;5]); (T 22,[4;4;4;4]); (T 25,[4;5]); (T 26,[4;5]); (T 28,[4;5]); (T 29,[4;5]); (T 30,[4;4;4;5]); (T 4,[4;4]); (T 32,[4;4;4;5]); (T 34,[4;4;4;5]); (T 36,[5;5]); (T 38,[5;5]); (T 40,[4;4;5;5]); (T 42,[4;4;5;5]); (T 44,[4;6;5;7]); (T 46,[4;6;5;7]); (T 48,[4;4;5;5]); (T 50,[4;6;5;7]); (T 6,[4;4]); (T 52,[4;4;4;5]); (T 63,[4;6;6;5]); (T 65,[4;4;6;6]); (T 68,[4;6;6;5]); (T 69,[4;6;6;5]); (T 70,[4;6;6;5]); (T 77,[4;6;6;5]); (T 78,[4;6;6;5]); (T 81,[6;6;5;5]); (T 91,[4;4;6;7]); (T 94,[6;7]); (T 95,[6;7]); (T 97,[4;4;6;7]); (T 98,[4;4;6;7]); (T 99,[4;4;6;7])].

(** ebcc/codegen/UCCD.py:1022-1371 [hbar_matvec_ip] *)
Definition UCCD_hbar_matvec_ip : prog := mkprog
 [(IT 138,[6;6;6;7]); (n_v'bbbb'ooov,[6;6;6;7]); (IT 11,[6;6]); (IT 13,[6;6]); (IT 107,[6;6;7;7]); (IT 111,[6;6;7;7]); (IT 142,[6;6;6;7]); (IT 140,[6;6;6;7]); (IT 103,[4;6;5;7]); (IT 109,[4;6;5;7]); (IT 34,[4;4;4;5]); (IT 32,[4;4;4;5]); (IT 30,[4;4;4;5]); (n_v'aaaa'ooov,[4;4;4;5]); (IT 42,[4;4;5;5]); (IT 48,[4;4;5;5]); (IT 4,[4;4]); (IT 6,[4;4]); (IT 46,[4;6;5;7]); (IT 50,[4;6;5;7]); (n_r2'aba,[4;6;5]); (n_v'aabb'ovov,[4;5;6;7]); (n_r1'b,[6]); (n_r2'bbb,[6;6;7]); (n_v'bbbb'oovv,[6;6;7;7]); (IT 101,[4;6;5;7]); (n_v'bbbb'ovov,[6;7;6;7]); (n_f'bb'oo,[6;6]); (IT 105,[6;6;7;7]); (n_r2'bab,[6;4;7]); (n_v'aaaa'ovov,[4;5;4;5]); (n_r2'aaa,[4;4;5]); (IT 44,[4;6;5;7]); (n_f'aa'oo,[4;4]); (IT 40,[4;4;5;5]); (n_r1'a,[4]); (n_v'aaaa'oovv,[4;4;5;5]); (IT 132,[6;6;6;7]); (IT 152,[6;6;6;7]); (IT 134,[6;6;6;6]); (n_v'bbbb'oooo,[6;6;6;6]); (n_f'bb'ov,[6;7]); (IT 128,[6;7]); (IT 94,[6;7]); (IT 95,[6;7]); (IT 113,[6;7]); (IT 114,[6;7]); (IT 127,[6;7]); (IT 116,[7;7]); (IT 118,[7;7]); (n_f'bb'vv,[7;7]); (IT 112,[4;4;6;7]); (IT 91,[4;4;6;7]); (IT 98,[4;4;6;7]); (IT 99,[4;4;6;7]); (n_v'aabb'ooov,[4;4;6;7]); (IT 115,[4;4;6;7]); (IT 97,[4;4;6;7]); (IT 120,[4;4;7;7]); (n_v'aabb'oovv,[4;4;7;7]); (IT 65,[4;4;6;6]); (n_v'aabb'oooo,[4;4;6;6]); (IT 63,[4;6;6;5]); (IT 69,[4;6;6;5]); (IT 70,[4;6;6;5]); (IT 77,[4;6;6;5]); (n_v'aabb'ovoo,[4;5;6;6]); (IT 68,[4;6;6;5]); (IT 78,[4;6;6;5]); (IT 36,[5;5]); (IT 38,[5;5]); (n_f'aa'vv,[5;5]); (n_f'aa'ov,[4;5]); (IT 19,[4;5]); (IT 25,[4;5]); (IT 26,[4;5]); (IT 18,[4;5]); (IT 28,[4;5]); (IT 29,[4;5]); (IT 81,[6;6;5;5]); (n_v'aabb'vvoo,[5;5;6;6]); (IT 22,[4;4;4;4]); (n_v'aaaa'oooo,[4;4;4;4]); (IT 20,[4;4;4;5]); (IT 52,[4;4;4;5]); (n_t2'bbbb,[6;6;7;7]); (n_t2'abab,[4;6;5;7]); (n_t2'aaaa,[4;4;5;5])]
 [(*1050*) Assign (T 51) (Plain (Copy (IT 138)));
  (*1051*) Del (IT 138);
  (*1052*) AddTo (T 51) (Times (Transpose n_v'bbbb'ooov [0;2;1;3]) (1) 2);
  (*1053*) Assign (T 49) (Times (Copy (IT 11)) (2) 1);
  (*1054*) AddTo (T 49) (Plain (Copy (IT 13)));
  (*1055*) Assign (T 47) (Plain (Copy (IT 107)));
  (*1056*) AddTo (T 47) (Times (Copy (IT 111)) (1) 2);
  (*1057*) Assign (T 59) (Plain (Copy (IT 142)));
  (*1058*) Del (IT 142);
  (*1059*) AddTo (T 59) (Times (Copy (IT 140)) (2) 1);
  (*1060*) Del (IT 140);
  (*1061*) Assign (T 57) (Plain (Copy (IT 103)));
  (*1062*) AddTo (T 57) (Times (Copy (IT 109)) (2) 1);
  (*1063*) Assign (T 8) (Plain (Copy (IT 34)));
  (*1064*) Del (IT 34);
  (*1065*) AddTo (T 8) (Times (Copy (IT 32)) (2) 1);
  (*1066*) Del (IT 32);
  (*1067*) Assign (T 18) (Plain (Copy (IT 30)));
  (*1068*) Del (IT 30);
  (*1069*) AddTo (T 18) (Times (Transpose n_v'aaaa'ooov [0;2;1;3]) (1) 2);
  (*1070*) Assign (T 12) (Plain (Copy (IT 42)));
  (*1071*) AddTo (T 12) (Times (Copy (IT 48)) (1) 2);
  (*1072*) Assign (T 16) (Times (Copy (IT 4)) (2) 1);
  (*1073*) AddTo (T 16) (Plain (Copy (IT 6)));
  (*1074*) Assign (T 14) (Plain (Copy (IT 46)));
  (*1075*) AddTo (T 14) (Times (Copy (IT 50)) (2) 1);
  (*1076*) Assign (T 45) (Plain (Einsum [(n_r2'aba,[0;1;2]); (n_v'aabb'ovov,[0;2;3;4])] [1;3;4]));
  (*1077*) Assign (T 52) (Times (Einsum [(n_r1'b,[0]); (T 51,[1;2;0;3])] [1;2;3]) (2) 1);
  (*1078*) Del (T 51);
  (*1079*) Assign (T 46) (Plain (Einsum [(n_r2'bbb,[0;1;2]); (n_v'bbbb'oovv,[3;1;4;2])] [0;3;4]));
  (*1080*) Assign (T 50) (Times (Einsum [(T 49,[0;1]); (n_r2'bbb,[2;1;3])] [2;0;3]) (-2) 1);
  (*1081*) Del (T 49);
  (*1082*) Assign (T 44) (Plain (Einsum [(n_r2'aba,[0;1;2]); (IT 101,[0;3;2;4])] [3;1;4]));
  (*1083*) Assign (T 48) (Times (Einsum [(n_r2'bbb,[0;1;2]); (T 47,[3;1;4;2])] [0;3;4]) (-4) 1);
  (*1084*) Del (T 47);
  (*1085*) Assign (T 32) (Plain (Einsum [(n_r2'aba,[0;1;2]); (n_v'aabb'ovov,[0;2;1;3])] [3]));
  (*1086*) Assign (T 33) (Plain (Einsum [(n_r2'bbb,[0;1;2]); (n_v'bbbb'ovov,[0;3;1;2])] [3]));
  (*1087*) Assign (T 56) (Plain (Einsum [(n_r2'bbb,[0;1;2]); (n_v'bbbb'ovov,[3;4;1;2])] [0;3;4]));
  (*1088*) Assign (T 60) (Plain (Einsum [(n_r1'b,[0]); (T 59,[1;2;0;3])] [1;2;3]));
  (*1089*) Del (T 59);
  (*1090*) Assign (T 54) (Plain (Einsum [(n_r2'bbb,[0;1;2]); (n_f'bb'oo,[3;1])] [3;0;2]));
  (*1091*) Assign (T 58) (Plain (Einsum [(n_r2'aba,[0;1;2]); (T 57,[0;3;2;4])] [1;3;4]));
  (*1092*) Del (T 57);
  (*1093*) Assign (T 55) (Plain (Einsum [(IT 105,[0;1;2;3]); (n_r2'bbb,[4;1;3])] [0;4;2]));
  (*1094*) Assign (T 24) (Times (Einsum [(n_v'aabb'ovov,[0;1;2;3]); (n_r2'bab,[2;0;3])] [1]) (-1) 1);
  (*1095*) Assign (T 23) (Times (Einsum [(n_v'aaaa'ovov,[0;1;2;3]); (n_r2'aaa,[0;2;1])] [3]) (-1) 1);
  (*1096*) Assign (T 6) (Times (Einsum [(n_r2'bab,[0;1;2]); (IT 44,[3;0;4;2])] [3;1;4]) (-1) 1);
  (*1097*) Assign (T 7) (Times (Einsum [(n_v'aabb'ovov,[0;1;2;3]); (n_r2'bab,[2;4;3])] [4;0;1]) (-1) 1);
  (*1098*) Assign (T 5) (Plain (Einsum [(n_v'aaaa'ovov,[0;1;2;3]); (n_r2'aaa,[4;2;3])] [4;0;1]));
  (*1099*) Assign (T 3) (Plain (Einsum [(n_f'aa'oo,[0;1]); (n_r2'aaa,[2;1;3])] [0;2;3]));
  (*1100*) Assign (T 4) (Plain (Einsum [(n_r2'aaa,[0;1;2]); (IT 40,[3;1;4;2])] [3;0;4]));
  (*1101*) Assign (T 9) (Plain (Einsum [(n_r1'a,[0]); (T 8,[1;2;0;3])] [1;2;3]));
  (*1102*) Del (T 8);
  (*1103*) Assign (T 19) (Times (Einsum [(n_r1'a,[0]); (T 18,[1;2;0;3])] [1;2;3]) (2) 1);
  (*1104*) Del (T 18);
  (*1105*) Assign (T 11) (Plain (Einsum [(n_v'aaaa'oovv,[0;1;2;3]); (n_r2'aaa,[4;1;3])] [4;0;2]));
  (*1106*) Assign (T 13) (Times (Einsum [(n_r2'aaa,[0;1;2]); (T 12,[3;1;4;2])] [0;3;4]) (-4) 1);
  (*1107*) Del (T 12);
  (*1108*) Assign (T 17) (Times (Einsum [(T 16,[0;1]); (n_r2'aaa,[2;1;3])] [2;0;3]) (-2) 1);
  (*1109*) Del (T 16);
  (*1110*) Assign (T 15) (Times (Einsum [(T 14,[0;1;2;3]); (n_r2'bab,[1;4;3])] [4;0;2]) (-1) 1);
  (*1111*) Del (T 14);
  (*1112*) Assign (T 53) (Plain (Copy (T 44)));
  (*1113*) Del (T 44);
  (*1114*) AddTo (T 53) (Plain (Copy (T 45)));
  (*1115*) Del (T 45);
  (*1116*) AddTo (T 53) (Times (Copy (T 46)) (2) 1);
  (*1117*) Del (T 46);
  (*1118*) AddTo (T 53) (Times (Transpose (T 48) [1;0;2]) (-1) 1);
  (*1119*) Del (T 48);
  (*1120*) AddTo (T 53) (Plain (Transpose (T 50) [1;0;2]));
  (*1121*) Del (T 50);
  (*1122*) AddTo (T 53) (Plain (Copy (T 52)));
  (*1123*) Del (T 52);
  (*1124*) Assign (T 34) (Times (Copy (T 32)) (-1) 2);
  (*1125*) Del (T 32);
  (*1126*) AddTo (T 34) (Plain (Copy (T 33)));
  (*1127*) Del (T 33);
  (*1128*) Assign (T 63) (Plain (Copy (IT 132)));
  (*1129*) Del (IT 132);
  (*1130*) AddTo (T 63) (Times (Transpose (IT 152) [1;2;0;3]) (-1) 1);
  (*1131*) Del (IT 152);
  (*1132*) Assign (T 62) (Plain (Copy (IT 134)));
  (*1133*) Del (IT 134);
  (*1134*) AddTo (T 62) (Plain (Transpose n_v'bbbb'oooo [0;2;1;3]));
  (*1135*) Assign (T 43) (Plain (Copy n_f'bb'ov));
  (*1136*) AddTo (T 43) (Plain (Copy (IT 128)));
  (*1137*) Del (IT 128);
  (*1138*) AddTo (T 43) (Plain (Copy (IT 94)));
  (*1139*) Del (IT 94);
  (*1140*) AddTo (T 43) (Times (Copy (IT 95)) (2) 1);
  (*1141*) Del (IT 95);
  (*1142*) AddTo (T 43) (Times (Copy (IT 113)) (-2) 1);
  (*1143*) Del (IT 113);
  (*1144*) AddTo (T 43) (Times (Copy (IT 114)) (-1) 1);
  (*1145*) Del (IT 114);
  (*1146*) AddTo (T 43) (Times (Copy (IT 127)) (-2) 1);
  (*1147*) Del (IT 127);
  (*1148*) Assign (T 61) (Times (Copy (T 54)) (2) 1);
  (*1149*) Del (T 54);
  (*1150*) AddTo (T 61) (Times (Copy (T 55)) (4) 1);
  (*1151*) Del (T 55);
  (*1152*) AddTo (T 61) (Times (Copy (T 56)) (2) 1);
  (*1153*) Del (T 56);
  (*1154*) AddTo (T 61) (Plain (Transpose (T 58) [1;0;2]));
  (*1155*) Del (T 58);
  (*1156*) AddTo (T 61) (Plain (Copy (T 60)));
  (*1157*) Del (T 60);
  (*1158*) Assign (T 40) (Times (Transpose (IT 116) [1;0]) (2) 1);
  (*1159*) Del (IT 116);
  (*1160*) AddTo (T 40) (Plain (Transpose (IT 118) [1;0]));
  (*1161*) Del (IT 118);
  (*1162*) AddTo (T 40) (Times (Copy n_f'bb'vv) (-1) 1);
  (*1163*) Assign (T 41) (Times (Copy (T 23)) (2) 1);
  (*1164*) AddTo (T 41) (Plain (Copy (T 24)));
  (*1165*) Assign (T 42) (Plain (Copy (IT 112)));
  (*1166*) Del (IT 112);
  (*1167*) AddTo (T 42) (Plain (Transpose (IT 91) [1;0;2;3]));
  (*1168*) Del (IT 91);
  (*1169*) AddTo (T 42) (Plain (Transpose (IT 98) [1;0;2;3]));
  (*1170*) Del (IT 98);
  (*1171*) AddTo (T 42) (Times (Transpose (IT 99) [1;0;2;3]) (2) 1);
  (*1172*) Del (IT 99);
  (*1173*) AddTo (T 42) (Plain (Copy n_v'aabb'ooov));
  (*1174*) AddTo (T 42) (Times (Transpose (IT 115) [1;0;2;3]) (-1) 1);
  (*1175*) Del (IT 115);
  (*1176*) AddTo (T 42) (Times (Transpose (IT 97) [1;0;2;3]) (-1) 1);
  (*1177*) Del (IT 97);
  (*1178*) Assign (T 37) (Plain (Copy (IT 103)));
  (*1179*) Del (IT 103);
  (*1180*) AddTo (T 37) (Times (Copy (IT 109)) (2) 1);
  (*1181*) Del (IT 109);
  (*1182*) AddTo (T 37) (Plain (Transpose n_v'aabb'ovov [0;2;1;3]));
  (*1183*) AddTo (T 37) (Times (Copy (IT 101)) (-1) 1);
  (*1184*) Del (IT 101);
  (*1185*) Assign (T 38) (Plain (Copy (IT 120)));
  (*1186*) Del (IT 120);
  (*1187*) AddTo (T 38) (Times (Copy n_v'aabb'oovv) (-1) 1);
  (*1188*) Assign (T 2) (Plain (Copy n_f'bb'oo));
  (*1189*) AddTo (T 2) (Times (Transpose (IT 11) [1;0]) (2) 1);
  (*1190*) Del (IT 11);
  (*1191*) AddTo (T 2) (Plain (Transpose (IT 13) [1;0]));
  (*1192*) Del (IT 13);
  (*1193*) Assign (T 39) (Plain (Copy (IT 65)));
  (*1194*) AddTo (T 39) (Plain (Copy n_v'aabb'oooo));
  (*1195*) Assign (T 1) (Plain (Copy n_f'aa'oo));
  (*1196*) AddTo (T 1) (Times (Transpose (IT 4) [1;0]) (2) 1);
  (*1197*) Del (IT 4);
  (*1198*) AddTo (T 1) (Plain (Transpose (IT 6) [1;0]));
  (*1199*) Del (IT 6);
  (*1200*) Assign (T 36) (Times (Copy (IT 107)) (2) 1);
  (*1201*) Del (IT 107);
  (*1202*) AddTo (T 36) (Plain (Copy (IT 111)));
  (*1203*) Del (IT 111);
  (*1204*) AddTo (T 36) (Plain (Transpose n_v'bbbb'ovov [0;2;1;3]));
  (*1205*) AddTo (T 36) (Times (Copy (IT 105)) (-2) 1);
  (*1206*) Del (IT 105);
  (*1207*) AddTo (T 36) (Times (Copy n_v'bbbb'oovv) (-1) 1);
  (*1208*) Assign (T 35) (Plain (Copy (IT 63)));
  (*1209*) Del (IT 63);
  (*1210*) AddTo (T 35) (Plain (Copy (IT 69)));
  (*1211*) Del (IT 69);
  (*1212*) AddTo (T 35) (Times (Copy (IT 70)) (2) 1);
  (*1213*) Del (IT 70);
  (*1214*) AddTo (T 35) (Plain (Transpose (IT 77) [0;2;1;3]));
  (*1215*) Del (IT 77);
  (*1216*) AddTo (T 35) (Plain (Transpose n_v'aabb'ovoo [0;2;3;1]));
  (*1217*) AddTo (T 35) (Times (Copy (IT 68)) (-1) 1);
  (*1218*) Del (IT 68);
  (*1219*) AddTo (T 35) (Times (Copy (IT 78)) (-1) 1);
  (*1220*) Del (IT 78);
  (*1221*) Assign (T 22) (Times (Transpose (IT 36) [1;0]) (2) 1);
  (*1222*) Del (IT 36);
  (*1223*) AddTo (T 22) (Plain (Transpose (IT 38) [1;0]));
  (*1224*) Del (IT 38);
  (*1225*) AddTo (T 22) (Times (Copy n_f'aa'vv) (-1) 1);
  (*1226*) Assign (T 29) (Plain (Copy (IT 46)));
  (*1227*) Del (IT 46);
  (*1228*) AddTo (T 29) (Times (Copy (IT 50)) (2) 1);
  (*1229*) Del (IT 50);
  (*1230*) AddTo (T 29) (Plain (Transpose n_v'aabb'ovov [0;2;1;3]));
  (*1231*) AddTo (T 29) (Times (Copy (IT 44)) (-1) 1);
  (*1232*) Del (IT 44);
  (*1233*) Assign (T 28) (Times (Copy (IT 42)) (2) 1);
  (*1234*) Del (IT 42);
  (*1235*) AddTo (T 28) (Plain (Copy (IT 48)));
  (*1236*) Del (IT 48);
  (*1237*) AddTo (T 28) (Plain (Transpose n_v'aaaa'ovov [0;2;1;3]));
  (*1238*) AddTo (T 28) (Times (Copy (IT 40)) (-2) 1);
  (*1239*) Del (IT 40);
  (*1240*) AddTo (T 28) (Times (Copy n_v'aaaa'oovv) (-1) 1);
  (*1241*) Assign (T 27) (Plain (Copy n_f'aa'ov));
  (*1242*) AddTo (T 27) (Plain (Copy (IT 19)));
  (*1243*) Del (IT 19);
  (*1244*) AddTo (T 27) (Times (Copy (IT 25)) (2) 1);
  (*1245*) Del (IT 25);
  (*1246*) AddTo (T 27) (Plain (Copy (IT 26)));
  (*1247*) Del (IT 26);
  (*1248*) AddTo (T 27) (Times (Copy (IT 18)) (-2) 1);
  (*1249*) Del (IT 18);
  (*1250*) AddTo (T 27) (Times (Copy (IT 28)) (-2) 1);
  (*1251*) Del (IT 28);
  (*1252*) AddTo (T 27) (Times (Copy (IT 29)) (-1) 1);
  (*1253*) Del (IT 29);
  (*1254*) Assign (T 31) (Plain (Copy (IT 65)));
  (*1255*) Del (IT 65);
  (*1256*) AddTo (T 31) (Plain (Copy n_v'aabb'oooo));
  (*1257*) Assign (T 30) (Plain (Copy (IT 81)));
  (*1258*) Del (IT 81);
  (*1259*) AddTo (T 30) (Times (Transpose n_v'aabb'vvoo [2;3;0;1]) (-1) 1);
  (*1260*) Assign (T 21) (Plain (Copy (IT 22)));
  (*1261*) Del (IT 22);
  (*1262*) AddTo (T 21) (Times (Transpose n_v'aaaa'oooo [0;2;3;1]) (-1) 1);
  (*1263*) Assign (T 10) (Times (Copy (T 3)) (2) 1);
  (*1264*) Del (T 3);
  (*1265*) AddTo (T 10) (Times (Copy (T 4)) (4) 1);
  (*1266*) Del (T 4);
  (*1267*) AddTo (T 10) (Times (Copy (T 5)) (2) 1);
  (*1268*) Del (T 5);
  (*1269*) AddTo (T 10) (Plain (Copy (T 6)));
  (*1270*) Del (T 6);
  (*1271*) AddTo (T 10) (Plain (Copy (T 7)));
  (*1272*) Del (T 7);
  (*1273*) AddTo (T 10) (Plain (Copy (T 9)));
  (*1274*) Del (T 9);
  (*1275*) Assign (T 26) (Plain (Copy (IT 20)));
  (*1276*) Del (IT 20);
  (*1277*) AddTo (T 26) (Times (Transpose (IT 52) [1;2;0;3]) (-1) 1);
  (*1278*) Del (IT 52);
  (*1279*) Assign (T 25) (Plain (Copy (T 23)));
  (*1280*) Del (T 23);
  (*1281*) AddTo (T 25) (Times (Copy (T 24)) (1) 2);
  (*1282*) Del (T 24);
  (*1283*) Assign (T 20) (Times (Copy (T 11)) (2) 1);
  (*1284*) Del (T 11);
  (*1285*) AddTo (T 20) (Times (Transpose (T 13) [1;0;2]) (-1) 1);
  (*1286*) Del (T 13);
  (*1287*) AddTo (T 20) (Plain (Transpose (T 15) [1;0;2]));
  (*1288*) Del (T 15);
  (*1289*) AddTo (T 20) (Plain (Transpose (T 17) [1;0;2]));
  (*1290*) Del (T 17);
  (*1291*) AddTo (T 20) (Plain (Copy (T 19)));
  (*1292*) Del (T 19);
  (*1293*) Assign n_r2new'bbb (Times (Copy (T 53)) (-1) 1);
  (*1294*) AddTo n_r2new'bbb (Plain (Transpose (T 53) [1;0;2]));
  (*1295*) Del (T 53);
  (*1296*) AddTo n_r2new'bbb (Plain (Copy (T 61)));
  (*1297*) AddTo n_r2new'bbb (Times (Transpose (T 61) [1;0;2]) (-1) 1);
  (*1298*) Del (T 61);
  (*1299*) AddTo n_r2new'bbb (Times (Einsum [(T 62,[0;1;2;3]); (n_r2'bbb,[3;2;4])] [0;1;4]) (-2) 1);
  (*1300*) Del (T 62);
  (*1301*) AddTo n_r2new'bbb (Times (Einsum [(n_r2'bbb,[0;1;2]); (T 40,[2;3])] [0;1;3]) (-2) 1);
  (*1302*) AddTo n_r2new'bbb (Times (Einsum [(T 34,[0]); (n_t2'bbbb,[1;2;3;0])] [1;2;3]) (4) 1);
  (*1303*) AddTo n_r2new'bbb (Times (Einsum [(n_r1'b,[0]); (T 63,[1;2;0;3])] [2;1;3]) (2) 1);
  (*1304*) Del (T 63);
  (*1305*) AddTo n_r2new'bbb (Plain (Einsum [(T 43,[0;1]); (n_r1'b,[2])] [2;0;1]));
  (*1306*) AddTo n_r2new'bbb (Times (Einsum [(T 43,[0;1]); (n_r1'b,[2])] [0;2;1]) (-1) 1);
  (*1307*) Assign n_r2new'bab (Plain (Einsum [(n_r2'bab,[0;1;2]); (T 36,[3;0;4;2])] [3;1;4]));
  (*1308*) Del (T 36);
  (*1309*) AddTo n_r2new'bab (Times (Einsum [(T 37,[0;1;2;3]); (n_r2'aaa,[4;0;2])] [1;4;3]) (-2) 1);
  (*1310*) Del (T 37);
  (*1311*) AddTo n_r2new'bab (Plain (Einsum [(T 38,[0;1;2;3]); (n_r2'bab,[4;1;3])] [4;0;2]));
  (*1312*) Del (T 38);
  (*1313*) AddTo n_r2new'bab (Plain (Einsum [(n_r2'bab,[0;1;2]); (T 39,[3;1;4;0])] [4;3;2]));
  (*1314*) Del (T 39);
  (*1315*) AddTo n_r2new'bab (Times (Einsum [(n_r2'bab,[0;1;2]); (T 40,[2;3])] [0;1;3]) (-1) 1);
  (*1316*) Del (T 40);
  (*1317*) AddTo n_r2new'bab (Plain (Einsum [(T 41,[0]); (n_t2'abab,[1;2;0;3])] [2;1;3]));
  (*1318*) Del (T 41);
  (*1319*) AddTo n_r2new'bab (Plain (Einsum [(n_r1'a,[0]); (T 42,[0;1;2;3])] [2;1;3]));
  (*1320*) Del (T 42);
  (*1321*) AddTo n_r2new'bab (Times (Einsum [(T 2,[0;1]); (n_r2'bab,[0;2;3])] [1;2;3]) (-1) 1);
  (*1322*) AddTo n_r2new'bab (Times (Einsum [(T 1,[0;1]); (n_r2'bab,[2;0;3])] [2;1;3]) (-1) 1);
  (*1323*) AddTo n_r2new'bab (Times (Einsum [(T 43,[0;1]); (n_r1'a,[2])] [0;2;1]) (-1) 1);
  (*1324*) Del (T 43);
  (*1325*) Assign n_r2new'aba (Plain (Einsum [(T 28,[0;1;2;3]); (n_r2'aba,[1;4;3])] [0;4;2]));
  (*1326*) Del (T 28);
  (*1327*) AddTo n_r2new'aba (Times (Einsum [(T 29,[0;1;2;3]); (n_r2'bbb,[4;1;3])] [0;4;2]) (-2) 1);
  (*1328*) Del (T 29);
  (*1329*) AddTo n_r2new'aba (Plain (Einsum [(T 30,[0;1;2;3]); (n_r2'aba,[4;1;3])] [4;0;2]));
  (*1330*) Del (T 30);
  (*1331*) AddTo n_r2new'aba (Plain (Einsum [(n_r2'aba,[0;1;2]); (T 31,[3;0;4;1])] [3;4;2]));
  (*1332*) Del (T 31);
  (*1333*) AddTo n_r2new'aba (Times (Einsum [(n_r2'aba,[0;1;2]); (T 22,[2;3])] [0;1;3]) (-1) 1);
  (*1334*) AddTo n_r2new'aba (Times (Einsum [(T 34,[0]); (n_t2'abab,[1;2;3;0])] [1;2;3]) (2) 1);
  (*1335*) Del (T 34);
  (*1336*) AddTo n_r2new'aba (Plain (Einsum [(n_r1'b,[0]); (T 35,[1;2;0;3])] [1;2;3]));
  (*1337*) Del (T 35);
  (*1338*) AddTo n_r2new'aba (Times (Einsum [(n_r2'aba,[0;1;2]); (T 2,[1;3])] [0;3;2]) (-1) 1);
  (*1339*) AddTo n_r2new'aba (Times (Einsum [(T 1,[0;1]); (n_r2'aba,[0;2;3])] [1;2;3]) (-1) 1);
  (*1340*) AddTo n_r2new'aba (Times (Einsum [(T 27,[0;1]); (n_r1'b,[2])] [0;2;1]) (-1) 1);
  (*1341*) Assign n_r2new'aaa (Plain (Copy (T 10)));
  (*1342*) AddTo n_r2new'aaa (Times (Transpose (T 10) [1;0;2]) (-1) 1);
  (*1343*) Del (T 10);
  (*1344*) AddTo n_r2new'aaa (Times (Copy (T 20)) (-1) 1);
  (*1345*) AddTo n_r2new'aaa (Plain (Transpose (T 20) [1;0;2]));
  (*1346*) Del (T 20);
  (*1347*) AddTo n_r2new'aaa (Times (Einsum [(n_r2'aaa,[0;1;2]); (T 21,[3;4;1;0])] [3;4;2]) (-2) 1);
  (*1348*) Del (T 21);
  (*1349*) AddTo n_r2new'aaa (Times (Einsum [(T 22,[0;1]); (n_r2'aaa,[2;3;0])] [2;3;1]) (-2) 1);
  (*1350*) Del (T 22);
  (*1351*) AddTo n_r2new'aaa (Times (Einsum [(T 25,[0]); (n_t2'aaaa,[1;2;3;0])] [1;2;3]) (4) 1);
  (*1352*) Del (T 25);
  (*1353*) AddTo n_r2new'aaa (Times (Einsum [(n_r1'a,[0]); (T 26,[1;2;0;3])] [2;1;3]) (2) 1);
  (*1354*) Del (T 26);
  (*1355*) AddTo n_r2new'aaa (Plain (Einsum [(T 27,[0;1]); (n_r1'a,[2])] [2;0;1]));
  (*1356*) AddTo n_r2new'aaa (Times (Einsum [(T 27,[0;1]); (n_r1'a,[2])] [0;2;1]) (-1) 1);
  (*1357*) Del (T 27);
  (*1358*) Assign n_r1new'b (Times (Einsum [(n_r2'aba,[0;1;2]); (n_f'aa'ov,[0;2])] [1]) (-1) 1);
  (*1359*) AddTo n_r1new'b (Plain (Einsum [(n_r2'aba,[0;1;2]); (n_v'aabb'ovoo,[0;2;3;1])] [3]));
  (*1360*) AddTo n_r1new'b (Times (Einsum [(n_r2'bbb,[0;1;2]); (n_f'bb'ov,[1;2])] [0]) (2) 1);
  (*1361*) AddTo n_r1new'b (Times (Einsum [(n_v'bbbb'ooov,[0;1;2;3]); (n_r2'bbb,[2;1;3])] [0]) (2) 1);
  (*1362*) AddTo n_r1new'b (Times (Einsum [(n_r1'b,[0]); (T 2,[0;1])] [1]) (-1) 1);
  (*1363*) Del (T 2);
  (*1364*) Assign n_r1new'a (Plain (Einsum [(n_v'aabb'ooov,[0;1;2;3]); (n_r2'bab,[2;1;3])] [0]));
  (*1365*) AddTo n_r1new'a (Times (Einsum [(n_f'bb'ov,[0;1]); (n_r2'bab,[0;2;1])] [2]) (-1) 1);
  (*1366*) AddTo n_r1new'a (Times (Einsum [(n_r2'aaa,[0;1;2]); (n_v'aaaa'ooov,[3;1;0;2])] [3]) (2) 1);
  (*1367*) AddTo n_r1new'a (Times (Einsum [(n_f'aa'ov,[0;1]); (n_r2'aaa,[2;0;1])] [2]) (2) 1);
  (*1368*) AddTo n_r1new'a (Times (Einsum [(T 1,[0;1]); (n_r1'a,[0])] [1]) (-1) 1);
  (*1369*) Del (T 1)]
 [(n_r1new'b,[6]); (n_r1new'a,[4]); (n_r2new'bbb,[6;6;7]); (n_r2new'bab,[6;4;7]); (n_r2new'aba,[4;6;5]); (n_r2new'aaa,[4;4;5])].

(** ebcc/codegen/UCCD.py:1373-1495 [hbar_matvec_ea_intermediates] *)
Definition UCCD_hbar_matvec_ea_intermediates : prog := mkprog
 [(n_t2'bbbb,[6;6;7;7]); (n_v'bbbb'ooov,[6;6;6;7]); (n_v'aabb'ovvv,[4;5;7;7]); (n_t2'abab,[4;6;5;7]); (n_v'bbbb'ovvv,[6;7;7;7]); (n_v'aabb'ovoo,[4;5;6;6]); (n_v'aabb'ovov,[4;5;6;7]); (n_v'bbbb'ovov,[6;7;6;7]); (n_v'aaaa'ovov,[4;5;4;5]); (n_v'aabb'vvov,[5;5;6;7]); (n_v'aaaa'ovvv,[4;5;5;5]); (n_f'bb'ov,[6;7]); (n_f'aa'ov,[4;5]); (n_t2'aaaa,[4;4;5;5]); (n_v'aabb'ooov,[4;4;6;7]); (n_v'aaaa'ooov,[4;4;4;5])]
 [(*1442*) Assign (T 149) (Times (Einsum [(n_t2'bbbb,[0;1;2;3]); (n_v'bbbb'ooov,[4;1;0;5])] [4;2;3;5]) (-1) 1);
  (*1443*) Assign (T 136) (Plain (Einsum [(n_v'aabb'ovvv,[0;1;2;3]); (n_t2'abab,[0;4;1;5])] [4;5;2;3]));
  (*1444*) Assign (T 134) (Plain (Einsum [(n_t2'bbbb,[0;1;2;3]); (n_v'bbbb'ovvv,[1;4;5;3])] [0;2;4;5]));
  (*1445*) Assign (T 132) (Plain (Einsum [(n_t2'bbbb,[0;1;2;3]); (n_v'bbbb'ovvv,[1;3;4;5])] [0;2;4;5]));
  (*1446*) Assign (T 128) (Plain (Einsum [(n_v'aabb'ovoo,[0;1;2;3]); (n_t2'abab,[0;3;1;4])] [2;4]));
  (*1447*) Assign (T 127) (Times (Einsum [(n_t2'bbbb,[0;1;2;3]); (n_v'bbbb'ooov,[4;1;0;3])] [4;2]) (-1) 1);
  (*1448*) Assign (T 126) (Plain (Einsum [(n_t2'abab,[0;1;2;3]); (n_v'aabb'ovov,[0;2;4;5])] [1;4;3;5]));
  (*1449*) Assign (T 124) (Plain (Einsum [(n_v'aabb'ovov,[0;1;2;3]); (n_t2'bbbb,[4;2;5;3])] [0;4;1;5]));
  (*1450*) Assign (T 122) (Plain (Einsum [(n_t2'bbbb,[0;1;2;3]); (n_v'bbbb'ovov,[4;5;1;3])] [0;4;2;5]));
  (*1451*) Assign (T 120) (Plain (Einsum [(n_t2'bbbb,[0;1;2;3]); (n_v'bbbb'ovov,[4;3;1;5])] [0;4;2;5]));
  (*1452*) Assign (T 118) (Plain (Einsum [(n_v'aaaa'ovov,[0;1;2;3]); (n_t2'abab,[2;4;3;5])] [0;4;1;5]));
  (*1453*) Assign (T 116) (Plain (Einsum [(n_v'aaaa'ovov,[0;1;2;3]); (n_t2'abab,[2;4;1;5])] [0;4;3;5]));
  (*1454*) Assign (T 112) (Plain (Einsum [(n_v'aabb'vvov,[0;1;2;3]); (n_t2'bbbb,[4;2;5;3])] [4;0;1;5]));
  (*1455*) Assign (T 111) (Plain (Einsum [(n_v'aaaa'ovvv,[0;1;2;3]); (n_t2'abab,[0;4;3;5])] [4;1;2;5]));
  (*1456*) Assign (T 110) (Plain (Einsum [(n_v'aaaa'ovvv,[0;1;2;3]); (n_t2'abab,[0;4;1;5])] [4;2;3;5]));
  (*1457*) Assign (T 109) (Plain (Einsum [(n_f'bb'ov,[0;1]); (n_t2'bbbb,[2;0;3;1])] [2;3]));
  (*1458*) Assign (T 108) (Plain (Einsum [(n_t2'abab,[0;1;2;3]); (n_f'aa'ov,[0;2])] [1;3]));
  (*1459*) Assign (T 106) (Plain (Einsum [(n_t2'abab,[0;1;2;3]); (n_v'aabb'ovov,[0;2;4;3])] [1;4]));
  (*1460*) Assign (T 104) (Times (Einsum [(n_t2'bbbb,[0;1;2;3]); (n_v'bbbb'ovov,[4;3;1;2])] [0;4]) (-1) 1);
  (*1461*) Assign (T 103) (Plain (Einsum [(n_t2'abab,[0;1;2;3]); (n_v'aabb'ovvv,[0;2;4;3])] [1;4]));
  (*1462*) Assign (T 102) (Times (Einsum [(n_t2'bbbb,[0;1;2;3]); (n_v'bbbb'ovvv,[1;3;4;2])] [0;4]) (-1) 1);
  (*1463*) Assign (T 95) (Plain (Einsum [(n_v'aabb'ovoo,[0;1;2;3]); (n_t2'abab,[0;3;4;5])] [2;4;1;5]));
  (*1464*) Assign (T 94) (Plain (Einsum [(n_t2'abab,[0;1;2;3]); (n_v'aabb'ovov,[0;4;5;3])] [1;5;2;4]));
  (*1465*) Assign (T 91) (Plain (Einsum [(n_t2'abab,[0;1;2;3]); (n_v'aabb'ovvv,[0;4;5;3])] [1;2;4;5]));
  (*1466*) Assign (T 81) (Plain (Einsum [(n_v'aabb'ovvv,[0;1;2;3]); (n_t2'aaaa,[4;0;5;1])] [4;5;2;3]));
  (*1467*) Assign (T 80) (Plain (Einsum [(n_v'bbbb'ovvv,[0;1;2;3]); (n_t2'abab,[4;0;5;3])] [4;5;1;2]));
  (*1468*) Assign (T 79) (Plain (Einsum [(n_v'bbbb'ovvv,[0;1;2;3]); (n_t2'abab,[4;0;5;1])] [4;5;2;3]));
  (*1469*) Assign (T 68) (Plain (Einsum [(n_v'aabb'ooov,[0;1;2;3]); (n_t2'abab,[1;2;4;5])] [0;4;5;3]));
  (*1470*) Assign (T 66) (Plain (Einsum [(n_t2'abab,[0;1;2;3]); (n_v'aabb'ovov,[4;2;1;5])] [0;4;3;5]));
  (*1471*) Assign (T 63) (Plain (Einsum [(n_v'aabb'vvov,[0;1;2;3]); (n_t2'abab,[4;2;1;5])] [4;0;5;3]));
  (*1472*) Assign (T 60) (Plain (Einsum [(n_t2'abab,[0;1;2;3]); (n_v'aabb'ovov,[4;2;1;3])] [0;4]));
  (*1473*) Assign (T 58) (Plain (Einsum [(n_v'aaaa'ovov,[0;1;2;3]); (n_t2'aaaa,[4;2;1;3])] [4;0]));
  (*1474*) Assign (T 57) (Plain (Einsum [(n_v'aabb'vvov,[0;1;2;3]); (n_t2'abab,[4;2;1;3])] [4;0]));
  (*1475*) Assign (T 56) (Plain (Einsum [(n_v'aaaa'ovvv,[0;1;2;3]); (n_t2'aaaa,[4;0;1;3])] [4;2]));
  (*1476*) Assign (T 46) (Plain (Einsum [(n_t2'aaaa,[0;1;2;3]); (n_v'aaaa'ooov,[4;0;1;5])] [4;2;3;5]));
  (*1477*) Assign (T 45) (Plain (Einsum [(n_v'aabb'ooov,[0;1;2;3]); (n_t2'abab,[1;2;4;3])] [0;4]));
  (*1478*) Assign (T 44) (Plain (Einsum [(n_v'aaaa'ooov,[0;1;2;3]); (n_t2'aaaa,[1;2;4;3])] [0;4]));
  (*1479*) Assign (T 38) (Plain (Einsum [(n_v'aabb'ovov,[0;1;2;3]); (n_t2'aaaa,[4;0;5;1])] [4;2;5;3]));
  (*1480*) Assign (T 36) (Plain (Einsum [(n_t2'abab,[0;1;2;3]); (n_v'aabb'ovov,[4;5;1;3])] [0;4;2;5]));
  (*1481*) Assign (T 34) (Plain (Einsum [(n_v'bbbb'ovov,[0;1;2;3]); (n_t2'abab,[4;2;5;3])] [4;0;5;1]));
  (*1482*) Assign (T 32) (Plain (Einsum [(n_v'bbbb'ovov,[0;1;2;3]); (n_t2'abab,[4;2;5;1])] [4;0;5;3]));
  (*1483*) Assign (T 30) (Plain (Einsum [(n_t2'aaaa,[0;1;2;3]); (n_v'aaaa'ovov,[4;5;1;3])] [0;4;2;5]));
  (*1484*) Assign (T 28) (Plain (Einsum [(n_t2'aaaa,[0;1;2;3]); (n_v'aaaa'ovov,[4;3;1;5])] [0;4;2;5]));
  (*1485*) Assign (T 24) (Plain (Einsum [(n_v'aabb'vvov,[0;1;2;3]); (n_t2'abab,[4;2;5;3])] [4;5;0;1]));
  (*1486*) Assign (T 22) (Plain (Einsum [(n_v'aaaa'ovvv,[0;1;2;3]); (n_t2'aaaa,[4;0;5;3])] [4;5;1;2]));
  (*1487*) Assign (T 20) (Plain (Einsum [(n_v'aaaa'ovvv,[0;1;2;3]); (n_t2'aaaa,[4;0;5;1])] [4;5;2;3]));
  (*1488*) Assign (T 16) (Plain (Einsum [(n_t2'abab,[0;1;2;3]); (n_f'bb'ov,[1;3])] [0;2]));
  (*1489*) Assign (T 15) (Plain (Einsum [(n_f'aa'ov,[0;1]); (n_t2'aaaa,[2;0;3;1])] [2;3]));
  (*1490*) Assign (T 13) (Plain (Einsum [(n_v'aabb'ovov,[0;1;2;3]); (n_t2'abab,[0;2;1;4])] [4;3]));
  (*1491*) Assign (T 11) (Plain (Einsum [(n_t2'bbbb,[0;1;2;3]); (n_v'bbbb'ovov,[0;4;1;3])] [2;4]));
  (*1492*) Assign (T 6) (Plain (Einsum [(n_t2'abab,[0;1;2;3]); (n_v'aabb'ovov,[0;4;1;3])] [2;4]));
  (*1493*) Assign (T 4) (Times (Einsum [(n_v'aaaa'ovov,[0;1;2;3]); (n_t2'aaaa,[0;2;4;1])] [4;3]) (-1) 1)]
 [(T 11,[7;7]); (T 102,[6;7]); (T 103,[6;7]); (T 104,[6;6]); (T 106,[6;6]); (T 108,[6;7]); (T 109,[6;7]); (T 110,[6;5;5;7]); (T 111,[6;5;5;7]); (T 112,[6;5;5;7]); (T 116,[4;6;5;7]); (T 118,[4;6;5;7]); (T 120,[6;6;7;7]); (T 13,[7;7]); (T 122,[6;6;7;7]); (T 124,[4;6;5;7]); (T 126,[6;6;7;7]); (T 127,[6;7]); (T 128,[6;7]); (T 132,[6;7;7;7]); (T 134,[6;7;7;7]); (T 136,[6;7;7;7]); (T 15,[4;5]); (T 149,[6;7;7;7]); (T 16,[4;5]); (T 20,[4;5;5;5]); (T 22,[4;5;5;5]); (T 24,[4;5;5;5]); (T 28,[4;4;5;5]); (T 30,[4;4;5;5]); (T 4,[5;5]); (T 32,[4;6;5;7]); (T 34,[4;6;5;7]); (T 36,[4;4;5;5]); (T 38,[4;6;5;7]); (T 44,[4;5]); (T 45,[4;5]); (T 46,[4;5;5;5]); (T 6,[5;5]); (T 56,[4;5]); (T 57,[4;5]); (T 58,[4;4]); (T 60,[4;4]); (T 63,[4;5;7;7]); (T 66,[4;4;7;7]); (T 68,[4;5;7;7]); (T 79,[4;5;7;7]); (T 80,[4;5;7;7]); (T 81,[4;5;7;7]); (T 91,[6;5;5;7]); (T 94,[6;6;5;5]); (T 95,[6;5;5;7])].

(** ebcc/codegen/UCCD.py:1497-1834 [hbar_matvec_ea] *)
Definition UCCD_hbar_matvec_ea : prog := mkprog
 [(IT 132,[6;7;7;7]); (IT 136,[6;7;7;7]); (n_v'bbbb'ovvv,[6;7;7;7]); (IT 11,[7;7]); (IT 13,[7;7]); (n_f'bb'vv,[7;7]); (IT 122,[6;6;7;7]); (IT 126,[6;6;7;7]); (IT 118,[4;6;5;7]); (IT 124,[4;6;5;7]); (IT 30,[4;4;5;5]); (IT 36,[4;4;5;5]); (IT 20,[4;5;5;5]); (IT 24,[4;5;5;5]); (n_v'aaaa'ovvv,[4;5;5;5]); (IT 34,[4;6;5;7]); (IT 38,[4;6;5;7]); (IT 4,[5;5]); (IT 6,[5;5]); (n_f'aa'vv,[5;5]); (n_r2'aba,[5;7;4]); (n_v'aabb'ovov,[4;5;6;7]); (n_v'bbbb'ovov,[6;7;6;7]); (n_r2'bbb,[7;7;6]); (n_r1'b,[7]); (n_f'bb'ov,[6;7]); (IT 116,[4;6;5;7]); (n_v'bbbb'oovv,[6;6;7;7]); (IT 120,[6;6;7;7]); (IT 134,[6;7;7;7]); (n_f'aa'ov,[4;5]); (n_r1'a,[5]); (n_r2'bab,[7;5;6]); (n_v'aaaa'ovov,[4;5;4;5]); (n_r2'aaa,[5;5;4]); (n_v'aaaa'oovv,[4;4;5;5]); (IT 22,[4;5;5;5]); (IT 32,[4;6;5;7]); (IT 28,[4;4;5;5]); (n_f'bb'oo,[6;6]); (IT 104,[6;6]); (IT 106,[6;6]); (IT 103,[6;7]); (IT 108,[6;7]); (IT 109,[6;7]); (IT 102,[6;7]); (IT 127,[6;7]); (IT 128,[6;7]); (IT 94,[6;6;5;5]); (n_v'aabb'vvoo,[5;5;6;6]); (IT 110,[6;5;5;7]); (IT 112,[6;5;5;7]); (IT 95,[6;5;5;7]); (n_v'aabb'vvov,[5;5;6;7]); (IT 111,[6;5;5;7]); (IT 91,[6;5;5;7]); (IT 15,[4;5]); (IT 16,[4;5]); (IT 57,[4;5]); (IT 44,[4;5]); (IT 45,[4;5]); (IT 56,[4;5]); (IT 66,[4;4;7;7]); (n_v'aabb'oovv,[4;4;7;7]); (IT 68,[4;5;7;7]); (IT 79,[4;5;7;7]); (IT 81,[4;5;7;7]); (n_v'aabb'ovvv,[4;5;7;7]); (IT 63,[4;5;7;7]); (IT 80,[4;5;7;7]); (n_f'aa'oo,[4;4]); (IT 58,[4;4]); (IT 60,[4;4]); (n_v'bbbb'vvvv,[7;7;7;7]); (n_t2'bbbb,[6;6;7;7]); (IT 149,[6;7;7;7]); (n_v'aabb'vvvv,[5;5;7;7]); (n_t2'abab,[4;6;5;7]); (IT 46,[4;5;5;5]); (n_v'aaaa'vvvv,[5;5;5;5]); (n_t2'aaaa,[4;4;5;5])]
 [(*1525*) Assign (T 51) (Plain (Copy (IT 132)));
  (*1526*) Del (IT 132);
  (*1527*) AddTo (T 51) (Times (Copy (IT 136)) (1) 2);
  (*1528*) Del (IT 136);
  (*1529*) AddTo (T 51) (Times (Copy n_v'bbbb'ovvv) (1) 2);
  (*1530*) Assign (T 40) (Plain (Transpose (IT 11) [1;0]));
  (*1531*) AddTo (T 40) (Times (Transpose (IT 13) [1;0]) (1) 2);
  (*1532*) AddTo (T 40) (Times (Copy n_f'bb'vv) (-1) 2);
  (*1533*) Assign (T 48) (Times (Copy (IT 122)) (2) 1);
  (*1534*) AddTo (T 48) (Plain (Copy (IT 126)));
  (*1535*) Assign (T 57) (Plain (Copy (IT 118)));
  (*1536*) AddTo (T 57) (Times (Copy (IT 124)) (2) 1);
  (*1537*) Assign (T 5) (Times (Copy (IT 30)) (2) 1);
  (*1538*) AddTo (T 5) (Plain (Copy (IT 36)));
  (*1539*) Assign (T 11) (Plain (Copy (IT 20)));
  (*1540*) Del (IT 20);
  (*1541*) AddTo (T 11) (Times (Copy (IT 24)) (1) 2);
  (*1542*) Del (IT 24);
  (*1543*) AddTo (T 11) (Times (Copy n_v'aaaa'ovvv) (1) 2);
  (*1544*) Assign (T 7) (Times (Copy (IT 34)) (1) 2);
  (*1545*) AddTo (T 7) (Plain (Copy (IT 38)));
  (*1546*) Assign (T 9) (Plain (Transpose (IT 4) [1;0]));
  (*1547*) AddTo (T 9) (Times (Transpose (IT 6) [1;0]) (1) 2);
  (*1548*) AddTo (T 9) (Times (Copy n_f'aa'vv) (-1) 2);
  (*1549*) Assign (T 32) (Plain (Einsum [(n_r2'aba,[0;1;2]); (n_v'aabb'ovov,[2;0;3;1])] [3]));
  (*1550*) Assign (T 33) (Times (Einsum [(n_v'bbbb'ovov,[0;1;2;3]); (n_r2'bbb,[3;1;2])] [0]) (-1) 1);
  (*1551*) Assign (T 31) (Plain (Einsum [(n_r1'b,[0]); (n_f'bb'ov,[1;0])] [1]));
  (*1552*) Assign (T 45) (Plain (Einsum [(n_r2'aba,[0;1;2]); (IT 116,[2;3;0;4])] [3;4;1]));
  (*1553*) Assign (T 52) (Times (Einsum [(n_r1'b,[0]); (T 51,[1;2;3;0])] [1;2;3]) (2) 1);
  (*1554*) Del (T 51);
  (*1555*) Assign (T 46) (Plain (Einsum [(n_v'aabb'ovov,[0;1;2;3]); (n_r2'aba,[1;4;0])] [2;4;3]));
  (*1556*) Assign (T 47) (Plain (Einsum [(n_r2'bbb,[0;1;2]); (n_v'bbbb'oovv,[3;2;4;1])] [3;0;4]));
  (*1557*) Assign (T 50) (Times (Einsum [(T 40,[0;1]); (n_r2'bbb,[2;0;3])] [3;2;1]) (-4) 1);
  (*1558*) Assign (T 49) (Times (Einsum [(n_r2'bbb,[0;1;2]); (T 48,[3;2;4;1])] [3;0;4]) (-2) 1);
  (*1559*) Del (T 48);
  (*1560*) Assign (T 56) (Plain (Einsum [(n_r2'bbb,[0;1;2]); (n_v'bbbb'ovov,[3;4;2;1])] [3;0;4]));
  (*1561*) Assign (T 55) (Plain (Einsum [(IT 120,[0;1;2;3]); (n_r2'bbb,[4;3;1])] [0;2;4]));
  (*1562*) Assign (T 54) (Plain (Einsum [(n_r1'b,[0]); (IT 134,[1;2;0;3])] [1;2;3]));
  (*1563*) Del (IT 134);
  (*1564*) Assign (T 58) (Plain (Einsum [(T 57,[0;1;2;3]); (n_r2'aba,[2;4;0])] [1;4;3]));
  (*1565*) Del (T 57);
  (*1566*) Assign (T 20) (Plain (Einsum [(n_f'aa'ov,[0;1]); (n_r1'a,[1])] [0]));
  (*1567*) Assign (T 22) (Times (Einsum [(n_r2'bab,[0;1;2]); (n_v'aabb'ovov,[3;1;2;0])] [3]) (-1) 1);
  (*1568*) Assign (T 21) (Plain (Einsum [(n_v'aaaa'ovov,[0;1;2;3]); (n_r2'aaa,[1;3;2])] [0]));
  (*1569*) Assign (T 6) (Times (Einsum [(T 5,[0;1;2;3]); (n_r2'aaa,[4;3;1])] [0;4;2]) (-2) 1);
  (*1570*) Del (T 5);
  (*1571*) Assign (T 4) (Plain (Einsum [(n_r2'aaa,[0;1;2]); (n_v'aaaa'oovv,[3;2;4;1])] [3;0;4]));
  (*1572*) Assign (T 12) (Times (Einsum [(T 11,[0;1;2;3]); (n_r1'a,[3])] [0;1;2]) (2) 1);
  (*1573*) Del (T 11);
  (*1574*) Assign (T 8) (Times (Einsum [(n_r2'bab,[0;1;2]); (T 7,[3;2;4;0])] [3;1;4]) (-2) 1);
  (*1575*) Del (T 7);
  (*1576*) Assign (T 10) (Times (Einsum [(T 9,[0;1]); (n_r2'aaa,[2;0;3])] [3;2;1]) (-4) 1);
  (*1577*) Del (T 9);
  (*1578*) Assign (T 14) (Plain (Einsum [(IT 22,[0;1;2;3]); (n_r1'a,[2])] [0;1;3]));
  (*1579*) Del (IT 22);
  (*1580*) Assign (T 16) (Plain (Einsum [(n_r2'aaa,[0;1;2]); (n_v'aaaa'ovov,[3;4;2;1])] [3;0;4]));
  (*1581*) Assign (T 18) (Times (Einsum [(n_r2'bab,[0;1;2]); (n_v'aabb'ovov,[3;4;2;0])] [3;1;4]) (-1) 1);
  (*1582*) Assign (T 17) (Times (Einsum [(IT 32,[0;1;2;3]); (n_r2'bab,[3;4;1])] [0;2;4]) (-1) 1);
  (*1583*) Assign (T 15) (Plain (Einsum [(n_r2'aaa,[0;1;2]); (IT 28,[3;2;4;1])] [3;4;0]));
  (*1584*) Assign (T 42) (Plain (Copy n_f'bb'oo));
  (*1585*) AddTo (T 42) (Times (Transpose (IT 104) [1;0]) (2) 1);
  (*1586*) Del (IT 104);
  (*1587*) AddTo (T 42) (Plain (Transpose (IT 106) [1;0]));
  (*1588*) Del (IT 106);
  (*1589*) Assign (T 60) (Times (Copy (T 31)) (1) 2);
  (*1590*) AddTo (T 60) (Times (Copy (T 32)) (-1) 2);
  (*1591*) AddTo (T 60) (Plain (Copy (T 33)));
  (*1592*) Assign (T 53) (Plain (Copy (T 45)));
  (*1593*) Del (T 45);
  (*1594*) AddTo (T 53) (Plain (Copy (T 46)));
  (*1595*) Del (T 46);
  (*1596*) AddTo (T 53) (Times (Copy (T 47)) (2) 1);
  (*1597*) Del (T 47);
  (*1598*) AddTo (T 53) (Times (Transpose (T 49) [0;2;1]) (-1) 1);
  (*1599*) Del (T 49);
  (*1600*) AddTo (T 53) (Plain (Transpose (T 50) [0;2;1]));
  (*1601*) Del (T 50);
  (*1602*) AddTo (T 53) (Plain (Copy (T 52)));
  (*1603*) Del (T 52);
  (*1604*) Assign (T 59) (Times (Copy (T 54)) (2) 1);
  (*1605*) Del (T 54);
  (*1606*) AddTo (T 59) (Times (Copy (T 55)) (4) 1);
  (*1607*) Del (T 55);
  (*1608*) AddTo (T 59) (Times (Copy (T 56)) (2) 1);
  (*1609*) Del (T 56);
  (*1610*) AddTo (T 59) (Plain (Transpose (T 58) [0;2;1]));
  (*1611*) Del (T 58);
  (*1612*) Assign (T 44) (Plain (Einsum [(n_r2'bbb,[0;1;2]); (n_v'bbbb'ovov,[3;0;4;1])] [2;3;4]));
  (*1613*) Assign (T 43) (Plain (Copy n_f'bb'ov));
  (*1614*) AddTo (T 43) (Plain (Copy (IT 103)));
  (*1615*) Del (IT 103);
  (*1616*) AddTo (T 43) (Plain (Copy (IT 108)));
  (*1617*) Del (IT 108);
  (*1618*) AddTo (T 43) (Times (Copy (IT 109)) (2) 1);
  (*1619*) Del (IT 109);
  (*1620*) AddTo (T 43) (Times (Copy (IT 102)) (-2) 1);
  (*1621*) Del (IT 102);
  (*1622*) AddTo (T 43) (Times (Copy (IT 127)) (-2) 1);
  (*1623*) Del (IT 127);
  (*1624*) AddTo (T 43) (Times (Copy (IT 128)) (-1) 1);
  (*1625*) Del (IT 128);
  (*1626*) Assign (T 35) (Times (Einsum [(n_r2'bab,[0;1;2]); (n_v'aabb'ovov,[3;1;4;0])] [3;2;4]) (-1) 1);
  (*1627*) Assign (T 37) (Plain (Copy (IT 118)));
  (*1628*) Del (IT 118);
  (*1629*) AddTo (T 37) (Times (Copy (IT 124)) (2) 1);
  (*1630*) Del (IT 124);
  (*1631*) AddTo (T 37) (Plain (Transpose n_v'aabb'ovov [0;2;1;3]));
  (*1632*) AddTo (T 37) (Times (Copy (IT 116)) (-1) 1);
  (*1633*) Del (IT 116);
  (*1634*) Assign (T 41) (Plain (Copy (T 20)));
  (*1635*) AddTo (T 41) (Times (Copy (T 21)) (2) 1);
  (*1636*) AddTo (T 41) (Plain (Copy (T 22)));
  (*1637*) Assign (T 38) (Plain (Copy (IT 94)));
  (*1638*) Del (IT 94);
  (*1639*) AddTo (T 38) (Times (Transpose n_v'aabb'vvoo [2;3;0;1]) (-1) 1);
  (*1640*) Assign (T 39) (Plain (Copy (IT 110)));
  (*1641*) Del (IT 110);
  (*1642*) AddTo (T 39) (Times (Copy (IT 112)) (2) 1);
  (*1643*) Del (IT 112);
  (*1644*) AddTo (T 39) (Plain (Copy (IT 95)));
  (*1645*) Del (IT 95);
  (*1646*) AddTo (T 39) (Plain (Transpose n_v'aabb'vvov [2;0;1;3]));
  (*1647*) AddTo (T 39) (Times (Transpose (IT 111) [0;2;1;3]) (-1) 1);
  (*1648*) Del (IT 111);
  (*1649*) AddTo (T 39) (Times (Copy (IT 91)) (-1) 1);
  (*1650*) Del (IT 91);
  (*1651*) Assign (T 1) (Times (Transpose (IT 4) [1;0]) (2) 1);
  (*1652*) Del (IT 4);
  (*1653*) AddTo (T 1) (Plain (Transpose (IT 6) [1;0]));
  (*1654*) Del (IT 6);
  (*1655*) AddTo (T 1) (Times (Copy n_f'aa'vv) (-1) 1);
  (*1656*) Assign (T 36) (Times (Copy (IT 122)) (2) 1);
  (*1657*) Del (IT 122);
  (*1658*) AddTo (T 36) (Plain (Copy (IT 126)));
  (*1659*) Del (IT 126);
  (*1660*) AddTo (T 36) (Plain (Transpose n_v'bbbb'ovov [0;2;1;3]));
  (*1661*) AddTo (T 36) (Times (Copy (IT 120)) (-2) 1);
  (*1662*) Del (IT 120);
  (*1663*) AddTo (T 36) (Times (Copy n_v'bbbb'oovv) (-1) 1);
  (*1664*) Assign (T 25) (Plain (Copy n_f'aa'ov));
  (*1665*) AddTo (T 25) (Times (Copy (IT 15)) (2) 1);
  (*1666*) Del (IT 15);
  (*1667*) AddTo (T 25) (Plain (Copy (IT 16)));
  (*1668*) Del (IT 16);
  (*1669*) AddTo (T 25) (Plain (Copy (IT 57)));
  (*1670*) Del (IT 57);
  (*1671*) AddTo (T 25) (Times (Copy (IT 44)) (-2) 1);
  (*1672*) Del (IT 44);
  (*1673*) AddTo (T 25) (Times (Copy (IT 45)) (-1) 1);
  (*1674*) Del (IT 45);
  (*1675*) AddTo (T 25) (Times (Copy (IT 56)) (-2) 1);
  (*1676*) Del (IT 56);
  (*1677*) Assign (T 29) (Plain (Copy (IT 66)));
  (*1678*) Del (IT 66);
  (*1679*) AddTo (T 29) (Times (Copy n_v'aabb'oovv) (-1) 1);
  (*1680*) Assign (T 28) (Plain (Copy (IT 34)));
  (*1681*) Del (IT 34);
  (*1682*) AddTo (T 28) (Times (Copy (IT 38)) (2) 1);
  (*1683*) Del (IT 38);
  (*1684*) AddTo (T 28) (Plain (Transpose n_v'aabb'ovov [0;2;1;3]));
  (*1685*) AddTo (T 28) (Times (Copy (IT 32)) (-1) 1);
  (*1686*) Del (IT 32);
  (*1687*) Assign (T 34) (Plain (Copy (T 31)));
  (*1688*) Del (T 31);
  (*1689*) AddTo (T 34) (Times (Copy (T 32)) (-1) 1);
  (*1690*) Del (T 32);
  (*1691*) AddTo (T 34) (Times (Copy (T 33)) (2) 1);
  (*1692*) Del (T 33);
  (*1693*) Assign (T 27) (Times (Copy (IT 30)) (2) 1);
  (*1694*) Del (IT 30);
  (*1695*) AddTo (T 27) (Plain (Copy (IT 36)));
  (*1696*) Del (IT 36);
  (*1697*) AddTo (T 27) (Plain (Transpose n_v'aaaa'ovov [0;2;1;3]));
  (*1698*) AddTo (T 27) (Times (Copy (IT 28)) (-2) 1);
  (*1699*) Del (IT 28);
  (*1700*) AddTo (T 27) (Times (Copy n_v'aaaa'oovv) (-1) 1);
  (*1701*) Assign (T 2) (Times (Transpose (IT 11) [1;0]) (2) 1);
  (*1702*) Del (IT 11);
  (*1703*) AddTo (T 2) (Plain (Transpose (IT 13) [1;0]));
  (*1704*) Del (IT 13);
  (*1705*) AddTo (T 2) (Times (Copy n_f'bb'vv) (-1) 1);
  (*1706*) Assign (T 26) (Plain (Einsum [(n_r2'aba,[0;1;2]); (n_v'aabb'ovov,[3;0;4;1])] [2;3;4]));
  (*1707*) Assign (T 30) (Plain (Copy (IT 68)));
  (*1708*) Del (IT 68);
  (*1709*) AddTo (T 30) (Plain (Copy (IT 79)));
  (*1710*) Del (IT 79);
  (*1711*) AddTo (T 30) (Times (Copy (IT 81)) (2) 1);
  (*1712*) Del (IT 81);
  (*1713*) AddTo (T 30) (Plain (Copy n_v'aabb'ovvv));
  (*1714*) AddTo (T 30) (Times (Copy (IT 63)) (-1) 1);
  (*1715*) Del (IT 63);
  (*1716*) AddTo (T 30) (Times (Transpose (IT 80) [0;1;3;2]) (-1) 1);
  (*1717*) Del (IT 80);
  (*1718*) Assign (T 24) (Plain (Copy n_f'aa'oo));
  (*1719*) AddTo (T 24) (Times (Transpose (IT 58) [1;0]) (2) 1);
  (*1720*) Del (IT 58);
  (*1721*) AddTo (T 24) (Plain (Transpose (IT 60) [1;0]));
  (*1722*) Del (IT 60);
  (*1723*) Assign (T 23) (Times (Copy (T 20)) (1) 2);
  (*1724*) Del (T 20);
  (*1725*) AddTo (T 23) (Plain (Copy (T 21)));
  (*1726*) Del (T 21);
  (*1727*) AddTo (T 23) (Times (Copy (T 22)) (1) 2);
  (*1728*) Del (T 22);
  (*1729*) Assign (T 3) (Plain (Einsum [(n_v'aaaa'ovov,[0;1;2;3]); (n_r2'aaa,[1;3;4])] [4;0;2]));
  (*1730*) Assign (T 13) (Times (Copy (T 4)) (2) 1);
  (*1731*) Del (T 4);
  (*1732*) AddTo (T 13) (Times (Transpose (T 6) [0;2;1]) (-1) 1);
  (*1733*) Del (T 6);
  (*1734*) AddTo (T 13) (Plain (Transpose (T 8) [0;2;1]));
  (*1735*) Del (T 8);
  (*1736*) AddTo (T 13) (Plain (Transpose (T 10) [0;2;1]));
  (*1737*) Del (T 10);
  (*1738*) AddTo (T 13) (Plain (Copy (T 12)));
  (*1739*) Del (T 12);
  (*1740*) Assign (T 19) (Times (Copy (T 14)) (2) 1);
  (*1741*) Del (T 14);
  (*1742*) AddTo (T 19) (Times (Copy (T 15)) (4) 1);
  (*1743*) Del (T 15);
  (*1744*) AddTo (T 19) (Times (Copy (T 16)) (2) 1);
  (*1745*) Del (T 16);
  (*1746*) AddTo (T 19) (Plain (Copy (T 17)));
  (*1747*) Del (T 17);
  (*1748*) AddTo (T 19) (Plain (Copy (T 18)));
  (*1749*) Del (T 18);
  (*1750*) Assign n_r2new'bbb (Times (Einsum [(n_r2'bbb,[0;1;2]); (n_v'bbbb'vvvv,[3;1;4;0])] [3;4;2]) (-2) 1);
  (*1751*) AddTo n_r2new'bbb (Times (Einsum [(T 44,[0;1;2]); (n_t2'bbbb,[2;1;3;4])] [3;4;0]) (-2) 1);
  (*1752*) Del (T 44);
  (*1753*) AddTo n_r2new'bbb (Times (Einsum [(n_r1'b,[0]); (IT 149,[1;2;3;0])] [3;2;1]) (2) 1);
  (*1754*) Del (IT 149);
  (*1755*) AddTo n_r2new'bbb (Times (Transpose (T 53) [1;2;0]) (-1) 1);
  (*1756*) AddTo n_r2new'bbb (Plain (Transpose (T 53) [2;1;0]));
  (*1757*) Del (T 53);
  (*1758*) AddTo n_r2new'bbb (Plain (Transpose (T 59) [1;2;0]));
  (*1759*) AddTo n_r2new'bbb (Times (Transpose (T 59) [2;1;0]) (-1) 1);
  (*1760*) Del (T 59);
  (*1761*) AddTo n_r2new'bbb (Times (Einsum [(T 60,[0]); (n_t2'bbbb,[1;0;2;3])] [2;3;1]) (4) 1);
  (*1762*) Del (T 60);
  (*1763*) AddTo n_r2new'bbb (Times (Einsum [(n_r2'bbb,[0;1;2]); (T 42,[2;3])] [0;1;3]) (-2) 1);
  (*1764*) AddTo n_r2new'bbb (Plain (Einsum [(T 43,[0;1]); (n_r1'b,[2])] [2;1;0]));
  (*1765*) AddTo n_r2new'bbb (Times (Einsum [(n_r1'b,[0]); (T 43,[1;2])] [2;0;1]) (-1) 1);
  (*1766*) Assign n_r2new'bab (Plain (Einsum [(n_r2'bab,[0;1;2]); (n_v'aabb'vvvv,[3;1;4;0])] [4;3;2]));
  (*1767*) AddTo n_r2new'bab (Times (Einsum [(n_t2'abab,[0;1;2;3]); (T 35,[0;4;1])] [3;2;4]) (-1) 1);
  (*1768*) Del (T 35);
  (*1769*) AddTo n_r2new'bab (Plain (Einsum [(T 36,[0;1;2;3]); (n_r2'bab,[3;4;1])] [2;4;0]));
  (*1770*) Del (T 36);
  (*1771*) AddTo n_r2new'bab (Times (Einsum [(n_r2'aaa,[0;1;2]); (T 37,[2;3;1;4])] [4;0;3]) (-2) 1);
  (*1772*) Del (T 37);
  (*1773*) AddTo n_r2new'bab (Plain (Einsum [(n_r2'bab,[0;1;2]); (T 38,[3;2;4;1])] [0;4;3]));
  (*1774*) Del (T 38);
  (*1775*) AddTo n_r2new'bab (Times (Einsum [(T 39,[0;1;2;3]); (n_r1'a,[2])] [3;1;0]) (-1) 1);
  (*1776*) Del (T 39);
  (*1777*) AddTo n_r2new'bab (Times (Einsum [(n_r2'bab,[0;1;2]); (T 1,[1;3])] [0;3;2]) (-1) 1);
  (*1778*) AddTo n_r2new'bab (Times (Einsum [(n_r2'bab,[0;1;2]); (T 40,[0;3])] [3;1;2]) (-2) 1);
  (*1779*) Del (T 40);
  (*1780*) AddTo n_r2new'bab (Plain (Einsum [(n_t2'abab,[0;1;2;3]); (T 41,[0])] [3;2;1]));
  (*1781*) Del (T 41);
  (*1782*) AddTo n_r2new'bab (Times (Einsum [(n_r2'bab,[0;1;2]); (T 42,[2;3])] [0;1;3]) (-1) 1);
  (*1783*) Del (T 42);
  (*1784*) AddTo n_r2new'bab (Times (Einsum [(T 43,[0;1]); (n_r1'a,[2])] [1;2;0]) (-1) 1);
  (*1785*) Del (T 43);
  (*1786*) Assign n_r2new'aba (Plain (Einsum [(n_r2'aba,[0;1;2]); (n_v'aabb'vvvv,[3;0;4;1])] [3;4;2]));
  (*1787*) AddTo n_r2new'aba (Plain (Einsum [(T 26,[0;1;2]); (n_t2'abab,[1;2;3;4])] [3;4;0]));
  (*1788*) Del (T 26);
  (*1789*) AddTo n_r2new'aba (Plain (Einsum [(n_r2'aba,[0;1;2]); (T 27,[3;2;4;0])] [4;1;3]));
  (*1790*) Del (T 27);
  (*1791*) AddTo n_r2new'aba (Times (Einsum [(n_r2'bbb,[0;1;2]); (T 28,[3;2;4;1])] [4;0;3]) (-2) 1);
  (*1792*) Del (T 28);
  (*1793*) AddTo n_r2new'aba (Plain (Einsum [(n_r2'aba,[0;1;2]); (T 29,[3;2;4;1])] [0;4;3]));
  (*1794*) Del (T 29);
  (*1795*) AddTo n_r2new'aba (Times (Einsum [(n_r1'b,[0]); (T 30,[1;2;3;0])] [2;3;1]) (-1) 1);
  (*1796*) Del (T 30);
  (*1797*) AddTo n_r2new'aba (Times (Einsum [(n_r2'aba,[0;1;2]); (T 2,[1;3])] [0;3;2]) (-1) 1);
  (*1798*) AddTo n_r2new'aba (Times (Einsum [(n_r2'aba,[0;1;2]); (T 1,[0;3])] [3;1;2]) (-1) 1);
  (*1799*) AddTo n_r2new'aba (Plain (Einsum [(T 34,[0]); (n_t2'abab,[1;0;2;3])] [2;3;1]));
  (*1800*) Del (T 34);
  (*1801*) AddTo n_r2new'aba (Times (Einsum [(n_r2'aba,[0;1;2]); (T 24,[2;3])] [0;1;3]) (-1) 1);
  (*1802*) AddTo n_r2new'aba (Times (Einsum [(T 25,[0;1]); (n_r1'b,[2])] [1;2;0]) (-1) 1);
  (*1803*) Assign n_r2new'aaa (Times (Einsum [(IT 46,[0;1;2;3]); (n_r1'a,[3])] [2;1;0]) (2) 1);
  (*1804*) Del (IT 46);
  (*1805*) AddTo n_r2new'aaa (Times (Einsum [(n_r2'aaa,[0;1;2]); (n_v'aaaa'vvvv,[3;1;4;0])] [3;4;2]) (-2) 1);
  (*1806*) AddTo n_r2new'aaa (Times (Einsum [(T 3,[0;1;2]); (n_t2'aaaa,[2;1;3;4])] [3;4;0]) (-2) 1);
  (*1807*) Del (T 3);
  (*1808*) AddTo n_r2new'aaa (Times (Transpose (T 13) [1;2;0]) (-1) 1);
  (*1809*) AddTo n_r2new'aaa (Plain (Transpose (T 13) [2;1;0]));
  (*1810*) Del (T 13);
  (*1811*) AddTo n_r2new'aaa (Plain (Transpose (T 19) [1;2;0]));
  (*1812*) AddTo n_r2new'aaa (Times (Transpose (T 19) [2;1;0]) (-1) 1);
  (*1813*) Del (T 19);
  (*1814*) AddTo n_r2new'aaa (Times (Einsum [(n_t2'aaaa,[0;1;2;3]); (T 23,[1])] [2;3;0]) (4) 1);
  (*1815*) Del (T 23);
  (*1816*) AddTo n_r2new'aaa (Times (Einsum [(n_r2'aaa,[0;1;2]); (T 24,[2;3])] [0;1;3]) (-2) 1);
  (*1817*) Del (T 24);
  (*1818*) AddTo n_r2new'aaa (Plain (Einsum [(T 25,[0;1]); (n_r1'a,[2])] [2;1;0]));
  (*1819*) AddTo n_r2new'aaa (Times (Einsum [(T 25,[0;1]); (n_r1'a,[2])] [1;2;0]) (-1) 1);
  (*1820*) Del (T 25);
  (*1821*) Assign n_r1new'b (Times (Einsum [(n_f'aa'ov,[0;1]); (n_r2'aba,[1;2;0])] [2]) (-1) 1);
  (*1822*) AddTo n_r1new'b (Times (Einsum [(n_f'bb'ov,[0;1]); (n_r2'bbb,[2;1;0])] [2]) (2) 1);
  (*1823*) AddTo n_r1new'b (Times (Einsum [(n_r2'aba,[0;1;2]); (n_v'aabb'ovvv,[2;0;3;1])] [3]) (-1) 1);
  (*1824*) AddTo n_r1new'b (Times (Einsum [(n_r2'bbb,[0;1;2]); (n_v'bbbb'ovvv,[2;0;3;1])] [3]) (-2) 1);
  (*1825*) AddTo n_r1new'b (Times (Einsum [(n_r1'b,[0]); (T 2,[0;1])] [1]) (-1) 1);
  (*1826*) Del (T 2);
  (*1827*) Assign n_r1new'a (Times (Einsum [(n_r2'aaa,[0;1;2]); (n_v'aaaa'ovvv,[2;1;3;0])] [3]) (2) 1);
  (*1828*) AddTo n_r1new'a (Times (Einsum [(n_r2'bab,[0;1;2]); (n_f'bb'ov,[2;0])] [1]) (-1) 1);
  (*1829*) AddTo n_r1new'a (Times (Einsum [(n_f'aa'ov,[0;1]); (n_r2'aaa,[2;1;0])] [2]) (2) 1);
  (*1830*) AddTo n_r1new'a (Times (Einsum [(n_r2'bab,[0;1;2]); (n_v'aabb'vvov,[3;1;2;0])] [3]) (-1) 1);
  (*1831*) AddTo n_r1new'a (Times (Einsum [(n_r1'a,[0]); (T 1,[0;1])] [1]) (-1) 1);
  (*1832*) Del (T 1)]
 [(n_r1new'b,[7]); (n_r1new'a,[5]); (n_r2new'bbb,[7;7;6]); (n_r2new'bab,[7;5;6]); (n_r2new'aba,[5;7;4]); (n_r2new'aaa,[5;5;4])].

(** ebcc/codegen/UCCD.py:1836-1972 [hbar_lmatvec_ip_intermediates] *)
Definition UCCD_hbar_lmatvec_ip_intermediates : prog := mkprog
 [(n_t2'bbbb,[6;6;7;7]); (n_v'bbbb'ovov,[6;7;6;7]); (n_t2'abab,[4;6;5;7]); (n_v'aabb'ovov,[4;5;6;7]); (n_t2'aaaa,[4;4;5;5]); (n_v'aaaa'ovov,[4;5;4;5]); (n_v'aabb'vvov,[5;5;6;7]); (n_v'bbbb'ovvv,[6;7;7;7]); (n_v'aabb'ovoo,[4;5;6;6]); (n_v'aabb'ooov,[4;4;6;7]); (n_v'bbbb'ooov,[6;6;6;7]); (n_f'bb'ov,[6;7]); (n_v'aabb'ovvv,[4;5;7;7]); (n_v'aaaa'ovvv,[4;5;5;5]); (n_v'aaaa'ooov,[4;4;4;5]); (n_f'aa'ov,[4;5])]
 [(*1912*) Assign (T 179) (Plain (Einsum [(n_t2'bbbb,[0;1;2;3]); (n_v'bbbb'ovov,[4;2;5;3])] [0;1;4;5]));
  (*1913*) Assign (T 162) (Plain (Einsum [(n_t2'abab,[0;1;2;3]); (n_v'aabb'ovov,[4;2;1;5])] [0;4;3;5]));
  (*1914*) Assign (T 160) (Plain (Einsum [(n_v'aabb'ovov,[0;1;2;3]); (n_t2'abab,[0;2;1;4])] [4;3]));
  (*1915*) Assign (T 158) (Times (Einsum [(n_v'bbbb'ovov,[0;1;2;3]); (n_t2'bbbb,[0;2;4;1])] [4;3]) (-1) 1);
  (*1916*) Assign (T 149) (Plain (Einsum [(n_t2'abab,[0;1;2;3]); (n_v'aabb'ovov,[0;2;4;5])] [1;4;3;5]));
  (*1917*) Assign (T 147) (Plain (Einsum [(n_t2'aaaa,[0;1;2;3]); (n_v'aabb'ovov,[1;3;4;5])] [0;4;2;5]));
  (*1918*) Assign (T 145) (Plain (Einsum [(n_t2'bbbb,[0;1;2;3]); (n_v'bbbb'ovov,[4;5;1;3])] [0;4;2;5]));
  (*1919*) Assign (T 143) (Plain (Einsum [(n_v'bbbb'ovov,[0;1;2;3]); (n_t2'abab,[4;2;5;3])] [4;0;5;1]));
  (*1920*) Assign (T 141) (Plain (Einsum [(n_t2'bbbb,[0;1;2;3]); (n_v'bbbb'ovov,[4;3;1;5])] [0;4;2;5]));
  (*1921*) Assign (T 139) (Plain (Einsum [(n_v'bbbb'ovov,[0;1;2;3]); (n_t2'abab,[4;2;5;1])] [4;0;5;3]));
  (*1922*) Assign (T 137) (Plain (Einsum [(n_t2'abab,[0;1;2;3]); (n_v'aabb'ovov,[0;4;5;3])] [1;5;2;4]));
  (*1923*) Assign (T 133) (Plain (Einsum [(n_t2'abab,[0;1;2;3]); (n_v'aabb'ovov,[4;2;5;3])] [0;4;1;5]));
  (*1924*) Assign (T 116) (Plain (Einsum [(n_t2'abab,[0;1;2;3]); (n_v'aabb'ovov,[0;4;1;3])] [2;4]));
  (*1925*) Assign (T 114) (Plain (Einsum [(n_v'aaaa'ovov,[0;1;2;3]); (n_t2'aaaa,[0;2;4;3])] [4;1]));
  (*1926*) Assign (T 111) (Times (Einsum [(n_v'aaaa'ovov,[0;1;2;3]); (n_t2'aaaa,[4;5;3;1])] [4;5;0;2]) (-1) 1);
  (*1927*) Assign (T 100) (Plain (Einsum [(n_v'aabb'ovov,[0;1;2;3]); (n_t2'bbbb,[4;2;5;3])] [0;4;1;5]));
  (*1928*) Assign (T 98) (Plain (Einsum [(n_t2'abab,[0;1;2;3]); (n_v'aabb'ovov,[4;5;1;3])] [0;4;2;5]));
  (*1929*) Assign (T 96) (Plain (Einsum [(n_t2'abab,[0;1;2;3]); (n_v'aaaa'ovov,[4;5;0;2])] [4;1;5;3]));
  (*1930*) Assign (T 94) (Plain (Einsum [(n_v'aaaa'ovov,[0;1;2;3]); (n_t2'aaaa,[4;2;5;3])] [4;0;5;1]));
  (*1931*) Assign (T 92) (Plain (Einsum [(n_t2'abab,[0;1;2;3]); (n_v'aaaa'ovov,[4;2;0;5])] [4;1;5;3]));
  (*1932*) Assign (T 90) (Plain (Einsum [(n_v'aaaa'ovov,[0;1;2;3]); (n_t2'aaaa,[4;2;5;1])] [4;0;5;3]));
  (*1933*) Assign (T 85) (Plain (Einsum [(n_v'aabb'vvov,[0;1;2;3]); (n_t2'abab,[4;5;1;3])] [4;5;2;0]));
  (*1934*) Assign (T 83) (Times (Einsum [(n_t2'bbbb,[0;1;2;3]); (n_v'bbbb'ovvv,[4;3;5;2])] [0;1;4;5]) (-1) 1);
  (*1935*) Assign (T 77) (Plain (Einsum [(n_t2'abab,[0;1;2;3]); (n_v'aabb'ovoo,[0;2;4;5])] [1;4;5;3]));
  (*1936*) Assign (T 75) (Plain (Einsum [(n_v'aabb'ovoo,[0;1;2;3]); (n_t2'aaaa,[4;0;5;1])] [4;2;3;5]));
  (*1937*) Assign (T 74) (Plain (Einsum [(n_v'aabb'ooov,[0;1;2;3]); (n_t2'abab,[1;4;5;3])] [0;4;2;5]));
  (*1938*) Assign (T 72) (Plain (Einsum [(n_t2'bbbb,[0;1;2;3]); (n_v'bbbb'ooov,[4;5;1;3])] [0;4;5;2]));
  (*1939*) Assign (T 71) (Plain (Einsum [(n_v'bbbb'ooov,[0;1;2;3]); (n_t2'abab,[4;2;5;3])] [4;0;1;5]));
  (*1940*) Assign (T 69) (Plain (Einsum [(n_v'bbbb'ooov,[0;1;2;3]); (n_t2'bbbb,[4;1;5;3])] [4;0;2;5]));
  (*1941*) Assign (T 68) (Plain (Einsum [(n_t2'abab,[0;1;2;3]); (n_v'bbbb'ooov,[4;1;5;3])] [0;4;5;2]));
  (*1942*) Assign (T 62) (Plain (Einsum [(n_t2'abab,[0;1;2;3]); (n_v'aabb'ovov,[0;2;4;3])] [1;4]));
  (*1943*) Assign (T 60) (Times (Einsum [(n_t2'bbbb,[0;1;2;3]); (n_v'bbbb'ovov,[4;3;1;2])] [0;4]) (-1) 1);
  (*1944*) Assign (T 56) (Plain (Einsum [(n_t2'bbbb,[0;1;2;3]); (n_f'bb'ov,[4;3])] [4;0;1;2]));
  (*1945*) Assign (T 54) (Plain (Einsum [(n_t2'abab,[0;1;2;3]); (n_f'bb'ov,[4;3])] [0;4;1;2]));
  (*1946*) Assign (T 48) (Plain (Einsum [(n_v'aabb'ovvv,[0;1;2;3]); (n_t2'abab,[4;5;1;3])] [4;0;5;2]));
  (*1947*) Assign (T 46) (Times (Einsum [(n_v'aaaa'ovvv,[0;1;2;3]); (n_t2'aaaa,[4;5;3;1])] [4;5;0;2]) (-1) 1);
  (*1948*) Assign (T 44) (Plain (Einsum [(n_v'aabb'vvov,[0;1;2;3]); (n_t2'abab,[4;2;1;3])] [4;0]));
  (*1949*) Assign (T 42) (Plain (Einsum [(n_v'aabb'ovvv,[0;1;2;3]); (n_t2'abab,[0;4;1;3])] [4;2]));
  (*1950*) Assign (T 40) (Times (Einsum [(n_t2'bbbb,[0;1;2;3]); (n_v'bbbb'ovvv,[1;3;4;2])] [0;4]) (-1) 1);
  (*1951*) Assign (T 38) (Times (Einsum [(n_v'aaaa'ovvv,[0;1;2;3]); (n_t2'aaaa,[4;0;3;1])] [4;2]) (-1) 1);
  (*1952*) Assign (T 36) (Plain (Einsum [(n_v'aabb'ooov,[0;1;2;3]); (n_t2'bbbb,[4;2;5;3])] [0;1;4;5]));
  (*1953*) Assign (T 34) (Plain (Einsum [(n_v'aabb'ooov,[0;1;2;3]); (n_t2'abab,[4;2;5;3])] [4;0;1;5]));
  (*1954*) Assign (T 33) (Plain (Einsum [(n_v'aabb'ovoo,[0;1;2;3]); (n_t2'abab,[4;3;1;5])] [4;0;2;5]));
  (*1955*) Assign (T 32) (Plain (Einsum [(n_v'aaaa'ooov,[0;1;2;3]); (n_t2'abab,[2;4;3;5])] [0;1;4;5]));
  (*1956*) Assign (T 30) (Plain (Einsum [(n_t2'aaaa,[0;1;2;3]); (n_v'aaaa'ooov,[4;5;1;3])] [0;4;5;2]));
  (*1957*) Assign (T 29) (Plain (Einsum [(n_v'aaaa'ooov,[0;1;2;3]); (n_t2'abab,[1;4;3;5])] [0;2;4;5]));
  (*1958*) Assign (T 27) (Plain (Einsum [(n_t2'aaaa,[0;1;2;3]); (n_v'aaaa'ooov,[4;1;5;3])] [0;4;5;2]));
  (*1959*) Assign (T 25) (Plain (Einsum [(n_v'aabb'ooov,[0;1;2;3]); (n_t2'abab,[1;2;4;3])] [0;4]));
  (*1960*) Assign (T 23) (Plain (Einsum [(n_t2'abab,[0;1;2;3]); (n_v'aabb'ovoo,[0;2;4;1])] [4;3]));
  (*1961*) Assign (T 21) (Times (Einsum [(n_t2'bbbb,[0;1;2;3]); (n_v'bbbb'ooov,[4;1;0;3])] [4;2]) (-1) 1);
  (*1962*) Assign (T 19) (Plain (Einsum [(n_t2'aaaa,[0;1;2;3]); (n_v'aaaa'ooov,[4;0;1;3])] [4;2]));
  (*1963*) Assign (T 17) (Plain (Einsum [(n_t2'abab,[0;1;2;3]); (n_v'aabb'ovov,[4;2;1;3])] [0;4]));
  (*1964*) Assign (T 15) (Plain (Einsum [(n_t2'aaaa,[0;1;2;3]); (n_v'aaaa'ovov,[4;2;1;3])] [0;4]));
  (*1965*) Assign (T 11) (Plain (Einsum [(n_f'aa'ov,[0;1]); (n_t2'abab,[2;3;1;4])] [0;2;3;4]));
  (*1966*) Assign (T 9) (Plain (Einsum [(n_t2'aaaa,[0;1;2;3]); (n_f'aa'ov,[4;3])] [4;0;1;2]));
  (*1967*) Assign (T 7) (Plain (Einsum [(n_f'bb'ov,[0;1]); (n_t2'bbbb,[2;0;3;1])] [2;3]));
  (*1968*) Assign (T 5) (Plain (Einsum [(n_t2'abab,[0;1;2;3]); (n_f'bb'ov,[1;3])] [0;2]));
  (*1969*) Assign (T 4) (Plain (Einsum [(n_t2'abab,[0;1;2;3]); (n_f'aa'ov,[0;2])] [1;3]));
  (*1970*) Assign (T 2) (Plain (Einsum [(n_f'aa'ov,[0;1]); (n_t2'aaaa,[2;0;3;1])] [2;3]))]
 [(T 2,[4;5]); (T 11,[4;4;6;7]); (T 111,[4;4;4;4]); (T 114,[5;5]); (T 116,[5;5]); (T 133,[4;4;6;6]); (T 137,[6;6;5;5]); (T 139,[4;6;5;7]); (T 15,[4;4]); (T 141,[6;6;7;7]); (T 143,[4;6;5;7]); (T 145,[6;6;7;7]); (T 147,[4;6;5;7]); (T 149,[6;6;7;7]); (T 158,[7;7]); (T 160,[7;7]); (T 17,[4;4]); (T 162,[4;4;7;7]); (T 179,[6;6;6;6]); (T 19,[4;5]); (T 21,[6;7]); (T 23,[6;7]); (T 25,[4;5]); (T 27,[4;4;4;5]); (T 29,[4;4;6;7]); (T 30,[4;4;4;5]); (T 4,[6;7]); (T 32,[4;4;6;7]); (T 33,[4;4;6;7]); (T 34,[4;4;4;5]); (T 36,[4;4;6;7]); (T 38,[4;5]); (T 40,[6;7]); (T 5,[4;5]); (T 42,[6;7]); (T 44,[4;5]); (T 46,[4;4;4;5]); (T 48,[4;4;6;7]); (T 54,[4;6;6;5]); (T 56,[6;6;6;7]); (T 60,[6;6]); (T 7,[6;7]); (T 62,[6;6]); (T 68,[4;6;6;5]); (T 69,[6;6;6;7]); (T 71,[4;6;6;5]); (T 72,[6;6;6;7]); (T 74,[4;6;6;5]); (T 75,[4;6;6;5]); (T 77,[6;6;6;7]); (T 9,[4;4;4;5]); (T 83,[6;6;6;7]); (T 85,[4;6;6;5]); (T 90,[4;4;5;5]); (T 92,[4;6;5;7]); (T 94,[4;4;5;5]); (T 96,[4;6;5;7]); (T 98,[4;4;5;5]); (T 100,[4;6;5;7])].

(** ebcc/codegen/UCCD.py:1974-2329 [hbar_lmatvec_ip] *)
Definition UCCD_hbar_lmatvec_ip : prog := mkprog
 [(n_r2'aba,[4;6;5]); (n_t2'abab,[4;6;5;7]); (n_r2'bbb,[6;6;7]); (n_t2'bbbb,[6;6;7;7]); (IT 143,[4;6;5;7]); (IT 147,[4;6;5;7]); (IT 60,[6;6]); (IT 62,[6;6]); (IT 145,[6;6;7;7]); (IT 149,[6;6;7;7]); (n_r2'bab,[6;4;7]); (n_r2'aaa,[4;4;5]); (n_t2'aaaa,[4;4;5;5]); (IT 94,[4;4;5;5]); (IT 98,[4;4;5;5]); (IT 96,[4;6;5;7]); (IT 100,[4;6;5;7]); (IT 15,[4;4]); (IT 17,[4;4]); (IT 141,[6;6;7;7]); (n_f'bb'oo,[6;6]); (n_v'bbbb'ovov,[6;7;6;7]); (n_r1'b,[6]); (n_v'bbbb'ooov,[6;6;6;7]); (IT 139,[4;6;5;7]); (n_v'aabb'ovov,[4;5;6;7]); (n_v'bbbb'oovv,[6;6;7;7]); (n_f'aa'oo,[4;4]); (IT 90,[4;4;5;5]); (n_v'aaaa'ovov,[4;5;4;5]); (IT 92,[4;6;5;7]); (n_v'aaaa'ooov,[4;4;4;5]); (n_r1'a,[4]); (n_v'aaaa'oovv,[4;4;5;5]); (n_f'bb'ov,[6;7]); (IT 158,[7;7]); (IT 160,[7;7]); (n_f'bb'vv,[7;7]); (IT 179,[6;6;6;6]); (n_v'bbbb'oooo,[6;6;6;6]); (IT 162,[4;4;7;7]); (n_v'aabb'oovv,[4;4;7;7]); (IT 133,[4;4;6;6]); (n_v'aabb'oooo,[4;4;6;6]); (IT 137,[6;6;5;5]); (n_v'aabb'vvoo,[5;5;6;6]); (IT 114,[5;5]); (IT 116,[5;5]); (n_f'aa'vv,[5;5]); (n_f'aa'ov,[4;5]); (IT 111,[4;4;4;4]); (n_v'aaaa'oooo,[4;4;4;4]); (IT 54,[4;6;6;5]); (IT 71,[4;6;6;5]); (IT 75,[4;6;6;5]); (IT 85,[4;6;6;5]); (n_v'aabb'ovoo,[4;5;6;6]); (IT 68,[4;6;6;5]); (IT 74,[4;6;6;5]); (IT 56,[6;6;6;7]); (IT 72,[6;6;6;7]); (IT 77,[6;6;6;7]); (IT 69,[6;6;6;7]); (IT 83,[6;6;6;7]); (IT 2,[4;5]); (IT 44,[4;5]); (IT 5,[4;5]); (IT 19,[4;5]); (IT 25,[4;5]); (IT 38,[4;5]); (IT 4,[6;7]); (IT 42,[6;7]); (IT 7,[6;7]); (IT 21,[6;7]); (IT 23,[6;7]); (IT 40,[6;7]); (IT 27,[4;4;4;5]); (IT 46,[4;4;4;5]); (IT 30,[4;4;4;5]); (IT 34,[4;4;4;5]); (IT 9,[4;4;4;5]); (IT 11,[4;4;6;7]); (IT 32,[4;4;6;7]); (IT 36,[4;4;6;7]); (IT 48,[4;4;6;7]); (n_v'aabb'ooov,[4;4;6;7]); (IT 29,[4;4;6;7]); (IT 33,[4;4;6;7])]
 [(*2002*) Assign (T 36) (Plain (Einsum [(n_r2'aba,[0;1;2]); (n_t2'abab,[0;1;2;3])] [3]));
  (*2003*) Assign (T 37) (Plain (Einsum [(n_r2'bbb,[0;1;2]); (n_t2'bbbb,[0;1;3;2])] [3]));
  (*2004*) Assign (T 58) (Plain (Copy (IT 143)));
  (*2005*) AddTo (T 58) (Times (Copy (IT 147)) (2) 1);
  (*2006*) Assign (T 52) (Times (Copy (IT 60)) (2) 1);
  (*2007*) AddTo (T 52) (Plain (Copy (IT 62)));
  (*2008*) Assign (T 49) (Plain (Copy (IT 145)));
  (*2009*) AddTo (T 49) (Times (Copy (IT 149)) (1) 2);
  (*2010*) Assign (T 38) (Times (Copy (T 36)) (-1) 2);
  (*2011*) Del (T 36);
  (*2012*) AddTo (T 38) (Plain (Copy (T 37)));
  (*2013*) Del (T 37);
  (*2014*) Assign (T 27) (Times (Einsum [(n_t2'abab,[0;1;2;3]); (n_r2'bab,[1;0;3])] [2]) (-1) 1);
  (*2015*) Assign (T 13) (Plain (Einsum [(n_r2'aaa,[0;1;2]); (n_t2'aaaa,[0;1;3;2])] [3]));
  (*2016*) Assign (T 15) (Plain (Copy (IT 94)));
  (*2017*) AddTo (T 15) (Times (Copy (IT 98)) (1) 2);
  (*2018*) Assign (T 17) (Plain (Copy (IT 96)));
  (*2019*) AddTo (T 17) (Times (Copy (IT 100)) (2) 1);
  (*2020*) Assign (T 19) (Times (Copy (IT 15)) (2) 1);
  (*2021*) AddTo (T 19) (Plain (Copy (IT 17)));
  (*2022*) Assign (T 56) (Plain (Einsum [(IT 141,[0;1;2;3]); (n_r2'bbb,[4;0;2])] [1;4;3]));
  (*2023*) Assign (T 55) (Plain (Einsum [(n_r2'bbb,[0;1;2]); (n_f'bb'oo,[3;1])] [3;0;2]));
  (*2024*) Assign (T 57) (Plain (Einsum [(n_r2'bbb,[0;1;2]); (n_v'bbbb'ovov,[3;4;1;2])] [0;3;4]));
  (*2025*) Assign (T 59) (Plain (Einsum [(n_r2'aba,[0;1;2]); (T 58,[0;3;2;4])] [1;3;4]));
  (*2026*) Del (T 58);
  (*2027*) Assign (T 45) (Plain (Einsum [(n_r1'b,[0]); (n_v'bbbb'ooov,[1;0;2;3])] [1;2;3]));
  (*2028*) Assign (T 53) (Times (Einsum [(T 52,[0;1]); (n_r2'bbb,[2;0;3])] [2;1;3]) (-2) 1);
  (*2029*) Del (T 52);
  (*2030*) Assign (T 46) (Plain (Einsum [(n_r2'aba,[0;1;2]); (IT 139,[0;3;2;4])] [3;1;4]));
  (*2031*) Assign (T 50) (Times (Einsum [(n_r2'bbb,[0;1;2]); (T 49,[1;3;2;4])] [0;3;4]) (-4) 1);
  (*2032*) Del (T 49);
  (*2033*) Assign (T 47) (Plain (Einsum [(n_r2'aba,[0;1;2]); (n_v'aabb'ovov,[0;2;3;4])] [1;3;4]));
  (*2034*) Assign (T 48) (Plain (Einsum [(n_r2'bbb,[0;1;2]); (n_v'bbbb'oovv,[3;1;4;2])] [0;3;4]));
  (*2035*) Assign (T 51) (Times (Einsum [(T 38,[0]); (n_v'bbbb'ovov,[1;0;2;3])] [1;2;3]) (2) 1);
  (*2036*) Assign (T 22) (Plain (Einsum [(n_f'aa'oo,[0;1]); (n_r2'aaa,[2;1;3])] [0;2;3]));
  (*2037*) Assign (T 23) (Plain (Einsum [(n_r2'aaa,[0;1;2]); (IT 90,[1;3;2;4])] [3;0;4]));
  (*2038*) Assign (T 28) (Plain (Einsum [(T 27,[0]); (n_v'aaaa'ovov,[1;2;3;0])] [1;3;2]));
  (*2039*) Assign (T 26) (Times (Einsum [(n_v'aabb'ovov,[0;1;2;3]); (n_r2'bab,[2;4;3])] [4;0;1]) (-1) 1);
  (*2040*) Assign (T 25) (Times (Einsum [(IT 92,[0;1;2;3]); (n_r2'bab,[1;4;3])] [0;4;2]) (-1) 1);
  (*2041*) Assign (T 24) (Plain (Einsum [(n_v'aaaa'ovov,[0;1;2;3]); (n_r2'aaa,[4;2;3])] [4;0;1]));
  (*2042*) Assign (T 14) (Times (Einsum [(n_v'aaaa'ovov,[0;1;2;3]); (T 13,[3])] [0;2;1]) (-1) 1);
  (*2043*) Assign (T 11) (Plain (Einsum [(n_v'aaaa'ooov,[0;1;2;3]); (n_r1'a,[1])] [0;2;3]));
  (*2044*) Assign (T 16) (Times (Einsum [(n_r2'aaa,[0;1;2]); (T 15,[1;3;2;4])] [0;3;4]) (-4) 1);
  (*2045*) Del (T 15);
  (*2046*) Assign (T 18) (Times (Einsum [(T 17,[0;1;2;3]); (n_r2'bab,[1;4;3])] [4;0;2]) (-1) 1);
  (*2047*) Del (T 17);
  (*2048*) Assign (T 12) (Plain (Einsum [(n_v'aaaa'oovv,[0;1;2;3]); (n_r2'aaa,[4;1;3])] [4;0;2]));
  (*2049*) Assign (T 20) (Times (Einsum [(T 19,[0;1]); (n_r2'aaa,[2;0;3])] [2;1;3]) (-2) 1);
  (*2050*) Del (T 19);
  (*2051*) Assign (T 60) (Times (Copy (T 55)) (2) 1);
  (*2052*) Del (T 55);
  (*2053*) AddTo (T 60) (Times (Copy (T 56)) (4) 1);
  (*2054*) Del (T 56);
  (*2055*) AddTo (T 60) (Times (Copy (T 57)) (2) 1);
  (*2056*) Del (T 57);
  (*2057*) AddTo (T 60) (Plain (Transpose (T 59) [1;0;2]));
  (*2058*) Del (T 59);
  (*2059*) Assign (T 54) (Plain (Einsum [(n_r1'b,[0]); (n_f'bb'ov,[1;2])] [1;0;2]));
  (*2060*) AddTo (T 54) (Plain (Copy (T 45)));
  (*2061*) Del (T 45);
  (*2062*) AddTo (T 54) (Plain (Copy (T 46)));
  (*2063*) Del (T 46);
  (*2064*) AddTo (T 54) (Plain (Copy (T 47)));
  (*2065*) Del (T 47);
  (*2066*) AddTo (T 54) (Times (Copy (T 48)) (2) 1);
  (*2067*) Del (T 48);
  (*2068*) AddTo (T 54) (Times (Transpose (T 50) [1;0;2]) (-1) 1);
  (*2069*) Del (T 50);
  (*2070*) AddTo (T 54) (Times (Transpose (T 51) [1;0;2]) (-1) 1);
  (*2071*) Del (T 51);
  (*2072*) AddTo (T 54) (Plain (Transpose (T 53) [1;0;2]));
  (*2073*) Del (T 53);
  (*2074*) Assign (T 43) (Times (Copy (IT 158)) (2) 1);
  (*2075*) Del (IT 158);
  (*2076*) AddTo (T 43) (Plain (Copy (IT 160)));
  (*2077*) Del (IT 160);
  (*2078*) AddTo (T 43) (Times (Copy n_f'bb'vv) (-1) 1);
  (*2079*) Assign (T 61) (Plain (Copy (IT 179)));
  (*2080*) Del (IT 179);
  (*2081*) AddTo (T 61) (Plain (Transpose n_v'bbbb'oooo [0;2;1;3]));
  (*2082*) Assign (T 41) (Plain (Copy (IT 162)));
  (*2083*) Del (IT 162);
  (*2084*) AddTo (T 41) (Times (Copy n_v'aabb'oovv) (-1) 1);
  (*2085*) Assign (T 42) (Plain (Copy (IT 133)));
  (*2086*) AddTo (T 42) (Plain (Copy n_v'aabb'oooo));
  (*2087*) Assign (T 5) (Plain (Copy n_f'aa'oo));
  (*2088*) AddTo (T 5) (Times (Copy (IT 15)) (2) 1);
  (*2089*) Del (IT 15);
  (*2090*) AddTo (T 5) (Plain (Copy (IT 17)));
  (*2091*) Del (IT 17);
  (*2092*) Assign (T 39) (Times (Copy (IT 145)) (2) 1);
  (*2093*) Del (IT 145);
  (*2094*) AddTo (T 39) (Plain (Copy (IT 149)));
  (*2095*) Del (IT 149);
  (*2096*) AddTo (T 39) (Plain (Transpose n_v'bbbb'ovov [0;2;1;3]));
  (*2097*) AddTo (T 39) (Times (Copy (IT 141)) (-2) 1);
  (*2098*) Del (IT 141);
  (*2099*) AddTo (T 39) (Times (Copy n_v'bbbb'oovv) (-1) 1);
  (*2100*) Assign (T 44) (Times (Copy (T 13)) (2) 1);
  (*2101*) Del (T 13);
  (*2102*) AddTo (T 44) (Plain (Copy (T 27)));
  (*2103*) Del (T 27);
  (*2104*) Assign (T 10) (Plain (Copy n_f'bb'oo));
  (*2105*) AddTo (T 10) (Times (Copy (IT 60)) (2) 1);
  (*2106*) Del (IT 60);
  (*2107*) AddTo (T 10) (Plain (Copy (IT 62)));
  (*2108*) Del (IT 62);
  (*2109*) Assign (T 40) (Plain (Copy (IT 143)));
  (*2110*) Del (IT 143);
  (*2111*) AddTo (T 40) (Times (Copy (IT 147)) (2) 1);
  (*2112*) Del (IT 147);
  (*2113*) AddTo (T 40) (Plain (Transpose n_v'aabb'ovov [0;2;1;3]));
  (*2114*) AddTo (T 40) (Times (Copy (IT 139)) (-1) 1);
  (*2115*) Del (IT 139);
  (*2116*) Assign (T 33) (Plain (Copy (IT 96)));
  (*2117*) Del (IT 96);
  (*2118*) AddTo (T 33) (Times (Copy (IT 100)) (2) 1);
  (*2119*) Del (IT 100);
  (*2120*) AddTo (T 33) (Plain (Transpose n_v'aabb'ovov [0;2;1;3]));
  (*2121*) AddTo (T 33) (Times (Copy (IT 92)) (-1) 1);
  (*2122*) Del (IT 92);
  (*2123*) Assign (T 35) (Plain (Copy (IT 133)));
  (*2124*) Del (IT 133);
  (*2125*) AddTo (T 35) (Plain (Copy n_v'aabb'oooo));
  (*2126*) Assign (T 32) (Times (Copy (IT 94)) (2) 1);
  (*2127*) Del (IT 94);
  (*2128*) AddTo (T 32) (Plain (Copy (IT 98)));
  (*2129*) Del (IT 98);
  (*2130*) AddTo (T 32) (Plain (Transpose n_v'aaaa'ovov [0;2;1;3]));
  (*2131*) AddTo (T 32) (Times (Copy (IT 90)) (-2) 1);
  (*2132*) Del (IT 90);
  (*2133*) AddTo (T 32) (Times (Copy n_v'aaaa'oovv) (-1) 1);
  (*2134*) Assign (T 34) (Plain (Copy (IT 137)));
  (*2135*) Del (IT 137);
  (*2136*) AddTo (T 34) (Times (Transpose n_v'aabb'vvoo [2;3;0;1]) (-1) 1);
  (*2137*) Assign (T 31) (Times (Copy (IT 114)) (2) 1);
  (*2138*) Del (IT 114);
  (*2139*) AddTo (T 31) (Plain (Copy (IT 116)));
  (*2140*) Del (IT 116);
  (*2141*) AddTo (T 31) (Times (Copy n_f'aa'vv) (-1) 1);
  (*2142*) Assign (T 29) (Times (Copy (T 22)) (2) 1);
  (*2143*) Del (T 22);
  (*2144*) AddTo (T 29) (Times (Copy (T 23)) (4) 1);
  (*2145*) Del (T 23);
  (*2146*) AddTo (T 29) (Times (Copy (T 24)) (2) 1);
  (*2147*) Del (T 24);
  (*2148*) AddTo (T 29) (Plain (Copy (T 25)));
  (*2149*) Del (T 25);
  (*2150*) AddTo (T 29) (Plain (Copy (T 26)));
  (*2151*) Del (T 26);
  (*2152*) AddTo (T 29) (Plain (Copy (T 28)));
  (*2153*) Del (T 28);
  (*2154*) Assign (T 21) (Plain (Einsum [(n_f'aa'ov,[0;1]); (n_r1'a,[2])] [0;2;1]));
  (*2155*) AddTo (T 21) (Plain (Copy (T 11)));
  (*2156*) Del (T 11);
  (*2157*) AddTo (T 21) (Times (Copy (T 12)) (2) 1);
  (*2158*) Del (T 12);
  (*2159*) AddTo (T 21) (Times (Copy (T 14)) (2) 1);
  (*2160*) Del (T 14);
  (*2161*) AddTo (T 21) (Times (Transpose (T 16) [1;0;2]) (-1) 1);
  (*2162*) Del (T 16);
  (*2163*) AddTo (T 21) (Plain (Transpose (T 18) [1;0;2]));
  (*2164*) Del (T 18);
  (*2165*) AddTo (T 21) (Plain (Transpose (T 20) [1;0;2]));
  (*2166*) Del (T 20);
  (*2167*) Assign (T 30) (Plain (Copy (IT 111)));
  (*2168*) Del (IT 111);
  (*2169*) AddTo (T 30) (Times (Transpose n_v'aaaa'oooo [0;2;3;1]) (-1) 1);
  (*2170*) Assign (T 6) (Plain (Copy (IT 54)));
  (*2171*) Del (IT 54);
  (*2172*) AddTo (T 6) (Plain (Copy (IT 71)));
  (*2173*) Del (IT 71);
  (*2174*) AddTo (T 6) (Times (Copy (IT 75)) (2) 1);
  (*2175*) Del (IT 75);
  (*2176*) AddTo (T 6) (Plain (Transpose (IT 85) [0;2;1;3]));
  (*2177*) Del (IT 85);
  (*2178*) AddTo (T 6) (Plain (Transpose n_v'aabb'ovoo [0;2;3;1]));
  (*2179*) AddTo (T 6) (Times (Transpose (IT 68) [0;2;1;3]) (-1) 1);
  (*2180*) Del (IT 68);
  (*2181*) AddTo (T 6) (Times (Transpose (IT 74) [0;2;1;3]) (-1) 1);
  (*2182*) Del (IT 74);
  (*2183*) Assign (T 7) (Plain (Copy (IT 56)));
  (*2184*) Del (IT 56);
  (*2185*) AddTo (T 7) (Times (Transpose (IT 72) [1;0;2;3]) (2) 1);
  (*2186*) Del (IT 72);
  (*2187*) AddTo (T 7) (Plain (Transpose (IT 77) [1;0;2;3]));
  (*2188*) Del (IT 77);
  (*2189*) AddTo (T 7) (Times (Transpose (IT 69) [2;0;1;3]) (-2) 1);
  (*2190*) Del (IT 69);
  (*2191*) AddTo (T 7) (Times (Transpose (IT 83) [2;0;1;3]) (-1) 1);
  (*2192*) Del (IT 83);
  (*2193*) AddTo (T 7) (Times (Copy n_v'bbbb'ooov) (-1) 1);
  (*2194*) Assign (T 8) (Times (Copy n_f'aa'ov) (1) 2);
  (*2195*) AddTo (T 8) (Plain (Copy (IT 2)));
  (*2196*) AddTo (T 8) (Times (Copy (IT 44)) (1) 2);
  (*2197*) AddTo (T 8) (Times (Copy (IT 5)) (1) 2);
  (*2198*) AddTo (T 8) (Times (Copy (IT 19)) (-1) 1);
  (*2199*) AddTo (T 8) (Times (Copy (IT 25)) (-1) 2);
  (*2200*) AddTo (T 8) (Times (Copy (IT 38)) (-1) 1);
  (*2201*) Assign (T 9) (Plain (Copy n_f'bb'ov));
  (*2202*) AddTo (T 9) (Plain (Copy (IT 4)));
  (*2203*) AddTo (T 9) (Plain (Copy (IT 42)));
  (*2204*) AddTo (T 9) (Times (Copy (IT 7)) (2) 1);
  (*2205*) AddTo (T 9) (Times (Copy (IT 21)) (-2) 1);
  (*2206*) AddTo (T 9) (Times (Copy (IT 23)) (-1) 1);
  (*2207*) AddTo (T 9) (Times (Copy (IT 40)) (-2) 1);
  (*2208*) Assign (T 4) (Plain (Copy n_f'aa'ov));
  (*2209*) AddTo (T 4) (Times (Copy (IT 2)) (2) 1);
  (*2210*) Del (IT 2);
  (*2211*) AddTo (T 4) (Plain (Copy (IT 44)));
  (*2212*) Del (IT 44);
  (*2213*) AddTo (T 4) (Plain (Copy (IT 5)));
  (*2214*) Del (IT 5);
  (*2215*) AddTo (T 4) (Times (Copy (IT 19)) (-2) 1);
  (*2216*) Del (IT 19);
  (*2217*) AddTo (T 4) (Times (Copy (IT 25)) (-1) 1);
  (*2218*) Del (IT 25);
  (*2219*) AddTo (T 4) (Times (Copy (IT 38)) (-2) 1);
  (*2220*) Del (IT 38);
  (*2221*) Assign (T 3) (Times (Copy n_f'bb'ov) (1) 2);
  (*2222*) AddTo (T 3) (Times (Copy (IT 4)) (1) 2);
  (*2223*) Del (IT 4);
  (*2224*) AddTo (T 3) (Times (Copy (IT 42)) (1) 2);
  (*2225*) Del (IT 42);
  (*2226*) AddTo (T 3) (Plain (Copy (IT 7)));
  (*2227*) Del (IT 7);
  (*2228*) AddTo (T 3) (Times (Copy (IT 21)) (-1) 1);
  (*2229*) Del (IT 21);
  (*2230*) AddTo (T 3) (Times (Copy (IT 23)) (-1) 2);
  (*2231*) Del (IT 23);
  (*2232*) AddTo (T 3) (Times (Copy (IT 40)) (-1) 1);
  (*2233*) Del (IT 40);
  (*2234*) Assign (T 2) (Times (Copy (IT 27)) (2) 1);
  (*2235*) Del (IT 27);
  (*2236*) AddTo (T 2) (Plain (Copy (IT 46)));
  (*2237*) Del (IT 46);
  (*2238*) AddTo (T 2) (Plain (Transpose n_v'aaaa'ooov [0;2;1;3]));
  (*2239*) AddTo (T 2) (Times (Transpose (IT 30) [0;2;1;3]) (-2) 1);
  (*2240*) Del (IT 30);
  (*2241*) AddTo (T 2) (Times (Transpose (IT 34) [0;2;1;3]) (-1) 1);
  (*2242*) Del (IT 34);
  (*2243*) AddTo (T 2) (Times (Transpose (IT 9) [1;2;0;3]) (-1) 1);
  (*2244*) Del (IT 9);
  (*2245*) Assign (T 1) (Plain (Copy (IT 11)));
  (*2246*) Del (IT 11);
  (*2247*) AddTo (T 1) (Plain (Copy (IT 32)));
  (*2248*) Del (IT 32);
  (*2249*) AddTo (T 1) (Times (Copy (IT 36)) (2) 1);
  (*2250*) Del (IT 36);
  (*2251*) AddTo (T 1) (Plain (Transpose (IT 48) [1;0;2;3]));
  (*2252*) Del (IT 48);
  (*2253*) AddTo (T 1) (Plain (Copy n_v'aabb'ooov));
  (*2254*) AddTo (T 1) (Times (Transpose (IT 29) [1;0;2;3]) (-1) 1);
  (*2255*) Del (IT 29);
  (*2256*) AddTo (T 1) (Times (Transpose (IT 33) [1;0;2;3]) (-1) 1);
  (*2257*) Del (IT 33);
  (*2258*) Assign n_r2new'bbb (Times (Copy (T 54)) (-1) 1);
  (*2259*) AddTo n_r2new'bbb (Plain (Transpose (T 54) [1;0;2]));
  (*2260*) Del (T 54);
  (*2261*) AddTo n_r2new'bbb (Plain (Copy (T 60)));
  (*2262*) AddTo n_r2new'bbb (Times (Transpose (T 60) [1;0;2]) (-1) 1);
  (*2263*) Del (T 60);
  (*2264*) AddTo n_r2new'bbb (Times (Einsum [(T 61,[0;1;2;3]); (n_r2'bbb,[1;0;4])] [2;3;4]) (-2) 1);
  (*2265*) Del (T 61);
  (*2266*) AddTo n_r2new'bbb (Times (Einsum [(n_r2'bbb,[0;1;2]); (T 43,[2;3])] [0;1;3]) (-2) 1);
  (*2267*) Assign n_r2new'bab (Times (Einsum [(n_r1'a,[0]); (n_f'bb'ov,[1;2])] [1;0;2]) (-1) 1);
  (*2268*) AddTo n_r2new'bab (Plain (Einsum [(n_v'aabb'ooov,[0;1;2;3]); (n_r1'a,[1])] [2;0;3]));
  (*2269*) AddTo n_r2new'bab (Plain (Einsum [(T 39,[0;1;2;3]); (n_r2'bab,[0;4;2])] [1;4;3]));
  (*2270*) Del (T 39);
  (*2271*) AddTo n_r2new'bab (Times (Einsum [(n_r2'aaa,[0;1;2]); (T 40,[1;3;2;4])] [3;0;4]) (-2) 1);
  (*2272*) Del (T 40);
  (*2273*) AddTo n_r2new'bab (Plain (Einsum [(T 41,[0;1;2;3]); (n_r2'bab,[4;0;2])] [4;1;3]));
  (*2274*) Del (T 41);
  (*2275*) AddTo n_r2new'bab (Plain (Einsum [(n_r2'bab,[0;1;2]); (T 42,[1;3;0;4])] [4;3;2]));
  (*2276*) Del (T 42);
  (*2277*) AddTo n_r2new'bab (Times (Einsum [(T 43,[0;1]); (n_r2'bab,[2;3;0])] [2;3;1]) (-1) 1);
  (*2278*) Del (T 43);
  (*2279*) AddTo n_r2new'bab (Plain (Einsum [(T 44,[0]); (n_v'aabb'ovov,[1;0;2;3])] [2;1;3]));
  (*2280*) Del (T 44);
  (*2281*) AddTo n_r2new'bab (Times (Einsum [(T 10,[0;1]); (n_r2'bab,[0;2;3])] [1;2;3]) (-1) 1);
  (*2282*) AddTo n_r2new'bab (Times (Einsum [(n_r2'bab,[0;1;2]); (T 5,[1;3])] [0;3;2]) (-1) 1);
  (*2283*) Assign n_r2new'aba (Plain (Einsum [(n_r1'b,[0]); (n_v'aabb'ovoo,[1;2;3;0])] [1;3;2]));
  (*2284*) AddTo n_r2new'aba (Times (Einsum [(n_f'aa'ov,[0;1]); (n_r1'b,[2])] [0;2;1]) (-1) 1);
  (*2285*) AddTo n_r2new'aba (Plain (Einsum [(T 32,[0;1;2;3]); (n_r2'aba,[0;4;2])] [1;4;3]));
  (*2286*) Del (T 32);
  (*2287*) AddTo n_r2new'aba (Times (Einsum [(T 33,[0;1;2;3]); (n_r2'bbb,[4;1;3])] [0;4;2]) (-2) 1);
  (*2288*) Del (T 33);
  (*2289*) AddTo n_r2new'aba (Plain (Einsum [(T 34,[0;1;2;3]); (n_r2'aba,[4;0;2])] [4;1;3]));
  (*2290*) Del (T 34);
  (*2291*) AddTo n_r2new'aba (Plain (Einsum [(n_r2'aba,[0;1;2]); (T 35,[0;3;1;4])] [3;4;2]));
  (*2292*) Del (T 35);
  (*2293*) AddTo n_r2new'aba (Times (Einsum [(n_r2'aba,[0;1;2]); (T 31,[2;3])] [0;1;3]) (-1) 1);
  (*2294*) AddTo n_r2new'aba (Times (Einsum [(T 38,[0]); (n_v'aabb'ovov,[1;2;3;0])] [1;3;2]) (2) 1);
  (*2295*) Del (T 38);
  (*2296*) AddTo n_r2new'aba (Times (Einsum [(n_r2'aba,[0;1;2]); (T 10,[1;3])] [0;3;2]) (-1) 1);
  (*2297*) AddTo n_r2new'aba (Times (Einsum [(n_r2'aba,[0;1;2]); (T 5,[0;3])] [3;1;2]) (-1) 1);
  (*2298*) Assign n_r2new'aaa (Times (Copy (T 21)) (-1) 1);
  (*2299*) AddTo n_r2new'aaa (Plain (Transpose (T 21) [1;0;2]));
  (*2300*) Del (T 21);
  (*2301*) AddTo n_r2new'aaa (Plain (Copy (T 29)));
  (*2302*) AddTo n_r2new'aaa (Times (Transpose (T 29) [1;0;2]) (-1) 1);
  (*2303*) Del (T 29);
  (*2304*) AddTo n_r2new'aaa (Times (Einsum [(n_r2'aaa,[0;1;2]); (T 30,[1;0;3;4])] [3;4;2]) (-2) 1);
  (*2305*) Del (T 30);
  (*2306*) AddTo n_r2new'aaa (Times (Einsum [(n_r2'aaa,[0;1;2]); (T 31,[2;3])] [0;1;3]) (-2) 1);
  (*2307*) Del (T 31);
  (*2308*) Assign n_r1new'b (Plain (Einsum [(n_r2'aba,[0;1;2]); (T 6,[0;3;1;2])] [3]));
  (*2309*) Del (T 6);
  (*2310*) AddTo n_r1new'b (Times (Einsum [(n_r2'bbb,[0;1;2]); (T 7,[3;0;1;2])] [3]) (2) 1);
  (*2311*) Del (T 7);
  (*2312*) AddTo n_r1new'b (Times (Einsum [(T 8,[0;1]); (n_r2'aba,[0;2;1])] [2]) (-2) 1);
  (*2313*) Del (T 8);
  (*2314*) AddTo n_r1new'b (Times (Einsum [(T 9,[0;1]); (n_r2'bbb,[2;0;1])] [2]) (2) 1);
  (*2315*) Del (T 9);
  (*2316*) AddTo n_r1new'b (Times (Einsum [(n_r1'b,[0]); (T 10,[0;1])] [1]) (-1) 1);
  (*2317*) Del (T 10);
  (*2318*) Assign n_r1new'a (Plain (Einsum [(T 1,[0;1;2;3]); (n_r2'bab,[2;1;3])] [0]));
  (*2319*) Del (T 1);
  (*2320*) AddTo n_r1new'a (Times (Einsum [(T 2,[0;1;2;3]); (n_r2'aaa,[0;1;3])] [2]) (-2) 1);
  (*2321*) Del (T 2);
  (*2322*) AddTo n_r1new'a (Times (Einsum [(T 3,[0;1]); (n_r2'bab,[0;2;1])] [2]) (-2) 1);
  (*2323*) Del (T 3);
  (*2324*) AddTo n_r1new'a (Times (Einsum [(T 4,[0;1]); (n_r2'aaa,[2;0;1])] [2]) (2) 1);
  (*2325*) Del (T 4);
  (*2326*) AddTo n_r1new'a (Times (Einsum [(n_r1'a,[0]); (T 5,[0;1])] [1]) (-1) 1);
  (*2327*) Del (T 5)]
 [(n_r1new'b,[6]); (n_r1new'a,[4]); (n_r2new'bbb,[6;6;7]); (n_r2new'bab,[6;4;7]); (n_r2new'aba,[4;6;5]); (n_r2new'aaa,[4;4;5])].

(** ebcc/codegen/UCCD.py:2331-2453 [hbar_lmatvec_ea_intermediates] *)
Definition UCCD_hbar_lmatvec_ea_intermediates : prog := mkprog
 [(n_t2'abab,[4;6;5;7]); (n_v'aabb'ovov,[4;5;6;7]); (n_t2'aaaa,[4;4;5;5]); (n_t2'bbbb,[6;6;7;7]); (n_v'bbbb'ovov,[6;7;6;7]); (n_v'aaaa'ovov,[4;5;4;5]); (n_v'aabb'vvov,[5;5;6;7]); (n_v'aabb'ovvv,[4;5;7;7]); (n_v'bbbb'ovvv,[6;7;7;7]); (n_v'aabb'ooov,[4;4;6;7]); (n_v'bbbb'ooov,[6;6;6;7]); (n_v'aaaa'ovvv,[4;5;5;5]); (n_v'aabb'ovoo,[4;5;6;6]); (n_v'aaaa'ooov,[4;4;4;5]); (n_f'bb'ov,[6;7]); (n_f'aa'ov,[4;5])]
 [(*2400*) Assign (T 159) (Plain (Einsum [(n_t2'abab,[0;1;2;3]); (n_v'aabb'ovov,[0;4;5;3])] [1;5;2;4]));
  (*2401*) Assign (T 149) (Plain (Einsum [(n_t2'abab,[0;1;2;3]); (n_v'aabb'ovov,[0;2;4;5])] [1;4;3;5]));
  (*2402*) Assign (T 147) (Plain (Einsum [(n_t2'aaaa,[0;1;2;3]); (n_v'aabb'ovov,[1;3;4;5])] [0;4;2;5]));
  (*2403*) Assign (T 145) (Plain (Einsum [(n_t2'bbbb,[0;1;2;3]); (n_v'bbbb'ovov,[4;5;1;3])] [0;4;2;5]));
  (*2404*) Assign (T 143) (Plain (Einsum [(n_v'bbbb'ovov,[0;1;2;3]); (n_t2'abab,[4;2;5;3])] [4;0;5;1]));
  (*2405*) Assign (T 141) (Plain (Einsum [(n_t2'bbbb,[0;1;2;3]); (n_v'bbbb'ovov,[4;3;1;5])] [0;4;2;5]));
  (*2406*) Assign (T 139) (Plain (Einsum [(n_v'bbbb'ovov,[0;1;2;3]); (n_t2'abab,[4;2;5;1])] [4;0;5;3]));
  (*2407*) Assign (T 137) (Plain (Einsum [(n_t2'abab,[0;1;2;3]); (n_v'aabb'ovov,[0;2;4;3])] [1;4]));
  (*2408*) Assign (T 135) (Times (Einsum [(n_t2'bbbb,[0;1;2;3]); (n_v'bbbb'ovov,[4;3;1;2])] [0;4]) (-1) 1);
  (*2409*) Assign (T 133) (Plain (Einsum [(n_t2'abab,[0;1;2;3]); (n_v'aabb'ovov,[4;2;1;5])] [0;4;3;5]));
  (*2410*) Assign (T 106) (Plain (Einsum [(n_v'aabb'ovov,[0;1;2;3]); (n_t2'bbbb,[4;2;5;3])] [0;4;1;5]));
  (*2411*) Assign (T 104) (Plain (Einsum [(n_t2'abab,[0;1;2;3]); (n_v'aabb'ovov,[4;5;1;3])] [0;4;2;5]));
  (*2412*) Assign (T 102) (Plain (Einsum [(n_t2'abab,[0;1;2;3]); (n_v'aaaa'ovov,[4;5;0;2])] [4;1;5;3]));
  (*2413*) Assign (T 100) (Plain (Einsum [(n_v'aaaa'ovov,[0;1;2;3]); (n_t2'aaaa,[4;2;5;3])] [4;0;5;1]));
  (*2414*) Assign (T 98) (Plain (Einsum [(n_t2'abab,[0;1;2;3]); (n_v'aaaa'ovov,[4;2;0;5])] [4;1;5;3]));
  (*2415*) Assign (T 96) (Plain (Einsum [(n_v'aaaa'ovov,[0;1;2;3]); (n_t2'aaaa,[4;2;5;1])] [4;0;5;3]));
  (*2416*) Assign (T 94) (Plain (Einsum [(n_t2'abab,[0;1;2;3]); (n_v'aabb'ovov,[4;2;1;3])] [0;4]));
  (*2417*) Assign (T 92) (Plain (Einsum [(n_t2'aaaa,[0;1;2;3]); (n_v'aaaa'ovov,[4;2;1;3])] [0;4]));
  (*2418*) Assign (T 86) (Plain (Einsum [(n_v'aabb'vvov,[0;1;2;3]); (n_t2'abab,[4;2;1;5])] [4;0;5;3]));
  (*2419*) Assign (T 84) (Plain (Einsum [(n_v'aabb'ovvv,[0;1;2;3]); (n_t2'abab,[0;4;1;5])] [4;5;2;3]));
  (*2420*) Assign (T 82) (Plain (Einsum [(n_v'aabb'ovvv,[0;1;2;3]); (n_t2'aaaa,[4;0;5;1])] [4;5;2;3]));
  (*2421*) Assign (T 80) (Plain (Einsum [(n_t2'bbbb,[0;1;2;3]); (n_v'bbbb'ovvv,[1;4;5;3])] [0;2;4;5]));
  (*2422*) Assign (T 79) (Plain (Einsum [(n_v'bbbb'ovvv,[0;1;2;3]); (n_t2'abab,[4;0;5;3])] [4;5;1;2]));
  (*2423*) Assign (T 77) (Plain (Einsum [(n_t2'bbbb,[0;1;2;3]); (n_v'bbbb'ovvv,[1;3;4;5])] [0;2;4;5]));
  (*2424*) Assign (T 76) (Plain (Einsum [(n_v'bbbb'ovvv,[0;1;2;3]); (n_t2'abab,[4;0;5;1])] [4;5;2;3]));
  (*2425*) Assign (T 70) (Plain (Einsum [(n_v'aabb'ooov,[0;1;2;3]); (n_t2'abab,[1;2;4;5])] [0;4;5;3]));
  (*2426*) Assign (T 68) (Times (Einsum [(n_t2'bbbb,[0;1;2;3]); (n_v'bbbb'ooov,[4;1;0;5])] [4;2;3;5]) (-1) 1);
  (*2427*) Assign (T 62) (Plain (Einsum [(n_v'aabb'ovov,[0;1;2;3]); (n_t2'abab,[0;2;1;4])] [4;3]));
  (*2428*) Assign (T 60) (Plain (Einsum [(n_t2'bbbb,[0;1;2;3]); (n_v'bbbb'ovov,[0;4;1;3])] [2;4]));
  (*2429*) Assign (T 49) (Plain (Einsum [(n_v'aabb'ovvv,[0;1;2;3]); (n_t2'abab,[0;4;5;3])] [4;5;1;2]));
  (*2430*) Assign (T 47) (Plain (Einsum [(n_v'aabb'vvov,[0;1;2;3]); (n_t2'bbbb,[4;2;5;3])] [4;0;1;5]));
  (*2431*) Assign (T 45) (Plain (Einsum [(n_v'aabb'vvov,[0;1;2;3]); (n_t2'abab,[4;2;5;3])] [4;5;0;1]));
  (*2432*) Assign (T 44) (Plain (Einsum [(n_v'aaaa'ovvv,[0;1;2;3]); (n_t2'abab,[0;4;3;5])] [4;1;2;5]));
  (*2433*) Assign (T 42) (Plain (Einsum [(n_v'aaaa'ovvv,[0;1;2;3]); (n_t2'aaaa,[4;0;5;3])] [4;5;1;2]));
  (*2434*) Assign (T 41) (Plain (Einsum [(n_v'aaaa'ovvv,[0;1;2;3]); (n_t2'abab,[0;4;1;5])] [4;2;3;5]));
  (*2435*) Assign (T 39) (Plain (Einsum [(n_v'aaaa'ovvv,[0;1;2;3]); (n_t2'aaaa,[4;0;5;1])] [4;5;2;3]));
  (*2436*) Assign (T 37) (Plain (Einsum [(n_v'aabb'vvov,[0;1;2;3]); (n_t2'abab,[4;2;1;3])] [4;0]));
  (*2437*) Assign (T 35) (Plain (Einsum [(n_v'aabb'ovvv,[0;1;2;3]); (n_t2'abab,[0;4;1;3])] [4;2]));
  (*2438*) Assign (T 33) (Times (Einsum [(n_t2'bbbb,[0;1;2;3]); (n_v'bbbb'ovvv,[1;3;4;2])] [0;4]) (-1) 1);
  (*2439*) Assign (T 31) (Plain (Einsum [(n_v'aaaa'ovvv,[0;1;2;3]); (n_t2'aaaa,[4;0;1;3])] [4;2]));
  (*2440*) Assign (T 29) (Plain (Einsum [(n_v'aabb'ovoo,[0;1;2;3]); (n_t2'abab,[0;3;4;5])] [2;4;1;5]));
  (*2441*) Assign (T 27) (Plain (Einsum [(n_v'aaaa'ooov,[0;1;2;3]); (n_t2'aaaa,[1;2;4;5])] [0;4;5;3]));
  (*2442*) Assign (T 25) (Plain (Einsum [(n_v'aabb'ooov,[0;1;2;3]); (n_t2'abab,[1;2;4;3])] [0;4]));
  (*2443*) Assign (T 23) (Plain (Einsum [(n_t2'abab,[0;1;2;3]); (n_v'aabb'ovoo,[0;2;4;1])] [4;3]));
  (*2444*) Assign (T 21) (Times (Einsum [(n_t2'bbbb,[0;1;2;3]); (n_v'bbbb'ooov,[4;1;0;3])] [4;2]) (-1) 1);
  (*2445*) Assign (T 19) (Plain (Einsum [(n_t2'aaaa,[0;1;2;3]); (n_v'aaaa'ooov,[4;0;1;3])] [4;2]));
  (*2446*) Assign (T 17) (Plain (Einsum [(n_t2'abab,[0;1;2;3]); (n_v'aabb'ovov,[0;4;1;3])] [2;4]));
  (*2447*) Assign (T 15) (Times (Einsum [(n_v'aaaa'ovov,[0;1;2;3]); (n_t2'aaaa,[0;2;4;1])] [4;3]) (-1) 1);
  (*2448*) Assign (T 7) (Plain (Einsum [(n_f'bb'ov,[0;1]); (n_t2'bbbb,[2;0;3;1])] [2;3]));
  (*2449*) Assign (T 5) (Plain (Einsum [(n_t2'abab,[0;1;2;3]); (n_f'bb'ov,[1;3])] [0;2]));
  (*2450*) Assign (T 4) (Plain (Einsum [(n_t2'abab,[0;1;2;3]); (n_f'aa'ov,[0;2])] [1;3]));
  (*2451*) Assign (T 2) (Plain (Einsum [(n_f'aa'ov,[0;1]); (n_t2'aaaa,[2;0;3;1])] [2;3]))]
 [(T 2,[4;5]); (T 102,[4;6;5;7]); (T 104,[4;4;5;5]); (T 106,[4;6;5;7]); (T 133,[4;4;7;7]); (T 135,[6;6]); (T 137,[6;6]); (T 139,[4;6;5;7]); (T 15,[5;5]); (T 141,[6;6;7;7]); (T 143,[4;6;5;7]); (T 145,[6;6;7;7]); (T 147,[4;6;5;7]); (T 149,[6;6;7;7]); (T 159,[6;6;5;5]); (T 17,[5;5]); (T 19,[4;5]); (T 21,[6;7]); (T 23,[6;7]); (T 25,[4;5]); (T 27,[4;5;5;5]); (T 29,[6;5;5;7]); (T 4,[6;7]); (T 31,[4;5]); (T 33,[6;7]); (T 35,[6;7]); (T 37,[4;5]); (T 39,[4;5;5;5]); (T 5,[4;5]); (T 41,[6;5;5;7]); (T 42,[4;5;5;5]); (T 44,[6;5;5;7]); (T 45,[4;5;5;5]); (T 47,[6;5;5;7]); (T 49,[6;5;5;7]); (T 60,[7;7]); (T 7,[6;7]); (T 62,[7;7]); (T 68,[6;7;7;7]); (T 70,[4;5;7;7]); (T 76,[4;5;7;7]); (T 77,[6;7;7;7]); (T 79,[4;5;7;7]); (T 80,[6;7;7;7]); (T 82,[4;5;7;7]); (T 84,[6;7;7;7]); (T 86,[4;5;7;7]); (T 92,[4;4]); (T 94,[4;4]); (T 96,[4;4;5;5]); (T 98,[4;6;5;7]); (T 100,[4;4;5;5])].

(** ebcc/codegen/UCCD.py:2455-2787 [hbar_lmatvec_ea] *)
Definition UCCD_hbar_lmatvec_ea : prog := mkprog
 [(n_t2'bbbb,[6;6;7;7]); (n_r2'bbb,[7;7;6]); (n_t2'abab,[4;6;5;7]); (n_r2'aba,[5;7;4]); (IT 145,[6;6;7;7]); (IT 149,[6;6;7;7]); (IT 60,[7;7]); (IT 62,[7;7]); (n_f'bb'vv,[7;7]); (IT 143,[4;6;5;7]); (IT 147,[4;6;5;7]); (IT 102,[4;6;5;7]); (IT 106,[4;6;5;7]); (n_t2'aaaa,[4;4;5;5]); (n_r2'aaa,[5;5;4]); (IT 104,[4;4;5;5]); (IT 100,[4;4;5;5]); (IT 15,[5;5]); (IT 17,[5;5]); (n_f'aa'vv,[5;5]); (n_r2'bab,[7;5;6]); (n_r1'b,[7]); (n_v'bbbb'ovvv,[6;7;7;7]); (n_v'bbbb'ovov,[6;7;6;7]); (IT 139,[4;6;5;7]); (n_v'aabb'ovov,[4;5;6;7]); (n_v'bbbb'oovv,[6;6;7;7]); (IT 141,[6;6;7;7]); (n_v'aaaa'ovvv,[4;5;5;5]); (n_r1'a,[5]); (n_v'aaaa'ovov,[4;5;4;5]); (n_v'aaaa'oovv,[4;4;5;5]); (IT 98,[4;6;5;7]); (IT 96,[4;4;5;5]); (n_f'bb'oo,[6;6]); (IT 135,[6;6]); (IT 137,[6;6]); (n_f'bb'ov,[6;7]); (IT 159,[6;6;5;5]); (n_v'aabb'vvoo,[5;5;6;6]); (n_f'aa'oo,[4;4]); (IT 92,[4;4]); (IT 94,[4;4]); (IT 133,[4;4;7;7]); (n_v'aabb'oovv,[4;4;7;7]); (n_f'aa'ov,[4;5]); (IT 2,[4;5]); (IT 37,[4;5]); (IT 5,[4;5]); (IT 19,[4;5]); (IT 25,[4;5]); (IT 31,[4;5]); (IT 35,[6;7]); (IT 4,[6;7]); (IT 7,[6;7]); (IT 21,[6;7]); (IT 23,[6;7]); (IT 33,[6;7]); (IT 68,[6;7;7;7]); (IT 77,[6;7;7;7]); (IT 84,[6;7;7;7]); (IT 80,[6;7;7;7]); (IT 70,[4;5;7;7]); (IT 76,[4;5;7;7]); (IT 82,[4;5;7;7]); (n_v'aabb'ovvv,[4;5;7;7]); (IT 79,[4;5;7;7]); (IT 86,[4;5;7;7]); (IT 27,[4;5;5;5]); (IT 39,[4;5;5;5]); (IT 45,[4;5;5;5]); (IT 42,[4;5;5;5]); (IT 29,[6;5;5;7]); (IT 41,[6;5;5;7]); (IT 47,[6;5;5;7]); (n_v'aabb'vvov,[5;5;6;7]); (IT 44,[6;5;5;7]); (IT 49,[6;5;5;7]); (n_v'bbbb'vvvv,[7;7;7;7]); (n_v'aabb'vvvv,[5;5;7;7]); (n_v'aaaa'vvvv,[5;5;5;5])]
 [(*2483*) Assign (T 13) (Plain (Einsum [(n_t2'bbbb,[0;1;2;3]); (n_r2'bbb,[2;3;1])] [0]));
  (*2484*) Assign (T 12) (Plain (Einsum [(n_t2'abab,[0;1;2;3]); (n_r2'aba,[2;3;0])] [1]));
  (*2485*) Assign (T 52) (Times (Copy (T 12)) (-1) 2);
  (*2486*) AddTo (T 52) (Plain (Copy (T 13)));
  (*2487*) Assign (T 49) (Times (Copy (IT 145)) (2) 1);
  (*2488*) AddTo (T 49) (Plain (Copy (IT 149)));
  (*2489*) Assign (T 41) (Plain (Copy (IT 60)));
  (*2490*) AddTo (T 41) (Times (Copy (IT 62)) (1) 2);
  (*2491*) AddTo (T 41) (Times (Copy n_f'bb'vv) (-1) 2);
  (*2492*) Assign (T 57) (Plain (Copy (IT 143)));
  (*2493*) AddTo (T 57) (Times (Copy (IT 147)) (2) 1);
  (*2494*) Assign (T 21) (Times (Copy (IT 102)) (1) 2);
  (*2495*) AddTo (T 21) (Plain (Copy (IT 106)));
  (*2496*) Assign (T 6) (Plain (Einsum [(n_t2'aaaa,[0;1;2;3]); (n_r2'aaa,[2;3;1])] [0]));
  (*2497*) Assign (T 19) (Times (Copy (IT 104)) (1) 2);
  (*2498*) AddTo (T 19) (Plain (Copy (IT 100)));
  (*2499*) Assign (T 23) (Plain (Copy (IT 15)));
  (*2500*) AddTo (T 23) (Times (Copy (IT 17)) (1) 2);
  (*2501*) AddTo (T 23) (Times (Copy n_f'aa'vv) (-1) 2);
  (*2502*) Assign (T 7) (Times (Einsum [(n_t2'abab,[0;1;2;3]); (n_r2'bab,[3;2;1])] [0]) (-1) 1);
  (*2503*) Assign (T 45) (Plain (Einsum [(n_r1'b,[0]); (n_v'bbbb'ovvv,[1;2;3;0])] [1;2;3]));
  (*2504*) Assign (T 53) (Times (Einsum [(n_v'bbbb'ovov,[0;1;2;3]); (T 52,[2])] [0;3;1]) (2) 1);
  (*2505*) Del (T 52);
  (*2506*) Assign (T 46) (Plain (Einsum [(n_r2'aba,[0;1;2]); (IT 139,[2;3;0;4])] [3;4;1]));
  (*2507*) Assign (T 50) (Times (Einsum [(n_r2'bbb,[0;1;2]); (T 49,[2;3;1;4])] [3;0;4]) (-2) 1);
  (*2508*) Del (T 49);
  (*2509*) Assign (T 47) (Plain (Einsum [(n_v'aabb'ovov,[0;1;2;3]); (n_r2'aba,[1;4;0])] [2;4;3]));
  (*2510*) Assign (T 48) (Plain (Einsum [(n_r2'bbb,[0;1;2]); (n_v'bbbb'oovv,[3;2;4;1])] [3;0;4]));
  (*2511*) Assign (T 51) (Times (Einsum [(T 41,[0;1]); (n_r2'bbb,[2;0;3])] [3;2;1]) (-4) 1);
  (*2512*) Assign (T 56) (Plain (Einsum [(n_r2'bbb,[0;1;2]); (n_v'bbbb'ovov,[3;4;2;1])] [3;0;4]));
  (*2513*) Assign (T 55) (Plain (Einsum [(IT 141,[0;1;2;3]); (n_r2'bbb,[4;2;0])] [1;3;4]));
  (*2514*) Assign (T 58) (Plain (Einsum [(T 57,[0;1;2;3]); (n_r2'aba,[2;4;0])] [1;4;3]));
  (*2515*) Del (T 57);
  (*2516*) Assign (T 22) (Times (Einsum [(n_r2'bab,[0;1;2]); (T 21,[3;2;4;0])] [3;1;4]) (-2) 1);
  (*2517*) Del (T 21);
  (*2518*) Assign (T 16) (Plain (Einsum [(n_v'aaaa'ovvv,[0;1;2;3]); (n_r1'a,[3])] [0;1;2]));
  (*2519*) Assign (T 18) (Times (Einsum [(n_v'aaaa'ovov,[0;1;2;3]); (T 6,[2])] [0;1;3]) (-1) 1);
  (*2520*) Assign (T 17) (Plain (Einsum [(n_r2'aaa,[0;1;2]); (n_v'aaaa'oovv,[3;2;4;1])] [3;0;4]));
  (*2521*) Assign (T 20) (Times (Einsum [(T 19,[0;1;2;3]); (n_r2'aaa,[4;2;0])] [1;4;3]) (-4) 1);
  (*2522*) Del (T 19);
  (*2523*) Assign (T 24) (Times (Einsum [(T 23,[0;1]); (n_r2'aaa,[2;0;3])] [3;2;1]) (-4) 1);
  (*2524*) Del (T 23);
  (*2525*) Assign (T 29) (Times (Einsum [(n_r2'bab,[0;1;2]); (n_v'aabb'ovov,[3;4;2;0])] [3;1;4]) (-1) 1);
  (*2526*) Assign (T 28) (Times (Einsum [(n_r2'bab,[0;1;2]); (IT 98,[3;2;4;0])] [3;4;1]) (-1) 1);
  (*2527*) Assign (T 27) (Plain (Einsum [(n_r2'aaa,[0;1;2]); (n_v'aaaa'ovov,[3;4;2;1])] [3;0;4]));
  (*2528*) Assign (T 26) (Plain (Einsum [(n_r2'aaa,[0;1;2]); (IT 96,[2;3;1;4])] [3;4;0]));
  (*2529*) Assign (T 30) (Plain (Einsum [(n_v'aaaa'ovov,[0;1;2;3]); (T 7,[2])] [0;1;3]));
  (*2530*) Assign (T 42) (Plain (Copy n_f'bb'oo));
  (*2531*) AddTo (T 42) (Times (Copy (IT 135)) (2) 1);
  (*2532*) Del (IT 135);
  (*2533*) AddTo (T 42) (Plain (Copy (IT 137)));
  (*2534*) Del (IT 137);
  (*2535*) Assign (T 54) (Plain (Einsum [(n_r1'b,[0]); (n_f'bb'ov,[1;2])] [1;2;0]));
  (*2536*) AddTo (T 54) (Plain (Copy (T 45)));
  (*2537*) Del (T 45);
  (*2538*) AddTo (T 54) (Plain (Copy (T 46)));
  (*2539*) Del (T 46);
  (*2540*) AddTo (T 54) (Plain (Copy (T 47)));
  (*2541*) Del (T 47);
  (*2542*) AddTo (T 54) (Times (Copy (T 48)) (2) 1);
  (*2543*) Del (T 48);
  (*2544*) AddTo (T 54) (Times (Transpose (T 50) [0;2;1]) (-1) 1);
  (*2545*) Del (T 50);
  (*2546*) AddTo (T 54) (Plain (Transpose (T 51) [0;2;1]));
  (*2547*) Del (T 51);
  (*2548*) AddTo (T 54) (Times (Transpose (T 53) [0;2;1]) (-1) 1);
  (*2549*) Del (T 53);
  (*2550*) Assign (T 59) (Times (Copy (T 55)) (4) 1);
  (*2551*) Del (T 55);
  (*2552*) AddTo (T 59) (Times (Copy (T 56)) (2) 1);
  (*2553*) Del (T 56);
  (*2554*) AddTo (T 59) (Plain (Transpose (T 58) [0;2;1]));
  (*2555*) Del (T 58);
  (*2556*) Assign (T 44) (Plain (Einsum [(n_r2'bbb,[0;1;2]); (n_t2'bbbb,[3;4;0;1])] [2;3;4]));
  (*2557*) Assign (T 37) (Times (Einsum [(n_r2'bab,[0;1;2]); (n_t2'abab,[3;4;1;0])] [3;2;4]) (-1) 1);
  (*2558*) Assign (T 5) (Times (Copy (IT 15)) (2) 1);
  (*2559*) Del (IT 15);
  (*2560*) AddTo (T 5) (Plain (Copy (IT 17)));
  (*2561*) Del (IT 17);
  (*2562*) AddTo (T 5) (Times (Copy n_f'aa'vv) (-1) 1);
  (*2563*) Assign (T 38) (Times (Copy (IT 145)) (2) 1);
  (*2564*) Del (IT 145);
  (*2565*) AddTo (T 38) (Plain (Copy (IT 149)));
  (*2566*) Del (IT 149);
  (*2567*) AddTo (T 38) (Plain (Transpose n_v'bbbb'ovov [0;2;1;3]));
  (*2568*) AddTo (T 38) (Times (Copy (IT 141)) (-2) 1);
  (*2569*) Del (IT 141);
  (*2570*) AddTo (T 38) (Times (Copy n_v'bbbb'oovv) (-1) 1);
  (*2571*) Assign (T 39) (Plain (Copy (IT 143)));
  (*2572*) Del (IT 143);
  (*2573*) AddTo (T 39) (Times (Copy (IT 147)) (2) 1);
  (*2574*) Del (IT 147);
  (*2575*) AddTo (T 39) (Plain (Transpose n_v'aabb'ovov [0;2;1;3]));
  (*2576*) AddTo (T 39) (Times (Copy (IT 139)) (-1) 1);
  (*2577*) Del (IT 139);
  (*2578*) Assign (T 43) (Times (Copy (T 6)) (2) 1);
  (*2579*) AddTo (T 43) (Plain (Copy (T 7)));
  (*2580*) Assign (T 40) (Plain (Copy (IT 159)));
  (*2581*) Del (IT 159);
  (*2582*) AddTo (T 40) (Times (Transpose n_v'aabb'vvoo [2;3;0;1]) (-1) 1);
  (*2583*) Assign (T 33) (Plain (Einsum [(n_r2'aba,[0;1;2]); (n_t2'abab,[3;4;0;1])] [2;3;4]));
  (*2584*) Assign (T 35) (Plain (Copy (IT 102)));
  (*2585*) Del (IT 102);
  (*2586*) AddTo (T 35) (Times (Copy (IT 106)) (2) 1);
  (*2587*) Del (IT 106);
  (*2588*) AddTo (T 35) (Plain (Transpose n_v'aabb'ovov [0;2;1;3]));
  (*2589*) AddTo (T 35) (Times (Copy (IT 98)) (-1) 1);
  (*2590*) Del (IT 98);
  (*2591*) Assign (T 32) (Plain (Copy n_f'aa'oo));
  (*2592*) AddTo (T 32) (Times (Copy (IT 92)) (2) 1);
  (*2593*) Del (IT 92);
  (*2594*) AddTo (T 32) (Plain (Copy (IT 94)));
  (*2595*) Del (IT 94);
  (*2596*) Assign (T 14) (Times (Copy (T 12)) (-1) 1);
  (*2597*) Del (T 12);
  (*2598*) AddTo (T 14) (Times (Copy (T 13)) (2) 1);
  (*2599*) Del (T 13);
  (*2600*) Assign (T 34) (Plain (Copy (IT 104)));
  (*2601*) Del (IT 104);
  (*2602*) AddTo (T 34) (Times (Copy (IT 100)) (2) 1);
  (*2603*) Del (IT 100);
  (*2604*) AddTo (T 34) (Plain (Transpose n_v'aaaa'ovov [0;2;1;3]));
  (*2605*) AddTo (T 34) (Times (Copy (IT 96)) (-2) 1);
  (*2606*) Del (IT 96);
  (*2607*) AddTo (T 34) (Times (Copy n_v'aaaa'oovv) (-1) 1);
  (*2608*) Assign (T 36) (Plain (Copy (IT 133)));
  (*2609*) Del (IT 133);
  (*2610*) AddTo (T 36) (Times (Copy n_v'aabb'oovv) (-1) 1);
  (*2611*) Assign (T 11) (Times (Copy (IT 60)) (2) 1);
  (*2612*) Del (IT 60);
  (*2613*) AddTo (T 11) (Plain (Copy (IT 62)));
  (*2614*) Del (IT 62);
  (*2615*) AddTo (T 11) (Times (Copy n_f'bb'vv) (-1) 1);
  (*2616*) Assign (T 25) (Plain (Einsum [(n_f'aa'ov,[0;1]); (n_r1'a,[2])] [0;1;2]));
  (*2617*) AddTo (T 25) (Plain (Copy (T 16)));
  (*2618*) Del (T 16);
  (*2619*) AddTo (T 25) (Times (Copy (T 17)) (2) 1);
  (*2620*) Del (T 17);
  (*2621*) AddTo (T 25) (Times (Copy (T 18)) (2) 1);
  (*2622*) Del (T 18);
  (*2623*) AddTo (T 25) (Times (Transpose (T 20) [0;2;1]) (-1) 1);
  (*2624*) Del (T 20);
  (*2625*) AddTo (T 25) (Plain (Transpose (T 22) [0;2;1]));
  (*2626*) Del (T 22);
  (*2627*) AddTo (T 25) (Plain (Transpose (T 24) [0;2;1]));
  (*2628*) Del (T 24);
  (*2629*) Assign (T 31) (Times (Copy (T 26)) (4) 1);
  (*2630*) Del (T 26);
  (*2631*) AddTo (T 31) (Times (Copy (T 27)) (2) 1);
  (*2632*) Del (T 27);
  (*2633*) AddTo (T 31) (Plain (Copy (T 28)));
  (*2634*) Del (T 28);
  (*2635*) AddTo (T 31) (Plain (Copy (T 29)));
  (*2636*) Del (T 29);
  (*2637*) AddTo (T 31) (Plain (Copy (T 30)));
  (*2638*) Del (T 30);
  (*2639*) Assign (T 15) (Plain (Einsum [(n_t2'aaaa,[0;1;2;3]); (n_r2'aaa,[2;3;4])] [4;0;1]));
  (*2640*) Assign (T 4) (Times (Copy n_f'aa'ov) (1) 2);
  (*2641*) AddTo (T 4) (Plain (Copy (IT 2)));
  (*2642*) Del (IT 2);
  (*2643*) AddTo (T 4) (Times (Copy (IT 37)) (1) 2);
  (*2644*) Del (IT 37);
  (*2645*) AddTo (T 4) (Times (Copy (IT 5)) (1) 2);
  (*2646*) Del (IT 5);
  (*2647*) AddTo (T 4) (Times (Copy (IT 19)) (-1) 1);
  (*2648*) Del (IT 19);
  (*2649*) AddTo (T 4) (Times (Copy (IT 25)) (-1) 2);
  (*2650*) Del (IT 25);
  (*2651*) AddTo (T 4) (Times (Copy (IT 31)) (-1) 1);
  (*2652*) Del (IT 31);
  (*2653*) Assign (T 3) (Times (Copy n_f'bb'ov) (1) 2);
  (*2654*) AddTo (T 3) (Times (Copy (IT 35)) (1) 2);
  (*2655*) Del (IT 35);
  (*2656*) AddTo (T 3) (Times (Copy (IT 4)) (1) 2);
  (*2657*) Del (IT 4);
  (*2658*) AddTo (T 3) (Plain (Copy (IT 7)));
  (*2659*) Del (IT 7);
  (*2660*) AddTo (T 3) (Times (Copy (IT 21)) (-1) 1);
  (*2661*) Del (IT 21);
  (*2662*) AddTo (T 3) (Times (Copy (IT 23)) (-1) 2);
  (*2663*) Del (IT 23);
  (*2664*) AddTo (T 3) (Times (Copy (IT 33)) (-1) 1);
  (*2665*) Del (IT 33);
  (*2666*) Assign (T 10) (Times (Copy (IT 68)) (1) 2);
  (*2667*) Del (IT 68);
  (*2668*) AddTo (T 10) (Plain (Transpose (IT 77) [0;1;3;2]));
  (*2669*) Del (IT 77);
  (*2670*) AddTo (T 10) (Times (Transpose (IT 84) [0;1;3;2]) (1) 2);
  (*2671*) Del (IT 84);
  (*2672*) AddTo (T 10) (Times (Copy n_v'bbbb'ovvv) (1) 2);
  (*2673*) AddTo (T 10) (Times (Transpose (IT 80) [0;1;3;2]) (-1) 1);
  (*2674*) Del (IT 80);
  (*2675*) Assign (T 9) (Plain (Copy (IT 70)));
  (*2676*) Del (IT 70);
  (*2677*) AddTo (T 9) (Plain (Transpose (IT 76) [0;1;3;2]));
  (*2678*) Del (IT 76);
  (*2679*) AddTo (T 9) (Times (Transpose (IT 82) [0;1;3;2]) (2) 1);
  (*2680*) Del (IT 82);
  (*2681*) AddTo (T 9) (Plain (Copy n_v'aabb'ovvv));
  (*2682*) AddTo (T 9) (Times (Transpose (IT 79) [0;1;3;2]) (-1) 1);
  (*2683*) Del (IT 79);
  (*2684*) AddTo (T 9) (Times (Copy (IT 86)) (-1) 1);
  (*2685*) Del (IT 86);
  (*2686*) Assign (T 2) (Times (Copy (IT 27)) (1) 2);
  (*2687*) Del (IT 27);
  (*2688*) AddTo (T 2) (Plain (Transpose (IT 39) [0;1;3;2]));
  (*2689*) Del (IT 39);
  (*2690*) AddTo (T 2) (Times (Transpose (IT 45) [0;1;3;2]) (1) 2);
  (*2691*) Del (IT 45);
  (*2692*) AddTo (T 2) (Times (Copy n_v'aaaa'ovvv) (1) 2);
  (*2693*) AddTo (T 2) (Times (Transpose (IT 42) [0;1;3;2]) (-1) 1);
  (*2694*) Del (IT 42);
  (*2695*) Assign (T 1) (Plain (Copy (IT 29)));
  (*2696*) Del (IT 29);
  (*2697*) AddTo (T 1) (Plain (Transpose (IT 41) [0;2;1;3]));
  (*2698*) Del (IT 41);
  (*2699*) AddTo (T 1) (Times (Transpose (IT 47) [0;2;1;3]) (2) 1);
  (*2700*) Del (IT 47);
  (*2701*) AddTo (T 1) (Plain (Transpose n_v'aabb'vvov [2;0;1;3]));
  (*2702*) AddTo (T 1) (Times (Transpose (IT 44) [0;2;1;3]) (-1) 1);
  (*2703*) Del (IT 44);
  (*2704*) AddTo (T 1) (Times (Copy (IT 49)) (-1) 1);
  (*2705*) Del (IT 49);
  (*2706*) Assign (T 8) (Plain (Copy (T 6)));
  (*2707*) Del (T 6);
  (*2708*) AddTo (T 8) (Times (Copy (T 7)) (1) 2);
  (*2709*) Del (T 7);
  (*2710*) Assign n_r2new'bbb (Times (Einsum [(n_r2'bbb,[0;1;2]); (n_v'bbbb'vvvv,[3;1;4;0])] [3;4;2]) (-2) 1);
  (*2711*) AddTo n_r2new'bbb (Times (Einsum [(T 44,[0;1;2]); (n_v'bbbb'ovov,[2;3;1;4])] [3;4;0]) (-2) 1);
  (*2712*) Del (T 44);
  (*2713*) AddTo n_r2new'bbb (Times (Transpose (T 54) [1;2;0]) (-1) 1);
  (*2714*) AddTo n_r2new'bbb (Plain (Transpose (T 54) [2;1;0]));
  (*2715*) Del (T 54);
  (*2716*) AddTo n_r2new'bbb (Plain (Transpose (T 59) [1;2;0]));
  (*2717*) AddTo n_r2new'bbb (Times (Transpose (T 59) [2;1;0]) (-1) 1);
  (*2718*) Del (T 59);
  (*2719*) AddTo n_r2new'bbb (Times (Einsum [(n_r2'bbb,[0;1;2]); (T 42,[2;3])] [0;1;3]) (-2) 1);
  (*2720*) Assign n_r2new'bab (Times (Einsum [(n_f'bb'ov,[0;1]); (n_r1'a,[2])] [1;2;0]) (-1) 1);
  (*2721*) AddTo n_r2new'bab (Times (Einsum [(n_r1'a,[0]); (n_v'aabb'vvov,[1;0;2;3])] [3;1;2]) (-1) 1);
  (*2722*) AddTo n_r2new'bab (Plain (Einsum [(n_r2'bab,[0;1;2]); (n_v'aabb'vvvv,[3;1;4;0])] [4;3;2]));
  (*2723*) AddTo n_r2new'bab (Times (Einsum [(n_v'aabb'ovov,[0;1;2;3]); (T 37,[0;4;2])] [3;1;4]) (-1) 1);
  (*2724*) Del (T 37);
  (*2725*) AddTo n_r2new'bab (Plain (Einsum [(T 38,[0;1;2;3]); (n_r2'bab,[2;4;0])] [3;4;1]));
  (*2726*) Del (T 38);
  (*2727*) AddTo n_r2new'bab (Times (Einsum [(T 39,[0;1;2;3]); (n_r2'aaa,[4;2;0])] [3;4;1]) (-2) 1);
  (*2728*) Del (T 39);
  (*2729*) AddTo n_r2new'bab (Plain (Einsum [(n_r2'bab,[0;1;2]); (T 40,[2;3;1;4])] [0;4;3]));
  (*2730*) Del (T 40);
  (*2731*) AddTo n_r2new'bab (Times (Einsum [(n_r2'bab,[0;1;2]); (T 5,[1;3])] [0;3;2]) (-1) 1);
  (*2732*) AddTo n_r2new'bab (Times (Einsum [(n_r2'bab,[0;1;2]); (T 41,[0;3])] [3;1;2]) (-2) 1);
  (*2733*) Del (T 41);
  (*2734*) AddTo n_r2new'bab (Times (Einsum [(n_r2'bab,[0;1;2]); (T 42,[2;3])] [0;1;3]) (-1) 1);
  (*2735*) Del (T 42);
  (*2736*) AddTo n_r2new'bab (Plain (Einsum [(T 43,[0]); (n_v'aabb'ovov,[0;1;2;3])] [3;1;2]));
  (*2737*) Del (T 43);
  (*2738*) Assign n_r2new'aba (Times (Einsum [(n_f'aa'ov,[0;1]); (n_r1'b,[2])] [1;2;0]) (-1) 1);
  (*2739*) AddTo n_r2new'aba (Times (Einsum [(n_r1'b,[0]); (n_v'aabb'ovvv,[1;2;3;0])] [2;3;1]) (-1) 1);
  (*2740*) AddTo n_r2new'aba (Plain (Einsum [(n_r2'aba,[0;1;2]); (n_v'aabb'vvvv,[3;0;4;1])] [3;4;2]));
  (*2741*) AddTo n_r2new'aba (Plain (Einsum [(T 33,[0;1;2]); (n_v'aabb'ovov,[1;3;2;4])] [3;4;0]));
  (*2742*) Del (T 33);
  (*2743*) AddTo n_r2new'aba (Plain (Einsum [(T 34,[0;1;2;3]); (n_r2'aba,[2;4;0])] [3;4;1]));
  (*2744*) Del (T 34);
  (*2745*) AddTo n_r2new'aba (Times (Einsum [(n_r2'bbb,[0;1;2]); (T 35,[3;2;4;1])] [4;0;3]) (-2) 1);
  (*2746*) Del (T 35);
  (*2747*) AddTo n_r2new'aba (Plain (Einsum [(n_r2'aba,[0;1;2]); (T 36,[2;3;1;4])] [0;4;3]));
  (*2748*) Del (T 36);
  (*2749*) AddTo n_r2new'aba (Times (Einsum [(n_r2'aba,[0;1;2]); (T 11,[1;3])] [0;3;2]) (-1) 1);
  (*2750*) AddTo n_r2new'aba (Times (Einsum [(n_r2'aba,[0;1;2]); (T 5,[0;3])] [3;1;2]) (-1) 1);
  (*2751*) AddTo n_r2new'aba (Times (Einsum [(n_r2'aba,[0;1;2]); (T 32,[2;3])] [0;1;3]) (-1) 1);
  (*2752*) AddTo n_r2new'aba (Plain (Einsum [(T 14,[0]); (n_v'aabb'ovov,[1;2;0;3])] [2;3;1]));
  (*2753*) Assign n_r2new'aaa (Times (Einsum [(n_r2'aaa,[0;1;2]); (n_v'aaaa'vvvv,[3;1;4;0])] [3;4;2]) (-2) 1);
  (*2754*) AddTo n_r2new'aaa (Times (Einsum [(T 15,[0;1;2]); (n_v'aaaa'ovov,[2;3;1;4])] [3;4;0]) (-2) 1);
  (*2755*) Del (T 15);
  (*2756*) AddTo n_r2new'aaa (Times (Transpose (T 25) [1;2;0]) (-1) 1);
  (*2757*) AddTo n_r2new'aaa (Plain (Transpose (T 25) [2;1;0]));
  (*2758*) Del (T 25);
  (*2759*) AddTo n_r2new'aaa (Plain (Transpose (T 31) [1;2;0]));
  (*2760*) AddTo n_r2new'aaa (Times (Transpose (T 31) [2;1;0]) (-1) 1);
  (*2761*) Del (T 31);
  (*2762*) AddTo n_r2new'aaa (Times (Einsum [(T 32,[0;1]); (n_r2'aaa,[2;3;0])] [2;3;1]) (-2) 1);
  (*2763*) Del (T 32);
  (*2764*) Assign n_r1new'b (Times (Einsum [(n_r2'aba,[0;1;2]); (T 9,[2;0;1;3])] [3]) (-1) 1);
  (*2765*) Del (T 9);
  (*2766*) AddTo n_r1new'b (Times (Einsum [(n_r2'bbb,[0;1;2]); (T 10,[2;1;0;3])] [3]) (4) 1);
  (*2767*) Del (T 10);
  (*2768*) AddTo n_r1new'b (Times (Einsum [(T 4,[0;1]); (n_r2'aba,[1;2;0])] [2]) (-2) 1);
  (*2769*) AddTo n_r1new'b (Times (Einsum [(n_r2'bbb,[0;1;2]); (T 3,[2;1])] [0]) (4) 1);
  (*2770*) AddTo n_r1new'b (Times (Einsum [(n_r1'b,[0]); (T 11,[0;1])] [1]) (-1) 1);
  (*2771*) Del (T 11);
  (*2772*) AddTo n_r1new'b (Times (Einsum [(T 14,[0]); (n_f'bb'ov,[0;1])] [1]) (-1) 1);
  (*2773*) Del (T 14);
  (*2774*) Assign n_r1new'a (Times (Einsum [(T 1,[0;1;2;3]); (n_r2'bab,[3;1;0])] [2]) (-1) 1);
  (*2775*) Del (T 1);
  (*2776*) AddTo n_r1new'a (Times (Einsum [(T 2,[0;1;2;3]); (n_r2'aaa,[1;2;0])] [3]) (-4) 1);
  (*2777*) Del (T 2);
  (*2778*) AddTo n_r1new'a (Times (Einsum [(n_r2'bab,[0;1;2]); (T 3,[2;0])] [1]) (-2) 1);
  (*2779*) Del (T 3);
  (*2780*) AddTo n_r1new'a (Times (Einsum [(T 4,[0;1]); (n_r2'aaa,[2;1;0])] [2]) (4) 1);
  (*2781*) Del (T 4);
  (*2782*) AddTo n_r1new'a (Times (Einsum [(T 5,[0;1]); (n_r1'a,[0])] [1]) (-1) 1);
  (*2783*) Del (T 5);
  (*2784*) AddTo n_r1new'a (Times (Einsum [(T 8,[0]); (n_f'aa'ov,[0;1])] [1]) (-2) 1);
  (*2785*) Del (T 8)]
 [(n_r1new'b,[7]); (n_r1new'a,[5]); (n_r2new'bbb,[7;7;6]); (n_r2new'bab,[7;5;6]); (n_r2new'aba,[5;7;4]); (n_r2new'aaa,[5;5;4])].

