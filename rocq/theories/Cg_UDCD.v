(** Generated by tools/translate_codegen.py from ebcc/codegen/UDCD.py; one statement per source line
    (the number in the comment before it). *)
From Coq Require Import ZArith List.
From Verif Require Import CgModel CgNames.
Import ListNotations.

(** ebcc/codegen/UDCD.py:19-40 [energy] *)
Definition UDCD_energy : prog := mkprog
 [(n_v'aaaa'ovov,[4;5;4;5]); (n_t2'aaaa,[4;4;5;5]); (n_t2'abab,[4;6;5;7]); (n_v'aabb'ovov,[4;5;6;7]); (n_t2'bbbb,[6;6;7;7]); (n_v'bbbb'ovov,[6;7;6;7])]
 [(*36*) Assign n_e_cc (Plain (Einsum [(n_v'aaaa'ovov,[0;1;2;3]); (n_t2'aaaa,[0;2;1;3])] []));
  (*37*) AddTo n_e_cc (Plain (Einsum [(n_t2'abab,[0;1;2;3]); (n_v'aabb'ovov,[0;2;1;3])] []));
  (*38*) AddTo n_e_cc (Times (Einsum [(n_t2'bbbb,[0;1;2;3]); (n_v'bbbb'ovov,[0;3;1;2])] []) (-1) 1)]
 [(n_e_cc,[])].

(** ebcc/codegen/UDCD.py:42-260 [update_amps] *)
Definition UDCD_update_amps : prog := mkprog
 [(n_v'aabb'ovov,[4;5;6;7]); (n_t2'abab,[4;6;5;7]); (n_v'bbbb'ovov,[6;7;6;7]); (n_t2'bbbb,[6;6;7;7]); (n_v'aaaa'ovov,[4;5;4;5]); (n_t2'aaaa,[4;4;5;5]); (n_f'bb'oo,[6;6]); (n_f'aa'vv,[5;5]); (n_f'aa'oo,[4;4]); (n_f'bb'vv,[7;7]); (n_v'bbbb'vvvv,[7;7;7;7]); (n_v'bbbb'oovv,[6;6;7;7]); (n_v'bbbb'oooo,[6;6;6;6]); (n_v'aabb'vvvv,[5;5;7;7]); (n_v'aaaa'vvvv,[5;5;5;5]); (n_v'aaaa'oooo,[4;4;4;4]); (n_v'aaaa'oovv,[4;4;5;5]); (n_v'aabb'oooo,[4;4;6;6]); (n_v'aabb'oovv,[4;4;7;7]); (n_v'aabb'vvoo,[5;5;6;6])]
 [(*63*) Assign (T 23) (Plain (Einsum [(n_v'aabb'ovov,[0;1;2;3]); (n_t2'abab,[0;4;1;3])] [4;2]));
  (*64*) Assign (T 24) (Plain (Einsum [(n_v'bbbb'ovov,[0;1;2;3]); (n_t2'bbbb,[4;2;1;3])] [4;0]));
  (*65*) Assign (T 36) (Plain (Einsum [(n_v'aaaa'ovov,[0;1;2;3]); (n_t2'abab,[2;4;3;5])] [0;4;1;5]));
  (*66*) Assign (T 34) (Plain (Einsum [(n_v'bbbb'ovov,[0;1;2;3]); (n_t2'bbbb,[4;2;5;3])] [4;0;5;1]));
  (*67*) Assign (T 10) (Plain (Einsum [(n_v'aabb'ovov,[0;1;2;3]); (n_t2'abab,[0;2;4;3])] [4;1]));
  (*68*) Assign (T 9) (Times (Einsum [(n_t2'aaaa,[0;1;2;3]); (n_v'aaaa'ovov,[0;3;1;4])] [2;4]) (-1) 1);
  (*69*) Assign (T 1) (Plain (Einsum [(n_v'aaaa'ovov,[0;1;2;3]); (n_t2'aaaa,[4;2;1;3])] [4;0]));
  (*70*) Assign (T 2) (Plain (Einsum [(n_t2'abab,[0;1;2;3]); (n_v'aabb'ovov,[4;2;1;3])] [0;4]));
  (*71*) Assign (T 15) (Plain (Einsum [(n_v'aaaa'ovov,[0;1;2;3]); (n_t2'aaaa,[4;2;5;3])] [4;0;5;1]));
  (*72*) Assign (T 18) (Plain (Einsum [(n_v'bbbb'ovov,[0;1;2;3]); (n_t2'abab,[4;2;5;3])] [4;0;5;1]));
  (*73*) Assign (T 28) (Plain (Einsum [(n_t2'abab,[0;1;2;3]); (n_v'aabb'ovov,[0;2;1;4])] [3;4]));
  (*74*) Assign (T 29) (Times (Einsum [(n_t2'bbbb,[0;1;2;3]); (n_v'bbbb'ovov,[0;3;1;4])] [2;4]) (-1) 1);
  (*75*) Assign (T 37) (Plain (Einsum [(n_t2'bbbb,[0;1;2;3]); (n_v'aabb'ovov,[4;5;1;3])] [4;0;5;2]));
  (*76*) Assign (T 39) (Plain (Copy n_f'bb'oo));
  (*77*) AddTo (T 39) (Times (Copy (T 23)) (1) 2);
  (*78*) AddTo (T 39) (Plain (Copy (T 24)));
  (*79*) Assign (T 46) (Times (Transpose n_v'aabb'ovov [0;2;1;3]) (2) 1);
  (*80*) AddTo (T 46) (Plain (Copy (T 36)));
  (*81*) Assign (T 48) (Plain (Transpose n_v'bbbb'ovov [0;2;1;3]));
  (*82*) AddTo (T 48) (Plain (Copy (T 34)));
  (*83*) Assign (T 13) (Plain (Einsum [(n_v'aabb'ovov,[0;1;2;3]); (n_t2'abab,[4;2;5;3])] [4;0;5;1]));
  (*84*) Assign (T 11) (Times (Copy n_f'aa'vv) (-1) 1);
  (*85*) AddTo (T 11) (Plain (Copy (T 9)));
  (*86*) AddTo (T 11) (Times (Copy (T 10)) (1) 2);
  (*87*) Assign (T 6) (Plain (Copy n_f'aa'oo));
  (*88*) AddTo (T 6) (Plain (Copy (T 1)));
  (*89*) AddTo (T 6) (Times (Copy (T 2)) (1) 2);
  (*90*) Assign (T 16) (Plain (Transpose n_v'aaaa'ovov [0;2;1;3]));
  (*91*) AddTo (T 16) (Plain (Copy (T 15)));
  (*92*) Assign (T 19) (Times (Transpose n_v'aabb'ovov [0;2;1;3]) (2) 1);
  (*93*) AddTo (T 19) (Plain (Copy (T 18)));
  (*94*) Assign (T 3) (Times (Copy n_f'aa'oo) (2) 1);
  (*95*) AddTo (T 3) (Times (Copy (T 1)) (2) 1);
  (*96*) AddTo (T 3) (Plain (Copy (T 2)));
  (*97*) Assign (T 43) (Times (Copy n_f'bb'vv) (-1) 1);
  (*98*) AddTo (T 43) (Times (Copy (T 28)) (1) 2);
  (*99*) AddTo (T 43) (Plain (Copy (T 29)));
  (*100*) Assign (T 45) (Plain (Einsum [(n_t2'abab,[0;1;2;3]); (T 37,[0;4;2;5])] [1;4;3;5]));
  (*101*) Assign (T 40) (Times (Einsum [(T 39,[0;1]); (n_t2'bbbb,[2;1;3;4])] [0;2;3;4]) (-1) 1);
  (*102*) Del (T 39);
  (*103*) Assign (T 47) (Times (Einsum [(T 46,[0;1;2;3]); (n_t2'abab,[0;4;2;5])] [1;4;3;5]) (1) 2);
  (*104*) Del (T 46);
  (*105*) Assign (T 50) (Times (Einsum [(n_v'bbbb'vvvv,[0;1;2;3]); (n_t2'bbbb,[4;5;3;1])] [4;5;0;2]) (-1) 1);
  (*106*) Assign (T 42) (Plain (Einsum [(n_v'bbbb'oovv,[0;1;2;3]); (n_t2'bbbb,[4;1;5;3])] [4;0;5;2]));
  (*107*) Assign (T 49) (Times (Einsum [(n_t2'bbbb,[0;1;2;3]); (T 48,[4;1;5;3])] [4;0;5;2]) (2) 1);
  (*108*) Del (T 48);
  (*109*) Assign (T 44) (Times (Copy n_f'bb'vv) (-2) 1);
  (*110*) AddTo (T 44) (Plain (Copy (T 28)));
  (*111*) AddTo (T 44) (Times (Copy (T 29)) (2) 1);
  (*112*) Assign (T 41) (Times (Einsum [(n_v'bbbb'oooo,[0;1;2;3]); (n_t2'bbbb,[3;1;4;5])] [0;2;4;5]) (-1) 1);
  (*113*) Assign (T 27) (Times (Copy n_f'aa'vv) (-1) 1);
  (*114*) AddTo (T 27) (Plain (Transpose (T 9) [1;0]));
  (*115*) Del (T 9);
  (*116*) AddTo (T 27) (Times (Transpose (T 10) [1;0]) (1) 2);
  (*117*) Del (T 10);
  (*118*) Assign (T 33) (Plain (Einsum [(n_v'aabb'vvvv,[0;1;2;3]); (n_t2'abab,[4;5;1;3])] [4;5;0;2]));
  (*119*) Assign (T 35) (Plain (Transpose n_v'bbbb'ovov [0;2;1;3]));
  (*120*) AddTo (T 35) (Times (Einsum [(n_t2'abab,[0;1;2;3]); (n_v'aabb'ovov,[0;2;4;5])] [4;1;5;3]) (1) 2);
  (*121*) AddTo (T 35) (Plain (Transpose (T 34) [1;0;3;2]));
  (*122*) Del (T 34);
  (*123*) Assign (T 31) (Times (Transpose n_v'aabb'ovov [0;2;1;3]) (2) 1);
  (*124*) AddTo (T 31) (Times (Einsum [(n_t2'aaaa,[0;1;2;3]); (n_v'aabb'ovov,[1;3;4;5])] [0;4;2;5]) (2) 1);
  (*125*) AddTo (T 31) (Plain (Copy (T 18)));
  (*126*) Assign (T 26) (Plain (Copy n_f'aa'oo));
  (*127*) AddTo (T 26) (Plain (Transpose (T 1) [1;0]));
  (*128*) Del (T 1);
  (*129*) AddTo (T 26) (Times (Transpose (T 2) [1;0]) (1) 2);
  (*130*) Del (T 2);
  (*131*) Assign (T 25) (Plain (Copy n_f'bb'oo));
  (*132*) AddTo (T 25) (Times (Transpose (T 23) [1;0]) (1) 2);
  (*133*) Del (T 23);
  (*134*) AddTo (T 25) (Plain (Transpose (T 24) [1;0]));
  (*135*) Del (T 24);
  (*136*) Assign (T 32) (Plain (Transpose n_v'aaaa'ovov [0;2;1;3]));
  (*137*) AddTo (T 32) (Plain (Transpose (T 15) [1;0;3;2]));
  (*138*) Del (T 15);
  (*139*) AddTo (T 32) (Times (Transpose (T 13) [1;0;3;2]) (1) 2);
  (*140*) Assign (T 30) (Times (Copy n_f'bb'vv) (-1) 1);
  (*141*) AddTo (T 30) (Times (Transpose (T 28) [1;0]) (1) 2);
  (*142*) Del (T 28);
  (*143*) AddTo (T 30) (Plain (Transpose (T 29) [1;0]));
  (*144*) Del (T 29);
  (*145*) Assign (T 38) (Plain (Transpose n_v'aabb'ovov [0;2;1;3]));
  (*146*) AddTo (T 38) (Times (Copy (T 36)) (1) 2);
  (*147*) Del (T 36);
  (*148*) AddTo (T 38) (Plain (Copy (T 37)));
  (*149*) Del (T 37);
  (*150*) Assign (T 22) (Plain (Einsum [(n_v'aaaa'vvvv,[0;1;2;3]); (n_t2'aaaa,[4;5;1;3])] [4;5;0;2]));
  (*151*) Assign (T 12) (Times (Einsum [(T 11,[0;1]); (n_t2'aaaa,[2;3;4;1])] [2;3;4;0]) (-2) 1);
  (*152*) Del (T 11);
  (*153*) Assign (T 7) (Times (Einsum [(T 6,[0;1]); (n_t2'aaaa,[2;1;3;4])] [2;0;3;4]) (-1) 1);
  (*154*) Del (T 6);
  (*155*) Assign (T 14) (Plain (Einsum [(T 13,[0;1;2;3]); (n_t2'aaaa,[4;1;5;3])] [4;0;5;2]));
  (*156*) Del (T 13);
  (*157*) Assign (T 21) (Plain (Transpose n_v'aabb'ovov [0;2;1;3]));
  (*158*) AddTo (T 21) (Times (Copy (T 18)) (1) 2);
  (*159*) Del (T 18);
  (*160*) Assign (T 17) (Times (Einsum [(n_t2'aaaa,[0;1;2;3]); (T 16,[4;1;5;3])] [0;4;2;5]) (2) 1);
  (*161*) Del (T 16);
  (*162*) Assign (T 20) (Times (Einsum [(n_t2'abab,[0;1;2;3]); (T 19,[4;1;5;3])] [0;4;2;5]) (1) 2);
  (*163*) Del (T 19);
  (*164*) Assign (T 5) (Plain (Einsum [(n_t2'aaaa,[0;1;2;3]); (n_v'aaaa'oooo,[4;0;5;1])] [4;5;2;3]));
  (*165*) Assign (T 8) (Plain (Einsum [(n_v'aaaa'oovv,[0;1;2;3]); (n_t2'aaaa,[4;1;5;3])] [4;0;5;2]));
  (*166*) Assign (T 4) (Times (Einsum [(T 3,[0;1]); (n_t2'aaaa,[2;1;3;4])] [2;0;3;4]) (-1) 2);
  (*167*) Del (T 3);
  (*168*) Assign n_t2new'bbbb (Times (Transpose (T 40) [1;0;3;2]) (-2) 1);
  (*169*) AddTo n_t2new'bbbb (Times (Transpose (T 41) [1;0;3;2]) (2) 1);
  (*170*) Del (T 41);
  (*171*) AddTo n_t2new'bbbb (Times (Transpose (T 40) [0;1;3;2]) (2) 1);
  (*172*) Del (T 40);
  (*173*) AddTo n_t2new'bbbb (Times (Transpose (T 42) [1;0;3;2]) (-2) 1);
  (*174*) AddTo n_t2new'bbbb (Times (Einsum [(n_t2'bbbb,[0;1;2;3]); (T 43,[4;3])] [0;1;4;2]) (2) 1);
  (*175*) Del (T 43);
  (*176*) AddTo n_t2new'bbbb (Times (Transpose (T 42) [1;0;2;3]) (2) 1);
  (*177*) AddTo n_t2new'bbbb (Times (Einsum [(n_t2'bbbb,[0;1;2;3]); (T 44,[4;3])] [0;1;2;4]) (-1) 1);
  (*178*) Del (T 44);
  (*179*) AddTo n_t2new'bbbb (Plain (Transpose n_v'bbbb'ovov [0;2;1;3]));
  (*180*) AddTo n_t2new'bbbb (Times (Copy (T 45)) (2) 1);
  (*181*) AddTo n_t2new'bbbb (Times (Transpose (T 45) [1;0;3;2]) (2) 1);
  (*182*) AddTo n_t2new'bbbb (Plain (Copy (T 47)));
  (*183*) AddTo n_t2new'bbbb (Plain (Copy (T 49)));
  (*184*) AddTo n_t2new'bbbb (Times (Transpose n_v'bbbb'ovov [0;2;3;1]) (-1) 1);
  (*185*) AddTo n_t2new'bbbb (Times (Transpose (T 45) [0;1;3;2]) (-2) 1);
  (*186*) AddTo n_t2new'bbbb (Times (Transpose (T 45) [1;0;2;3]) (-2) 1);
  (*187*) Del (T 45);
  (*188*) AddTo n_t2new'bbbb (Times (Transpose (T 47) [0;1;3;2]) (-1) 1);
  (*189*) AddTo n_t2new'bbbb (Times (Transpose (T 49) [0;1;3;2]) (-1) 1);
  (*190*) AddTo n_t2new'bbbb (Times (Transpose (T 50) [1;0;3;2]) (2) 1);
  (*191*) Del (T 50);
  (*192*) AddTo n_t2new'bbbb (Plain (Transpose (T 47) [1;0;3;2]));
  (*193*) AddTo n_t2new'bbbb (Plain (Transpose (T 49) [1;0;3;2]));
  (*194*) AddTo n_t2new'bbbb (Times (Copy (T 42)) (-2) 1);
  (*195*) AddTo n_t2new'bbbb (Times (Transpose (T 47) [1;0;2;3]) (-1) 1);
  (*196*) Del (T 47);
  (*197*) AddTo n_t2new'bbbb (Times (Transpose (T 49) [1;0;2;3]) (-1) 1);
  (*198*) Del (T 49);
  (*199*) AddTo n_t2new'bbbb (Times (Transpose (T 42) [0;1;3;2]) (2) 1);
  (*200*) Del (T 42);
  (*201*) Assign n_t2new'abab (Times (Einsum [(n_t2'abab,[0;1;2;3]); (T 25,[1;4])] [0;4;2;3]) (-1) 1);
  (*202*) Del (T 25);
  (*203*) AddTo n_t2new'abab (Plain (Einsum [(n_t2'abab,[0;1;2;3]); (n_v'aabb'oooo,[4;0;5;1])] [4;5;2;3]));
  (*204*) AddTo n_t2new'abab (Times (Einsum [(n_t2'abab,[0;1;2;3]); (T 26,[0;4])] [4;1;2;3]) (-1) 1);
  (*205*) Del (T 26);
  (*206*) AddTo n_t2new'abab (Times (Einsum [(n_v'aaaa'oovv,[0;1;2;3]); (n_t2'abab,[1;4;3;5])] [0;4;2;5]) (-1) 1);
  (*207*) AddTo n_t2new'abab (Times (Einsum [(T 27,[0;1]); (n_t2'abab,[2;3;0;4])] [2;3;1;4]) (-1) 1);
  (*208*) Del (T 27);
  (*209*) AddTo n_t2new'abab (Times (Einsum [(n_t2'abab,[0;1;2;3]); (n_v'aabb'oovv,[4;0;5;3])] [4;1;2;5]) (-1) 1);
  (*210*) AddTo n_t2new'abab (Times (Einsum [(T 30,[0;1]); (n_t2'abab,[2;3;4;0])] [2;3;4;1]) (-1) 1);
  (*211*) Del (T 30);
  (*212*) AddTo n_t2new'abab (Plain (Transpose n_v'aabb'ovov [0;2;1;3]));
  (*213*) AddTo n_t2new'abab (Plain (Einsum [(T 31,[0;1;2;3]); (n_t2'bbbb,[4;1;5;3])] [0;4;2;5]));
  (*214*) Del (T 31);
  (*215*) AddTo n_t2new'abab (Plain (Einsum [(T 32,[0;1;2;3]); (n_t2'abab,[0;4;2;5])] [1;4;3;5]));
  (*216*) Del (T 32);
  (*217*) AddTo n_t2new'abab (Plain (Copy (T 33)));
  (*218*) Del (T 33);
  (*219*) AddTo n_t2new'abab (Plain (Einsum [(T 35,[0;1;2;3]); (n_t2'abab,[4;0;5;2])] [4;1;5;3]));
  (*220*) Del (T 35);
  (*221*) AddTo n_t2new'abab (Times (Einsum [(T 38,[0;1;2;3]); (n_t2'aaaa,[4;0;5;2])] [4;1;5;3]) (2) 1);
  (*222*) Del (T 38);
  (*223*) AddTo n_t2new'abab (Times (Einsum [(n_v'bbbb'oovv,[0;1;2;3]); (n_t2'abab,[4;1;5;3])] [4;0;5;2]) (-1) 1);
  (*224*) AddTo n_t2new'abab (Times (Einsum [(n_v'aabb'vvoo,[0;1;2;3]); (n_t2'abab,[4;3;1;5])] [4;2;0;5]) (-1) 1);
  (*225*) Assign n_t2new'aaaa (Times (Transpose (T 4) [0;1;3;2]) (-2) 1);
  (*226*) Del (T 4);
  (*227*) AddTo n_t2new'aaaa (Times (Transpose (T 5) [1;0;3;2]) (2) 1);
  (*228*) Del (T 5);
  (*229*) AddTo n_t2new'aaaa (Times (Transpose (T 7) [1;0;3;2]) (2) 1);
  (*230*) Del (T 7);
  (*231*) AddTo n_t2new'aaaa (Times (Transpose (T 8) [1;0;3;2]) (-2) 1);
  (*232*) AddTo n_t2new'aaaa (Plain (Transpose (T 12) [1;0;3;2]));
  (*233*) AddTo n_t2new'aaaa (Times (Transpose (T 8) [1;0;2;3]) (2) 1);
  (*234*) AddTo n_t2new'aaaa (Times (Transpose (T 12) [1;0;2;3]) (-1) 1);
  (*235*) Del (T 12);
  (*236*) AddTo n_t2new'aaaa (Plain (Transpose n_v'aaaa'ovov [0;2;1;3]));
  (*237*) AddTo n_t2new'aaaa (Times (Copy (T 14)) (2) 1);
  (*238*) AddTo n_t2new'aaaa (Times (Transpose (T 14) [1;0;3;2]) (2) 1);
  (*239*) AddTo n_t2new'aaaa (Plain (Transpose (T 17) [1;0;3;2]));
  (*240*) AddTo n_t2new'aaaa (Plain (Transpose (T 20) [1;0;3;2]));
  (*241*) AddTo n_t2new'aaaa (Times (Transpose n_v'aaaa'ovov [0;2;3;1]) (-1) 1);
  (*242*) AddTo n_t2new'aaaa (Times (Transpose (T 14) [0;1;3;2]) (-2) 1);
  (*243*) AddTo n_t2new'aaaa (Times (Transpose (T 14) [1;0;2;3]) (-2) 1);
  (*244*) Del (T 14);
  (*245*) AddTo n_t2new'aaaa (Times (Transpose (T 17) [1;0;2;3]) (-1) 1);
  (*246*) AddTo n_t2new'aaaa (Times (Einsum [(T 21,[0;1;2;3]); (n_t2'abab,[4;1;5;3])] [0;4;5;2]) (-1) 1);
  (*247*) Del (T 21);
  (*248*) AddTo n_t2new'aaaa (Times (Transpose (T 22) [1;0;3;2]) (2) 1);
  (*249*) Del (T 22);
  (*250*) AddTo n_t2new'aaaa (Plain (Copy (T 17)));
  (*251*) AddTo n_t2new'aaaa (Plain (Copy (T 20)));
  (*252*) AddTo n_t2new'aaaa (Times (Copy (T 8)) (-2) 1);
  (*253*) AddTo n_t2new'aaaa (Times (Transpose (T 17) [0;1;3;2]) (-1) 1);
  (*254*) Del (T 17);
  (*255*) AddTo n_t2new'aaaa (Times (Transpose (T 20) [0;1;3;2]) (-1) 1);
  (*256*) Del (T 20);
  (*257*) AddTo n_t2new'aaaa (Times (Transpose (T 8) [0;1;3;2]) (2) 1);
  (*258*) Del (T 8)]
 [(n_t2new'bbbb,[6;6;7;7]); (n_t2new'abab,[4;6;5;7]); (n_t2new'aaaa,[4;4;5;5])].

