(** Generated by tools/translate_codegen.py from ebcc/codegen/UQCISD.py; one statement per source line
    (the number in the comment before it). *)
From Coq Require Import ZArith List.
From Verif Require Import CgModel CgNames.
Import ListNotations.

(** ebcc/codegen/UQCISD.py:19-40 [energy] *)
Definition UQCISD_energy : prog := mkprog
 [(n_v'aabb'ovov,[4;5;6;7]); (n_t2'abab,[4;6;5;7]); (n_v'bbbb'ovov,[6;7;6;7]); (n_t2'bbbb,[6;6;7;7]); (n_v'aaaa'ovov,[4;5;4;5]); (n_t2'aaaa,[4;4;5;5])]
 [(*36*) Assign n_e_cc (Plain (Einsum [(n_v'aabb'ovov,[0;1;2;3]); (n_t2'abab,[0;2;1;3])] []));
  (*37*) AddTo n_e_cc (Plain (Einsum [(n_v'bbbb'ovov,[0;1;2;3]); (n_t2'bbbb,[0;2;1;3])] []));
  (*38*) AddTo n_e_cc (Plain (Einsum [(n_v'aaaa'ovov,[0;1;2;3]); (n_t2'aaaa,[0;2;1;3])] []))]
 [(n_e_cc,[])].

(** ebcc/codegen/UQCISD.py:42-368 [update_amps] *)
Definition UQCISD_update_amps : prog := mkprog
 [(n_v'bbbb'ovov,[6;7;6;7]); (n_v'aaaa'ovov,[4;5;4;5]); (n_t2'bbbb,[6;6;7;7]); (n_v'aabb'ovov,[4;5;6;7]); (n_t2'abab,[4;6;5;7]); (n_t2'aaaa,[4;4;5;5]); (n_v'bbbb'oovv,[6;6;7;7]); (n_v'aaaa'oovv,[4;4;5;5]); (n_t1'aa,[4;5]); (n_t1'bb,[6;7]); (n_f'bb'vv,[7;7]); (n_f'bb'oo,[6;6]); (n_v'bbbb'ovvv,[6;7;7;7]); (n_v'bbbb'oooo,[6;6;6;6]); (n_v'bbbb'ooov,[6;6;6;7]); (n_v'aabb'vvoo,[5;5;6;6]); (n_f'aa'vv,[5;5]); (n_v'aabb'oooo,[4;4;6;6]); (n_f'aa'oo,[4;4]); (n_v'aaaa'ovvv,[4;5;5;5]); (n_v'aaaa'ooov,[4;4;4;5]); (n_v'aaaa'oooo,[4;4;4;4]); (n_f'aa'ov,[4;5]); (n_f'bb'ov,[6;7]); (n_v'bbbb'vvvv,[7;7;7;7]); (n_v'aabb'ovvv,[4;5;7;7]); (n_v'aabb'ovoo,[4;5;6;6]); (n_v'aabb'oovv,[4;4;7;7]); (n_v'aabb'ooov,[4;4;6;7]); (n_v'aabb'vvov,[5;5;6;7]); (n_v'aabb'vvvv,[5;5;7;7]); (n_v'aaaa'vvvv,[5;5;5;5])]
 [(*67*) Assign (T 27) (Times (Transpose n_v'bbbb'ovov [0;2;3;1]) (-1) 1);
  (*68*) AddTo (T 27) (Plain (Transpose n_v'bbbb'ovov [0;2;1;3]));
  (*69*) Assign (T 23) (Times (Transpose n_v'aaaa'ovov [0;2;3;1]) (-1) 1);
  (*70*) AddTo (T 23) (Plain (Transpose n_v'aaaa'ovov [0;2;1;3]));
  (*71*) Assign (T 57) (Plain (Einsum [(T 27,[0;1;2;3]); (n_t2'bbbb,[4;0;5;2])] [4;1;5;3]));
  (*72*) Assign (T 17) (Plain (Einsum [(n_v'bbbb'ovov,[0;1;2;3]); (n_t2'bbbb,[4;2;1;3])] [4;0]));
  (*73*) Assign (T 16) (Plain (Einsum [(n_v'aabb'ovov,[0;1;2;3]); (n_t2'abab,[0;4;1;3])] [4;2]));
  (*74*) Assign (T 24) (Plain (Einsum [(n_t2'aaaa,[0;1;2;3]); (T 23,[1;4;3;5])] [0;4;2;5]));
  (*75*) Assign (T 11) (Plain (Einsum [(n_t2'aaaa,[0;1;2;3]); (n_v'aaaa'ovov,[4;2;1;3])] [0;4]));
  (*76*) Assign (T 12) (Plain (Einsum [(n_t2'abab,[0;1;2;3]); (n_v'aabb'ovov,[4;2;1;3])] [0;4]));
  (*77*) Assign (T 2) (Plain (Transpose n_v'aaaa'ovov [0;2;3;1]));
  (*78*) AddTo (T 2) (Times (Transpose n_v'aaaa'ovov [0;2;1;3]) (-1) 1);
  (*79*) Assign (T 6) (Times (Transpose n_v'bbbb'ovov [0;2;3;1]) (-1) 1);
  (*80*) AddTo (T 6) (Plain (Transpose n_v'bbbb'ovov [0;2;1;3]));
  (*81*) Assign (T 60) (Plain (Einsum [(n_t2'abab,[0;1;2;3]); (T 23,[0;4;2;5])] [4;1;5;3]));
  (*82*) Del (T 23);
  (*83*) Assign (T 45) (Times (Einsum [(n_t2'bbbb,[0;1;2;3]); (n_v'bbbb'ovov,[0;3;1;4])] [2;4]) (-1) 1);
  (*84*) Assign (T 44) (Plain (Einsum [(n_v'aabb'ovov,[0;1;2;3]); (n_t2'abab,[0;2;1;4])] [4;3]));
  (*85*) Assign (T 47) (Plain (Einsum [(n_v'aabb'ovov,[0;1;2;3]); (n_t2'bbbb,[4;2;5;3])] [0;4;1;5]));
  (*86*) Assign (T 58) (Plain (Copy n_v'bbbb'oovv));
  (*87*) AddTo (T 58) (Times (Copy (T 57)) (-2) 1);
  (*88*) Del (T 57);
  (*89*) Assign (T 71) (Plain (Copy (T 16)));
  (*90*) AddTo (T 71) (Times (Copy (T 17)) (2) 1);
  (*91*) Assign (T 63) (Times (Einsum [(n_t2'bbbb,[0;1;2;3]); (n_v'bbbb'ovov,[4;3;5;2])] [0;1;4;5]) (-1) 1);
  (*92*) Assign (T 35) (Plain (Einsum [(n_t2'aaaa,[0;1;2;3]); (n_v'aaaa'ovov,[0;4;1;3])] [2;4]));
  (*93*) Assign (T 36) (Plain (Einsum [(n_t2'abab,[0;1;2;3]); (n_v'aabb'ovov,[0;4;1;3])] [2;4]));
  (*94*) Assign (T 51) (Plain (Einsum [(n_t2'aaaa,[0;1;2;3]); (n_v'aabb'ovov,[1;3;4;5])] [0;4;2;5]));
  (*95*) Assign (T 28) (Plain (Einsum [(n_t2'abab,[0;1;2;3]); (T 27,[1;4;5;3])] [0;4;2;5]));
  (*96*) Del (T 27);
  (*97*) Assign (T 49) (Plain (Transpose n_v'aaaa'ovov [0;2;3;1]));
  (*98*) AddTo (T 49) (Times (Transpose n_v'aaaa'ovov [0;2;1;3]) (-1) 1);
  (*99*) Assign (T 21) (Plain (Einsum [(n_t2'abab,[0;1;2;3]); (n_v'aabb'ovov,[4;5;1;3])] [0;4;2;5]));
  (*100*) Assign (T 25) (Plain (Copy n_v'aaaa'oovv));
  (*101*) AddTo (T 25) (Times (Copy (T 24)) (-2) 1);
  (*102*) Del (T 24);
  (*103*) Assign (T 40) (Times (Copy (T 11)) (2) 1);
  (*104*) AddTo (T 40) (Plain (Copy (T 12)));
  (*105*) Assign (T 31) (Plain (Einsum [(n_v'aaaa'ovov,[0;1;2;3]); (n_t2'aaaa,[4;5;1;3])] [4;5;0;2]));
  (*106*) Assign (T 3) (Plain (Einsum [(n_t1'aa,[0;1]); (T 2,[0;2;1;3])] [2;3]));
  (*107*) Del (T 2);
  (*108*) Assign (T 1) (Plain (Einsum [(n_v'aabb'ovov,[0;1;2;3]); (n_t1'bb,[2;3])] [0;1]));
  (*109*) Assign (T 7) (Plain (Einsum [(T 6,[0;1;2;3]); (n_t1'bb,[0;3])] [1;2]));
  (*110*) Del (T 6);
  (*111*) Assign (T 5) (Plain (Einsum [(n_v'aabb'ovov,[0;1;2;3]); (n_t1'aa,[0;1])] [2;3]));
  (*112*) Assign (T 61) (Plain (Einsum [(n_t2'abab,[0;1;2;3]); (T 60,[0;4;2;5])] [1;4;3;5]));
  (*113*) Del (T 60);
  (*114*) Assign (T 70) (Times (Copy n_f'bb'vv) (-1) 1);
  (*115*) AddTo (T 70) (Plain (Copy (T 44)));
  (*116*) AddTo (T 70) (Times (Copy (T 45)) (2) 1);
  (*117*) Assign (T 69) (Plain (Einsum [(n_v'bbbb'ovov,[0;1;2;3]); (n_t2'bbbb,[4;2;5;3])] [4;0;5;1]));
  (*118*) Assign (T 56) (Plain (Einsum [(T 47,[0;1;2;3]); (n_t2'abab,[0;4;2;5])] [4;1;5;3]));
  (*119*) Assign (T 68) (Plain (Einsum [(n_v'aabb'ovov,[0;1;2;3]); (n_t2'abab,[0;4;1;5])] [4;2;5;3]));
  (*120*) Assign (T 59) (Plain (Einsum [(n_t2'bbbb,[0;1;2;3]); (T 58,[4;1;5;3])] [0;4;2;5]));
  (*121*) Del (T 58);
  (*122*) Assign (T 66) (Plain (Einsum [(n_t2'bbbb,[0;1;2;3]); (n_f'bb'oo,[4;1])] [4;0;2;3]));
  (*123*) Assign (T 62) (Plain (Einsum [(n_v'bbbb'oovv,[0;1;2;3]); (n_t2'bbbb,[4;1;5;3])] [4;0;5;2]));
  (*124*) Assign (T 54) (Plain (Einsum [(n_v'bbbb'ovvv,[0;1;2;3]); (n_t1'bb,[4;3])] [4;0;1;2]));
  (*125*) Assign (T 67) (Times (Copy (T 44)) (1) 2);
  (*126*) AddTo (T 67) (Plain (Copy (T 45)));
  (*127*) Assign (T 72) (Times (Einsum [(T 71,[0;1]); (n_t2'bbbb,[2;1;3;4])] [2;0;3;4]) (-1) 1);
  (*128*) Del (T 71);
  (*129*) Assign (T 65) (Times (Einsum [(n_t2'bbbb,[0;1;2;3]); (n_v'bbbb'oooo,[4;1;5;0])] [4;5;2;3]) (-1) 1);
  (*130*) Assign (T 55) (Plain (Einsum [(n_t1'bb,[0;1]); (n_v'bbbb'ooov,[2;0;3;4])] [2;3;1;4]));
  (*131*) Assign (T 64) (Plain (Einsum [(T 63,[0;1;2;3]); (n_t2'bbbb,[3;2;4;5])] [1;0;4;5]));
  (*132*) Del (T 63);
  (*133*) Assign (T 46) (Plain (Copy (T 44)));
  (*134*) Del (T 44);
  (*135*) AddTo (T 46) (Times (Copy (T 45)) (2) 1);
  (*136*) Del (T 45);
  (*137*) Assign (T 42) (Plain (Transpose n_v'aabb'vvoo [2;3;0;1]));
  (*138*) AddTo (T 42) (Times (Einsum [(n_v'aabb'ovov,[0;1;2;3]); (n_t2'abab,[0;4;5;3])] [2;4;1;5]) (-1) 1);
  (*139*) Assign (T 48) (Times (Copy n_f'aa'vv) (-1) 1);
  (*140*) AddTo (T 48) (Times (Transpose (T 35) [1;0]) (2) 1);
  (*141*) AddTo (T 48) (Plain (Transpose (T 36) [1;0]));
  (*142*) Assign (T 52) (Times (Copy (T 51)) (2) 1);
  (*143*) AddTo (T 52) (Times (Copy (T 28)) (-1) 1);
  (*144*) Assign (T 43) (Plain (Einsum [(n_t2'abab,[0;1;2;3]); (n_v'aabb'oooo,[4;0;5;1])] [4;5;2;3]));
  (*145*) Assign (T 50) (Plain (Copy n_v'aaaa'oovv));
  (*146*) AddTo (T 50) (Times (Transpose (T 21) [1;0;3;2]) (-1) 1);
  (*147*) AddTo (T 50) (Times (Einsum [(n_t2'aaaa,[0;1;2;3]); (T 49,[1;4;3;5])] [4;0;5;2]) (2) 1);
  (*148*) Del (T 49);
  (*149*) Assign (T 18) (Times (Copy (T 16)) (1) 2);
  (*150*) Del (T 16);
  (*151*) AddTo (T 18) (Plain (Copy (T 17)));
  (*152*) Del (T 17);
  (*153*) Assign (T 53) (Plain (Einsum [(n_v'aabb'ovov,[0;1;2;3]); (n_t2'abab,[4;5;1;3])] [4;0;5;2]));
  (*154*) Assign (T 34) (Plain (Einsum [(n_f'aa'oo,[0;1]); (n_t2'aaaa,[2;1;3;4])] [0;2;3;4]));
  (*155*) Assign (T 22) (Plain (Einsum [(n_t2'aaaa,[0;1;2;3]); (T 21,[4;1;5;3])] [0;4;2;5]));
  (*156*) Assign (T 39) (Times (Copy n_f'aa'vv) (-1) 1);
  (*157*) AddTo (T 39) (Times (Copy (T 35)) (2) 1);
  (*158*) AddTo (T 39) (Plain (Copy (T 36)));
  (*159*) Assign (T 30) (Plain (Einsum [(n_t2'aaaa,[0;1;2;3]); (n_v'aaaa'oovv,[4;1;5;3])] [0;4;2;5]));
  (*160*) Assign (T 19) (Plain (Einsum [(n_t1'aa,[0;1]); (n_v'aaaa'ovvv,[2;3;4;1])] [0;2;3;4]));
  (*161*) Assign (T 26) (Plain (Einsum [(T 25,[0;1;2;3]); (n_t2'aaaa,[4;1;5;3])] [4;0;5;2]));
  (*162*) Del (T 25);
  (*163*) Assign (T 37) (Plain (Copy (T 35)));
  (*164*) Del (T 35);
  (*165*) AddTo (T 37) (Times (Copy (T 36)) (1) 2);
  (*166*) Del (T 36);
  (*167*) Assign (T 41) (Times (Einsum [(n_t2'aaaa,[0;1;2;3]); (T 40,[4;1])] [0;4;2;3]) (-1) 1);
  (*168*) Assign (T 20) (Plain (Einsum [(n_t1'aa,[0;1]); (n_v'aaaa'ooov,[2;0;3;4])] [2;3;1;4]));
  (*169*) Assign (T 38) (Plain (Einsum [(n_t2'aaaa,[0;1;2;3]); (n_v'aaaa'ovov,[4;5;1;3])] [0;4;2;5]));
  (*170*) Assign (T 29) (Times (Einsum [(T 28,[0;1;2;3]); (n_t2'abab,[4;1;5;3])] [4;0;5;2]) (-1) 1);
  (*171*) Del (T 28);
  (*172*) Assign (T 33) (Times (Einsum [(n_v'aaaa'oooo,[0;1;2;3]); (n_t2'aaaa,[3;1;4;5])] [0;2;4;5]) (-1) 1);
  (*173*) Assign (T 32) (Plain (Einsum [(T 31,[0;1;2;3]); (n_t2'aaaa,[3;2;4;5])] [1;0;4;5]));
  (*174*) Del (T 31);
  (*175*) Assign (T 4) (Plain (Copy n_f'aa'ov));
  (*176*) AddTo (T 4) (Plain (Copy (T 1)));
  (*177*) AddTo (T 4) (Times (Copy (T 3)) (-1) 1);
  (*178*) Del (T 3);
  (*179*) Assign (T 8) (Plain (Copy n_f'bb'ov));
  (*180*) AddTo (T 8) (Plain (Copy (T 5)));
  (*181*) AddTo (T 8) (Times (Copy (T 7)) (-1) 1);
  (*182*) Del (T 7);
  (*183*) Assign (T 15) (Plain (Einsum [(n_t1'bb,[0;1]); (n_v'bbbb'ovov,[2;3;4;1])] [0;2;4;3]));
  (*184*) Assign (T 14) (Plain (Einsum [(n_v'aabb'ovov,[0;1;2;3]); (n_t1'bb,[4;3])] [0;4;2;1]));
  (*185*) Assign (T 10) (Plain (Einsum [(n_v'aaaa'ovov,[0;1;2;3]); (n_t1'aa,[4;3])] [4;0;2;1]));
  (*186*) Assign (T 9) (Plain (Einsum [(n_t1'aa,[0;1]); (n_v'aabb'ovov,[2;1;3;4])] [0;2;3;4]));
  (*187*) Assign (T 13) (Plain (Copy (T 11)));
  (*188*) Del (T 11);
  (*189*) AddTo (T 13) (Times (Copy (T 12)) (1) 2);
  (*190*) Del (T 12);
  (*191*) Assign n_t2new'bbbb (Plain (Transpose (T 54) [1;0;2;3]));
  (*192*) AddTo n_t2new'bbbb (Plain (Transpose n_v'bbbb'ovov [0;2;1;3]));
  (*193*) AddTo n_t2new'bbbb (Times (Copy (T 54)) (-1) 1);
  (*194*) AddTo n_t2new'bbbb (Times (Transpose n_v'bbbb'ovov [0;2;3;1]) (-1) 1);
  (*195*) AddTo n_t2new'bbbb (Plain (Transpose (T 55) [0;1;3;2]));
  (*196*) AddTo n_t2new'bbbb (Times (Copy (T 56)) (2) 1);
  (*197*) AddTo n_t2new'bbbb (Times (Transpose (T 56) [1;0;3;2]) (2) 1);
  (*198*) AddTo n_t2new'bbbb (Times (Transpose (T 59) [1;0;3;2]) (-2) 1);
  (*199*) AddTo n_t2new'bbbb (Plain (Transpose (T 61) [1;0;3;2]));
  (*200*) AddTo n_t2new'bbbb (Times (Transpose (T 55) [1;0;3;2]) (-1) 1);
  (*201*) AddTo n_t2new'bbbb (Times (Transpose (T 56) [0;1;3;2]) (-2) 1);
  (*202*) AddTo n_t2new'bbbb (Times (Transpose (T 56) [1;0;2;3]) (-2) 1);
  (*203*) Del (T 56);
  (*204*) AddTo n_t2new'bbbb (Times (Transpose (T 59) [0;1;3;2]) (2) 1);
  (*205*) Del (T 59);
  (*206*) AddTo n_t2new'bbbb (Times (Transpose (T 61) [0;1;3;2]) (-1) 1);
  (*207*) Del (T 61);
  (*208*) AddTo n_t2new'bbbb (Times (Copy (T 55)) (-1) 1);
  (*209*) AddTo n_t2new'bbbb (Times (Transpose (T 62) [1;0;2;3]) (2) 1);
  (*210*) AddTo n_t2new'bbbb (Plain (Transpose (T 55) [1;0;2;3]));
  (*211*) Del (T 55);
  (*212*) AddTo n_t2new'bbbb (Times (Copy (T 62)) (-2) 1);
  (*213*) Del (T 62);
  (*214*) AddTo n_t2new'bbbb (Plain (Transpose (T 54) [0;1;3;2]));
  (*215*) AddTo n_t2new'bbbb (Times (Einsum [(n_v'bbbb'vvvv,[0;1;2;3]); (n_t2'bbbb,[4;5;3;1])] [4;5;0;2]) (-2) 1);
  (*216*) AddTo n_t2new'bbbb (Times (Transpose (T 54) [1;0;3;2]) (-1) 1);
  (*217*) Del (T 54);
  (*218*) AddTo n_t2new'bbbb (Times (Transpose (T 64) [0;1;3;2]) (-2) 1);
  (*219*) Del (T 64);
  (*220*) AddTo n_t2new'bbbb (Times (Transpose (T 65) [1;0;3;2]) (2) 1);
  (*221*) Del (T 65);
  (*222*) AddTo n_t2new'bbbb (Times (Transpose (T 66) [1;0;3;2]) (2) 1);
  (*223*) AddTo n_t2new'bbbb (Times (Transpose (T 66) [0;1;3;2]) (-2) 1);
  (*224*) Del (T 66);
  (*225*) AddTo n_t2new'bbbb (Times (Einsum [(T 67,[0;1]); (n_t2'bbbb,[2;3;4;1])] [2;3;4;0]) (-4) 1);
  (*226*) Del (T 67);
  (*227*) AddTo n_t2new'bbbb (Plain (Transpose (T 68) [1;0;3;2]));
  (*228*) AddTo n_t2new'bbbb (Times (Transpose (T 69) [1;0;3;2]) (2) 1);
  (*229*) AddTo n_t2new'bbbb (Times (Einsum [(T 70,[0;1]); (n_t2'bbbb,[2;3;4;1])] [2;3;0;4]) (2) 1);
  (*230*) Del (T 70);
  (*231*) AddTo n_t2new'bbbb (Times (Einsum [(n_t2'bbbb,[0;1;2;3]); (n_f'bb'vv,[4;3])] [0;1;2;4]) (2) 1);
  (*232*) AddTo n_t2new'bbbb (Times (Transpose (T 68) [1;0;2;3]) (-1) 1);
  (*233*) AddTo n_t2new'bbbb (Times (Transpose (T 69) [1;0;2;3]) (-2) 1);
  (*234*) AddTo n_t2new'bbbb (Times (Transpose (T 68) [0;1;3;2]) (-1) 1);
  (*235*) AddTo n_t2new'bbbb (Times (Transpose (T 69) [0;1;3;2]) (-2) 1);
  (*236*) AddTo n_t2new'bbbb (Plain (Copy (T 68)));
  (*237*) Del (T 68);
  (*238*) AddTo n_t2new'bbbb (Times (Copy (T 69)) (2) 1);
  (*239*) Del (T 69);
  (*240*) AddTo n_t2new'bbbb (Times (Transpose (T 72) [0;1;3;2]) (-2) 1);
  (*241*) AddTo n_t2new'bbbb (Times (Transpose (T 72) [1;0;3;2]) (2) 1);
  (*242*) Del (T 72);
  (*243*) Assign n_t2new'abab (Plain (Transpose n_v'aabb'ovov [0;2;1;3]));
  (*244*) AddTo n_t2new'abab (Plain (Einsum [(n_v'aabb'ovvv,[0;1;2;3]); (n_t1'bb,[4;3])] [0;4;1;2]));
  (*245*) AddTo n_t2new'abab (Times (Einsum [(n_t1'bb,[0;1]); (n_v'aabb'ovoo,[2;3;4;0])] [2;4;3;1]) (-1) 1);
  (*246*) AddTo n_t2new'abab (Times (Einsum [(n_t2'abab,[0;1;2;3]); (T 42,[1;4;2;5])] [0;4;5;3]) (-1) 1);
  (*247*) Del (T 42);
  (*248*) AddTo n_t2new'abab (Times (Einsum [(n_v'aabb'oovv,[0;1;2;3]); (n_t2'abab,[1;4;5;3])] [0;4;5;2]) (-1) 1);
  (*249*) AddTo n_t2new'abab (Times (Einsum [(n_t1'aa,[0;1]); (n_v'aabb'ooov,[2;0;3;4])] [2;3;1;4]) (-1) 1);
  (*250*) AddTo n_t2new'abab (Plain (Einsum [(n_t1'aa,[0;1]); (n_v'aabb'vvov,[2;1;3;4])] [0;3;2;4]));
  (*251*) AddTo n_t2new'abab (Times (Einsum [(n_t2'abab,[0;1;2;3]); (n_f'bb'oo,[4;1])] [0;4;2;3]) (-1) 1);
  (*252*) AddTo n_t2new'abab (Plain (Copy (T 43)));
  (*253*) Del (T 43);
  (*254*) AddTo n_t2new'abab (Times (Einsum [(n_t2'abab,[0;1;2;3]); (n_f'aa'oo,[4;0])] [4;1;2;3]) (-1) 1);
  (*255*) AddTo n_t2new'abab (Times (Einsum [(n_t2'abab,[0;1;2;3]); (T 46,[4;3])] [0;1;2;4]) (-1) 1);
  (*256*) Del (T 46);
  (*257*) AddTo n_t2new'abab (Times (Copy (T 47)) (2) 1);
  (*258*) Del (T 47);
  (*259*) AddTo n_t2new'abab (Plain (Einsum [(n_t2'abab,[0;1;2;3]); (n_v'aaaa'ovov,[4;5;0;2])] [4;1;5;3]));
  (*260*) AddTo n_t2new'abab (Times (Einsum [(T 48,[0;1]); (n_t2'abab,[2;3;0;4])] [2;3;1;4]) (-1) 1);
  (*261*) Del (T 48);
  (*262*) AddTo n_t2new'abab (Plain (Einsum [(n_t2'abab,[0;1;2;3]); (n_f'bb'vv,[4;3])] [0;1;2;4]));
  (*263*) AddTo n_t2new'abab (Times (Einsum [(n_t2'abab,[0;1;2;3]); (T 50,[0;4;2;5])] [4;1;5;3]) (-1) 1);
  (*264*) Del (T 50);
  (*265*) AddTo n_t2new'abab (Times (Einsum [(T 52,[0;1;2;3]); (n_t2'bbbb,[4;1;5;3])] [0;4;2;5]) (2) 1);
  (*266*) Del (T 52);
  (*267*) AddTo n_t2new'abab (Times (Copy (T 51)) (2) 1);
  (*268*) Del (T 51);
  (*269*) AddTo n_t2new'abab (Plain (Einsum [(n_t2'abab,[0;1;2;3]); (n_v'bbbb'ovov,[4;5;1;3])] [0;4;2;5]));
  (*270*) AddTo n_t2new'abab (Times (Einsum [(n_v'bbbb'oovv,[0;1;2;3]); (n_t2'abab,[4;1;5;3])] [4;0;5;2]) (-1) 1);
  (*271*) AddTo n_t2new'abab (Plain (Einsum [(n_v'aabb'vvvv,[0;1;2;3]); (n_t2'abab,[4;5;1;3])] [4;5;0;2]));
  (*272*) AddTo n_t2new'abab (Plain (Einsum [(n_t2'abab,[0;1;2;3]); (T 53,[4;0;5;1])] [4;5;2;3]));
  (*273*) Del (T 53);
  (*274*) AddTo n_t2new'abab (Times (Einsum [(T 18,[0;1]); (n_t2'abab,[2;1;3;4])] [2;0;3;4]) (-2) 1);
  (*275*) AddTo n_t2new'abab (Times (Einsum [(n_t2'abab,[0;1;2;3]); (T 40,[4;0])] [4;1;2;3]) (-1) 1);
  (*276*) Del (T 40);
  (*277*) Assign n_t2new'aaaa (Plain (Transpose (T 19) [1;0;2;3]));
  (*278*) AddTo n_t2new'aaaa (Plain (Transpose n_v'aaaa'ovov [0;2;1;3]));
  (*279*) AddTo n_t2new'aaaa (Times (Copy (T 19)) (-1) 1);
  (*280*) AddTo n_t2new'aaaa (Times (Transpose n_v'aaaa'ovov [0;2;3;1]) (-1) 1);
  (*281*) AddTo n_t2new'aaaa (Plain (Transpose (T 20) [0;1;3;2]));
  (*282*) AddTo n_t2new'aaaa (Times (Copy (T 22)) (2) 1);
  (*283*) AddTo n_t2new'aaaa (Times (Transpose (T 22) [1;0;3;2]) (2) 1);
  (*284*) AddTo n_t2new'aaaa (Times (Transpose (T 26) [1;0;3;2]) (-2) 1);
  (*285*) AddTo n_t2new'aaaa (Plain (Transpose (T 29) [1;0;3;2]));
  (*286*) AddTo n_t2new'aaaa (Times (Transpose (T 20) [1;0;3;2]) (-1) 1);
  (*287*) AddTo n_t2new'aaaa (Times (Transpose (T 22) [0;1;3;2]) (-2) 1);
  (*288*) AddTo n_t2new'aaaa (Times (Transpose (T 22) [1;0;2;3]) (-2) 1);
  (*289*) Del (T 22);
  (*290*) AddTo n_t2new'aaaa (Times (Transpose (T 26) [0;1;3;2]) (2) 1);
  (*291*) Del (T 26);
  (*292*) AddTo n_t2new'aaaa (Times (Transpose (T 29) [1;0;2;3]) (-1) 1);
  (*293*) Del (T 29);
  (*294*) AddTo n_t2new'aaaa (Times (Transpose (T 30) [1;0;2;3]) (2) 1);
  (*295*) AddTo n_t2new'aaaa (Times (Copy (T 20)) (-1) 1);
  (*296*) AddTo n_t2new'aaaa (Times (Copy (T 30)) (-2) 1);
  (*297*) Del (T 30);
  (*298*) AddTo n_t2new'aaaa (Plain (Transpose (T 20) [1;0;2;3]));
  (*299*) Del (T 20);
  (*300*) AddTo n_t2new'aaaa (Plain (Transpose (T 19) [0;1;3;2]));
  (*301*) AddTo n_t2new'aaaa (Times (Transpose (T 32) [0;1;3;2]) (-2) 1);
  (*302*) Del (T 32);
  (*303*) AddTo n_t2new'aaaa (Times (Transpose (T 19) [1;0;3;2]) (-1) 1);
  (*304*) Del (T 19);
  (*305*) AddTo n_t2new'aaaa (Times (Einsum [(n_t2'aaaa,[0;1;2;3]); (n_v'aaaa'vvvv,[4;3;5;2])] [0;1;4;5]) (-2) 1);
  (*306*) AddTo n_t2new'aaaa (Times (Transpose (T 33) [1;0;3;2]) (2) 1);
  (*307*) Del (T 33);
  (*308*) AddTo n_t2new'aaaa (Times (Transpose (T 34) [1;0;3;2]) (2) 1);
  (*309*) AddTo n_t2new'aaaa (Times (Transpose (T 34) [0;1;3;2]) (-2) 1);
  (*310*) Del (T 34);
  (*311*) AddTo n_t2new'aaaa (Times (Einsum [(n_t2'aaaa,[0;1;2;3]); (T 37,[4;3])] [0;1;2;4]) (-4) 1);
  (*312*) Del (T 37);
  (*313*) AddTo n_t2new'aaaa (Times (Transpose (T 38) [1;0;3;2]) (2) 1);
  (*314*) AddTo n_t2new'aaaa (Plain (Transpose (T 21) [1;0;3;2]));
  (*315*) AddTo n_t2new'aaaa (Times (Einsum [(T 39,[0;1]); (n_t2'aaaa,[2;3;4;1])] [2;3;0;4]) (2) 1);
  (*316*) Del (T 39);
  (*317*) AddTo n_t2new'aaaa (Times (Transpose (T 38) [1;0;2;3]) (-2) 1);
  (*318*) AddTo n_t2new'aaaa (Times (Einsum [(n_t2'aaaa,[0;1;2;3]); (n_f'aa'vv,[4;3])] [0;1;2;4]) (2) 1);
  (*319*) AddTo n_t2new'aaaa (Times (Transpose (T 21) [1;0;2;3]) (-1) 1);
  (*320*) AddTo n_t2new'aaaa (Times (Transpose (T 38) [0;1;3;2]) (-2) 1);
  (*321*) AddTo n_t2new'aaaa (Times (Transpose (T 21) [0;1;3;2]) (-1) 1);
  (*322*) AddTo n_t2new'aaaa (Times (Copy (T 38)) (2) 1);
  (*323*) Del (T 38);
  (*324*) AddTo n_t2new'aaaa (Plain (Copy (T 21)));
  (*325*) Del (T 21);
  (*326*) AddTo n_t2new'aaaa (Times (Transpose (T 41) [0;1;3;2]) (-2) 1);
  (*327*) AddTo n_t2new'aaaa (Times (Transpose (T 41) [1;0;3;2]) (2) 1);
  (*328*) Del (T 41);
  (*329*) Assign n_t1new'bb (Times (Einsum [(n_v'bbbb'ooov,[0;1;2;3]); (n_t2'bbbb,[2;1;4;3])] [0;4]) (2) 1);
  (*330*) AddTo n_t1new'bb (Times (Einsum [(n_v'bbbb'oovv,[0;1;2;3]); (n_t1'bb,[1;3])] [0;2]) (-1) 1);
  (*331*) AddTo n_t1new'bb (Times (Einsum [(n_t2'abab,[0;1;2;3]); (n_v'aabb'ovoo,[0;2;4;1])] [4;3]) (-1) 1);
  (*332*) AddTo n_t1new'bb (Times (Einsum [(n_t1'bb,[0;1]); (n_f'bb'oo,[2;0])] [2;1]) (-1) 1);
  (*333*) AddTo n_t1new'bb (Plain (Einsum [(T 4,[0;1]); (n_t2'abab,[0;2;1;3])] [2;3]));
  (*334*) AddTo n_t1new'bb (Times (Einsum [(T 8,[0;1]); (n_t2'bbbb,[2;0;3;1])] [2;3]) (2) 1);
  (*335*) AddTo n_t1new'bb (Times (Einsum [(T 14,[0;1;2;3]); (n_t2'abab,[0;2;3;4])] [1;4]) (-1) 1);
  (*336*) Del (T 14);
  (*337*) AddTo n_t1new'bb (Plain (Einsum [(n_v'bbbb'ovov,[0;1;2;3]); (n_t1'bb,[2;3])] [0;1]));
  (*338*) AddTo n_t1new'bb (Plain (Copy (T 5)));
  (*339*) Del (T 5);
  (*340*) AddTo n_t1new'bb (Times (Einsum [(n_v'bbbb'ovvv,[0;1;2;3]); (n_t2'bbbb,[4;0;1;3])] [4;2]) (-2) 1);
  (*341*) AddTo n_t1new'bb (Plain (Einsum [(n_v'aabb'ovvv,[0;1;2;3]); (n_t2'abab,[0;4;1;3])] [4;2]));
  (*342*) AddTo n_t1new'bb (Plain (Einsum [(n_t1'bb,[0;1]); (n_f'bb'vv,[2;1])] [0;2]));
  (*343*) AddTo n_t1new'bb (Times (Einsum [(n_t2'bbbb,[0;1;2;3]); (T 15,[4;0;1;3])] [4;2]) (2) 1);
  (*344*) Del (T 15);
  (*345*) AddTo n_t1new'bb (Times (Einsum [(T 18,[0;1]); (n_t1'bb,[1;2])] [0;2]) (-2) 1);
  (*346*) Del (T 18);
  (*347*) Assign n_t1new'aa (Times (Einsum [(n_f'aa'oo,[0;1]); (n_t1'aa,[1;2])] [0;2]) (-1) 1);
  (*348*) AddTo n_t1new'aa (Times (Einsum [(n_t1'aa,[0;1]); (n_v'aaaa'oovv,[2;0;3;1])] [2;3]) (-1) 1);
  (*349*) AddTo n_t1new'aa (Times (Einsum [(n_t2'abab,[0;1;2;3]); (n_v'aabb'ooov,[4;0;1;3])] [4;2]) (-1) 1);
  (*350*) AddTo n_t1new'aa (Times (Einsum [(n_v'aaaa'ooov,[0;1;2;3]); (n_t2'aaaa,[1;2;4;3])] [0;4]) (-2) 1);
  (*351*) AddTo n_t1new'aa (Times (Einsum [(T 4,[0;1]); (n_t2'aaaa,[2;0;3;1])] [2;3]) (2) 1);
  (*352*) Del (T 4);
  (*353*) AddTo n_t1new'aa (Plain (Einsum [(T 8,[0;1]); (n_t2'abab,[2;0;3;1])] [2;3]));
  (*354*) Del (T 8);
  (*355*) AddTo n_t1new'aa (Plain (Einsum [(n_t1'aa,[0;1]); (n_v'aaaa'ovov,[2;3;0;1])] [2;3]));
  (*356*) AddTo n_t1new'aa (Plain (Einsum [(n_f'aa'vv,[0;1]); (n_t1'aa,[2;1])] [2;0]));
  (*357*) AddTo n_t1new'aa (Times (Einsum [(n_t2'abab,[0;1;2;3]); (T 9,[4;0;1;3])] [4;2]) (-1) 1);
  (*358*) Del (T 9);
  (*359*) AddTo n_t1new'aa (Plain (Copy (T 1)));
  (*360*) Del (T 1);
  (*361*) AddTo n_t1new'aa (Times (Einsum [(T 10,[0;1;2;3]); (n_t2'aaaa,[2;1;4;3])] [0;4]) (-2) 1);
  (*362*) Del (T 10);
  (*363*) AddTo n_t1new'aa (Times (Einsum [(n_v'aaaa'ovvv,[0;1;2;3]); (n_t2'aaaa,[4;0;1;3])] [4;2]) (-2) 1);
  (*364*) AddTo n_t1new'aa (Plain (Einsum [(n_t2'abab,[0;1;2;3]); (n_v'aabb'vvov,[4;2;1;3])] [0;4]));
  (*365*) AddTo n_t1new'aa (Times (Einsum [(n_t1'aa,[0;1]); (T 13,[2;0])] [2;1]) (-2) 1);
  (*366*) Del (T 13)]
 [(n_t1new'bb,[6;7]); (n_t1new'aa,[4;5]); (n_t2new'bbbb,[6;6;7;7]); (n_t2new'abab,[4;6;5;7]); (n_t2new'aaaa,[4;4;5;5])].

