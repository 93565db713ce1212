(** Generated by tools/translate_codegen.py from ebcc/codegen/UCC2.py; one statement per source line
    (the number in the comment before it). *)
From Coq Require Import ZArith List.
From Verif Require Import CgModel CgNames.
Import ListNotations.

(** ebcc/codegen/UCC2.py:19-59 [energy] *)
Definition UCC2_energy : prog := mkprog
 [(n_v'aaaa'ovov,[4;5;4;5]); (n_v'bbbb'ovov,[6;7;6;7]); (n_f'aa'ov,[4;5]); (n_t1'aa,[4;5]); (n_f'bb'ov,[6;7]); (n_v'aabb'ovov,[4;5;6;7]); (n_t1'bb,[6;7]); (n_t2'bbbb,[6;6;7;7]); (n_t2'aaaa,[4;4;5;5]); (n_t2'abab,[4;6;5;7])]
 [(*40*) Assign (T 3) (Plain (Transpose n_v'aaaa'ovov [0;2;3;1]));
  (*41*) AddTo (T 3) (Times (Transpose n_v'aaaa'ovov [0;2;1;3]) (-1) 1);
  (*42*) Assign (T 1) (Plain (Transpose n_v'bbbb'ovov [0;2;3;1]));
  (*43*) AddTo (T 1) (Times (Transpose n_v'bbbb'ovov [0;2;1;3]) (-1) 1);
  (*44*) Assign (T 4) (Times (Copy n_f'aa'ov) (2) 1);
  (*45*) AddTo (T 4) (Times (Einsum [(T 3,[0;1;2;3]); (n_t1'aa,[0;2])] [1;3]) (-1) 1);
  (*46*) Del (T 3);
  (*47*) Assign (T 2) (Plain (Copy n_f'bb'ov));
  (*48*) AddTo (T 2) (Plain (Einsum [(n_t1'aa,[0;1]); (n_v'aabb'ovov,[0;1;2;3])] [2;3]));
  (*49*) AddTo (T 2) (Times (Einsum [(T 1,[0;1;2;3]); (n_t1'bb,[0;2])] [1;3]) (-1) 2);
  (*50*) Del (T 1);
  (*51*) Assign n_e_cc (Times (Einsum [(n_v'bbbb'ovov,[0;1;2;3]); (n_t2'bbbb,[0;2;3;1])] []) (-1) 1);
  (*52*) AddTo n_e_cc (Times (Einsum [(n_v'aaaa'ovov,[0;1;2;3]); (n_t2'aaaa,[0;2;3;1])] []) (-1) 1);
  (*53*) AddTo n_e_cc (Plain (Einsum [(n_t2'abab,[0;1;2;3]); (n_v'aabb'ovov,[0;2;1;3])] []));
  (*54*) AddTo n_e_cc (Plain (Einsum [(T 2,[0;1]); (n_t1'bb,[0;1])] []));
  (*55*) Del (T 2);
  (*56*) AddTo n_e_cc (Times (Einsum [(n_t1'aa,[0;1]); (T 4,[0;1])] []) (1) 2);
  (*57*) Del (T 4)]
 [(n_e_cc,[])].

(** ebcc/codegen/UCC2.py:61-402 [update_amps] *)
Definition UCC2_update_amps : prog := mkprog
 [(n_v'bbbb'ovov,[6;7;6;7]); (n_t1'bb,[6;7]); (n_v'aaaa'ovov,[4;5;4;5]); (n_t1'aa,[4;5]); (n_v'bbbb'ovvv,[6;7;7;7]); (n_v'bbbb'ooov,[6;6;6;7]); (n_v'aabb'ovov,[4;5;6;7]); (n_v'aaaa'ooov,[4;4;4;5]); (n_v'aaaa'ovvv,[4;5;5;5]); (n_v'bbbb'oooo,[6;6;6;6]); (n_v'bbbb'oovv,[6;6;7;7]); (n_v'bbbb'vvvv,[7;7;7;7]); (n_f'bb'ov,[6;7]); (n_v'aabb'vvov,[5;5;6;7]); (n_v'aabb'ovvv,[4;5;7;7]); (n_v'aabb'ooov,[4;4;6;7]); (n_v'aabb'ovoo,[4;5;6;6]); (n_f'aa'ov,[4;5]); (n_v'aaaa'oovv,[4;4;5;5]); (n_v'aaaa'oooo,[4;4;4;4]); (n_v'aaaa'vvvv,[5;5;5;5]); (n_v'bbbb'ovoo,[6;7;6;6]); (n_f'bb'oo,[6;6]); (n_t2'bbbb,[6;6;7;7]); (n_f'bb'vv,[7;7]); (n_v'aabb'vvvv,[5;5;7;7]); (n_v'aabb'vvoo,[5;5;6;6]); (n_v'aabb'oooo,[4;4;6;6]); (n_f'aa'vv,[5;5]); (n_v'aabb'oovv,[4;4;7;7]); (n_f'aa'oo,[4;4]); (n_t2'aaaa,[4;4;5;5]); (n_t2'abab,[4;6;5;7])]
 [(*86*) Assign (T 17) (Plain (Einsum [(n_v'bbbb'ovov,[0;1;2;3]); (n_t1'bb,[4;3])] [4;0;2;1]));
  (*87*) Assign (T 3) (Plain (Einsum [(n_v'aaaa'ovov,[0;1;2;3]); (n_t1'aa,[4;3])] [4;0;2;1]));
  (*88*) Assign (T 12) (Plain (Transpose n_v'bbbb'ovov [0;2;3;1]));
  (*89*) AddTo (T 12) (Times (Transpose n_v'bbbb'ovov [0;2;1;3]) (-1) 1);
  (*90*) Assign (T 6) (Plain (Transpose n_v'aaaa'ovov [0;2;3;1]));
  (*91*) AddTo (T 6) (Times (Transpose n_v'aaaa'ovov [0;2;1;3]) (-1) 1);
  (*92*) Assign (T 79) (Plain (Einsum [(T 17,[0;1;2;3]); (n_t1'bb,[4;3])] [0;4;2;1]));
  (*93*) Assign (T 73) (Plain (Einsum [(n_v'bbbb'ovvv,[0;1;2;3]); (n_t1'bb,[4;3])] [4;0;1;2]));
  (*94*) Assign (T 69) (Plain (Einsum [(n_v'bbbb'ooov,[0;1;2;3]); (n_t1'bb,[4;3])] [4;0;1;2]));
  (*95*) Assign (T 18) (Plain (Einsum [(n_v'aabb'ovov,[0;1;2;3]); (n_t1'bb,[4;3])] [0;4;2;1]));
  (*96*) Assign (T 40) (Plain (Einsum [(n_t1'aa,[0;1]); (T 3,[2;3;4;1])] [2;0;4;3]));
  (*97*) Assign (T 34) (Plain (Einsum [(n_t1'aa,[0;1]); (n_v'aaaa'ooov,[2;3;4;1])] [0;2;3;4]));
  (*98*) Assign (T 37) (Plain (Einsum [(n_v'aaaa'ovvv,[0;1;2;3]); (n_t1'aa,[4;3])] [4;0;1;2]));
  (*99*) Assign (T 13) (Plain (Einsum [(T 12,[0;1;2;3]); (n_t1'bb,[0;2])] [1;3]));
  (*100*) Del (T 12);
  (*101*) Assign (T 11) (Plain (Einsum [(n_t1'aa,[0;1]); (n_v'aabb'ovov,[0;1;2;3])] [2;3]));
  (*102*) Assign (T 7) (Plain (Einsum [(T 6,[0;1;2;3]); (n_t1'aa,[0;2])] [1;3]));
  (*103*) Del (T 6);
  (*104*) Assign (T 1) (Plain (Einsum [(n_v'aabb'ovov,[0;1;2;3]); (n_t1'bb,[2;3])] [0;1]));
  (*105*) Assign (T 62) (Plain (Einsum [(n_t1'bb,[0;1]); (n_v'bbbb'oooo,[2;3;4;0])] [2;3;4;1]));
  (*106*) Assign (T 80) (Plain (Einsum [(n_t1'bb,[0;1]); (T 79,[2;3;0;4])] [3;2;4;1]));
  (*107*) Del (T 79);
  (*108*) Assign (T 66) (Plain (Einsum [(n_v'bbbb'oovv,[0;1;2;3]); (n_t1'bb,[4;3])] [4;0;1;2]));
  (*109*) Assign (T 75) (Plain (Einsum [(n_t1'bb,[0;1]); (n_v'bbbb'vvvv,[2;3;4;1])] [0;2;3;4]));
  (*110*) Assign (T 77) (Plain (Einsum [(T 73,[0;1;2;3]); (n_t1'bb,[4;2])] [4;0;1;3]));
  (*111*) Assign (T 48) (Plain (Einsum [(n_t1'bb,[0;1]); (n_f'bb'ov,[0;2])] [2;1]));
  (*112*) Assign (T 70) (Plain (Einsum [(T 69,[0;1;2;3]); (n_t1'bb,[3;4])] [0;2;1;4]));
  (*113*) Del (T 69);
  (*114*) Assign (T 52) (Plain (Einsum [(n_t1'bb,[0;1]); (n_f'bb'ov,[2;1])] [2;0]));
  (*115*) Assign (T 57) (Plain (Einsum [(n_v'aabb'vvov,[0;1;2;3]); (n_t1'bb,[4;3])] [4;2;0;1]));
  (*116*) Assign (T 58) (Plain (Einsum [(n_t1'aa,[0;1]); (T 18,[2;3;4;1])] [0;2;3;4]));
  (*117*) Assign (T 55) (Plain (Einsum [(n_v'aabb'ovvv,[0;1;2;3]); (n_t1'bb,[4;3])] [0;4;1;2]));
  (*118*) Assign (T 50) (Plain (Einsum [(n_v'aabb'ooov,[0;1;2;3]); (n_t1'bb,[4;3])] [0;1;4;2]));
  (*119*) Assign (T 53) (Plain (Einsum [(n_t1'aa,[0;1]); (n_v'aabb'ovoo,[2;1;3;4])] [0;2;3;4]));
  (*120*) Assign (T 27) (Plain (Einsum [(n_t1'aa,[0;1]); (n_f'aa'ov,[0;2])] [2;1]));
  (*121*) Assign (T 32) (Plain (Einsum [(n_t1'aa,[0;1]); (n_f'aa'ov,[2;1])] [2;0]));
  (*122*) Assign (T 41) (Plain (Einsum [(T 40,[0;1;2;3]); (n_t1'aa,[2;4])] [1;0;3;4]));
  (*123*) Del (T 40);
  (*124*) Assign (T 35) (Plain (Einsum [(T 34,[0;1;2;3]); (n_t1'aa,[3;4])] [0;2;1;4]));
  (*125*) Del (T 34);
  (*126*) Assign (T 30) (Plain (Einsum [(n_t1'aa,[0;1]); (n_v'aaaa'oovv,[2;3;4;1])] [0;2;3;4]));
  (*127*) Assign (T 24) (Plain (Einsum [(n_v'aaaa'oooo,[0;1;2;3]); (n_t1'aa,[3;4])] [0;1;2;4]));
  (*128*) Assign (T 45) (Plain (Einsum [(n_v'aaaa'vvvv,[0;1;2;3]); (n_t1'aa,[4;3])] [4;0;1;2]));
  (*129*) Assign (T 43) (Plain (Einsum [(T 37,[0;1;2;3]); (n_t1'aa,[4;2])] [4;0;1;3]));
  (*130*) Assign (T 22) (Plain (Copy n_v'bbbb'ooov));
  (*131*) AddTo (T 22) (Times (Transpose n_v'bbbb'ovoo [0;2;3;1]) (-1) 1);
  (*132*) Assign (T 14) (Plain (Copy n_f'bb'ov));
  (*133*) AddTo (T 14) (Plain (Copy (T 11)));
  (*134*) AddTo (T 14) (Times (Copy (T 13)) (-1) 1);
  (*135*) Del (T 13);
  (*136*) Assign (T 15) (Times (Copy n_v'aaaa'ooov) (-1) 1);
  (*137*) AddTo (T 15) (Plain (Transpose n_v'aaaa'ooov [0;2;1;3]));
  (*138*) Assign (T 8) (Plain (Copy n_f'aa'ov));
  (*139*) AddTo (T 8) (Plain (Copy (T 1)));
  (*140*) AddTo (T 8) (Times (Copy (T 7)) (-1) 1);
  (*141*) Del (T 7);
  (*142*) Assign (T 63) (Plain (Einsum [(n_t1'bb,[0;1]); (T 62,[2;0;3;4])] [2;3;1;4]));
  (*143*) Del (T 62);
  (*144*) Assign (T 81) (Plain (Einsum [(T 80,[0;1;2;3]); (n_t1'bb,[2;4])] [0;1;4;3]));
  (*145*) Del (T 80);
  (*146*) Assign (T 64) (Plain (Einsum [(n_f'bb'oo,[0;1]); (n_t2'bbbb,[2;1;3;4])] [0;2;3;4]));
  (*147*) Assign (T 74) (Plain (Einsum [(n_t1'bb,[0;1]); (n_v'bbbb'ooov,[2;0;3;4])] [2;3;1;4]));
  (*148*) Assign (T 67) (Plain (Einsum [(n_t1'bb,[0;1]); (T 66,[2;3;0;4])] [2;3;1;4]));
  (*149*) Del (T 66);
  (*150*) Assign (T 76) (Plain (Einsum [(T 75,[0;1;2;3]); (n_t1'bb,[4;2])] [4;0;1;3]));
  (*151*) Del (T 75);
  (*152*) Assign (T 78) (Plain (Einsum [(n_t1'bb,[0;1]); (T 77,[2;3;0;4])] [2;3;1;4]));
  (*153*) Del (T 77);
  (*154*) Assign (T 72) (Plain (Einsum [(T 17,[0;1;2;3]); (n_t1'bb,[2;4])] [0;1;4;3]));
  (*155*) Assign (T 49) (Plain (Copy n_f'bb'vv));
  (*156*) AddTo (T 49) (Times (Copy (T 48)) (-1) 1);
  (*157*) Assign (T 65) (Plain (Copy n_f'bb'vv));
  (*158*) AddTo (T 65) (Times (Copy (T 48)) (-1) 1);
  (*159*) Del (T 48);
  (*160*) Assign (T 71) (Plain (Einsum [(n_t1'bb,[0;1]); (T 70,[2;0;3;4])] [2;3;1;4]));
  (*161*) Del (T 70);
  (*162*) Assign (T 68) (Plain (Einsum [(n_t2'bbbb,[0;1;2;3]); (T 52,[1;4])] [4;0;2;3]));
  (*163*) Assign (T 59) (Plain (Einsum [(n_t1'aa,[0;1]); (T 57,[2;3;4;1])] [0;2;3;4]));
  (*164*) Del (T 57);
  (*165*) AddTo (T 59) (Times (Einsum [(n_t1'aa,[0;1]); (T 58,[2;0;3;4])] [2;3;4;1]) (-1) 1);
  (*166*) Del (T 58);
  (*167*) Assign (T 61) (Plain (Einsum [(n_t1'aa,[0;1]); (T 55,[2;3;1;4])] [0;2;3;4]));
  (*168*) Assign (T 51) (Plain (Einsum [(T 50,[0;1;2;3]); (n_t1'bb,[3;4])] [1;0;2;4]));
  (*169*) Del (T 50);
  (*170*) Assign (T 56) (Plain (Transpose n_v'aabb'vvov [2;0;1;3]));
  (*171*) AddTo (T 56) (Plain (Einsum [(n_v'aabb'vvvv,[0;1;2;3]); (n_t1'bb,[4;3])] [4;0;1;2]));
  (*172*) Assign (T 54) (Plain (Einsum [(n_t1'aa,[0;1]); (n_v'aabb'vvoo,[2;1;3;4])] [0;3;4;2]));
  (*173*) AddTo (T 54) (Times (Einsum [(n_t1'aa,[0;1]); (T 53,[2;0;3;4])] [2;3;4;1]) (-1) 1);
  (*174*) Del (T 53);
  (*175*) Assign (T 47) (Plain (Einsum [(n_v'aabb'oooo,[0;1;2;3]); (n_t1'bb,[3;4])] [0;1;2;4]));
  (*176*) Assign (T 28) (Plain (Copy n_f'aa'vv));
  (*177*) AddTo (T 28) (Times (Copy (T 27)) (-1) 1);
  (*178*) Assign (T 60) (Plain (Einsum [(n_v'aabb'oovv,[0;1;2;3]); (n_t1'bb,[4;3])] [0;1;4;2]));
  (*179*) Assign (T 2) (Plain (Einsum [(n_t1'aa,[0;1]); (n_v'aabb'ovov,[2;1;3;4])] [0;2;3;4]));
  (*180*) Assign (T 26) (Plain (Einsum [(n_f'aa'oo,[0;1]); (n_t2'aaaa,[2;1;3;4])] [0;2;3;4]));
  (*181*) Assign (T 33) (Plain (Einsum [(T 32,[0;1]); (n_t2'aaaa,[2;0;3;4])] [1;2;3;4]));
  (*182*) Assign (T 42) (Plain (Einsum [(T 41,[0;1;2;3]); (n_t1'aa,[2;4])] [0;1;4;3]));
  (*183*) Del (T 41);
  (*184*) Assign (T 39) (Plain (Einsum [(n_v'aaaa'ooov,[0;1;2;3]); (n_t1'aa,[1;4])] [0;2;4;3]));
  (*185*) Assign (T 36) (Plain (Einsum [(n_t1'aa,[0;1]); (T 35,[2;0;3;4])] [2;3;1;4]));
  (*186*) Del (T 35);
  (*187*) Assign (T 31) (Plain (Einsum [(T 30,[0;1;2;3]); (n_t1'aa,[2;4])] [0;1;4;3]));
  (*188*) Del (T 30);
  (*189*) Assign (T 38) (Plain (Einsum [(T 3,[0;1;2;3]); (n_t1'aa,[2;4])] [0;1;4;3]));
  (*190*) Assign (T 29) (Plain (Copy n_f'aa'vv));
  (*191*) AddTo (T 29) (Times (Copy (T 27)) (-1) 1);
  (*192*) Del (T 27);
  (*193*) Assign (T 25) (Plain (Einsum [(T 24,[0;1;2;3]); (n_t1'aa,[1;4])] [0;2;4;3]));
  (*194*) Del (T 24);
  (*195*) Assign (T 46) (Plain (Einsum [(T 45,[0;1;2;3]); (n_t1'aa,[4;2])] [4;0;1;3]));
  (*196*) Del (T 45);
  (*197*) Assign (T 44) (Plain (Einsum [(T 43,[0;1;2;3]); (n_t1'aa,[2;4])] [0;1;4;3]));
  (*198*) Del (T 43);
  (*199*) Assign (T 23) (Plain (Copy n_f'bb'oo));
  (*200*) AddTo (T 23) (Plain (Einsum [(n_t1'aa,[0;1]); (n_v'aabb'ovoo,[0;1;2;3])] [2;3]));
  (*201*) AddTo (T 23) (Times (Einsum [(n_t1'bb,[0;1]); (T 22,[0;2;3;1])] [3;2]) (-1) 1);
  (*202*) Del (T 22);
  (*203*) Assign (T 19) (Times (Copy n_t2'bbbb) (2) 1);
  (*204*) AddTo (T 19) (Plain (Einsum [(n_t1'bb,[0;1]); (n_t1'bb,[2;3])] [2;0;3;1]));
  (*205*) Assign (T 20) (Plain (Einsum [(n_v'aabb'ovov,[0;1;2;3]); (n_t2'abab,[0;4;1;3])] [2;4]));
  (*206*) AddTo (T 20) (Times (Einsum [(n_t2'bbbb,[0;1;2;3]); (n_v'bbbb'ovov,[4;3;1;2])] [4;0]) (-2) 1);
  (*207*) AddTo (T 20) (Plain (Einsum [(T 14,[0;1]); (n_t1'bb,[2;1])] [0;2]));
  (*208*) Assign (T 4) (Plain (Copy n_t2'abab));
  (*209*) AddTo (T 4) (Plain (Einsum [(n_t1'aa,[0;1]); (n_t1'bb,[2;3])] [0;2;1;3]));
  (*210*) Assign (T 21) (Plain (Copy n_f'bb'vv));
  (*211*) AddTo (T 21) (Times (Einsum [(n_t1'bb,[0;1]); (n_v'bbbb'ovvv,[0;2;3;1])] [2;3]) (-1) 1);
  (*212*) Assign (T 5) (Times (Copy n_t2'aaaa) (2) 1);
  (*213*) AddTo (T 5) (Plain (Einsum [(n_t1'aa,[0;1]); (n_t1'aa,[2;3])] [0;2;1;3]));
  (*214*) Assign (T 10) (Plain (Copy n_f'aa'vv));
  (*215*) AddTo (T 10) (Times (Einsum [(n_v'aaaa'ovvv,[0;1;2;3]); (n_t1'aa,[0;3])] [1;2]) (-1) 1);
  (*216*) Assign (T 16) (Plain (Copy n_f'aa'oo));
  (*217*) AddTo (T 16) (Plain (Einsum [(n_v'aabb'ooov,[0;1;2;3]); (n_t1'bb,[2;3])] [0;1]));
  (*218*) AddTo (T 16) (Times (Einsum [(T 15,[0;1;2;3]); (n_t1'aa,[2;3])] [1;0]) (-1) 1);
  (*219*) Del (T 15);
  (*220*) Assign (T 9) (Times (Einsum [(n_v'aaaa'ovov,[0;1;2;3]); (n_t2'aaaa,[4;2;3;1])] [0;4]) (-2) 1);
  (*221*) AddTo (T 9) (Plain (Einsum [(n_t2'abab,[0;1;2;3]); (n_v'aabb'ovov,[4;2;1;3])] [4;0]));
  (*222*) AddTo (T 9) (Plain (Einsum [(n_t1'aa,[0;1]); (T 8,[2;1])] [2;0]));
  (*223*) Assign n_t2new'bbbb (Plain (Copy (T 63)));
  (*224*) AddTo n_t2new'bbbb (Times (Transpose (T 64) [1;0;3;2]) (2) 1);
  (*225*) AddTo n_t2new'bbbb (Times (Transpose (T 63) [0;1;3;2]) (-1) 1);
  (*226*) Del (T 63);
  (*227*) AddTo n_t2new'bbbb (Times (Transpose (T 64) [0;1;3;2]) (-2) 1);
  (*228*) Del (T 64);
  (*229*) AddTo n_t2new'bbbb (Times (Einsum [(T 65,[0;1]); (n_t2'bbbb,[2;3;4;0])] [2;3;1;4]) (-2) 1);
  (*230*) Del (T 65);
  (*231*) AddTo n_t2new'bbbb (Times (Einsum [(T 49,[0;1]); (n_t2'bbbb,[2;3;4;0])] [2;3;4;1]) (2) 1);
  (*232*) AddTo n_t2new'bbbb (Plain (Transpose (T 67) [1;0;3;2]));
  (*233*) AddTo n_t2new'bbbb (Times (Transpose (T 68) [1;0;3;2]) (2) 1);
  (*234*) AddTo n_t2new'bbbb (Plain (Transpose (T 71) [1;0;2;3]));
  (*235*) AddTo n_t2new'bbbb (Times (Transpose (T 71) [1;0;3;2]) (-1) 1);
  (*236*) AddTo n_t2new'bbbb (Times (Transpose (T 67) [1;0;2;3]) (-1) 1);
  (*237*) AddTo n_t2new'bbbb (Times (Transpose (T 68) [0;1;3;2]) (-2) 1);
  (*238*) Del (T 68);
  (*239*) AddTo n_t2new'bbbb (Times (Transpose (T 67) [0;1;3;2]) (-1) 1);
  (*240*) AddTo n_t2new'bbbb (Times (Copy (T 71)) (-1) 1);
  (*241*) AddTo n_t2new'bbbb (Plain (Transpose (T 71) [0;1;3;2]));
  (*242*) Del (T 71);
  (*243*) AddTo n_t2new'bbbb (Plain (Copy (T 67)));
  (*244*) Del (T 67);
  (*245*) AddTo n_t2new'bbbb (Plain (Transpose n_v'bbbb'ovov [0;2;1;3]));
  (*246*) AddTo n_t2new'bbbb (Times (Transpose (T 72) [1;0;3;2]) (-1) 1);
  (*247*) AddTo n_t2new'bbbb (Plain (Transpose (T 73) [1;0;2;3]));
  (*248*) AddTo n_t2new'bbbb (Times (Transpose n_v'bbbb'ovov [0;2;3;1]) (-1) 1);
  (*249*) AddTo n_t2new'bbbb (Plain (Transpose (T 72) [0;1;3;2]));
  (*250*) AddTo n_t2new'bbbb (Times (Copy (T 73)) (-1) 1);
  (*251*) AddTo n_t2new'bbbb (Plain (Transpose (T 74) [0;1;3;2]));
  (*252*) AddTo n_t2new'bbbb (Times (Transpose (T 74) [1;0;3;2]) (-1) 1);
  (*253*) AddTo n_t2new'bbbb (Times (Copy (T 74)) (-1) 1);
  (*254*) AddTo n_t2new'bbbb (Plain (Transpose (T 74) [1;0;2;3]));
  (*255*) Del (T 74);
  (*256*) AddTo n_t2new'bbbb (Plain (Transpose (T 73) [0;1;3;2]));
  (*257*) AddTo n_t2new'bbbb (Plain (Copy (T 76)));
  (*258*) AddTo n_t2new'bbbb (Times (Transpose (T 76) [0;1;3;2]) (-1) 1);
  (*259*) Del (T 76);
  (*260*) AddTo n_t2new'bbbb (Plain (Transpose (T 78) [0;1;3;2]));
  (*261*) AddTo n_t2new'bbbb (Times (Transpose (T 78) [1;0;3;2]) (-1) 1);
  (*262*) AddTo n_t2new'bbbb (Plain (Copy (T 81)));
  (*263*) AddTo n_t2new'bbbb (Times (Transpose (T 81) [0;1;3;2]) (-1) 1);
  (*264*) Del (T 81);
  (*265*) AddTo n_t2new'bbbb (Times (Transpose (T 73) [1;0;3;2]) (-1) 1);
  (*266*) Del (T 73);
  (*267*) AddTo n_t2new'bbbb (Times (Copy (T 72)) (-1) 1);
  (*268*) AddTo n_t2new'bbbb (Plain (Transpose (T 72) [1;0;2;3]));
  (*269*) Del (T 72);
  (*270*) AddTo n_t2new'bbbb (Times (Copy (T 78)) (-1) 1);
  (*271*) AddTo n_t2new'bbbb (Plain (Transpose (T 78) [1;0;2;3]));
  (*272*) Del (T 78);
  (*273*) Assign n_t2new'abab (Times (Einsum [(n_t2'abab,[0;1;2;3]); (n_f'bb'oo,[4;1])] [0;4;2;3]) (-1) 1);
  (*274*) AddTo n_t2new'abab (Plain (Einsum [(T 47,[0;1;2;3]); (n_t1'aa,[1;4])] [0;2;4;3]));
  (*275*) Del (T 47);
  (*276*) AddTo n_t2new'abab (Times (Einsum [(n_f'aa'oo,[0;1]); (n_t2'abab,[1;2;3;4])] [0;2;3;4]) (-1) 1);
  (*277*) AddTo n_t2new'abab (Plain (Einsum [(n_t2'abab,[0;1;2;3]); (T 28,[2;4])] [0;1;4;3]));
  (*278*) AddTo n_t2new'abab (Plain (Einsum [(n_t2'abab,[0;1;2;3]); (T 49,[3;4])] [0;1;2;4]));
  (*279*) Del (T 49);
  (*280*) AddTo n_t2new'abab (Plain (Einsum [(T 51,[0;1;2;3]); (n_t1'aa,[0;4])] [1;2;4;3]));
  (*281*) Del (T 51);
  (*282*) AddTo n_t2new'abab (Times (Einsum [(T 52,[0;1]); (n_t2'abab,[2;0;3;4])] [2;1;3;4]) (-1) 1);
  (*283*) Del (T 52);
  (*284*) AddTo n_t2new'abab (Times (Einsum [(n_t2'abab,[0;1;2;3]); (T 32,[0;4])] [4;1;2;3]) (-1) 1);
  (*285*) Del (T 32);
  (*286*) AddTo n_t2new'abab (Times (Einsum [(T 54,[0;1;2;3]); (n_t1'bb,[1;4])] [0;2;3;4]) (-1) 1);
  (*287*) Del (T 54);
  (*288*) AddTo n_t2new'abab (Plain (Transpose n_v'aabb'ovov [0;2;1;3]));
  (*289*) AddTo n_t2new'abab (Times (Einsum [(T 18,[0;1;2;3]); (n_t1'bb,[2;4])] [0;1;3;4]) (-1) 1);
  (*290*) AddTo n_t2new'abab (Plain (Copy (T 55)));
  (*291*) Del (T 55);
  (*292*) AddTo n_t2new'abab (Times (Einsum [(n_v'aabb'ovoo,[0;1;2;3]); (n_t1'bb,[3;4])] [0;2;1;4]) (-1) 1);
  (*293*) AddTo n_t2new'abab (Times (Einsum [(n_t1'aa,[0;1]); (n_v'aabb'ooov,[2;0;3;4])] [2;3;1;4]) (-1) 1);
  (*294*) AddTo n_t2new'abab (Plain (Einsum [(n_t1'aa,[0;1]); (T 56,[2;1;3;4])] [0;2;3;4]));
  (*295*) Del (T 56);
  (*296*) AddTo n_t2new'abab (Times (Einsum [(T 59,[0;1;2;3]); (n_t1'bb,[2;4])] [0;1;3;4]) (-1) 1);
  (*297*) Del (T 59);
  (*298*) AddTo n_t2new'abab (Times (Einsum [(n_t1'aa,[0;1]); (T 2,[2;0;3;4])] [2;3;1;4]) (-1) 1);
  (*299*) AddTo n_t2new'abab (Times (Einsum [(n_t1'aa,[0;1]); (T 60,[2;0;3;4])] [2;3;1;4]) (-1) 1);
  (*300*) Del (T 60);
  (*301*) AddTo n_t2new'abab (Times (Einsum [(n_t1'aa,[0;1]); (T 61,[2;0;3;4])] [2;3;1;4]) (-1) 1);
  (*302*) Del (T 61);
  (*303*) Assign n_t2new'aaaa (Plain (Copy (T 25)));
  (*304*) AddTo n_t2new'aaaa (Times (Transpose (T 26) [1;0;3;2]) (2) 1);
  (*305*) AddTo n_t2new'aaaa (Times (Transpose (T 25) [0;1;3;2]) (-1) 1);
  (*306*) Del (T 25);
  (*307*) AddTo n_t2new'aaaa (Times (Transpose (T 26) [0;1;3;2]) (-2) 1);
  (*308*) Del (T 26);
  (*309*) AddTo n_t2new'aaaa (Times (Einsum [(T 28,[0;1]); (n_t2'aaaa,[2;3;4;0])] [2;3;1;4]) (-2) 1);
  (*310*) Del (T 28);
  (*311*) AddTo n_t2new'aaaa (Times (Einsum [(n_t2'aaaa,[0;1;2;3]); (T 29,[3;4])] [0;1;2;4]) (2) 1);
  (*312*) Del (T 29);
  (*313*) AddTo n_t2new'aaaa (Plain (Transpose (T 31) [1;0;3;2]));
  (*314*) AddTo n_t2new'aaaa (Times (Transpose (T 33) [1;0;3;2]) (2) 1);
  (*315*) AddTo n_t2new'aaaa (Plain (Transpose (T 36) [1;0;2;3]));
  (*316*) AddTo n_t2new'aaaa (Times (Transpose (T 36) [1;0;3;2]) (-1) 1);
  (*317*) AddTo n_t2new'aaaa (Times (Transpose (T 31) [1;0;2;3]) (-1) 1);
  (*318*) AddTo n_t2new'aaaa (Times (Transpose (T 33) [0;1;3;2]) (-2) 1);
  (*319*) Del (T 33);
  (*320*) AddTo n_t2new'aaaa (Times (Transpose (T 31) [0;1;3;2]) (-1) 1);
  (*321*) AddTo n_t2new'aaaa (Times (Copy (T 36)) (-1) 1);
  (*322*) AddTo n_t2new'aaaa (Plain (Transpose (T 36) [0;1;3;2]));
  (*323*) Del (T 36);
  (*324*) AddTo n_t2new'aaaa (Plain (Copy (T 31)));
  (*325*) Del (T 31);
  (*326*) AddTo n_t2new'aaaa (Plain (Transpose (T 37) [1;0;2;3]));
  (*327*) AddTo n_t2new'aaaa (Plain (Transpose n_v'aaaa'ovov [0;2;1;3]));
  (*328*) AddTo n_t2new'aaaa (Times (Transpose (T 38) [1;0;3;2]) (-1) 1);
  (*329*) AddTo n_t2new'aaaa (Times (Copy (T 37)) (-1) 1);
  (*330*) AddTo n_t2new'aaaa (Times (Transpose n_v'aaaa'ovov [0;2;3;1]) (-1) 1);
  (*331*) AddTo n_t2new'aaaa (Plain (Transpose (T 38) [0;1;3;2]));
  (*332*) AddTo n_t2new'aaaa (Plain (Transpose (T 39) [0;1;3;2]));
  (*333*) AddTo n_t2new'aaaa (Times (Transpose (T 39) [1;0;3;2]) (-1) 1);
  (*334*) AddTo n_t2new'aaaa (Times (Copy (T 39)) (-1) 1);
  (*335*) AddTo n_t2new'aaaa (Plain (Transpose (T 39) [1;0;2;3]));
  (*336*) Del (T 39);
  (*337*) AddTo n_t2new'aaaa (Plain (Transpose (T 37) [0;1;3;2]));
  (*338*) AddTo n_t2new'aaaa (Plain (Copy (T 42)));
  (*339*) AddTo n_t2new'aaaa (Times (Transpose (T 42) [0;1;3;2]) (-1) 1);
  (*340*) Del (T 42);
  (*341*) AddTo n_t2new'aaaa (Plain (Transpose (T 44) [0;1;3;2]));
  (*342*) AddTo n_t2new'aaaa (Times (Transpose (T 44) [1;0;3;2]) (-1) 1);
  (*343*) AddTo n_t2new'aaaa (Plain (Copy (T 46)));
  (*344*) AddTo n_t2new'aaaa (Times (Transpose (T 46) [0;1;3;2]) (-1) 1);
  (*345*) Del (T 46);
  (*346*) AddTo n_t2new'aaaa (Times (Transpose (T 37) [1;0;3;2]) (-1) 1);
  (*347*) Del (T 37);
  (*348*) AddTo n_t2new'aaaa (Times (Copy (T 38)) (-1) 1);
  (*349*) AddTo n_t2new'aaaa (Plain (Transpose (T 38) [1;0;2;3]));
  (*350*) Del (T 38);
  (*351*) AddTo n_t2new'aaaa (Times (Copy (T 44)) (-1) 1);
  (*352*) AddTo n_t2new'aaaa (Plain (Transpose (T 44) [1;0;2;3]));
  (*353*) Del (T 44);
  (*354*) Assign n_t1new'bb (Plain (Einsum [(n_t1'bb,[0;1]); (n_v'bbbb'ovov,[2;3;0;1])] [2;3]));
  (*355*) AddTo n_t1new'bb (Plain (Copy n_f'bb'ov));
  (*356*) AddTo n_t1new'bb (Times (Einsum [(n_t2'bbbb,[0;1;2;3]); (T 17,[4;1;0;3])] [4;2]) (-2) 1);
  (*357*) Del (T 17);
  (*358*) AddTo n_t1new'bb (Plain (Copy (T 11)));
  (*359*) Del (T 11);
  (*360*) AddTo n_t1new'bb (Times (Einsum [(T 18,[0;1;2;3]); (n_t2'abab,[0;2;3;4])] [1;4]) (-1) 1);
  (*361*) Del (T 18);
  (*362*) AddTo n_t1new'bb (Plain (Einsum [(T 4,[0;1;2;3]); (n_v'aabb'ovvv,[0;2;4;3])] [1;4]));
  (*363*) AddTo n_t1new'bb (Plain (Einsum [(T 19,[0;1;2;3]); (n_v'bbbb'ovvv,[0;2;4;3])] [1;4]));
  (*364*) Del (T 19);
  (*365*) AddTo n_t1new'bb (Times (Einsum [(T 20,[0;1]); (n_t1'bb,[0;2])] [1;2]) (-1) 1);
  (*366*) Del (T 20);
  (*367*) AddTo n_t1new'bb (Plain (Einsum [(T 21,[0;1]); (n_t1'bb,[2;0])] [2;1]));
  (*368*) Del (T 21);
  (*369*) AddTo n_t1new'bb (Times (Einsum [(n_v'bbbb'oovv,[0;1;2;3]); (n_t1'bb,[1;3])] [0;2]) (-1) 1);
  (*370*) AddTo n_t1new'bb (Times (Einsum [(n_t2'bbbb,[0;1;2;3]); (n_v'bbbb'ooov,[4;0;1;3])] [4;2]) (-2) 1);
  (*371*) AddTo n_t1new'bb (Times (Einsum [(n_v'aabb'ovoo,[0;1;2;3]); (n_t2'abab,[0;3;1;4])] [2;4]) (-1) 1);
  (*372*) AddTo n_t1new'bb (Times (Einsum [(T 14,[0;1]); (n_t2'bbbb,[2;0;3;1])] [2;3]) (2) 1);
  (*373*) AddTo n_t1new'bb (Plain (Einsum [(n_t2'abab,[0;1;2;3]); (T 8,[0;2])] [1;3]));
  (*374*) AddTo n_t1new'bb (Times (Einsum [(T 23,[0;1]); (n_t1'bb,[0;2])] [1;2]) (-1) 1);
  (*375*) Del (T 23);
  (*376*) Assign n_t1new'aa (Plain (Copy (T 1)));
  (*377*) Del (T 1);
  (*378*) AddTo n_t1new'aa (Times (Einsum [(n_t2'abab,[0;1;2;3]); (T 2,[4;0;1;3])] [4;2]) (-1) 1);
  (*379*) Del (T 2);
  (*380*) AddTo n_t1new'aa (Times (Einsum [(T 3,[0;1;2;3]); (n_t2'aaaa,[2;1;4;3])] [0;4]) (-2) 1);
  (*381*) Del (T 3);
  (*382*) AddTo n_t1new'aa (Plain (Copy n_f'aa'ov));
  (*383*) AddTo n_t1new'aa (Plain (Einsum [(n_v'aaaa'ovov,[0;1;2;3]); (n_t1'aa,[2;3])] [0;1]));
  (*384*) AddTo n_t1new'aa (Plain (Einsum [(T 4,[0;1;2;3]); (n_v'aabb'vvov,[4;2;1;3])] [0;4]));
  (*385*) Del (T 4);
  (*386*) AddTo n_t1new'aa (Plain (Einsum [(n_v'aaaa'ovvv,[0;1;2;3]); (T 5,[0;4;1;3])] [4;2]));
  (*387*) Del (T 5);
  (*388*) AddTo n_t1new'aa (Times (Einsum [(n_t1'aa,[0;1]); (T 9,[0;2])] [2;1]) (-1) 1);
  (*389*) Del (T 9);
  (*390*) AddTo n_t1new'aa (Plain (Einsum [(n_t1'aa,[0;1]); (T 10,[1;2])] [0;2]));
  (*391*) Del (T 10);
  (*392*) AddTo n_t1new'aa (Times (Einsum [(n_t2'abab,[0;1;2;3]); (n_v'aabb'ooov,[4;0;1;3])] [4;2]) (-1) 1);
  (*393*) AddTo n_t1new'aa (Times (Einsum [(n_v'aaaa'ooov,[0;1;2;3]); (n_t2'aaaa,[1;2;4;3])] [0;4]) (-2) 1);
  (*394*) AddTo n_t1new'aa (Times (Einsum [(n_v'aaaa'oovv,[0;1;2;3]); (n_t1'aa,[1;3])] [0;2]) (-1) 1);
  (*395*) AddTo n_t1new'aa (Plain (Einsum [(n_t2'abab,[0;1;2;3]); (T 14,[1;3])] [0;2]));
  (*396*) Del (T 14);
  (*397*) AddTo n_t1new'aa (Times (Einsum [(T 8,[0;1]); (n_t2'aaaa,[2;0;3;1])] [2;3]) (2) 1);
  (*398*) Del (T 8);
  (*399*) AddTo n_t1new'aa (Times (Einsum [(T 16,[0;1]); (n_t1'aa,[0;2])] [1;2]) (-1) 1);
  (*400*) Del (T 16)]
 [(n_t1new'bb,[6;7]); (n_t1new'aa,[4;5]); (n_t2new'bbbb,[6;6;7;7]); (n_t2new'abab,[4;6;5;7]); (n_t2new'aaaa,[4;4;5;5])].

(** ebcc/codegen/UCC2.py:404-1353 [update_lams] *)
Definition UCC2_update_lams : prog := mkprog
 [(n_v'bbbb'ovov,[6;7;6;7]); (n_v'aaaa'ovov,[4;5;4;5]); (n_v'aabb'ovov,[4;5;6;7]); (n_t1'bb,[6;7]); (n_v'bbbb'ovvv,[6;7;7;7]); (n_t1'aa,[4;5]); (n_v'aaaa'ovvv,[4;5;5;5]); (n_l1'bb,[7;6]); (n_t2'abab,[4;6;5;7]); (n_l2'abab,[5;7;4;6]); (n_t2'bbbb,[6;6;7;7]); (n_l2'bbbb,[7;7;6;6]); (n_l1'aa,[5;4]); (n_l2'aaaa,[5;5;4;4]); (n_t2'aaaa,[4;4;5;5]); (n_v'aabb'ovoo,[4;5;6;6]); (n_v'aabb'ovvv,[4;5;7;7]); (n_v'aabb'vvov,[5;5;6;7]); (n_v'bbbb'ooov,[6;6;6;7]); (n_v'bbbb'ovoo,[6;7;6;6]); (n_f'bb'ov,[6;7]); (n_v'aaaa'ooov,[4;4;4;5]); (n_v'aaaa'ovoo,[4;5;4;4]); (n_f'aa'ov,[4;5]); (n_v'aabb'ooov,[4;4;6;7]); (n_v'bbbb'oovv,[6;6;7;7]); (n_f'bb'vv,[7;7]); (n_f'aa'vv,[5;5]); (n_v'aaaa'oovv,[4;4;5;5]); (n_v'bbbb'oooo,[6;6;6;6]); (n_v'aabb'oooo,[4;4;6;6]); (n_v'aabb'vvoo,[5;5;6;6]); (n_v'aaaa'oooo,[4;4;4;4]); (n_f'bb'oo,[6;6]); (n_v'bbbb'vvvv,[7;7;7;7]); (n_v'aabb'oovv,[4;4;7;7]); (n_f'aa'oo,[4;4]); (n_v'aabb'vvvv,[5;5;7;7]); (n_v'aaaa'vvvv,[5;5;5;5])]
 [(*433*) Assign (T 93) (Plain (Transpose n_v'bbbb'ovov [0;2;3;1]));
  (*434*) AddTo (T 93) (Times (Transpose n_v'bbbb'ovov [0;2;1;3]) (-1) 1);
  (*435*) Assign (T 151) (Plain (Transpose n_v'aaaa'ovov [0;2;3;1]));
  (*436*) AddTo (T 151) (Times (Transpose n_v'aaaa'ovov [0;2;1;3]) (-1) 1);
  (*437*) Assign (T 8) (Plain (Transpose n_v'aaaa'ovov [0;2;3;1]));
  (*438*) AddTo (T 8) (Times (Transpose n_v'aaaa'ovov [0;2;1;3]) (-1) 1);
  (*439*) Assign (T 3) (Plain (Einsum [(n_v'aabb'ovov,[0;1;2;3]); (n_t1'bb,[4;3])] [0;4;2;1]));
  (*440*) Assign (T 187) (Plain (Transpose n_v'bbbb'ovov [0;2;3;1]));
  (*441*) AddTo (T 187) (Times (Transpose n_v'bbbb'ovov [0;2;1;3]) (-1) 1);
  (*442*) Assign (T 205) (Plain (Copy n_v'bbbb'ovvv));
  (*443*) AddTo (T 205) (Times (Transpose n_v'bbbb'ovvv [0;2;3;1]) (-1) 1);
  (*444*) Assign (T 218) (Times (Copy n_v'bbbb'ovvv) (-1) 1);
  (*445*) AddTo (T 218) (Plain (Transpose n_v'bbbb'ovvv [0;2;3;1]));
  (*446*) Assign (T 92) (Plain (Einsum [(n_t1'aa,[0;1]); (n_v'aabb'ovov,[0;1;2;3])] [2;3]));
  (*447*) Assign (T 94) (Plain (Einsum [(T 93,[0;1;2;3]); (n_t1'bb,[0;2])] [1;3]));
  (*448*) Del (T 93);
  (*449*) Assign (T 7) (Plain (Einsum [(n_v'aabb'ovov,[0;1;2;3]); (n_t1'bb,[2;3])] [0;1]));
  (*450*) Assign (T 152) (Plain (Einsum [(T 151,[0;1;2;3]); (n_t1'aa,[0;2])] [1;3]));
  (*451*) Del (T 151);
  (*452*) Assign (T 162) (Plain (Copy n_v'aaaa'ovvv));
  (*453*) AddTo (T 162) (Times (Transpose n_v'aaaa'ovvv [0;2;1;3]) (-1) 1);
  (*454*) Assign (T 143) (Plain (Copy n_v'aaaa'ovvv));
  (*455*) AddTo (T 143) (Times (Transpose n_v'aaaa'ovvv [0;2;3;1]) (-1) 1);
  (*456*) Assign (T 9) (Plain (Einsum [(T 8,[0;1;2;3]); (n_t1'aa,[0;2])] [1;3]));
  (*457*) Del (T 8);
  (*458*) Assign (T 53) (Plain (Einsum [(n_l1'bb,[0;1]); (n_t1'bb,[2;0])] [1;2]));
  (*459*) Assign (T 54) (Plain (Einsum [(n_t2'abab,[0;1;2;3]); (n_l2'abab,[2;3;0;4])] [4;1]));
  (*460*) Assign (T 55) (Plain (Einsum [(n_t2'bbbb,[0;1;2;3]); (n_l2'bbbb,[2;3;4;1])] [4;0]));
  (*461*) Assign (T 90) (Plain (Einsum [(n_v'bbbb'ovov,[0;1;2;3]); (n_t1'bb,[4;3])] [4;0;2;1]));
  (*462*) Assign (T 43) (Plain (Einsum [(n_t2'abab,[0;1;2;3]); (n_l2'abab,[2;3;4;1])] [4;0]));
  (*463*) Assign (T 41) (Plain (Einsum [(n_t1'aa,[0;1]); (n_l1'aa,[1;2])] [2;0]));
  (*464*) Assign (T 42) (Plain (Einsum [(n_l2'aaaa,[0;1;2;3]); (n_t2'aaaa,[4;3;0;1])] [2;4]));
  (*465*) Assign (T 49) (Plain (Einsum [(n_l2'abab,[0;1;2;3]); (n_t1'bb,[4;1])] [2;3;4;0]));
  (*466*) Assign (T 15) (Plain (Transpose n_v'aabb'ovoo [0;2;3;1]));
  (*467*) AddTo (T 15) (Plain (Copy (T 3)));
  (*468*) Assign (T 1) (Plain (Einsum [(n_t1'aa,[0;1]); (n_v'aaaa'ovov,[2;3;4;1])] [0;2;4;3]));
  (*469*) Assign (T 37) (Plain (Einsum [(n_t1'aa,[0;1]); (n_l2'aaaa,[2;1;3;4])] [3;4;0;2]));
  (*470*) Assign (T 188) (Plain (Einsum [(n_t1'bb,[0;1]); (T 187,[0;2;1;3])] [2;3]));
  (*471*) Del (T 187);
  (*472*) Assign (T 206) (Plain (Einsum [(T 205,[0;1;2;3]); (n_t1'bb,[4;1])] [0;4;2;3]));
  (*473*) Del (T 205);
  (*474*) Assign (T 51) (Plain (Einsum [(n_t1'bb,[0;1]); (n_l2'bbbb,[2;1;3;4])] [3;4;0;2]));
  (*475*) Assign (T 128) (Plain (Einsum [(n_t1'aa,[0;1]); (n_v'aabb'ovvv,[0;1;2;3])] [2;3]));
  (*476*) Assign (T 219) (Plain (Einsum [(T 218,[0;1;2;3]); (n_t1'bb,[0;1])] [2;3]));
  (*477*) Del (T 218);
  (*478*) Assign (T 176) (Plain (Einsum [(n_t1'aa,[0;1]); (n_v'aabb'vvov,[2;1;3;4])] [0;3;2;4]));
  (*479*) Assign (T 107) (Plain (Copy n_v'bbbb'ooov));
  (*480*) AddTo (T 107) (Times (Transpose n_v'bbbb'ovoo [0;2;3;1]) (-1) 1);
  (*481*) Assign (T 95) (Plain (Copy n_f'bb'ov));
  (*482*) AddTo (T 95) (Plain (Copy (T 92)));
  (*483*) AddTo (T 95) (Times (Copy (T 94)) (-1) 1);
  (*484*) Del (T 94);
  (*485*) Assign (T 86) (Plain (Copy n_v'aaaa'ovvv));
  (*486*) AddTo (T 86) (Times (Transpose n_v'aaaa'ovvv [0;2;1;3]) (-1) 1);
  (*487*) Assign (T 149) (Times (Copy n_v'aaaa'ooov) (-1) 1);
  (*488*) AddTo (T 149) (Plain (Transpose n_v'aaaa'ovoo [0;2;3;1]));
  (*489*) Assign (T 153) (Plain (Copy n_f'aa'ov));
  (*490*) AddTo (T 153) (Plain (Copy (T 7)));
  (*491*) AddTo (T 153) (Times (Copy (T 152)) (-1) 1);
  (*492*) Del (T 152);
  (*493*) Assign (T 85) (Plain (Einsum [(n_v'aabb'vvov,[0;1;2;3]); (n_t1'bb,[2;3])] [0;1]));
  (*494*) Assign (T 163) (Plain (Einsum [(T 162,[0;1;2;3]); (n_t1'aa,[0;2])] [1;3]));
  (*495*) Del (T 162);
  (*496*) Assign (T 144) (Plain (Einsum [(n_t1'aa,[0;1]); (T 143,[2;1;3;4])] [2;0;3;4]));
  (*497*) Del (T 143);
  (*498*) Assign (T 11) (Plain (Einsum [(n_v'aabb'ovvv,[0;1;2;3]); (n_t1'bb,[4;3])] [0;4;1;2]));
  (*499*) Assign (T 10) (Plain (Copy n_f'aa'ov));
  (*500*) AddTo (T 10) (Plain (Copy (T 7)));
  (*501*) AddTo (T 10) (Times (Copy (T 9)) (-1) 1);
  (*502*) Del (T 9);
  (*503*) Assign (T 61) (Times (Copy n_v'aaaa'ooov) (-1) 1);
  (*504*) AddTo (T 61) (Plain (Transpose n_v'aaaa'ovoo [0;2;3;1]));
  (*505*) Assign (T 56) (Plain (Copy (T 53)));
  (*506*) AddTo (T 56) (Plain (Copy (T 54)));
  (*507*) AddTo (T 56) (Times (Copy (T 55)) (2) 1);
  (*508*) Assign (T 102) (Plain (Einsum [(n_v'bbbb'ooov,[0;1;2;3]); (n_t1'bb,[4;3])] [4;0;1;2]));
  (*509*) Assign (T 101) (Plain (Einsum [(T 90,[0;1;2;3]); (n_t1'bb,[4;3])] [4;0;1;2]));
  (*510*) Assign (T 39) (Plain (Einsum [(n_t1'aa,[0;1]); (n_l2'abab,[1;2;3;4])] [3;0;4;2]));
  (*511*) Assign (T 44) (Times (Copy (T 41)) (1) 2);
  (*512*) AddTo (T 44) (Plain (Copy (T 42)));
  (*513*) AddTo (T 44) (Times (Copy (T 43)) (1) 2);
  (*514*) Assign (T 71) (Plain (Einsum [(n_t2'abab,[0;1;2;3]); (n_l2'abab,[2;3;4;5])] [4;0;5;1]));
  (*515*) Assign (T 72) (Plain (Einsum [(T 49,[0;1;2;3]); (n_t1'aa,[4;3])] [0;4;1;2]));
  (*516*) Assign (T 13) (Plain (Einsum [(n_v'aabb'ooov,[0;1;2;3]); (n_t1'bb,[4;3])] [0;1;4;2]));
  (*517*) Assign (T 14) (Plain (Einsum [(n_t2'abab,[0;1;2;3]); (n_v'aabb'ovov,[4;2;5;3])] [0;4;1;5]));
  (*518*) Assign (T 16) (Plain (Einsum [(n_t1'aa,[0;1]); (T 15,[2;3;4;1])] [0;2;3;4]));
  (*519*) Assign (T 5) (Plain (Einsum [(n_t1'aa,[0;1]); (n_v'aabb'ovov,[2;1;3;4])] [0;2;3;4]));
  (*520*) Assign (T 96) (Plain (Einsum [(n_v'aabb'vvov,[0;1;2;3]); (n_t1'bb,[4;3])] [4;2;0;1]));
  (*521*) Assign (T 22) (Plain (Einsum [(n_t1'aa,[0;1]); (T 1,[2;3;4;1])] [0;2;3;4]));
  (*522*) Assign (T 23) (Plain (Einsum [(n_t1'aa,[0;1]); (n_v'aaaa'ooov,[2;3;4;1])] [0;2;3;4]));
  (*523*) Assign (T 67) (Plain (Einsum [(T 37,[0;1;2;3]); (n_t1'aa,[4;3])] [1;0;2;4]));
  (*524*) Assign (T 66) (Plain (Einsum [(n_t2'aaaa,[0;1;2;3]); (n_l2'aaaa,[2;3;4;5])] [4;5;0;1]));
  (*525*) Assign (T 106) (Plain (Einsum [(n_t1'aa,[0;1]); (n_v'aabb'ovoo,[0;1;2;3])] [2;3]));
  (*526*) Assign (T 189) (Plain (Copy n_f'bb'ov));
  (*527*) AddTo (T 189) (Plain (Copy (T 92)));
  (*528*) AddTo (T 189) (Times (Copy (T 188)) (-1) 1);
  (*529*) Del (T 188);
  (*530*) Assign (T 210) (Plain (Copy n_v'bbbb'ooov));
  (*531*) AddTo (T 210) (Times (Transpose n_v'bbbb'ovoo [0;2;3;1]) (-1) 1);
  (*532*) Assign (T 215) (Times (Copy n_v'bbbb'ovvv) (-1) 1);
  (*533*) AddTo (T 215) (Plain (Transpose n_v'bbbb'ovvv [0;2;3;1]));
  (*534*) Assign (T 207) (Plain (Transpose n_v'bbbb'ovov [0;2;3;1]));
  (*535*) AddTo (T 207) (Times (Copy n_v'bbbb'oovv) (-1) 1);
  (*536*) AddTo (T 207) (Times (Transpose (T 206) [1;0;3;2]) (-1) 1);
  (*537*) Del (T 206);
  (*538*) Assign (T 105) (Plain (Copy n_v'bbbb'ovvv));
  (*539*) AddTo (T 105) (Times (Transpose n_v'bbbb'ovvv [0;2;3;1]) (-1) 1);
  (*540*) Assign (T 121) (Plain (Einsum [(n_t1'bb,[0;1]); (T 51,[2;3;4;1])] [3;2;4;0]));
  (*541*) Assign (T 220) (Plain (Copy n_f'bb'vv));
  (*542*) AddTo (T 220) (Plain (Transpose (T 128) [1;0]));
  (*543*) AddTo (T 220) (Times (Transpose (T 219) [1;0]) (-1) 1);
  (*544*) Del (T 219);
  (*545*) Assign (T 178) (Plain (Einsum [(n_t1'bb,[0;1]); (n_v'bbbb'ovov,[2;3;0;1])] [2;3]));
  (*546*) Assign (T 177) (Plain (Transpose n_v'aabb'ovov [0;2;1;3]));
  (*547*) AddTo (T 177) (Plain (Copy (T 176)));
  (*548*) Assign (T 195) (Plain (Transpose n_v'bbbb'ooov [0;2;1;3]));
  (*549*) AddTo (T 195) (Plain (Copy (T 90)));
  (*550*) Assign (T 181) (Plain (Einsum [(n_t1'bb,[0;1]); (T 107,[0;2;3;1])] [2;3]));
  (*551*) Assign (T 182) (Plain (Einsum [(T 95,[0;1]); (n_t1'bb,[2;1])] [2;0]));
  (*552*) Assign (T 30) (Times (Copy n_v'aaaa'ovvv) (-1) 1);
  (*553*) AddTo (T 30) (Plain (Transpose n_v'aaaa'ovvv [0;2;1;3]));
  (*554*) Assign (T 141) (Plain (Einsum [(n_v'aaaa'ovov,[0;1;2;3]); (n_t1'aa,[2;3])] [0;1]));
  (*555*) Assign (T 87) (Plain (Einsum [(n_t1'aa,[0;1]); (T 86,[0;2;1;3])] [2;3]));
  (*556*) Del (T 86);
  (*557*) Assign (T 174) (Times (Copy n_v'bbbb'ovvv) (-1) 1);
  (*558*) AddTo (T 174) (Plain (Transpose n_v'bbbb'ovvv [0;2;1;3]));
  (*559*) Assign (T 150) (Plain (Einsum [(T 149,[0;1;2;3]); (n_t1'aa,[2;3])] [0;1]));
  (*560*) Del (T 149);
  (*561*) Assign (T 154) (Plain (Einsum [(n_t1'aa,[0;1]); (T 153,[2;1])] [2;0]));
  (*562*) Assign (T 60) (Plain (Einsum [(n_v'aabb'ooov,[0;1;2;3]); (n_t1'bb,[2;3])] [0;1]));
  (*563*) Assign (T 4) (Plain (Transpose n_v'aabb'ovoo [0;2;3;1]));
  (*564*) AddTo (T 4) (Plain (Transpose (T 3) [0;2;1;3]));
  (*565*) Assign (T 164) (Plain (Copy n_f'aa'vv));
  (*566*) AddTo (T 164) (Plain (Transpose (T 85) [1;0]));
  (*567*) AddTo (T 164) (Times (Copy (T 163)) (-1) 1);
  (*568*) Del (T 163);
  (*569*) Assign (T 145) (Plain (Transpose n_v'aaaa'ovov [0;2;3;1]));
  (*570*) AddTo (T 145) (Times (Copy n_v'aaaa'oovv) (-1) 1);
  (*571*) AddTo (T 145) (Times (Transpose (T 144) [1;0;3;2]) (-1) 1);
  (*572*) Del (T 144);
  (*573*) Assign (T 147) (Plain (Transpose n_v'aabb'ovov [0;2;1;3]));
  (*574*) AddTo (T 147) (Plain (Copy (T 11)));
  (*575*) Assign (T 63) (Plain (Einsum [(n_t1'aa,[0;1]); (T 10,[2;1])] [0;2]));
  (*576*) Assign (T 62) (Plain (Einsum [(T 61,[0;1;2;3]); (n_t1'aa,[2;3])] [0;1]));
  (*577*) Del (T 61);
  (*578*) Assign (T 69) (Plain (Copy n_v'aaaa'ovvv));
  (*579*) AddTo (T 69) (Times (Transpose n_v'aaaa'ovvv [0;2;3;1]) (-1) 1);
  (*580*) Assign (T 132) (Plain (Transpose n_v'aaaa'ooov [0;2;1;3]));
  (*581*) AddTo (T 132) (Plain (Copy (T 1)));
  (*582*) Assign (T 32) (Plain (Einsum [(n_t2'abab,[0;1;2;3]); (n_l2'abab,[2;4;0;1])] [4;3]));
  (*583*) Assign (T 31) (Plain (Einsum [(n_l1'bb,[0;1]); (n_t1'bb,[1;2])] [0;2]));
  (*584*) Assign (T 33) (Plain (Einsum [(n_l2'bbbb,[0;1;2;3]); (n_t2'bbbb,[2;3;4;1])] [0;4]));
  (*585*) Assign (T 52) (Plain (Einsum [(n_t2'bbbb,[0;1;2;3]); (T 51,[1;0;4;3])] [4;2]));
  (*586*) Assign (T 47) (Plain (Einsum [(n_t2'abab,[0;1;2;3]); (n_l1'aa,[2;0])] [1;3]));
  (*587*) Assign (T 57) (Plain (Einsum [(T 56,[0;1]); (n_t1'bb,[0;2])] [1;2]));
  (*588*) Assign (T 50) (Plain (Einsum [(T 49,[0;1;2;3]); (n_t2'abab,[0;1;3;4])] [2;4]));
  (*589*) Assign (T 48) (Plain (Einsum [(n_t2'bbbb,[0;1;2;3]); (n_l1'bb,[3;1])] [0;2]));
  (*590*) Assign (T 129) (Times (Copy n_v'bbbb'ovvv) (-1) 1);
  (*591*) AddTo (T 129) (Plain (Transpose n_v'bbbb'ovvv [0;2;1;3]));
  (*592*) Assign (T 113) (Plain (Einsum [(n_t2'abab,[0;1;2;3]); (n_l2'abab,[2;4;0;5])] [5;1;4;3]));
  (*593*) Assign (T 114) (Plain (Einsum [(n_t2'bbbb,[0;1;2;3]); (n_l2'bbbb,[4;3;5;1])] [5;0;4;2]));
  (*594*) Assign (T 103) (Plain (Copy n_v'bbbb'oooo));
  (*595*) AddTo (T 103) (Times (Einsum [(n_t2'bbbb,[0;1;2;3]); (n_v'bbbb'ovov,[4;3;5;2])] [4;0;5;1]) (-1) 1);
  (*596*) AddTo (T 103) (Plain (Transpose (T 101) [3;1;2;0]));
  (*597*) AddTo (T 103) (Plain (Transpose (T 102) [2;1;3;0]));
  (*598*) AddTo (T 103) (Times (Transpose (T 102) [3;2;1;0]) (-1) 1);
  (*599*) Assign (T 100) (Plain (Transpose n_v'bbbb'ovov [0;2;1;3]));
  (*600*) AddTo (T 100) (Times (Copy n_v'bbbb'oovv) (-1) 1);
  (*601*) AddTo (T 100) (Plain (Einsum [(n_t1'bb,[0;1]); (n_v'bbbb'ovvv,[2;3;4;1])] [0;2;4;3]));
  (*602*) Assign (T 99) (Times (Copy n_v'bbbb'ooov) (-1) 1);
  (*603*) AddTo (T 99) (Plain (Transpose n_v'bbbb'ooov [0;2;1;3]));
  (*604*) AddTo (T 99) (Plain (Copy (T 90)));
  (*605*) AddTo (T 99) (Times (Transpose (T 90) [0;2;1;3]) (-1) 1);
  (*606*) Assign (T 120) (Times (Einsum [(n_t2'bbbb,[0;1;2;3]); (T 51,[4;1;5;3])] [4;5;0;2]) (-1) 1);
  (*607*) Assign (T 119) (Plain (Einsum [(T 49,[0;1;2;3]); (n_t2'abab,[0;4;3;5])] [1;2;4;5]));
  (*608*) Assign (T 28) (Plain (Einsum [(n_t2'abab,[0;1;2;3]); (n_l2'abab,[4;3;0;1])] [4;2]));
  (*609*) Assign (T 26) (Plain (Einsum [(n_l1'aa,[0;1]); (n_t1'aa,[1;2])] [0;2]));
  (*610*) Assign (T 27) (Plain (Einsum [(n_t2'aaaa,[0;1;2;3]); (n_l2'aaaa,[4;3;0;1])] [4;2]));
  (*611*) Assign (T 40) (Plain (Einsum [(n_t2'abab,[0;1;2;3]); (T 39,[0;4;1;3])] [4;2]));
  (*612*) Assign (T 36) (Plain (Einsum [(n_t2'abab,[0;1;2;3]); (n_l1'bb,[3;1])] [0;2]));
  (*613*) Assign (T 45) (Times (Einsum [(T 44,[0;1]); (n_t1'aa,[0;2])] [1;2]) (2) 1);
  (*614*) Assign (T 35) (Plain (Einsum [(n_t2'aaaa,[0;1;2;3]); (n_l1'aa,[3;1])] [0;2]));
  (*615*) Assign (T 38) (Plain (Einsum [(T 37,[0;1;2;3]); (n_t2'aaaa,[1;0;4;3])] [2;4]));
  (*616*) Assign (T 123) (Plain (Einsum [(n_t2'bbbb,[0;1;2;3]); (n_l2'bbbb,[2;3;4;5])] [4;5;0;1]));
  (*617*) Assign (T 73) (Plain (Copy (T 71)));
  (*618*) AddTo (T 73) (Plain (Copy (T 72)));
  (*619*) Assign (T 17) (Plain (Copy n_v'aabb'oooo));
  (*620*) AddTo (T 17) (Plain (Transpose (T 13) [1;0;3;2]));
  (*621*) AddTo (T 17) (Plain (Transpose (T 14) [1;0;3;2]));
  (*622*) Del (T 14);
  (*623*) AddTo (T 17) (Plain (Transpose (T 16) [1;0;3;2]));
  (*624*) Del (T 16);
  (*625*) Assign (T 6) (Plain (Copy n_v'aabb'ooov));
  (*626*) AddTo (T 6) (Plain (Transpose (T 5) [1;0;2;3]));
  (*627*) Assign (T 97) (Plain (Transpose n_v'aabb'vvoo [2;3;0;1]));
  (*628*) AddTo (T 97) (Plain (Transpose (T 96) [1;0;3;2]));
  (*629*) Assign (T 91) (Plain (Copy n_v'bbbb'ooov));
  (*630*) AddTo (T 91) (Times (Transpose n_v'bbbb'ovoo [0;2;3;1]) (-1) 1);
  (*631*) AddTo (T 91) (Times (Transpose (T 90) [1;0;2;3]) (-1) 1);
  (*632*) AddTo (T 91) (Plain (Transpose (T 90) [2;0;1;3]));
  (*633*) Assign (T 75) (Times (Einsum [(n_t2'aaaa,[0;1;2;3]); (T 37,[4;1;5;3])] [4;5;0;2]) (-1) 1);
  (*634*) Assign (T 76) (Plain (Einsum [(n_t2'abab,[0;1;2;3]); (T 39,[4;5;1;3])] [4;5;0;2]));
  (*635*) Assign (T 12) (Plain (Transpose n_v'aabb'ovov [0;2;1;3]));
  (*636*) AddTo (T 12) (Plain (Copy (T 11)));
  (*637*) Del (T 11);
  (*638*) Assign (T 2) (Plain (Copy n_v'aaaa'ooov));
  (*639*) AddTo (T 2) (Times (Transpose n_v'aaaa'ovoo [0;2;3;1]) (-1) 1);
  (*640*) AddTo (T 2) (Times (Transpose (T 1) [1;0;2;3]) (-1) 1);
  (*641*) AddTo (T 2) (Plain (Transpose (T 1) [2;0;1;3]));
  (*642*) Assign (T 24) (Plain (Copy n_v'aaaa'oooo));
  (*643*) AddTo (T 24) (Times (Einsum [(n_v'aaaa'ovov,[0;1;2;3]); (n_t2'aaaa,[4;5;3;1])] [0;4;2;5]) (-1) 1);
  (*644*) AddTo (T 24) (Plain (Transpose (T 22) [3;1;2;0]));
  (*645*) AddTo (T 24) (Plain (Transpose (T 23) [2;1;3;0]));
  (*646*) AddTo (T 24) (Times (Transpose (T 23) [3;2;1;0]) (-1) 1);
  (*647*) Assign (T 19) (Times (Copy n_v'aaaa'ooov) (-1) 1);
  (*648*) AddTo (T 19) (Plain (Transpose n_v'aaaa'ooov [0;2;1;3]));
  (*649*) AddTo (T 19) (Plain (Copy (T 1)));
  (*650*) AddTo (T 19) (Times (Transpose (T 1) [0;2;1;3]) (-1) 1);
  (*651*) Assign (T 21) (Plain (Transpose n_v'aaaa'ovov [0;2;1;3]));
  (*652*) AddTo (T 21) (Times (Copy n_v'aaaa'oovv) (-1) 1);
  (*653*) AddTo (T 21) (Plain (Einsum [(n_v'aaaa'ovvv,[0;1;2;3]); (n_t1'aa,[4;3])] [4;0;2;1]));
  (*654*) Assign (T 20) (Plain (Copy n_v'aabb'ooov));
  (*655*) AddTo (T 20) (Plain (Copy (T 5)));
  (*656*) Assign (T 77) (Plain (Transpose (T 66) [1;0;3;2]));
  (*657*) AddTo (T 77) (Times (Transpose (T 67) [0;1;3;2]) (-1) 1);
  (*658*) Assign (T 223) (Plain (Copy n_v'bbbb'oooo));
  (*659*) AddTo (T 223) (Times (Transpose (T 101) [0;3;1;2]) (-1) 1);
  (*660*) Del (T 101);
  (*661*) Assign (T 199) (Plain (Einsum [(T 5,[0;1;2;3]); (T 39,[0;1;4;5])] [4;2;5;3]));
  (*662*) Assign (T 226) (Plain (Einsum [(T 51,[0;1;2;3]); (T 90,[1;2;4;5])] [0;4;3;5]));
  (*663*) Assign (T 211) (Plain (Copy n_f'bb'oo));
  (*664*) AddTo (T 211) (Plain (Transpose (T 106) [1;0]));
  (*665*) AddTo (T 211) (Times (Einsum [(n_t1'bb,[0;1]); (T 210,[0;2;3;1])] [2;3]) (-1) 1);
  (*666*) Del (T 210);
  (*667*) AddTo (T 211) (Plain (Einsum [(T 189,[0;1]); (n_t1'bb,[2;1])] [2;0]));
  (*668*) Assign (T 214) (Plain (Einsum [(T 51,[0;1;2;3]); (n_v'bbbb'ovvv,[2;4;5;3])] [1;0;4;5]));
  (*669*) Assign (T 216) (Plain (Copy n_f'bb'vv));
  (*670*) AddTo (T 216) (Plain (Transpose (T 128) [1;0]));
  (*671*) AddTo (T 216) (Times (Einsum [(T 215,[0;1;2;3]); (n_t1'bb,[0;1])] [3;2]) (-1) 1);
  (*672*) Del (T 215);
  (*673*) Assign (T 208) (Plain (Einsum [(n_l2'bbbb,[0;1;2;3]); (T 207,[3;4;5;1])] [4;2;5;0]));
  (*674*) Del (T 207);
  (*675*) Assign (T 213) (Times (Einsum [(n_l2'bbbb,[0;1;2;3]); (n_v'bbbb'vvvv,[4;1;5;0])] [2;3;4;5]) (-1) 1);
  (*676*) Assign (T 202) (Plain (Transpose n_v'bbbb'ovov [0;2;3;1]));
  (*677*) AddTo (T 202) (Times (Copy n_v'bbbb'oovv) (-1) 1);
  (*678*) AddTo (T 202) (Times (Einsum [(n_t1'bb,[0;1]); (T 105,[2;1;3;4])] [0;2;4;3]) (-1) 1);
  (*679*) Assign (T 225) (Times (Einsum [(n_v'bbbb'ooov,[0;1;2;3]); (T 51,[1;4;2;5])] [4;0;5;3]) (-1) 1);
  (*680*) Assign (T 212) (Plain (Einsum [(T 121,[0;1;2;3]); (n_v'bbbb'ovov,[3;4;2;5])] [0;1;5;4]));
  (*681*) Assign (T 200) (Times (Einsum [(n_v'bbbb'ovoo,[0;1;2;3]); (T 51,[3;4;2;5])] [4;0;5;1]) (-1) 1);
  (*682*) Assign (T 221) (Times (Einsum [(T 220,[0;1]); (n_l2'bbbb,[2;1;3;4])] [3;4;0;2]) (-1) 1);
  (*683*) Del (T 220);
  (*684*) Assign (T 204) (Plain (Copy n_f'bb'ov));
  (*685*) AddTo (T 204) (Plain (Copy (T 92)));
  (*686*) AddTo (T 204) (Plain (Copy (T 178)));
  (*687*) Assign (T 209) (Plain (Einsum [(T 177,[0;1;2;3]); (n_l2'abab,[2;4;0;5])] [1;5;3;4]));
  (*688*) Assign (T 203) (Plain (Transpose n_v'aabb'ovov [0;2;1;3]));
  (*689*) AddTo (T 203) (Plain (Copy (T 176)));
  (*690*) Del (T 176);
  (*691*) Assign (T 224) (Plain (Copy n_v'bbbb'ooov));
  (*692*) AddTo (T 224) (Plain (Transpose (T 90) [0;2;1;3]));
  (*693*) Assign (T 222) (Plain (Einsum [(T 102,[0;1;2;3]); (n_l2'bbbb,[4;5;0;1])] [2;3;4;5]));
  (*694*) Del (T 102);
  (*695*) Assign (T 198) (Plain (Einsum [(n_v'bbbb'ovvv,[0;1;2;3]); (n_l1'bb,[3;4])] [4;0;1;2]));
  (*696*) Assign (T 217) (Plain (Einsum [(T 189,[0;1]); (T 51,[2;3;0;4])] [2;3;1;4]));
  (*697*) Assign (T 227) (Plain (Einsum [(n_v'bbbb'ovov,[0;1;2;3]); (T 53,[4;2])] [4;0;1;3]));
  (*698*) Assign (T 179) (Plain (Copy n_f'bb'ov));
  (*699*) AddTo (T 179) (Plain (Copy (T 92)));
  (*700*) Del (T 92);
  (*701*) AddTo (T 179) (Plain (Copy (T 178)));
  (*702*) Del (T 178);
  (*703*) Assign (T 196) (Plain (Einsum [(n_l1'bb,[0;1]); (T 195,[1;2;3;4])] [2;3;4;0]));
  (*704*) Del (T 195);
  (*705*) Assign (T 183) (Plain (Copy n_f'bb'oo));
  (*706*) AddTo (T 183) (Plain (Transpose (T 106) [1;0]));
  (*707*) AddTo (T 183) (Times (Copy (T 181)) (-1) 1);
  (*708*) Del (T 181);
  (*709*) AddTo (T 183) (Plain (Copy (T 182)));
  (*710*) Del (T 182);
  (*711*) Assign (T 194) (Plain (Copy n_v'bbbb'ooov));
  (*712*) AddTo (T 194) (Plain (Transpose (T 90) [0;2;1;3]));
  (*713*) Assign (T 197) (Times (Einsum [(T 90,[0;1;2;3]); (T 51,[0;4;2;5])] [4;1;5;3]) (-1) 1);
  (*714*) Assign (T 201) (Plain (Einsum [(T 39,[0;1;2;3]); (n_v'aabb'ooov,[1;0;4;5])] [2;4;3;5]));
  (*715*) Assign (T 193) (Plain (Einsum [(n_t1'bb,[0;1]); (n_v'bbbb'ovov,[2;1;0;3])] [2;3]));
  (*716*) Assign (T 169) (Plain (Einsum [(n_v'aaaa'ovov,[0;1;2;3]); (n_t1'aa,[2;1])] [0;3]));
  (*717*) Assign (T 173) (Plain (Transpose n_v'aaaa'ovov [0;2;1;3]));
  (*718*) AddTo (T 173) (Times (Copy n_v'aaaa'oovv) (-1) 1);
  (*719*) AddTo (T 173) (Times (Einsum [(T 30,[0;1;2;3]); (n_t1'aa,[4;2])] [4;0;3;1]) (-1) 1);
  (*720*) Assign (T 180) (Plain (Transpose n_v'aabb'vvoo [2;3;0;1]));
  (*721*) AddTo (T 180) (Plain (Transpose (T 96) [0;1;3;2]));
  (*722*) Del (T 96);
  (*723*) Assign (T 156) (Plain (Copy n_f'aa'ov));
  (*724*) AddTo (T 156) (Plain (Copy (T 141)));
  (*725*) AddTo (T 156) (Plain (Copy (T 7)));
  (*726*) Assign (T 88) (Plain (Copy n_f'aa'vv));
  (*727*) AddTo (T 88) (Plain (Transpose (T 85) [1;0]));
  (*728*) AddTo (T 88) (Times (Transpose (T 87) [1;0]) (-1) 1);
  (*729*) Assign (T 184) (Plain (Einsum [(n_v'aabb'ovov,[0;1;2;3]); (T 72,[4;0;5;2])] [4;5;1;3]));
  (*730*) Assign (T 186) (Plain (Copy n_f'bb'vv));
  (*731*) AddTo (T 186) (Plain (Transpose (T 128) [1;0]));
  (*732*) AddTo (T 186) (Times (Einsum [(T 174,[0;1;2;3]); (n_t1'bb,[0;1])] [3;2]) (-1) 1);
  (*733*) Assign (T 175) (Plain (Transpose n_v'bbbb'ovov [0;2;1;3]));
  (*734*) AddTo (T 175) (Times (Copy n_v'bbbb'oovv) (-1) 1);
  (*735*) AddTo (T 175) (Times (Einsum [(T 174,[0;1;2;3]); (n_t1'bb,[4;2])] [4;0;3;1]) (-1) 1);
  (*736*) Del (T 174);
  (*737*) Assign (T 192) (Plain (Copy n_v'aabb'oovv));
  (*738*) AddTo (T 192) (Plain (Einsum [(n_t1'aa,[0;1]); (n_v'aabb'ovvv,[2;1;3;4])] [0;2;3;4]));
  (*739*) Assign (T 155) (Plain (Copy n_f'aa'oo));
  (*740*) AddTo (T 155) (Plain (Transpose (T 60) [1;0]));
  (*741*) AddTo (T 155) (Times (Transpose (T 150) [1;0]) (-1) 1);
  (*742*) Del (T 150);
  (*743*) AddTo (T 155) (Plain (Transpose (T 154) [1;0]));
  (*744*) Del (T 154);
  (*745*) Assign (T 185) (Plain (Einsum [(n_l2'abab,[0;1;2;3]); (n_v'aabb'vvvv,[4;0;5;1])] [2;3;4;5]));
  (*746*) Assign (T 191) (Plain (Copy n_v'aabb'oooo));
  (*747*) AddTo (T 191) (Plain (Transpose (T 13) [1;0;2;3]));
  (*748*) Del (T 13);
  (*749*) AddTo (T 191) (Plain (Einsum [(n_t1'aa,[0;1]); (T 4,[2;3;4;1])] [0;2;4;3]));
  (*750*) Assign (T 190) (Plain (Copy n_v'aabb'ooov));
  (*751*) AddTo (T 190) (Plain (Copy (T 5)));
  (*752*) Assign (T 165) (Times (Einsum [(T 164,[0;1]); (n_l2'aaaa,[2;1;3;4])] [3;4;0;2]) (-1) 1);
  (*753*) Del (T 164);
  (*754*) Assign (T 146) (Plain (Einsum [(n_l2'aaaa,[0;1;2;3]); (T 145,[3;4;5;1])] [4;2;5;0]));
  (*755*) Del (T 145);
  (*756*) Assign (T 148) (Plain (Einsum [(n_l2'abab,[0;1;2;3]); (T 147,[4;3;5;1])] [4;2;5;0]));
  (*757*) Assign (T 140) (Plain (Copy n_f'aa'oo));
  (*758*) AddTo (T 140) (Plain (Transpose (T 60) [1;0]));
  (*759*) AddTo (T 140) (Times (Transpose (T 62) [1;0]) (-1) 1);
  (*760*) AddTo (T 140) (Plain (Copy (T 63)));
  (*761*) Assign (T 131) (Plain (Copy n_v'aaaa'ooov));
  (*762*) AddTo (T 131) (Plain (Transpose (T 1) [0;2;1;3]));
  (*763*) Assign (T 167) (Plain (Copy n_v'aaaa'oooo));
  (*764*) AddTo (T 167) (Times (Transpose (T 22) [0;3;1;2]) (-1) 1);
  (*765*) Del (T 22);
  (*766*) Assign (T 136) (Plain (Einsum [(n_v'aabb'ovoo,[0;1;2;3]); (T 49,[4;3;2;5])] [4;0;5;1]));
  (*767*) Assign (T 139) (Plain (Transpose n_v'aaaa'ovov [0;2;3;1]));
  (*768*) AddTo (T 139) (Times (Copy n_v'aaaa'oovv) (-1) 1);
  (*769*) AddTo (T 139) (Times (Einsum [(n_t1'aa,[0;1]); (T 69,[2;1;3;4])] [0;2;4;3]) (-1) 1);
  (*770*) Assign (T 137) (Plain (Einsum [(n_l1'aa,[0;1]); (n_v'aaaa'ovvv,[2;3;4;0])] [1;2;3;4]));
  (*771*) Assign (T 170) (Plain (Einsum [(n_v'aaaa'ovov,[0;1;2;3]); (T 41,[4;2])] [4;0;1;3]));
  (*772*) Assign (T 135) (Plain (Einsum [(T 49,[0;1;2;3]); (T 3,[4;1;2;5])] [0;4;3;5]));
  (*773*) Assign (T 168) (Plain (Copy n_v'aaaa'ooov));
  (*774*) AddTo (T 168) (Plain (Transpose (T 1) [0;2;1;3]));
  (*775*) Assign (T 160) (Plain (Copy n_f'aa'vv));
  (*776*) AddTo (T 160) (Plain (Transpose (T 85) [1;0]));
  (*777*) Del (T 85);
  (*778*) AddTo (T 160) (Times (Copy (T 87)) (-1) 1);
  (*779*) Del (T 87);
  (*780*) Assign (T 159) (Times (Einsum [(n_l2'aaaa,[0;1;2;3]); (n_v'aaaa'vvvv,[4;1;5;0])] [2;3;4;5]) (-1) 1);
  (*781*) Assign (T 158) (Plain (Einsum [(n_v'aaaa'ovvv,[0;1;2;3]); (T 37,[4;5;0;3])] [5;4;1;2]));
  (*782*) Assign (T 134) (Times (Einsum [(T 37,[0;1;2;3]); (T 1,[0;4;2;5])] [1;4;3;5]) (-1) 1);
  (*783*) Assign (T 171) (Plain (Einsum [(T 1,[0;1;2;3]); (T 37,[4;0;1;5])] [4;2;5;3]));
  (*784*) Assign (T 166) (Plain (Einsum [(n_l2'aaaa,[0;1;2;3]); (T 23,[2;3;4;5])] [4;5;0;1]));
  (*785*) Del (T 23);
  (*786*) Assign (T 138) (Times (Einsum [(n_v'aaaa'ovoo,[0;1;2;3]); (T 37,[3;4;2;5])] [4;0;5;1]) (-1) 1);
  (*787*) Assign (T 133) (Plain (Einsum [(T 132,[0;1;2;3]); (n_l1'aa,[4;0])] [1;2;3;4]));
  (*788*) Del (T 132);
  (*789*) Assign (T 172) (Times (Einsum [(n_v'aaaa'ooov,[0;1;2;3]); (T 37,[1;4;2;5])] [4;0;5;3]) (-1) 1);
  (*790*) Assign (T 142) (Plain (Copy n_f'aa'ov));
  (*791*) AddTo (T 142) (Plain (Copy (T 141)));
  (*792*) Del (T 141);
  (*793*) AddTo (T 142) (Plain (Copy (T 7)));
  (*794*) Del (T 7);
  (*795*) Assign (T 157) (Plain (Einsum [(T 67,[0;1;2;3]); (n_v'aaaa'ovov,[3;4;2;5])] [0;1;5;4]));
  (*796*) Assign (T 161) (Plain (Einsum [(T 153,[0;1]); (T 37,[2;3;0;4])] [2;3;1;4]));
  (*797*) Assign (T 110) (Plain (Einsum [(n_v'aabb'vvvv,[0;1;2;3]); (n_t1'aa,[4;1])] [4;0;2;3]));
  (*798*) Assign (T 34) (Plain (Copy (T 31)));
  (*799*) Del (T 31);
  (*800*) AddTo (T 34) (Plain (Copy (T 32)));
  (*801*) Del (T 32);
  (*802*) AddTo (T 34) (Times (Copy (T 33)) (2) 1);
  (*803*) Del (T 33);
  (*804*) Assign (T 89) (Plain (Copy (T 41)));
  (*805*) AddTo (T 89) (Times (Copy (T 42)) (2) 1);
  (*806*) Del (T 42);
  (*807*) AddTo (T 89) (Plain (Copy (T 43)));
  (*808*) Del (T 43);
  (*809*) Assign (T 127) (Times (Copy n_t1'bb) (-1) 1);
  (*810*) AddTo (T 127) (Times (Copy (T 47)) (-1) 1);
  (*811*) AddTo (T 127) (Times (Copy (T 48)) (-2) 1);
  (*812*) AddTo (T 127) (Plain (Copy (T 50)));
  (*813*) AddTo (T 127) (Times (Copy (T 52)) (2) 1);
  (*814*) AddTo (T 127) (Plain (Copy (T 57)));
  (*815*) Assign (T 109) (Plain (Einsum [(n_t1'bb,[0;1]); (n_v'bbbb'vvvv,[2;3;4;1])] [0;2;3;4]));
  (*816*) Assign (T 111) (Plain (Einsum [(n_v'bbbb'ovvv,[0;1;2;3]); (n_t1'bb,[4;1])] [4;0;2;3]));
  (*817*) Assign (T 130) (Plain (Copy n_f'bb'vv));
  (*818*) AddTo (T 130) (Plain (Transpose (T 128) [1;0]));
  (*819*) Del (T 128);
  (*820*) AddTo (T 130) (Times (Einsum [(T 129,[0;1;2;3]); (n_t1'bb,[0;1])] [3;2]) (-1) 1);
  (*821*) Del (T 129);
  (*822*) Assign (T 116) (Plain (Copy (T 113)));
  (*823*) AddTo (T 116) (Times (Copy (T 114)) (4) 1);
  (*824*) AddTo (T 116) (Times (Einsum [(T 51,[0;1;2;3]); (n_t1'bb,[0;4])] [1;2;4;3]) (2) 1);
  (*825*) Assign (T 118) (Plain (Einsum [(n_t2'abab,[0;1;2;3]); (n_l2'abab,[4;3;0;5])] [5;1;4;2]));
  (*826*) AddTo (T 118) (Plain (Einsum [(n_t1'aa,[0;1]); (T 49,[0;2;3;4])] [2;3;1;4]));
  (*827*) Assign (T 112) (Times (Transpose n_l2'abab [2;3;0;1]) (1) 2);
  (*828*) AddTo (T 112) (Plain (Einsum [(n_l2'abab,[0;1;2;3]); (n_t2'aaaa,[4;2;5;0])] [4;3;5;1]));
  (*829*) AddTo (T 112) (Times (Einsum [(T 39,[0;1;2;3]); (n_t1'aa,[0;4])] [1;2;4;3]) (-1) 2);
  (*830*) AddTo (T 112) (Plain (Einsum [(n_l2'bbbb,[0;1;2;3]); (n_t2'abab,[4;3;5;1])] [4;2;5;0]));
  (*831*) Assign (T 104) (Plain (Transpose n_v'bbbb'ooov [0;2;1;3]));
  (*832*) AddTo (T 104) (Times (Einsum [(n_t2'bbbb,[0;1;2;3]); (n_v'bbbb'ovvv,[4;2;5;3])] [4;0;1;5]) (-1) 1);
  (*833*) AddTo (T 104) (Times (Einsum [(n_t2'bbbb,[0;1;2;3]); (T 99,[4;1;5;3])] [5;0;4;2]) (2) 1);
  (*834*) Del (T 99);
  (*835*) AddTo (T 104) (Plain (Einsum [(T 15,[0;1;2;3]); (n_t2'abab,[0;4;3;5])] [2;4;1;5]));
  (*836*) AddTo (T 104) (Plain (Einsum [(n_t2'bbbb,[0;1;2;3]); (T 95,[4;3])] [4;0;1;2]));
  (*837*) AddTo (T 104) (Plain (Einsum [(T 100,[0;1;2;3]); (n_t1'bb,[4;3])] [1;0;4;2]));
  (*838*) Del (T 100);
  (*839*) AddTo (T 104) (Times (Einsum [(n_t1'bb,[0;1]); (T 103,[0;2;3;4])] [3;2;4;1]) (-1) 1);
  (*840*) Del (T 103);
  (*841*) Assign (T 122) (Plain (Einsum [(n_t2'bbbb,[0;1;2;3]); (n_l1'bb,[3;4])] [4;0;1;2]));
  (*842*) AddTo (T 122) (Plain (Transpose (T 51) [1;0;2;3]));
  (*843*) AddTo (T 122) (Times (Transpose (T 119) [0;2;1;3]) (1) 2);
  (*844*) AddTo (T 122) (Times (Transpose (T 120) [0;2;1;3]) (2) 1);
  (*845*) AddTo (T 122) (Times (Einsum [(n_t1'bb,[0;1]); (T 121,[0;2;3;4])] [2;3;4;1]) (-1) 1);
  (*846*) Assign (T 29) (Plain (Copy (T 26)));
  (*847*) Del (T 26);
  (*848*) AddTo (T 29) (Times (Copy (T 27)) (2) 1);
  (*849*) Del (T 27);
  (*850*) AddTo (T 29) (Plain (Copy (T 28)));
  (*851*) Del (T 28);
  (*852*) Assign (T 46) (Times (Transpose n_l1'aa [1;0]) (-1) 1);
  (*853*) AddTo (T 46) (Times (Copy n_t1'aa) (-1) 1);
  (*854*) AddTo (T 46) (Times (Copy (T 35)) (-2) 1);
  (*855*) AddTo (T 46) (Times (Copy (T 36)) (-1) 1);
  (*856*) AddTo (T 46) (Times (Copy (T 38)) (2) 1);
  (*857*) AddTo (T 46) (Plain (Copy (T 40)));
  (*858*) AddTo (T 46) (Plain (Copy (T 45)));
  (*859*) Del (T 45);
  (*860*) Assign (T 126) (Plain (Transpose (T 123) [1;0;3;2]));
  (*861*) AddTo (T 126) (Plain (Transpose (T 121) [2;1;0;3]));
  (*862*) Del (T 121);
  (*863*) Assign (T 125) (Plain (Copy (T 71)));
  (*864*) AddTo (T 125) (Plain (Transpose (T 72) [1;0;2;3]));
  (*865*) Assign (T 115) (Plain (Transpose n_l2'bbbb [2;3;0;1]));
  (*866*) AddTo (T 115) (Times (Copy (T 113)) (1) 2);
  (*867*) Del (T 113);
  (*868*) AddTo (T 115) (Times (Copy (T 114)) (2) 1);
  (*869*) Del (T 114);
  (*870*) Assign (T 117) (Plain (Einsum [(n_l1'bb,[0;1]); (n_t2'abab,[2;3;4;0])] [2;1;3;4]));
  (*871*) AddTo (T 117) (Plain (Copy (T 49)));
  (*872*) AddTo (T 117) (Times (Einsum [(T 49,[0;1;2;3]); (n_t2'aaaa,[4;0;5;3])] [4;1;2;5]) (2) 1);
  (*873*) AddTo (T 117) (Times (Einsum [(T 39,[0;1;2;3]); (n_t2'abab,[0;4;5;3])] [1;2;4;5]) (-1) 1);
  (*874*) AddTo (T 117) (Times (Einsum [(n_t2'abab,[0;1;2;3]); (T 51,[4;1;5;3])] [0;4;5;2]) (-2) 1);
  (*875*) AddTo (T 117) (Times (Einsum [(n_t1'aa,[0;1]); (T 73,[0;2;3;4])] [2;3;4;1]) (-1) 1);
  (*876*) Assign (T 108) (Times (Copy n_f'bb'oo) (1) 2);
  (*877*) AddTo (T 108) (Times (Transpose (T 106) [1;0]) (1) 2);
  (*878*) Del (T 106);
  (*879*) AddTo (T 108) (Times (Einsum [(n_t2'abab,[0;1;2;3]); (n_v'aabb'ovov,[0;2;4;3])] [1;4]) (1) 2);
  (*880*) AddTo (T 108) (Times (Einsum [(n_t2'bbbb,[0;1;2;3]); (n_v'bbbb'ovov,[4;3;1;2])] [0;4]) (-1) 1);
  (*881*) AddTo (T 108) (Times (Einsum [(n_t1'bb,[0;1]); (T 107,[0;2;3;1])] [2;3]) (-1) 2);
  (*882*) Del (T 107);
  (*883*) AddTo (T 108) (Times (Einsum [(T 95,[0;1]); (n_t1'bb,[2;1])] [2;0]) (1) 2);
  (*884*) Assign (T 124) (Plain (Copy (T 119)));
  (*885*) Del (T 119);
  (*886*) AddTo (T 124) (Times (Copy (T 120)) (4) 1);
  (*887*) Del (T 120);
  (*888*) AddTo (T 124) (Times (Einsum [(n_t1'bb,[0;1]); (T 123,[2;0;3;4])] [2;4;3;1]) (2) 1);
  (*889*) Del (T 123);
  (*890*) Assign (T 58) (Times (Transpose n_l1'bb [1;0]) (-1) 1);
  (*891*) AddTo (T 58) (Times (Copy n_t1'bb) (-1) 1);
  (*892*) AddTo (T 58) (Times (Copy (T 47)) (-1) 1);
  (*893*) Del (T 47);
  (*894*) AddTo (T 58) (Times (Copy (T 48)) (-2) 1);
  (*895*) Del (T 48);
  (*896*) AddTo (T 58) (Plain (Copy (T 50)));
  (*897*) Del (T 50);
  (*898*) AddTo (T 58) (Times (Copy (T 52)) (2) 1);
  (*899*) Del (T 52);
  (*900*) AddTo (T 58) (Plain (Copy (T 57)));
  (*901*) Del (T 57);
  (*902*) Assign (T 98) (Plain (Transpose n_v'aabb'ovoo [0;2;3;1]));
  (*903*) AddTo (T 98) (Plain (Copy (T 3)));
  (*904*) AddTo (T 98) (Plain (Einsum [(n_t2'abab,[0;1;2;3]); (n_v'aabb'vvov,[4;2;5;3])] [0;1;5;4]));
  (*905*) AddTo (T 98) (Plain (Einsum [(T 91,[0;1;2;3]); (n_t2'abab,[4;2;5;3])] [4;1;0;5]));
  (*906*) Del (T 91);
  (*907*) AddTo (T 98) (Times (Einsum [(T 4,[0;1;2;3]); (n_t2'aaaa,[4;0;5;3])] [4;2;1;5]) (2) 1);
  (*908*) AddTo (T 98) (Times (Einsum [(n_t2'abab,[0;1;2;3]); (T 6,[0;4;5;3])] [4;1;5;2]) (-1) 1);
  (*909*) AddTo (T 98) (Plain (Einsum [(n_t2'abab,[0;1;2;3]); (T 95,[4;3])] [0;1;4;2]));
  (*910*) AddTo (T 98) (Plain (Einsum [(n_t1'aa,[0;1]); (T 97,[2;3;1;4])] [0;3;2;4]));
  (*911*) Del (T 97);
  (*912*) AddTo (T 98) (Times (Einsum [(n_t1'aa,[0;1]); (T 17,[0;2;3;4])] [2;4;3;1]) (-1) 1);
  (*913*) Assign (T 82) (Times (Copy (T 75)) (4) 1);
  (*914*) AddTo (T 82) (Plain (Copy (T 76)));
  (*915*) Assign (T 83) (Plain (Copy (T 71)));
  (*916*) Del (T 71);
  (*917*) AddTo (T 83) (Plain (Transpose (T 72) [0;1;3;2]));
  (*918*) Del (T 72);
  (*919*) Assign (T 64) (Plain (Copy n_f'aa'oo));
  (*920*) AddTo (T 64) (Plain (Transpose (T 60) [1;0]));
  (*921*) Del (T 60);
  (*922*) AddTo (T 64) (Times (Einsum [(n_v'aaaa'ovov,[0;1;2;3]); (n_t2'aaaa,[4;2;3;1])] [4;0]) (-2) 1);
  (*923*) AddTo (T 64) (Plain (Einsum [(n_t2'abab,[0;1;2;3]); (n_v'aabb'ovov,[4;2;1;3])] [0;4]));
  (*924*) AddTo (T 64) (Times (Transpose (T 62) [1;0]) (-1) 1);
  (*925*) Del (T 62);
  (*926*) AddTo (T 64) (Plain (Copy (T 63)));
  (*927*) Del (T 63);
  (*928*) Assign (T 81) (Times (Einsum [(n_t1'aa,[0;1]); (T 37,[0;2;3;4])] [2;3;4;1]) (-1) 1);
  (*929*) Assign (T 74) (Plain (Einsum [(n_t2'abab,[0;1;2;3]); (n_l1'aa,[2;4])] [4;0;1;3]));
  (*930*) AddTo (T 74) (Plain (Copy (T 39)));
  (*931*) AddTo (T 74) (Times (Einsum [(n_t2'abab,[0;1;2;3]); (T 37,[4;0;5;2])] [4;5;1;3]) (-2) 1);
  (*932*) AddTo (T 74) (Times (Einsum [(n_t2'bbbb,[0;1;2;3]); (T 39,[4;5;1;3])] [4;5;0;2]) (2) 1);
  (*933*) AddTo (T 74) (Times (Einsum [(T 49,[0;1;2;3]); (n_t2'abab,[4;1;3;5])] [0;4;2;5]) (-1) 1);
  (*934*) AddTo (T 74) (Times (Einsum [(T 73,[0;1;2;3]); (n_t1'bb,[2;4])] [0;1;3;4]) (-1) 1);
  (*935*) Del (T 73);
  (*936*) Assign (T 18) (Plain (Copy n_v'aabb'ooov));
  (*937*) AddTo (T 18) (Plain (Einsum [(n_v'aabb'oovv,[0;1;2;3]); (n_t1'bb,[4;3])] [0;1;4;2]));
  (*938*) AddTo (T 18) (Plain (Einsum [(n_t2'abab,[0;1;2;3]); (n_v'aabb'ovvv,[4;2;5;3])] [0;4;1;5]));
  (*939*) AddTo (T 18) (Plain (Einsum [(n_t2'abab,[0;1;2;3]); (T 2,[4;5;0;2])] [5;4;1;3]));
  (*940*) Del (T 2);
  (*941*) AddTo (T 18) (Times (Einsum [(T 4,[0;1;2;3]); (n_t2'abab,[4;1;3;5])] [4;0;2;5]) (-1) 1);
  (*942*) Del (T 4);
  (*943*) AddTo (T 18) (Times (Einsum [(T 6,[0;1;2;3]); (n_t2'bbbb,[4;2;5;3])] [1;0;4;5]) (2) 1);
  (*944*) Del (T 6);
  (*945*) AddTo (T 18) (Plain (Einsum [(n_t2'abab,[0;1;2;3]); (T 10,[4;2])] [0;4;1;3]));
  (*946*) AddTo (T 18) (Plain (Einsum [(n_t1'aa,[0;1]); (T 12,[2;3;1;4])] [0;2;3;4]));
  (*947*) AddTo (T 18) (Times (Einsum [(T 17,[0;1;2;3]); (n_t1'bb,[2;4])] [1;0;3;4]) (-1) 1);
  (*948*) Del (T 17);
  (*949*) Assign (T 25) (Plain (Transpose n_v'aaaa'ooov [0;2;1;3]));
  (*950*) AddTo (T 25) (Times (Einsum [(n_v'aaaa'ovvv,[0;1;2;3]); (n_t2'aaaa,[4;5;1;3])] [0;4;5;2]) (-1) 1);
  (*951*) AddTo (T 25) (Times (Einsum [(T 19,[0;1;2;3]); (n_t2'aaaa,[4;1;5;3])] [2;4;0;5]) (2) 1);
  (*952*) Del (T 19);
  (*953*) AddTo (T 25) (Plain (Einsum [(n_t2'abab,[0;1;2;3]); (T 20,[4;5;1;3])] [5;0;4;2]));
  (*954*) Del (T 20);
  (*955*) AddTo (T 25) (Plain (Einsum [(T 10,[0;1]); (n_t2'aaaa,[2;3;4;1])] [0;2;3;4]));
  (*956*) AddTo (T 25) (Plain (Einsum [(n_t1'aa,[0;1]); (T 21,[2;3;4;1])] [3;2;0;4]));
  (*957*) Del (T 21);
  (*958*) AddTo (T 25) (Times (Einsum [(T 24,[0;1;2;3]); (n_t1'aa,[0;4])] [2;1;3;4]) (-1) 1);
  (*959*) Del (T 24);
  (*960*) Assign (T 65) (Plain (Einsum [(n_v'aabb'vvvv,[0;1;2;3]); (n_t1'bb,[4;3])] [4;0;1;2]));
  (*961*) Assign (T 59) (Times (Copy (T 53)) (1) 2);
  (*962*) AddTo (T 59) (Times (Copy (T 54)) (1) 2);
  (*963*) Del (T 54);
  (*964*) AddTo (T 59) (Plain (Copy (T 55)));
  (*965*) Del (T 55);
  (*966*) Assign (T 79) (Plain (Einsum [(n_t2'abab,[0;1;2;3]); (n_l2'abab,[2;4;5;1])] [5;0;4;3]));
  (*967*) AddTo (T 79) (Plain (Einsum [(T 39,[0;1;2;3]); (n_t1'bb,[2;4])] [0;1;4;3]));
  (*968*) Assign (T 70) (Times (Einsum [(n_t2'aaaa,[0;1;2;3]); (n_l2'aaaa,[4;3;5;1])] [5;0;4;2]) (4) 1);
  (*969*) AddTo (T 70) (Plain (Einsum [(n_l2'abab,[0;1;2;3]); (n_t2'abab,[4;3;5;1])] [2;4;0;5]));
  (*970*) Assign (T 84) (Times (Copy n_t1'aa) (-1) 2);
  (*971*) AddTo (T 84) (Times (Copy (T 35)) (-1) 1);
  (*972*) Del (T 35);
  (*973*) AddTo (T 84) (Times (Copy (T 36)) (-1) 2);
  (*974*) Del (T 36);
  (*975*) AddTo (T 84) (Plain (Copy (T 38)));
  (*976*) Del (T 38);
  (*977*) AddTo (T 84) (Times (Copy (T 40)) (1) 2);
  (*978*) Del (T 40);
  (*979*) AddTo (T 84) (Plain (Einsum [(T 44,[0;1]); (n_t1'aa,[0;2])] [1;2]));
  (*980*) Assign (T 80) (Plain (Copy n_v'aaaa'ovvv));
  (*981*) AddTo (T 80) (Times (Einsum [(n_v'aaaa'vvvv,[0;1;2;3]); (n_t1'aa,[4;3])] [4;0;2;1]) (-1) 1);
  (*982*) Assign (T 78) (Plain (Einsum [(n_l1'aa,[0;1]); (n_t2'aaaa,[2;3;4;0])] [1;2;3;4]));
  (*983*) AddTo (T 78) (Plain (Transpose (T 37) [1;0;2;3]));
  (*984*) AddTo (T 78) (Times (Transpose (T 75) [0;2;1;3]) (2) 1);
  (*985*) Del (T 75);
  (*986*) AddTo (T 78) (Times (Transpose (T 76) [0;2;1;3]) (1) 2);
  (*987*) Del (T 76);
  (*988*) AddTo (T 78) (Plain (Einsum [(T 77,[0;1;2;3]); (n_t1'aa,[0;4])] [1;3;2;4]));
  (*989*) Del (T 77);
  (*990*) Assign (T 68) (Times (Transpose n_l2'abab [2;3;0;1]) (1) 2);
  (*991*) AddTo (T 68) (Plain (Einsum [(n_l2'aaaa,[0;1;2;3]); (n_t2'abab,[3;4;1;5])] [2;4;0;5]));
  (*992*) AddTo (T 68) (Plain (Einsum [(n_t2'bbbb,[0;1;2;3]); (n_l2'abab,[4;3;5;1])] [5;0;4;2]));
  (*993*) AddTo (T 68) (Times (Einsum [(T 49,[0;1;2;3]); (n_t1'bb,[1;4])] [0;2;3;4]) (-1) 2);
  (*994*) Assign n_l2new'bbbb (Plain (Transpose n_v'bbbb'ovov [1;3;0;2]));
  (*995*) AddTo n_l2new'bbbb (Times (Einsum [(T 194,[0;1;2;3]); (n_l1'bb,[4;0])] [3;4;2;1]) (-1) 1);
  (*996*) Del (T 194);
  (*997*) AddTo n_l2new'bbbb (Times (Transpose n_v'bbbb'ovov [3;1;0;2]) (-1) 1);
  (*998*) AddTo n_l2new'bbbb (Plain (Transpose (T 196) [3;2;0;1]));
  (*999*) AddTo n_l2new'bbbb (Times (Transpose (T 197) [3;2;0;1]) (2) 1);
  (*1000*) AddTo n_l2new'bbbb (Times (Transpose (T 198) [2;3;0;1]) (-1) 1);
  (*1001*) AddTo n_l2new'bbbb (Plain (Transpose (T 199) [3;2;0;1]));
  (*1002*) AddTo n_l2new'bbbb (Times (Transpose (T 200) [3;2;0;1]) (2) 1);
  (*1003*) AddTo n_l2new'bbbb (Plain (Transpose (T 201) [3;2;0;1]));
  (*1004*) AddTo n_l2new'bbbb (Times (Einsum [(T 202,[0;1;2;3]); (n_l2'bbbb,[4;3;5;0])] [2;4;5;1]) (-2) 1);
  (*1005*) Del (T 202);
  (*1006*) AddTo n_l2new'bbbb (Times (Einsum [(n_l2'abab,[0;1;2;3]); (T 203,[2;4;0;5])] [5;1;3;4]) (-1) 1);
  (*1007*) Del (T 203);
  (*1008*) AddTo n_l2new'bbbb (Times (Einsum [(n_l2'bbbb,[0;1;2;3]); (T 183,[3;4])] [0;1;2;4]) (-2) 1);
  (*1009*) AddTo n_l2new'bbbb (Times (Einsum [(n_l1'bb,[0;1]); (T 204,[2;3])] [3;0;1;2]) (-1) 1);
  (*1010*) Del (T 204);
  (*1011*) AddTo n_l2new'bbbb (Times (Transpose (T 197) [3;2;1;0]) (-2) 1);
  (*1012*) AddTo n_l2new'bbbb (Plain (Transpose (T 198) [2;3;1;0]));
  (*1013*) AddTo n_l2new'bbbb (Times (Transpose (T 199) [3;2;1;0]) (-1) 1);
  (*1014*) AddTo n_l2new'bbbb (Times (Transpose (T 200) [3;2;1;0]) (-2) 1);
  (*1015*) AddTo n_l2new'bbbb (Times (Transpose (T 201) [3;2;1;0]) (-1) 1);
  (*1016*) AddTo n_l2new'bbbb (Times (Transpose (T 208) [2;3;0;1]) (2) 1);
  (*1017*) AddTo n_l2new'bbbb (Plain (Transpose (T 209) [2;3;0;1]));
  (*1018*) AddTo n_l2new'bbbb (Times (Einsum [(n_l2'bbbb,[0;1;2;3]); (T 211,[3;4])] [0;1;4;2]) (2) 1);
  (*1019*) Del (T 211);
  (*1020*) AddTo n_l2new'bbbb (Plain (Einsum [(n_l1'bb,[0;1]); (T 179,[2;3])] [3;0;2;1]));
  (*1021*) AddTo n_l2new'bbbb (Times (Transpose (T 197) [2;3;0;1]) (-2) 1);
  (*1022*) AddTo n_l2new'bbbb (Plain (Transpose (T 198) [3;2;0;1]));
  (*1023*) AddTo n_l2new'bbbb (Times (Transpose (T 199) [2;3;0;1]) (-1) 1);
  (*1024*) AddTo n_l2new'bbbb (Times (Transpose (T 200) [2;3;0;1]) (-2) 1);
  (*1025*) AddTo n_l2new'bbbb (Times (Transpose (T 201) [2;3;0;1]) (-1) 1);
  (*1026*) AddTo n_l2new'bbbb (Times (Transpose (T 208) [3;2;1;0]) (2) 1);
  (*1027*) AddTo n_l2new'bbbb (Plain (Transpose (T 209) [3;2;1;0]));
  (*1028*) AddTo n_l2new'bbbb (Plain (Einsum [(T 179,[0;1]); (n_l1'bb,[2;3])] [2;1;3;0]));
  (*1029*) AddTo n_l2new'bbbb (Times (Transpose (T 197) [2;3;1;0]) (2) 1);
  (*1030*) Del (T 197);
  (*1031*) AddTo n_l2new'bbbb (Times (Transpose (T 198) [3;2;1;0]) (-1) 1);
  (*1032*) Del (T 198);
  (*1033*) AddTo n_l2new'bbbb (Plain (Transpose (T 199) [2;3;1;0]));
  (*1034*) Del (T 199);
  (*1035*) AddTo n_l2new'bbbb (Times (Transpose (T 200) [2;3;1;0]) (2) 1);
  (*1036*) Del (T 200);
  (*1037*) AddTo n_l2new'bbbb (Plain (Transpose (T 201) [2;3;1;0]));
  (*1038*) Del (T 201);
  (*1039*) AddTo n_l2new'bbbb (Times (Transpose (T 208) [3;2;0;1]) (-2) 1);
  (*1040*) Del (T 208);
  (*1041*) AddTo n_l2new'bbbb (Times (Transpose (T 209) [3;2;0;1]) (-1) 1);
  (*1042*) Del (T 209);
  (*1043*) AddTo n_l2new'bbbb (Times (Einsum [(n_l1'bb,[0;1]); (T 179,[2;3])] [0;3;2;1]) (-1) 1);
  (*1044*) AddTo n_l2new'bbbb (Times (Transpose (T 212) [3;2;1;0]) (2) 1);
  (*1045*) Del (T 212);
  (*1046*) AddTo n_l2new'bbbb (Times (Transpose (T 213) [3;2;1;0]) (2) 1);
  (*1047*) Del (T 213);
  (*1048*) AddTo n_l2new'bbbb (Times (Transpose (T 214) [2;3;1;0]) (2) 1);
  (*1049*) AddTo n_l2new'bbbb (Times (Einsum [(n_l2'bbbb,[0;1;2;3]); (T 216,[4;1])] [4;0;2;3]) (-1) 1);
  (*1050*) Del (T 216);
  (*1051*) AddTo n_l2new'bbbb (Times (Transpose (T 217) [2;3;1;0]) (-2) 1);
  (*1052*) AddTo n_l2new'bbbb (Times (Transpose (T 221) [2;3;1;0]) (-1) 1);
  (*1053*) AddTo n_l2new'bbbb (Times (Transpose (T 214) [3;2;1;0]) (-2) 1);
  (*1054*) Del (T 214);
  (*1055*) AddTo n_l2new'bbbb (Times (Transpose (T 221) [3;2;1;0]) (2) 1);
  (*1056*) Del (T 221);
  (*1057*) AddTo n_l2new'bbbb (Times (Transpose (T 217) [3;2;1;0]) (2) 1);
  (*1058*) Del (T 217);
  (*1059*) AddTo n_l2new'bbbb (Times (Transpose (T 222) [2;3;0;1]) (-2) 1);
  (*1060*) AddTo n_l2new'bbbb (Times (Transpose (T 222) [2;3;1;0]) (2) 1);
  (*1061*) Del (T 222);
  (*1062*) AddTo n_l2new'bbbb (Times (Einsum [(n_l2'bbbb,[0;1;2;3]); (T 223,[2;4;3;5])] [0;1;4;5]) (2) 1);
  (*1063*) Del (T 223);
  (*1064*) AddTo n_l2new'bbbb (Plain (Einsum [(n_l1'bb,[0;1]); (T 224,[1;2;3;4])] [4;0;2;3]));
  (*1065*) Del (T 224);
  (*1066*) AddTo n_l2new'bbbb (Times (Transpose (T 196) [3;2;1;0]) (-1) 1);
  (*1067*) Del (T 196);
  (*1068*) AddTo n_l2new'bbbb (Times (Transpose (T 225) [3;2;0;1]) (-2) 1);
  (*1069*) AddTo n_l2new'bbbb (Times (Transpose (T 226) [3;2;0;1]) (-2) 1);
  (*1070*) AddTo n_l2new'bbbb (Plain (Einsum [(T 193,[0;1]); (n_l1'bb,[2;3])] [1;2;3;0]));
  (*1071*) AddTo n_l2new'bbbb (Times (Transpose (T 227) [3;2;0;1]) (-1) 1);
  (*1072*) AddTo n_l2new'bbbb (Times (Transpose (T 225) [2;3;0;1]) (2) 1);
  (*1073*) AddTo n_l2new'bbbb (Times (Transpose (T 226) [2;3;0;1]) (2) 1);
  (*1074*) AddTo n_l2new'bbbb (Plain (Transpose (T 227) [2;3;0;1]));
  (*1075*) AddTo n_l2new'bbbb (Times (Einsum [(T 193,[0;1]); (n_l1'bb,[2;3])] [2;1;3;0]) (-1) 1);
  (*1076*) AddTo n_l2new'bbbb (Times (Transpose (T 225) [3;2;1;0]) (2) 1);
  (*1077*) AddTo n_l2new'bbbb (Times (Transpose (T 226) [3;2;1;0]) (2) 1);
  (*1078*) AddTo n_l2new'bbbb (Plain (Transpose (T 227) [3;2;1;0]));
  (*1079*) AddTo n_l2new'bbbb (Times (Einsum [(n_l1'bb,[0;1]); (T 193,[2;3])] [3;0;2;1]) (-1) 1);
  (*1080*) AddTo n_l2new'bbbb (Times (Transpose (T 225) [2;3;1;0]) (-2) 1);
  (*1081*) Del (T 225);
  (*1082*) AddTo n_l2new'bbbb (Times (Transpose (T 226) [2;3;1;0]) (-2) 1);
  (*1083*) Del (T 226);
  (*1084*) AddTo n_l2new'bbbb (Plain (Einsum [(n_l1'bb,[0;1]); (T 193,[2;3])] [0;3;2;1]));
  (*1085*) AddTo n_l2new'bbbb (Times (Transpose (T 227) [2;3;1;0]) (-1) 1);
  (*1086*) Del (T 227);
  (*1087*) Assign n_l2new'abab (Plain (Transpose n_v'aabb'ovov [1;3;0;2]));
  (*1088*) AddTo n_l2new'abab (Times (Einsum [(n_l1'bb,[0;1]); (T 15,[2;1;3;4])] [4;0;2;3]) (-1) 1);
  (*1089*) AddTo n_l2new'abab (Times (Einsum [(T 3,[0;1;2;3]); (T 51,[4;1;2;5])] [3;5;0;4]) (-2) 1);
  (*1090*) Del (T 3);
  (*1091*) AddTo n_l2new'abab (Times (Einsum [(T 1,[0;1;2;3]); (T 39,[0;2;4;5])] [3;5;1;4]) (-1) 1);
  (*1092*) AddTo n_l2new'abab (Times (Einsum [(T 51,[0;1;2;3]); (n_v'aabb'ovoo,[4;5;2;1])] [5;3;4;0]) (-2) 1);
  (*1093*) AddTo n_l2new'abab (Times (Einsum [(n_v'aaaa'ovoo,[0;1;2;3]); (T 39,[3;2;4;5])] [1;5;0;4]) (-1) 1);
  (*1094*) AddTo n_l2new'abab (Plain (Einsum [(n_v'aabb'ovvv,[0;1;2;3]); (n_l1'bb,[3;4])] [1;2;0;4]));
  (*1095*) AddTo n_l2new'abab (Plain (Einsum [(n_l2'abab,[0;1;2;3]); (T 173,[2;4;0;5])] [5;1;4;3]));
  (*1096*) Del (T 173);
  (*1097*) AddTo n_l2new'abab (Times (Einsum [(n_l2'bbbb,[0;1;2;3]); (T 147,[4;3;5;1])] [5;0;4;2]) (2) 1);
  (*1098*) Del (T 147);
  (*1099*) AddTo n_l2new'abab (Times (Einsum [(T 155,[0;1]); (n_l2'abab,[2;3;0;4])] [2;3;1;4]) (-1) 1);
  (*1100*) AddTo n_l2new'abab (Plain (Einsum [(n_l1'bb,[0;1]); (T 156,[2;3])] [3;0;2;1]));
  (*1101*) AddTo n_l2new'abab (Plain (Einsum [(n_l1'aa,[0;1]); (n_v'aabb'vvov,[2;0;3;4])] [2;4;1;3]));
  (*1102*) AddTo n_l2new'abab (Times (Einsum [(T 90,[0;1;2;3]); (T 49,[4;0;2;5])] [5;3;4;1]) (-1) 1);
  (*1103*) AddTo n_l2new'abab (Times (Einsum [(T 5,[0;1;2;3]); (T 37,[4;0;1;5])] [5;3;4;2]) (-2) 1);
  (*1104*) Del (T 5);
  (*1105*) AddTo n_l2new'abab (Times (Einsum [(n_v'bbbb'ovoo,[0;1;2;3]); (T 49,[4;3;2;5])] [5;1;4;0]) (-1) 1);
  (*1106*) AddTo n_l2new'abab (Times (Einsum [(T 37,[0;1;2;3]); (n_v'aabb'ooov,[2;1;4;5])] [3;5;0;4]) (-2) 1);
  (*1107*) AddTo n_l2new'abab (Plain (Einsum [(T 175,[0;1;2;3]); (n_l2'abab,[4;2;5;0])] [4;3;5;1]));
  (*1108*) Del (T 175);
  (*1109*) AddTo n_l2new'abab (Times (Einsum [(T 177,[0;1;2;3]); (n_l2'aaaa,[4;2;5;0])] [4;3;5;1]) (2) 1);
  (*1110*) Del (T 177);
  (*1111*) AddTo n_l2new'abab (Plain (Einsum [(n_l1'aa,[0;1]); (T 179,[2;3])] [0;3;1;2]));
  (*1112*) Del (T 179);
  (*1113*) AddTo n_l2new'abab (Times (Einsum [(n_l2'abab,[0;1;2;3]); (T 180,[3;4;0;5])] [5;1;2;4]) (-1) 1);
  (*1114*) Del (T 180);
  (*1115*) AddTo n_l2new'abab (Times (Einsum [(n_l2'abab,[0;1;2;3]); (T 183,[3;4])] [0;1;2;4]) (-1) 1);
  (*1116*) Del (T 183);
  (*1117*) AddTo n_l2new'abab (Times (Einsum [(T 39,[0;1;2;3]); (n_v'aabb'ovvv,[1;4;5;3])] [4;5;0;2]) (-1) 1);
  (*1118*) AddTo n_l2new'abab (Plain (Transpose (T 184) [2;3;0;1]));
  (*1119*) Del (T 184);
  (*1120*) AddTo n_l2new'abab (Plain (Transpose (T 185) [2;3;0;1]));
  (*1121*) Del (T 185);
  (*1122*) AddTo n_l2new'abab (Plain (Einsum [(T 88,[0;1]); (n_l2'abab,[0;2;3;4])] [1;2;3;4]));
  (*1123*) AddTo n_l2new'abab (Times (Einsum [(T 153,[0;1]); (T 39,[2;0;3;4])] [1;4;2;3]) (-1) 1);
  (*1124*) Del (T 153);
  (*1125*) AddTo n_l2new'abab (Times (Einsum [(T 49,[0;1;2;3]); (n_v'aabb'vvov,[4;3;2;5])] [4;5;0;1]) (-1) 1);
  (*1126*) AddTo n_l2new'abab (Plain (Einsum [(n_l2'abab,[0;1;2;3]); (T 186,[1;4])] [0;4;2;3]));
  (*1127*) Del (T 186);
  (*1128*) AddTo n_l2new'abab (Times (Einsum [(T 189,[0;1]); (T 49,[2;3;0;4])] [4;1;2;3]) (-1) 1);
  (*1129*) Del (T 189);
  (*1130*) AddTo n_l2new'abab (Times (Einsum [(T 190,[0;1;2;3]); (n_l1'aa,[4;0])] [4;3;1;2]) (-1) 1);
  (*1131*) AddTo n_l2new'abab (Plain (Einsum [(n_l2'abab,[0;1;2;3]); (T 191,[2;4;3;5])] [0;1;4;5]));
  (*1132*) Del (T 191);
  (*1133*) AddTo n_l2new'abab (Times (Einsum [(n_l2'abab,[0;1;2;3]); (T 192,[2;4;1;5])] [0;5;4;3]) (-1) 1);
  (*1134*) Del (T 192);
  (*1135*) AddTo n_l2new'abab (Times (Einsum [(n_v'aabb'ovov,[0;1;2;3]); (T 41,[4;0])] [1;3;4;2]) (-1) 1);
  (*1136*) Del (T 41);
  (*1137*) AddTo n_l2new'abab (Plain (Einsum [(T 15,[0;1;2;3]); (T 39,[4;0;1;5])] [3;5;4;2]));
  (*1138*) Del (T 15);
  (*1139*) AddTo n_l2new'abab (Times (Einsum [(T 53,[0;1]); (n_v'aabb'ovov,[2;3;1;4])] [3;4;2;0]) (-1) 1);
  (*1140*) Del (T 53);
  (*1141*) AddTo n_l2new'abab (Plain (Einsum [(T 190,[0;1;2;3]); (T 49,[0;4;2;5])] [5;3;1;4]));
  (*1142*) Del (T 190);
  (*1143*) AddTo n_l2new'abab (Plain (Einsum [(n_v'aaaa'ooov,[0;1;2;3]); (T 39,[1;2;4;5])] [3;5;0;4]));
  (*1144*) AddTo n_l2new'abab (Times (Einsum [(T 169,[0;1]); (n_l1'bb,[2;3])] [1;2;0;3]) (-1) 1);
  (*1145*) AddTo n_l2new'abab (Plain (Einsum [(T 39,[0;1;2;3]); (T 1,[0;1;4;5])] [5;3;4;2]));
  (*1146*) Del (T 1);
  (*1147*) AddTo n_l2new'abab (Plain (Einsum [(n_v'bbbb'ooov,[0;1;2;3]); (T 49,[4;1;2;5])] [5;3;4;0]));
  (*1148*) AddTo n_l2new'abab (Times (Einsum [(n_l1'aa,[0;1]); (T 193,[2;3])] [0;3;1;2]) (-1) 1);
  (*1149*) Del (T 193);
  (*1150*) AddTo n_l2new'abab (Plain (Einsum [(T 49,[0;1;2;3]); (T 90,[1;2;4;5])] [3;5;0;4]));
  (*1151*) Del (T 90);
  (*1152*) Assign n_l2new'aaaa (Plain (Transpose n_v'aaaa'ovov [1;3;0;2]));
  (*1153*) AddTo n_l2new'aaaa (Times (Einsum [(T 131,[0;1;2;3]); (n_l1'aa,[4;0])] [3;4;2;1]) (-1) 1);
  (*1154*) Del (T 131);
  (*1155*) AddTo n_l2new'aaaa (Times (Transpose n_v'aaaa'ovov [3;1;0;2]) (-1) 1);
  (*1156*) AddTo n_l2new'aaaa (Plain (Transpose (T 133) [3;2;0;1]));
  (*1157*) AddTo n_l2new'aaaa (Times (Transpose (T 134) [3;2;0;1]) (2) 1);
  (*1158*) AddTo n_l2new'aaaa (Plain (Transpose (T 135) [3;2;0;1]));
  (*1159*) AddTo n_l2new'aaaa (Plain (Transpose (T 136) [3;2;0;1]));
  (*1160*) AddTo n_l2new'aaaa (Times (Transpose (T 137) [2;3;0;1]) (-1) 1);
  (*1161*) AddTo n_l2new'aaaa (Times (Transpose (T 138) [3;2;0;1]) (2) 1);
  (*1162*) AddTo n_l2new'aaaa (Times (Einsum [(T 139,[0;1;2;3]); (n_l2'aaaa,[4;3;5;0])] [2;4;5;1]) (-2) 1);
  (*1163*) Del (T 139);
  (*1164*) AddTo n_l2new'aaaa (Times (Einsum [(T 12,[0;1;2;3]); (n_l2'abab,[4;3;5;1])] [2;4;5;0]) (-1) 1);
  (*1165*) Del (T 12);
  (*1166*) AddTo n_l2new'aaaa (Times (Einsum [(n_l2'aaaa,[0;1;2;3]); (T 140,[3;4])] [0;1;2;4]) (-2) 1);
  (*1167*) Del (T 140);
  (*1168*) AddTo n_l2new'aaaa (Times (Einsum [(T 142,[0;1]); (n_l1'aa,[2;3])] [1;2;3;0]) (-1) 1);
  (*1169*) Del (T 142);
  (*1170*) AddTo n_l2new'aaaa (Times (Transpose (T 134) [3;2;1;0]) (-2) 1);
  (*1171*) AddTo n_l2new'aaaa (Times (Transpose (T 135) [3;2;1;0]) (-1) 1);
  (*1172*) AddTo n_l2new'aaaa (Times (Transpose (T 136) [3;2;1;0]) (-1) 1);
  (*1173*) AddTo n_l2new'aaaa (Plain (Transpose (T 137) [2;3;1;0]));
  (*1174*) AddTo n_l2new'aaaa (Times (Transpose (T 138) [3;2;1;0]) (-2) 1);
  (*1175*) AddTo n_l2new'aaaa (Times (Transpose (T 146) [2;3;0;1]) (2) 1);
  (*1176*) AddTo n_l2new'aaaa (Plain (Transpose (T 148) [2;3;0;1]));
  (*1177*) AddTo n_l2new'aaaa (Times (Einsum [(T 155,[0;1]); (n_l2'aaaa,[2;3;4;0])] [2;3;1;4]) (2) 1);
  (*1178*) Del (T 155);
  (*1179*) AddTo n_l2new'aaaa (Plain (Einsum [(n_l1'aa,[0;1]); (T 156,[2;3])] [3;0;2;1]));
  (*1180*) AddTo n_l2new'aaaa (Times (Transpose (T 135) [2;3;0;1]) (-1) 1);
  (*1181*) AddTo n_l2new'aaaa (Times (Transpose (T 134) [2;3;0;1]) (-2) 1);
  (*1182*) AddTo n_l2new'aaaa (Times (Transpose (T 136) [2;3;0;1]) (-1) 1);
  (*1183*) AddTo n_l2new'aaaa (Plain (Transpose (T 137) [3;2;0;1]));
  (*1184*) AddTo n_l2new'aaaa (Times (Transpose (T 138) [2;3;0;1]) (-2) 1);
  (*1185*) AddTo n_l2new'aaaa (Times (Transpose (T 146) [3;2;1;0]) (2) 1);
  (*1186*) AddTo n_l2new'aaaa (Plain (Transpose (T 148) [3;2;1;0]));
  (*1187*) AddTo n_l2new'aaaa (Plain (Einsum [(T 156,[0;1]); (n_l1'aa,[2;3])] [2;1;3;0]));
  (*1188*) AddTo n_l2new'aaaa (Plain (Transpose (T 135) [2;3;1;0]));
  (*1189*) Del (T 135);
  (*1190*) AddTo n_l2new'aaaa (Times (Transpose (T 134) [2;3;1;0]) (2) 1);
  (*1191*) Del (T 134);
  (*1192*) AddTo n_l2new'aaaa (Plain (Transpose (T 136) [2;3;1;0]));
  (*1193*) Del (T 136);
  (*1194*) AddTo n_l2new'aaaa (Times (Transpose (T 137) [3;2;1;0]) (-1) 1);
  (*1195*) Del (T 137);
  (*1196*) AddTo n_l2new'aaaa (Times (Transpose (T 138) [2;3;1;0]) (2) 1);
  (*1197*) Del (T 138);
  (*1198*) AddTo n_l2new'aaaa (Times (Transpose (T 146) [3;2;0;1]) (-2) 1);
  (*1199*) Del (T 146);
  (*1200*) AddTo n_l2new'aaaa (Times (Transpose (T 148) [3;2;0;1]) (-1) 1);
  (*1201*) Del (T 148);
  (*1202*) AddTo n_l2new'aaaa (Times (Einsum [(n_l1'aa,[0;1]); (T 156,[2;3])] [0;3;2;1]) (-1) 1);
  (*1203*) Del (T 156);
  (*1204*) AddTo n_l2new'aaaa (Times (Transpose (T 157) [3;2;1;0]) (2) 1);
  (*1205*) Del (T 157);
  (*1206*) AddTo n_l2new'aaaa (Times (Transpose (T 158) [2;3;1;0]) (2) 1);
  (*1207*) AddTo n_l2new'aaaa (Times (Transpose (T 159) [3;2;1;0]) (2) 1);
  (*1208*) Del (T 159);
  (*1209*) AddTo n_l2new'aaaa (Times (Einsum [(T 160,[0;1]); (n_l2'aaaa,[2;1;3;4])] [0;2;3;4]) (-1) 1);
  (*1210*) Del (T 160);
  (*1211*) AddTo n_l2new'aaaa (Times (Transpose (T 161) [2;3;1;0]) (-2) 1);
  (*1212*) AddTo n_l2new'aaaa (Times (Transpose (T 165) [2;3;1;0]) (-1) 1);
  (*1213*) AddTo n_l2new'aaaa (Times (Transpose (T 158) [3;2;1;0]) (-2) 1);
  (*1214*) Del (T 158);
  (*1215*) AddTo n_l2new'aaaa (Times (Transpose (T 165) [3;2;1;0]) (2) 1);
  (*1216*) Del (T 165);
  (*1217*) AddTo n_l2new'aaaa (Times (Transpose (T 161) [3;2;1;0]) (2) 1);
  (*1218*) Del (T 161);
  (*1219*) AddTo n_l2new'aaaa (Times (Transpose (T 166) [2;3;0;1]) (-2) 1);
  (*1220*) AddTo n_l2new'aaaa (Times (Transpose (T 166) [2;3;1;0]) (2) 1);
  (*1221*) Del (T 166);
  (*1222*) AddTo n_l2new'aaaa (Times (Einsum [(n_l2'aaaa,[0;1;2;3]); (T 167,[2;4;3;5])] [0;1;4;5]) (2) 1);
  (*1223*) Del (T 167);
  (*1224*) AddTo n_l2new'aaaa (Plain (Einsum [(T 168,[0;1;2;3]); (n_l1'aa,[4;0])] [3;4;1;2]));
  (*1225*) Del (T 168);
  (*1226*) AddTo n_l2new'aaaa (Times (Transpose (T 133) [3;2;1;0]) (-1) 1);
  (*1227*) Del (T 133);
  (*1228*) AddTo n_l2new'aaaa (Plain (Einsum [(T 169,[0;1]); (n_l1'aa,[2;3])] [1;2;3;0]));
  (*1229*) AddTo n_l2new'aaaa (Times (Transpose (T 170) [3;2;0;1]) (-1) 1);
  (*1230*) AddTo n_l2new'aaaa (Times (Transpose (T 171) [3;2;0;1]) (-2) 1);
  (*1231*) AddTo n_l2new'aaaa (Times (Transpose (T 172) [3;2;0;1]) (-2) 1);
  (*1232*) AddTo n_l2new'aaaa (Plain (Transpose (T 170) [2;3;0;1]));
  (*1233*) AddTo n_l2new'aaaa (Times (Einsum [(T 169,[0;1]); (n_l1'aa,[2;3])] [2;1;3;0]) (-1) 1);
  (*1234*) AddTo n_l2new'aaaa (Times (Transpose (T 171) [2;3;0;1]) (2) 1);
  (*1235*) AddTo n_l2new'aaaa (Times (Transpose (T 172) [2;3;0;1]) (2) 1);
  (*1236*) AddTo n_l2new'aaaa (Plain (Transpose (T 170) [3;2;1;0]));
  (*1237*) AddTo n_l2new'aaaa (Times (Einsum [(T 169,[0;1]); (n_l1'aa,[2;3])] [1;2;0;3]) (-1) 1);
  (*1238*) AddTo n_l2new'aaaa (Times (Transpose (T 171) [3;2;1;0]) (2) 1);
  (*1239*) AddTo n_l2new'aaaa (Times (Transpose (T 172) [3;2;1;0]) (2) 1);
  (*1240*) AddTo n_l2new'aaaa (Plain (Einsum [(n_l1'aa,[0;1]); (T 169,[2;3])] [0;3;2;1]));
  (*1241*) Del (T 169);
  (*1242*) AddTo n_l2new'aaaa (Times (Transpose (T 170) [2;3;1;0]) (-1) 1);
  (*1243*) Del (T 170);
  (*1244*) AddTo n_l2new'aaaa (Times (Transpose (T 171) [2;3;1;0]) (-2) 1);
  (*1245*) Del (T 171);
  (*1246*) AddTo n_l2new'aaaa (Times (Transpose (T 172) [2;3;1;0]) (-2) 1);
  (*1247*) Del (T 172);
  (*1248*) Assign n_l1new'bb (Plain (Transpose n_f'bb'ov [1;0]));
  (*1249*) AddTo n_l1new'bb (Times (Einsum [(n_l1'bb,[0;1]); (n_v'bbbb'oovv,[2;1;3;0])] [3;2]) (-1) 1);
  (*1250*) AddTo n_l1new'bb (Times (Einsum [(n_l2'abab,[0;1;2;3]); (T 98,[2;3;4;0])] [1;4]) (-1) 1);
  (*1251*) Del (T 98);
  (*1252*) AddTo n_l1new'bb (Times (Einsum [(n_l2'bbbb,[0;1;2;3]); (T 104,[4;2;3;1])] [0;4]) (2) 1);
  (*1253*) Del (T 104);
  (*1254*) AddTo n_l1new'bb (Times (Einsum [(T 105,[0;1;2;3]); (T 34,[2;1])] [3;0]) (-1) 1);
  (*1255*) Del (T 105);
  (*1256*) AddTo n_l1new'bb (Plain (Einsum [(n_v'aabb'vvov,[0;1;2;3]); (T 29,[0;1])] [3;2]));
  (*1257*) AddTo n_l1new'bb (Times (Einsum [(T 46,[0;1]); (n_v'aabb'ovov,[0;1;2;3])] [3;2]) (-1) 1);
  (*1258*) AddTo n_l1new'bb (Times (Einsum [(n_v'bbbb'ovov,[0;1;2;3]); (T 58,[2;3])] [1;0]) (-1) 1);
  (*1259*) AddTo n_l1new'bb (Times (Einsum [(T 56,[0;1]); (n_v'bbbb'ovoo,[2;3;0;1])] [3;2]) (-1) 1);
  (*1260*) AddTo n_l1new'bb (Times (Einsum [(n_v'aabb'ooov,[0;1;2;3]); (T 89,[1;0])] [3;2]) (-1) 1);
  (*1261*) AddTo n_l1new'bb (Times (Einsum [(n_l1'bb,[0;1]); (T 108,[1;2])] [0;2]) (-2) 1);
  (*1262*) Del (T 108);
  (*1263*) AddTo n_l1new'bb (Times (Einsum [(n_v'bbbb'oovv,[0;1;2;3]); (T 51,[4;1;0;3])] [2;4]) (-2) 1);
  (*1264*) AddTo n_l1new'bb (Times (Einsum [(T 109,[0;1;2;3]); (n_l2'bbbb,[3;2;4;0])] [1;4]) (-2) 1);
  (*1265*) Del (T 109);
  (*1266*) AddTo n_l1new'bb (Times (Einsum [(n_v'aabb'oovv,[0;1;2;3]); (T 39,[1;0;4;3])] [2;4]) (-1) 1);
  (*1267*) Del (T 39);
  (*1268*) AddTo n_l1new'bb (Plain (Einsum [(n_l2'abab,[0;1;2;3]); (T 110,[2;0;4;1])] [4;3]));
  (*1269*) Del (T 110);
  (*1270*) AddTo n_l1new'bb (Times (Einsum [(T 111,[0;1;2;3]); (T 51,[4;0;1;3])] [2;4]) (-2) 1);
  (*1271*) Del (T 51);
  (*1271*) Del (T 111);
  (*1272*) AddTo n_l1new'bb (Times (Einsum [(T 112,[0;1;2;3]); (n_v'aabb'ovvv,[0;2;4;3])] [4;1]) (2) 1);
  (*1273*) Del (T 112);
  (*1274*) AddTo n_l1new'bb (Times (Einsum [(T 115,[0;1;2;3]); (n_v'bbbb'ovvv,[1;3;4;2])] [4;0]) (2) 1);
  (*1275*) Del (T 115);
  (*1276*) AddTo n_l1new'bb (Times (Einsum [(T 116,[0;1;2;3]); (n_v'bbbb'ovvv,[1;4;3;2])] [4;0]) (-1) 1);
  (*1277*) Del (T 116);
  (*1278*) AddTo n_l1new'bb (Times (Einsum [(T 117,[0;1;2;3]); (n_v'aabb'ovov,[0;3;2;4])] [4;1]) (-1) 1);
  (*1279*) Del (T 117);
  (*1280*) AddTo n_l1new'bb (Times (Einsum [(T 118,[0;1;2;3]); (n_v'aabb'vvov,[3;2;1;4])] [4;0]) (-1) 1);
  (*1281*) Del (T 118);
  (*1282*) AddTo n_l1new'bb (Times (Einsum [(T 122,[0;1;2;3]); (n_v'bbbb'ovov,[1;3;2;4])] [4;0]) (-2) 1);
  (*1283*) Del (T 122);
  (*1284*) AddTo n_l1new'bb (Plain (Einsum [(n_v'bbbb'ovov,[0;1;2;3]); (T 124,[4;2;0;3])] [1;4]));
  (*1285*) Del (T 124);
  (*1286*) AddTo n_l1new'bb (Plain (Einsum [(n_v'aabb'ooov,[0;1;2;3]); (T 125,[1;0;4;2])] [3;4]));
  (*1287*) Del (T 125);
  (*1288*) AddTo n_l1new'bb (Times (Einsum [(n_v'bbbb'ooov,[0;1;2;3]); (T 126,[1;4;0;2])] [3;4]) (2) 1);
  (*1289*) Del (T 126);
  (*1290*) AddTo n_l1new'bb (Plain (Einsum [(T 127,[0;1]); (n_v'bbbb'ovov,[2;1;0;3])] [3;2]));
  (*1291*) Del (T 127);
  (*1292*) AddTo n_l1new'bb (Plain (Einsum [(T 56,[0;1]); (n_v'bbbb'ooov,[2;0;1;3])] [3;2]));
  (*1293*) AddTo n_l1new'bb (Plain (Einsum [(T 130,[0;1]); (n_l1'bb,[0;2])] [1;2]));
  (*1294*) Del (T 130);
  (*1295*) AddTo n_l1new'bb (Times (Einsum [(T 95,[0;1]); (T 56,[2;0])] [1;2]) (-1) 1);
  (*1296*) Del (T 95);
  (*1296*) Del (T 56);
  (*1297*) Assign n_l1new'aa (Times (Einsum [(n_v'aaaa'oovv,[0;1;2;3]); (n_l1'aa,[3;1])] [2;0]) (-1) 1);
  (*1298*) AddTo n_l1new'aa (Plain (Transpose n_f'aa'ov [1;0]));
  (*1299*) AddTo n_l1new'aa (Times (Einsum [(T 18,[0;1;2;3]); (n_l2'abab,[4;3;0;2])] [4;1]) (-1) 1);
  (*1300*) Del (T 18);
  (*1301*) AddTo n_l1new'aa (Times (Einsum [(T 25,[0;1;2;3]); (n_l2'aaaa,[4;3;1;2])] [4;0]) (2) 1);
  (*1302*) Del (T 25);
  (*1303*) AddTo n_l1new'aa (Times (Einsum [(T 29,[0;1]); (T 30,[2;3;1;0])] [3;2]) (-1) 1);
  (*1304*) Del (T 30);
  (*1304*) Del (T 29);
  (*1305*) AddTo n_l1new'aa (Plain (Einsum [(n_v'aabb'ovvv,[0;1;2;3]); (T 34,[3;2])] [1;0]));
  (*1306*) Del (T 34);
  (*1307*) AddTo n_l1new'aa (Times (Einsum [(T 46,[0;1]); (n_v'aaaa'ovov,[2;3;0;1])] [3;2]) (-1) 1);
  (*1308*) Del (T 46);
  (*1309*) AddTo n_l1new'aa (Times (Einsum [(T 58,[0;1]); (n_v'aabb'ovov,[2;3;0;1])] [3;2]) (-1) 1);
  (*1310*) Del (T 58);
  (*1311*) AddTo n_l1new'aa (Times (Einsum [(T 44,[0;1]); (n_v'aaaa'ovoo,[2;3;1;0])] [3;2]) (-2) 1);
  (*1312*) AddTo n_l1new'aa (Times (Einsum [(T 59,[0;1]); (n_v'aabb'ovoo,[2;3;1;0])] [3;2]) (-2) 1);
  (*1313*) Del (T 59);
  (*1314*) AddTo n_l1new'aa (Times (Einsum [(n_l1'aa,[0;1]); (T 64,[1;2])] [0;2]) (-1) 1);
  (*1315*) Del (T 64);
  (*1316*) AddTo n_l1new'aa (Plain (Einsum [(T 65,[0;1;2;3]); (n_l2'abab,[2;3;4;0])] [1;4]));
  (*1317*) Del (T 65);
  (*1318*) AddTo n_l1new'aa (Times (Einsum [(T 49,[0;1;2;3]); (n_v'aabb'vvoo,[4;3;2;1])] [4;0]) (-1) 1);
  (*1319*) Del (T 49);
  (*1320*) AddTo n_l1new'aa (Times (Einsum [(n_v'aaaa'oovv,[0;1;2;3]); (T 37,[4;1;0;3])] [2;4]) (-2) 1);
  (*1321*) Del (T 37);
  (*1322*) AddTo n_l1new'aa (Times (Einsum [(T 66,[0;1;2;3]); (n_v'aaaa'ooov,[1;3;2;4])] [4;0]) (2) 1);
  (*1323*) Del (T 66);
  (*1324*) AddTo n_l1new'aa (Times (Einsum [(n_v'aaaa'ooov,[0;1;2;3]); (T 67,[4;1;0;2])] [3;4]) (-2) 1);
  (*1325*) Del (T 67);
  (*1326*) AddTo n_l1new'aa (Times (Einsum [(T 68,[0;1;2;3]); (n_v'aabb'vvov,[4;2;1;3])] [4;0]) (2) 1);
  (*1327*) Del (T 68);
  (*1328*) AddTo n_l1new'aa (Plain (Einsum [(T 70,[0;1;2;3]); (T 69,[1;3;2;4])] [4;0]));
  (*1329*) Del (T 70);
  (*1330*) AddTo n_l1new'aa (Times (Einsum [(n_v'aabb'ovov,[0;1;2;3]); (T 74,[4;0;2;3])] [1;4]) (-1) 1);
  (*1331*) Del (T 74);
  (*1332*) AddTo n_l1new'aa (Times (Einsum [(T 78,[0;1;2;3]); (n_v'aaaa'ovov,[1;3;2;4])] [4;0]) (-2) 1);
  (*1333*) Del (T 78);
  (*1334*) AddTo n_l1new'aa (Times (Einsum [(T 79,[0;1;2;3]); (n_v'aabb'ovvv,[1;4;3;2])] [4;0]) (-1) 1);
  (*1335*) Del (T 79);
  (*1336*) AddTo n_l1new'aa (Times (Einsum [(T 80,[0;1;2;3]); (n_l2'aaaa,[1;2;4;0])] [3;4]) (-2) 1);
  (*1337*) Del (T 80);
  (*1338*) AddTo n_l1new'aa (Times (Einsum [(T 69,[0;1;2;3]); (T 81,[4;0;2;1])] [3;4]) (-2) 1);
  (*1339*) Del (T 69);
  (*1339*) Del (T 81);
  (*1340*) AddTo n_l1new'aa (Plain (Einsum [(n_v'aaaa'ovov,[0;1;2;3]); (T 82,[4;2;0;3])] [1;4]));
  (*1341*) Del (T 82);
  (*1342*) AddTo n_l1new'aa (Plain (Einsum [(n_v'aabb'ovoo,[0;1;2;3]); (T 83,[4;0;3;2])] [1;4]));
  (*1343*) Del (T 83);
  (*1344*) AddTo n_l1new'aa (Times (Einsum [(n_v'aaaa'ovov,[0;1;2;3]); (T 84,[2;1])] [3;0]) (2) 1);
  (*1345*) Del (T 84);
  (*1346*) AddTo n_l1new'aa (Times (Einsum [(n_v'aaaa'ooov,[0;1;2;3]); (T 44,[1;2])] [3;0]) (2) 1);
  (*1347*) Del (T 44);
  (*1348*) AddTo n_l1new'aa (Plain (Einsum [(T 88,[0;1]); (n_l1'aa,[0;2])] [1;2]));
  (*1349*) Del (T 88);
  (*1350*) AddTo n_l1new'aa (Times (Einsum [(T 89,[0;1]); (T 10,[1;2])] [2;0]) (-1) 1);
  (*1351*) Del (T 10);
  (*1351*) Del (T 89)]
 [(n_l1new'bb,[7;6]); (n_l1new'aa,[5;4]); (n_l2new'bbbb,[7;7;6;6]); (n_l2new'abab,[5;7;4;6]); (n_l2new'aaaa,[5;5;4;4])].

(** ebcc/codegen/UCC2.py:1355-1443 [make_rdm1_f]; assembly (line 1440) not translated; assembly (line 1441) not translated *)
Definition UCC2_make_rdm1_f : prog := mkprog
 [(n_t2'aaaa,[4;4;5;5]); (n_t2'bbbb,[6;6;7;7]); (n_t2'abab,[4;6;5;7]); (n_l2'abab,[5;7;4;6]); (n_l1'bb,[7;6]); (n_t1'bb,[6;7]); (n_l2'bbbb,[7;7;6;6]); (n_t1'aa,[4;5]); (n_l1'aa,[5;4]); (n_l2'aaaa,[5;5;4;4])]
 [(*1379*) Assign n_delta'aa'oo (Plain (Eye 4));
  (*1379*) Assign n_delta'aa'vv (Plain (Eye 5));
  (*1379*) Assign n_delta'bb'oo (Plain (Eye 6));
  (*1379*) Assign n_delta'bb'vv (Plain (Eye 7));
  (*1383*) Assign (T 5) (Plain (Einsum [(n_t2'abab,[0;1;2;3]); (n_l2'abab,[2;3;0;4])] [4;1]));
  (*1384*) Assign (T 4) (Plain (Einsum [(n_l1'bb,[0;1]); (n_t1'bb,[2;0])] [1;2]));
  (*1385*) Assign (T 6) (Plain (Einsum [(n_t2'bbbb,[0;1;2;3]); (n_l2'bbbb,[2;3;4;1])] [4;0]));
  (*1386*) Assign (T 3) (Plain (Einsum [(n_t2'abab,[0;1;2;3]); (n_l2'abab,[2;3;4;1])] [4;0]));
  (*1387*) Assign (T 1) (Plain (Einsum [(n_t1'aa,[0;1]); (n_l1'aa,[1;2])] [2;0]));
  (*1388*) Assign (T 2) (Plain (Einsum [(n_t2'aaaa,[0;1;2;3]); (n_l2'aaaa,[2;3;4;1])] [4;0]));
  (*1389*) Assign (T 12) (Plain (Copy (T 4)));
  (*1390*) AddTo (T 12) (Plain (Copy (T 5)));
  (*1391*) AddTo (T 12) (Times (Copy (T 6)) (2) 1);
  (*1392*) Assign (T 10) (Plain (Einsum [(n_l2'abab,[0;1;2;3]); (n_t1'bb,[4;1])] [2;3;4;0]));
  (*1393*) Assign (T 11) (Plain (Einsum [(n_t1'bb,[0;1]); (n_l2'bbbb,[2;1;3;4])] [3;4;0;2]));
  (*1394*) Assign (T 8) (Plain (Einsum [(n_t1'aa,[0;1]); (n_l2'aaaa,[2;1;3;4])] [3;4;0;2]));
  (*1395*) Assign (T 7) (Plain (Einsum [(n_t1'aa,[0;1]); (n_l2'abab,[1;2;3;4])] [3;0;4;2]));
  (*1396*) Assign (T 9) (Plain (Copy (T 1)));
  (*1397*) AddTo (T 9) (Times (Copy (T 2)) (2) 1);
  (*1398*) AddTo (T 9) (Plain (Copy (T 3)));
  (*1399*) Assign n_rdm1'bb'vv (Times (Einsum [(n_l2'bbbb,[0;1;2;3]); (n_t2'bbbb,[2;3;4;1])] [0;4]) (2) 1);
  (*1400*) AddTo n_rdm1'bb'vv (Plain (Einsum [(n_t2'abab,[0;1;2;3]); (n_l2'abab,[2;4;0;1])] [4;3]));
  (*1401*) AddTo n_rdm1'bb'vv (Plain (Einsum [(n_l1'bb,[0;1]); (n_t1'bb,[1;2])] [0;2]));
  (*1402*) Assign n_rdm1'aa'vv (Plain (Einsum [(n_l1'aa,[0;1]); (n_t1'aa,[1;2])] [0;2]));
  (*1403*) AddTo n_rdm1'aa'vv (Plain (Einsum [(n_t2'abab,[0;1;2;3]); (n_l2'abab,[4;3;0;1])] [4;2]));
  (*1404*) AddTo n_rdm1'aa'vv (Times (Einsum [(n_t2'aaaa,[0;1;2;3]); (n_l2'aaaa,[4;3;0;1])] [4;2]) (2) 1);
  (*1405*) Assign n_rdm1'bb'vo (Plain (Copy n_l1'bb));
  (*1406*) Assign n_rdm1'aa'vo (Plain (Copy n_l1'aa));
  (*1407*) Assign n_rdm1'bb'ov (Plain (Copy n_t1'bb));
  (*1408*) AddTo n_rdm1'bb'ov (Times (Einsum [(n_t2'bbbb,[0;1;2;3]); (n_l1'bb,[3;1])] [0;2]) (2) 1);
  (*1409*) AddTo n_rdm1'bb'ov (Plain (Einsum [(n_t2'abab,[0;1;2;3]); (n_l1'aa,[2;0])] [1;3]));
  (*1410*) AddTo n_rdm1'bb'ov (Times (Einsum [(T 10,[0;1;2;3]); (n_t2'abab,[0;1;3;4])] [2;4]) (-1) 1);
  (*1411*) Del (T 10);
  (*1412*) AddTo n_rdm1'bb'ov (Times (Einsum [(n_t2'bbbb,[0;1;2;3]); (T 11,[1;0;4;3])] [4;2]) (-2) 1);
  (*1413*) Del (T 11);
  (*1414*) AddTo n_rdm1'bb'ov (Times (Einsum [(T 12,[0;1]); (n_t1'bb,[0;2])] [1;2]) (-1) 1);
  (*1415*) Del (T 12);
  (*1416*) Assign n_rdm1'aa'ov (Plain (Einsum [(n_t2'abab,[0;1;2;3]); (n_l1'bb,[3;1])] [0;2]));
  (*1417*) AddTo n_rdm1'aa'ov (Times (Einsum [(n_t2'aaaa,[0;1;2;3]); (n_l1'aa,[3;1])] [0;2]) (2) 1);
  (*1418*) AddTo n_rdm1'aa'ov (Plain (Copy n_t1'aa));
  (*1419*) AddTo n_rdm1'aa'ov (Times (Einsum [(n_t2'abab,[0;1;2;3]); (T 7,[0;4;1;3])] [4;2]) (-1) 1);
  (*1420*) Del (T 7);
  (*1421*) AddTo n_rdm1'aa'ov (Times (Einsum [(T 8,[0;1;2;3]); (n_t2'aaaa,[1;0;4;3])] [2;4]) (-2) 1);
  (*1422*) Del (T 8);
  (*1423*) AddTo n_rdm1'aa'ov (Times (Einsum [(n_t1'aa,[0;1]); (T 9,[0;2])] [2;1]) (-1) 1);
  (*1424*) Del (T 9);
  (*1425*) Assign n_rdm1'bb'oo (Times (Transpose (T 4) [1;0]) (-1) 1);
  (*1426*) Del (T 4);
  (*1427*) AddTo n_rdm1'bb'oo (Times (Transpose (T 5) [1;0]) (-1) 1);
  (*1428*) Del (T 5);
  (*1429*) AddTo n_rdm1'bb'oo (Times (Transpose (T 6) [1;0]) (-2) 1);
  (*1430*) Del (T 6);
  (*1431*) AddTo n_rdm1'bb'oo (Plain (Copy n_delta'bb'oo));
  (*1432*) Assign n_rdm1'aa'oo (Times (Transpose (T 1) [1;0]) (-1) 1);
  (*1433*) Del (T 1);
  (*1434*) AddTo n_rdm1'aa'oo (Times (Transpose (T 2) [1;0]) (-2) 1);
  (*1435*) Del (T 2);
  (*1436*) AddTo n_rdm1'aa'oo (Plain (Copy n_delta'aa'oo));
  (*1437*) Del n_delta'aa'oo;
  (*1437*) Del n_delta'aa'vv;
  (*1437*) Del n_delta'bb'oo;
  (*1437*) Del n_delta'bb'vv;
  (*1438*) AddTo n_rdm1'aa'oo (Times (Transpose (T 3) [1;0]) (-1) 1);
  (*1439*) Del (T 3)]
 [(n_rdm1'aa'oo,[4;4]); (n_rdm1'aa'ov,[4;5]); (n_rdm1'aa'vo,[5;4]); (n_rdm1'aa'vv,[5;5]); (n_rdm1'bb'oo,[6;6]); (n_rdm1'bb'ov,[6;7]); (n_rdm1'bb'vo,[7;6]); (n_rdm1'bb'vv,[7;7])].

(** ebcc/codegen/UCC2.py:1445-2093 [make_rdm2_f]; assembly (line 2084) not translated; assembly (line 2085) not translated; assembly (line 2086) not translated *)
Definition UCC2_make_rdm2_f : prog := mkprog
 [(n_t2'aaaa,[4;4;5;5]); (n_t2'bbbb,[6;6;7;7]); (n_t1'bb,[6;7]); (n_l2'bbbb,[7;7;6;6]); (n_t2'abab,[4;6;5;7]); (n_l2'abab,[5;7;4;6]); (n_l1'bb,[7;6]); (n_t1'aa,[4;5]); (n_l1'aa,[5;4]); (n_l2'aaaa,[5;5;4;4])]
 [(*1470*) Assign n_delta'aa'oo (Plain (Eye 4));
  (*1470*) Assign n_delta'aa'vv (Plain (Eye 5));
  (*1470*) Assign n_delta'bb'oo (Plain (Eye 6));
  (*1470*) Assign n_delta'bb'vv (Plain (Eye 7));
  (*1474*) Assign (T 19) (Plain (Einsum [(n_t1'bb,[0;1]); (n_l2'bbbb,[2;1;3;4])] [3;4;0;2]));
  (*1475*) Assign (T 10) (Plain (Einsum [(n_t2'abab,[0;1;2;3]); (n_l2'abab,[2;3;0;4])] [4;1]));
  (*1476*) Assign (T 9) (Plain (Einsum [(n_l1'bb,[0;1]); (n_t1'bb,[2;0])] [1;2]));
  (*1477*) Assign (T 11) (Plain (Einsum [(n_t2'bbbb,[0;1;2;3]); (n_l2'bbbb,[2;3;4;1])] [4;0]));
  (*1478*) Assign (T 14) (Plain (Einsum [(n_l2'abab,[0;1;2;3]); (n_t1'bb,[4;1])] [2;3;4;0]));
  (*1479*) Assign (T 3) (Plain (Einsum [(n_t2'abab,[0;1;2;3]); (n_l2'abab,[2;3;4;1])] [4;0]));
  (*1480*) Assign (T 1) (Plain (Einsum [(n_t1'aa,[0;1]); (n_l1'aa,[1;2])] [2;0]));
  (*1481*) Assign (T 2) (Plain (Einsum [(n_t2'aaaa,[0;1;2;3]); (n_l2'aaaa,[2;3;4;1])] [4;0]));
  (*1482*) Assign (T 7) (Plain (Einsum [(n_t1'aa,[0;1]); (n_l2'aaaa,[2;1;3;4])] [3;4;0;2]));
  (*1483*) Assign (T 27) (Plain (Einsum [(n_t1'aa,[0;1]); (n_l2'abab,[1;2;3;4])] [3;0;4;2]));
  (*1484*) Assign (T 89) (Plain (Einsum [(n_l2'bbbb,[0;1;2;3]); (n_t2'bbbb,[4;3;5;1])] [2;4;0;5]));
  (*1485*) Assign (T 88) (Plain (Einsum [(n_t2'abab,[0;1;2;3]); (n_l2'abab,[2;4;0;5])] [5;1;4;3]));
  (*1486*) Assign (T 70) (Plain (Einsum [(n_t2'aaaa,[0;1;2;3]); (n_l2'aaaa,[4;3;5;1])] [5;0;4;2]));
  (*1487*) Assign (T 72) (Plain (Einsum [(n_l2'abab,[0;1;2;3]); (n_t2'abab,[4;3;5;1])] [2;4;0;5]));
  (*1488*) Assign (T 18) (Plain (Einsum [(n_t2'bbbb,[0;1;2;3]); (n_l2'bbbb,[2;3;4;5])] [4;5;0;1]));
  (*1489*) Assign (T 20) (Plain (Einsum [(n_t1'bb,[0;1]); (T 19,[2;3;4;1])] [2;3;0;4]));
  (*1490*) Assign (T 16) (Plain (Copy (T 9)));
  (*1491*) AddTo (T 16) (Plain (Copy (T 10)));
  (*1492*) AddTo (T 16) (Times (Copy (T 11)) (2) 1);
  (*1493*) Assign (T 52) (Plain (Einsum [(n_t2'abab,[0;1;2;3]); (T 14,[0;4;5;2])] [4;5;1;3]));
  (*1494*) Assign (T 51) (Times (Einsum [(T 19,[0;1;2;3]); (n_t2'bbbb,[4;1;5;3])] [0;2;4;5]) (-1) 1);
  (*1495*) Assign (T 5) (Times (Copy (T 1)) (1) 2);
  (*1496*) AddTo (T 5) (Plain (Copy (T 2)));
  (*1497*) AddTo (T 5) (Times (Copy (T 3)) (1) 2);
  (*1498*) Assign (T 13) (Plain (Einsum [(n_t2'abab,[0;1;2;3]); (n_l2'abab,[2;3;4;5])] [4;0;5;1]));
  (*1499*) Assign (T 15) (Plain (Einsum [(n_t1'aa,[0;1]); (T 14,[2;3;4;1])] [2;0;3;4]));
  (*1500*) Assign (T 8) (Plain (Einsum [(T 7,[0;1;2;3]); (n_t1'aa,[4;3])] [0;1;4;2]));
  (*1501*) Assign (T 6) (Plain (Einsum [(n_t2'aaaa,[0;1;2;3]); (n_l2'aaaa,[2;3;4;5])] [4;5;0;1]));
  (*1502*) Assign (T 32) (Times (Einsum [(T 7,[0;1;2;3]); (n_t2'aaaa,[4;1;5;3])] [0;2;4;5]) (-1) 1);
  (*1503*) Assign (T 31) (Plain (Einsum [(n_t2'abab,[0;1;2;3]); (T 27,[4;5;1;3])] [4;5;0;2]));
  (*1504*) Assign (T 83) (Plain (Einsum [(n_l2'bbbb,[0;1;2;3]); (n_t2'bbbb,[2;3;4;1])] [0;4]));
  (*1505*) Assign (T 108) (Plain (Einsum [(n_l1'bb,[0;1]); (n_t1'bb,[1;2])] [0;2]));
  (*1506*) Assign (T 82) (Plain (Einsum [(n_t2'abab,[0;1;2;3]); (n_l2'abab,[2;4;0;1])] [4;3]));
  (*1507*) Assign (T 111) (Plain (Einsum [(T 19,[0;1;2;3]); (n_t1'bb,[1;4])] [0;2;3;4]));
  (*1508*) Assign (T 90) (Plain (Copy (T 88)));
  (*1509*) AddTo (T 90) (Times (Copy (T 89)) (4) 1);
  (*1510*) Assign (T 105) (Plain (Einsum [(n_l1'aa,[0;1]); (n_t1'aa,[1;2])] [0;2]));
  (*1511*) Assign (T 65) (Plain (Einsum [(n_t2'aaaa,[0;1;2;3]); (n_l2'aaaa,[4;3;0;1])] [4;2]));
  (*1512*) Assign (T 66) (Plain (Einsum [(n_t2'abab,[0;1;2;3]); (n_l2'abab,[4;3;0;1])] [4;2]));
  (*1513*) Assign (T 85) (Plain (Einsum [(n_l2'aaaa,[0;1;2;3]); (n_t2'abab,[3;4;1;5])] [2;4;0;5]));
  (*1514*) Assign (T 86) (Plain (Einsum [(n_t2'bbbb,[0;1;2;3]); (n_l2'abab,[4;3;5;1])] [5;0;4;2]));
  (*1515*) Assign (T 107) (Plain (Einsum [(n_t1'aa,[0;1]); (T 7,[2;0;3;4])] [2;3;4;1]));
  (*1516*) Assign (T 119) (Times (Copy (T 70)) (4) 1);
  (*1517*) AddTo (T 119) (Plain (Copy (T 72)));
  (*1518*) Assign (T 113) (Plain (Einsum [(n_l2'abab,[0;1;2;3]); (n_t2'aaaa,[4;2;5;0])] [4;3;5;1]));
  (*1519*) Assign (T 68) (Plain (Einsum [(n_t2'abab,[0;1;2;3]); (n_l2'bbbb,[4;3;5;1])] [0;5;2;4]));
  (*1520*) Assign (T 53) (Plain (Transpose (T 18) [1;0;3;2]));
  (*1521*) AddTo (T 53) (Times (Transpose (T 20) [0;1;3;2]) (-1) 1);
  (*1522*) Assign (T 40) (Plain (Einsum [(T 14,[0;1;2;3]); (n_t2'abab,[0;1;3;4])] [2;4]));
  (*1523*) Assign (T 41) (Plain (Einsum [(n_t2'bbbb,[0;1;2;3]); (T 19,[1;0;4;3])] [4;2]));
  (*1524*) Assign (T 42) (Plain (Einsum [(T 16,[0;1]); (n_t1'bb,[0;2])] [1;2]));
  (*1525*) Assign (T 63) (Times (Einsum [(T 16,[0;1]); (n_t1'bb,[0;2])] [1;2]) (1) 2);
  (*1526*) Assign (T 103) (Plain (Copy (T 52)));
  (*1527*) AddTo (T 103) (Times (Copy (T 51)) (4) 1);
  (*1528*) Assign (T 36) (Plain (Einsum [(n_t2'abab,[0;1;2;3]); (n_l1'aa,[2;0])] [1;3]));
  (*1529*) Assign (T 37) (Plain (Einsum [(n_t2'bbbb,[0;1;2;3]); (n_l1'bb,[3;1])] [0;2]));
  (*1530*) Assign (T 50) (Plain (Einsum [(n_t2'bbbb,[0;1;2;3]); (n_l1'bb,[3;4])] [4;0;1;2]));
  (*1531*) Assign (T 22) (Plain (Einsum [(n_t2'abab,[0;1;2;3]); (n_l1'bb,[3;1])] [0;2]));
  (*1532*) Assign (T 21) (Plain (Einsum [(n_t2'aaaa,[0;1;2;3]); (n_l1'aa,[3;1])] [0;2]));
  (*1533*) Assign (T 59) (Plain (Einsum [(T 14,[0;1;2;3]); (n_t2'aaaa,[4;0;5;3])] [4;1;2;5]));
  (*1534*) Assign (T 60) (Times (Einsum [(n_t2'abab,[0;1;2;3]); (T 19,[4;1;5;3])] [0;4;5;2]) (-1) 1);
  (*1535*) Assign (T 28) (Plain (Einsum [(n_t2'abab,[0;1;2;3]); (T 27,[0;4;1;3])] [4;2]));
  (*1536*) Assign (T 26) (Plain (Einsum [(T 7,[0;1;2;3]); (n_t2'aaaa,[1;0;4;3])] [2;4]));
  (*1537*) Assign (T 29) (Times (Einsum [(n_t1'aa,[0;1]); (T 5,[0;2])] [2;1]) (2) 1);
  (*1538*) Assign (T 46) (Plain (Copy (T 13)));
  (*1539*) AddTo (T 46) (Plain (Copy (T 15)));
  (*1540*) Assign (T 45) (Times (Einsum [(n_t2'abab,[0;1;2;3]); (T 7,[4;0;5;2])] [4;5;1;3]) (-1) 1);
  (*1541*) Assign (T 44) (Plain (Einsum [(n_t2'bbbb,[0;1;2;3]); (T 27,[4;5;1;3])] [4;5;0;2]));
  (*1542*) Assign (T 34) (Plain (Transpose (T 6) [1;0;3;2]));
  (*1543*) AddTo (T 34) (Times (Transpose (T 8) [0;1;3;2]) (-1) 1);
  (*1544*) Assign (T 25) (Plain (Einsum [(n_l1'aa,[0;1]); (n_t2'aaaa,[2;3;4;0])] [1;2;3;4]));
  (*1545*) Assign (T 80) (Times (Copy (T 32)) (4) 1);
  (*1546*) AddTo (T 80) (Plain (Copy (T 31)));
  (*1547*) Assign (T 56) (Plain (Einsum [(n_t1'aa,[0;1]); (T 5,[0;2])] [2;1]));
  (*1548*) Assign (T 133) (Plain (Einsum [(n_t2'bbbb,[0;1;2;3]); (n_l2'bbbb,[4;5;0;1])] [4;5;2;3]));
  (*1549*) Assign (T 131) (Plain (Einsum [(n_l2'bbbb,[0;1;2;3]); (n_t1'bb,[3;4])] [2;0;1;4]));
  (*1550*) Assign (T 130) (Plain (Einsum [(n_l2'abab,[0;1;2;3]); (n_t1'bb,[3;4])] [2;0;1;4]));
  (*1551*) Assign (T 129) (Plain (Einsum [(n_t1'aa,[0;1]); (n_l2'aaaa,[2;3;4;0])] [4;2;3;1]));
  (*1552*) Assign (T 132) (Plain (Einsum [(n_t2'aaaa,[0;1;2;3]); (n_l2'aaaa,[4;5;0;1])] [4;5;2;3]));
  (*1553*) Assign (T 115) (Plain (Copy (T 108)));
  (*1554*) AddTo (T 115) (Plain (Copy (T 82)));
  (*1555*) AddTo (T 115) (Times (Copy (T 83)) (2) 1);
  (*1556*) Assign (T 128) (Times (Einsum [(T 111,[0;1;2;3]); (n_t1'bb,[0;4])] [1;2;3;4]) (-1) 1);
  (*1557*) Assign (T 127) (Times (Einsum [(n_t2'bbbb,[0;1;2;3]); (T 19,[1;0;4;5])] [4;5;2;3]) (-1) 1);
  (*1558*) Assign (T 124) (Plain (Einsum [(n_t2'bbbb,[0;1;2;3]); (n_l1'bb,[4;1])] [0;4;2;3]));
  (*1559*) Assign (T 109) (Times (Copy (T 108)) (1) 2);
  (*1560*) Del (T 108);
  (*1561*) AddTo (T 109) (Times (Copy (T 82)) (1) 2);
  (*1562*) AddTo (T 109) (Plain (Copy (T 83)));
  (*1563*) Assign (T 126) (Plain (Einsum [(T 90,[0;1;2;3]); (n_t1'bb,[0;4])] [1;4;2;3]));
  (*1564*) Assign (T 106) (Plain (Copy (T 105)));
  (*1565*) AddTo (T 106) (Times (Copy (T 65)) (2) 1);
  (*1566*) AddTo (T 106) (Plain (Copy (T 66)));
  (*1567*) Assign (T 91) (Plain (Einsum [(n_t2'abab,[0;1;2;3]); (n_l2'abab,[4;3;0;5])] [5;1;4;2]));
  (*1568*) Assign (T 87) (Plain (Copy (T 85)));
  (*1569*) AddTo (T 87) (Plain (Copy (T 86)));
  (*1570*) Assign (T 116) (Plain (Einsum [(T 14,[0;1;2;3]); (n_t1'bb,[1;4])] [0;2;3;4]));
  (*1571*) Assign (T 121) (Times (Einsum [(T 7,[0;1;2;3]); (n_t2'aaaa,[1;0;4;5])] [2;3;4;5]) (-1) 1);
  (*1572*) Assign (T 117) (Plain (Einsum [(n_l1'aa,[0;1]); (n_t2'aaaa,[2;1;3;4])] [2;0;3;4]));
  (*1573*) Assign (T 122) (Times (Einsum [(n_t1'aa,[0;1]); (T 107,[0;2;3;4])] [2;3;4;1]) (-1) 1);
  (*1574*) Assign (T 120) (Plain (Einsum [(n_t1'aa,[0;1]); (T 119,[0;2;3;4])] [2;1;3;4]));
  (*1575*) Del (T 119);
  (*1576*) Assign (T 125) (Times (Copy (T 88)) (1) 4);
  (*1577*) AddTo (T 125) (Plain (Copy (T 89)));
  (*1578*) Assign (T 110) (Plain (Einsum [(n_t2'abab,[0;1;2;3]); (n_l2'abab,[2;4;5;1])] [5;0;4;3]));
  (*1579*) Assign (T 123) (Plain (Copy (T 113)));
  (*1580*) AddTo (T 123) (Plain (Copy (T 68)));
  (*1581*) Assign (T 114) (Plain (Einsum [(n_t1'aa,[0;1]); (T 27,[0;2;3;4])] [2;3;1;4]));
  (*1582*) Assign (T 118) (Times (Copy (T 70)) (4) 1);
  (*1583*) AddTo (T 118) (Plain (Copy (T 72)));
  (*1584*) Assign (T 112) (Times (Copy (T 105)) (1) 2);
  (*1585*) Del (T 105);
  (*1586*) AddTo (T 112) (Plain (Copy (T 65)));
  (*1587*) AddTo (T 112) (Times (Copy (T 66)) (1) 2);
  (*1588*) Assign (T 102) (Plain (Einsum [(n_t1'bb,[0;1]); (T 53,[0;2;3;4])] [2;4;3;1]));
  (*1589*) Assign (T 95) (Plain (Einsum [(n_t2'bbbb,[0;1;2;3]); (T 89,[1;4;3;5])] [0;4;2;5]));
  (*1590*) Assign (T 43) (Plain (Copy (T 40)));
  (*1591*) AddTo (T 43) (Times (Copy (T 41)) (2) 1);
  (*1592*) AddTo (T 43) (Plain (Copy (T 42)));
  (*1593*) Del (T 42);
  (*1594*) Assign (T 64) (Times (Copy (T 40)) (1) 2);
  (*1595*) Del (T 40);
  (*1596*) AddTo (T 64) (Plain (Copy (T 41)));
  (*1597*) Del (T 41);
  (*1598*) AddTo (T 64) (Plain (Copy (T 63)));
  (*1599*) Del (T 63);
  (*1600*) Assign (T 104) (Plain (Einsum [(n_t1'bb,[0;1]); (T 103,[0;2;3;4])] [2;3;1;4]));
  (*1601*) Del (T 103);
  (*1602*) Assign (T 97) (Plain (Einsum [(n_t2'abab,[0;1;2;3]); (T 86,[0;4;2;5])] [1;4;3;5]));
  (*1603*) Assign (T 101) (Plain (Einsum [(T 53,[0;1;2;3]); (n_t2'bbbb,[0;1;4;5])] [2;3;4;5]));
  (*1604*) Assign (T 94) (Times (Copy (T 82)) (1) 2);
  (*1605*) AddTo (T 94) (Plain (Copy (T 83)));
  (*1606*) Assign (T 84) (Plain (Copy (T 82)));
  (*1607*) Del (T 82);
  (*1608*) AddTo (T 84) (Times (Copy (T 83)) (2) 1);
  (*1609*) Del (T 83);
  (*1610*) Assign (T 100) (Times (Einsum [(T 16,[0;1]); (n_t2'bbbb,[2;0;3;4])] [2;1;3;4]) (-1) 1);
  (*1611*) Assign (T 38) (Plain (Copy n_t1'bb));
  (*1612*) AddTo (T 38) (Plain (Copy (T 36)));
  (*1613*) AddTo (T 38) (Times (Copy (T 37)) (2) 1);
  (*1614*) Assign (T 99) (Plain (Einsum [(T 50,[0;1;2;3]); (n_t1'bb,[0;4])] [1;2;4;3]));
  (*1615*) Assign (T 96) (Plain (Einsum [(T 85,[0;1;2;3]); (n_t2'abab,[0;4;2;5])] [1;4;3;5]));
  (*1616*) Assign (T 49) (Times (Copy n_t1'bb) (1) 2);
  (*1617*) AddTo (T 49) (Times (Copy (T 36)) (1) 2);
  (*1618*) AddTo (T 49) (Plain (Copy (T 37)));
  (*1619*) Assign (T 98) (Plain (Copy (T 36)));
  (*1620*) AddTo (T 98) (Times (Copy (T 37)) (2) 1);
  (*1621*) Assign (T 74) (Times (Copy (T 21)) (2) 1);
  (*1622*) AddTo (T 74) (Plain (Copy (T 22)));
  (*1623*) Assign (T 48) (Plain (Einsum [(T 14,[0;1;2;3]); (n_t2'abab,[4;1;3;5])] [0;4;2;5]));
  (*1624*) Assign (T 61) (Plain (Einsum [(T 27,[0;1;2;3]); (n_t2'abab,[0;4;5;3])] [1;2;4;5]));
  (*1625*) Assign (T 39) (Plain (Einsum [(n_t2'abab,[0;1;2;3]); (n_l1'aa,[2;4])] [4;0;1;3]));
  (*1626*) Assign (T 93) (Plain (Copy (T 59)));
  (*1627*) AddTo (T 93) (Plain (Copy (T 60)));
  (*1628*) Assign (T 30) (Times (Copy (T 26)) (2) 1);
  (*1629*) AddTo (T 30) (Plain (Copy (T 28)));
  (*1630*) AddTo (T 30) (Plain (Copy (T 29)));
  (*1631*) Del (T 29);
  (*1632*) Assign (T 47) (Plain (Einsum [(T 46,[0;1;2;3]); (n_t1'bb,[2;4])] [0;1;3;4]));
  (*1633*) Assign (T 92) (Plain (Copy (T 45)));
  (*1634*) AddTo (T 92) (Plain (Copy (T 44)));
  (*1635*) Assign (T 58) (Plain (Einsum [(n_l1'bb,[0;1]); (n_t2'abab,[2;3;4;0])] [2;1;3;4]));
  (*1636*) Assign (T 76) (Times (Copy (T 65)) (2) 1);
  (*1637*) AddTo (T 76) (Plain (Copy (T 66)));
  (*1638*) Assign (T 24) (Plain (Copy n_t1'aa));
  (*1639*) AddTo (T 24) (Times (Copy (T 21)) (2) 1);
  (*1640*) AddTo (T 24) (Plain (Copy (T 22)));
  (*1641*) Assign (T 23) (Plain (Copy n_t1'aa));
  (*1642*) AddTo (T 23) (Times (Copy (T 21)) (2) 1);
  (*1643*) AddTo (T 23) (Plain (Copy (T 22)));
  (*1644*) Assign (T 79) (Plain (Einsum [(T 34,[0;1;2;3]); (n_t1'aa,[0;4])] [1;3;2;4]));
  (*1645*) Assign (T 75) (Plain (Einsum [(T 25,[0;1;2;3]); (n_t1'aa,[0;4])] [1;2;4;3]));
  (*1646*) Assign (T 81) (Plain (Einsum [(T 80,[0;1;2;3]); (n_t1'aa,[0;4])] [1;2;4;3]));
  (*1647*) Del (T 80);
  (*1648*) Assign (T 77) (Times (Einsum [(T 5,[0;1]); (n_t2'aaaa,[2;0;3;4])] [1;2;3;4]) (-2) 1);
  (*1649*) Assign (T 67) (Plain (Copy (T 65)));
  (*1650*) Del (T 65);
  (*1651*) AddTo (T 67) (Times (Copy (T 66)) (1) 2);
  (*1652*) Del (T 66);
  (*1653*) Assign (T 78) (Plain (Einsum [(T 34,[0;1;2;3]); (n_t2'aaaa,[0;1;4;5])] [2;3;4;5]));
  (*1654*) Assign (T 71) (Plain (Einsum [(n_t2'aaaa,[0;1;2;3]); (T 70,[1;4;3;5])] [4;0;5;2]));
  (*1655*) Assign (T 73) (Plain (Einsum [(T 72,[0;1;2;3]); (n_t2'aaaa,[4;0;5;2])] [4;1;5;3]));
  (*1656*) Assign (T 69) (Plain (Einsum [(n_t2'abab,[0;1;2;3]); (T 68,[4;1;5;3])] [0;4;2;5]));
  (*1657*) Assign (T 54) (Times (Einsum [(n_t1'bb,[0;1]); (T 53,[0;2;3;4])] [2;3;4;1]) (2) 1);
  (*1658*) Del (T 53);
  (*1659*) Assign (T 17) (Times (Copy (T 9)) (1) 2);
  (*1660*) AddTo (T 17) (Times (Copy (T 10)) (1) 2);
  (*1661*) AddTo (T 17) (Plain (Copy (T 11)));
  (*1662*) Assign (T 62) (Plain (Copy n_t1'bb));
  (*1663*) AddTo (T 62) (Plain (Copy (T 36)));
  (*1664*) Del (T 36);
  (*1665*) AddTo (T 62) (Times (Copy (T 37)) (2) 1);
  (*1666*) Del (T 37);
  (*1667*) Assign (T 57) (Plain (Copy (T 26)));
  (*1668*) Del (T 26);
  (*1669*) AddTo (T 57) (Times (Copy (T 28)) (1) 2);
  (*1670*) Del (T 28);
  (*1671*) AddTo (T 57) (Plain (Copy (T 56)));
  (*1672*) Del (T 56);
  (*1673*) Assign (T 33) (Plain (Copy (T 1)));
  (*1674*) AddTo (T 33) (Times (Copy (T 2)) (2) 1);
  (*1675*) AddTo (T 33) (Plain (Copy (T 3)));
  (*1676*) Assign (T 55) (Times (Copy n_t1'aa) (1) 2);
  (*1677*) AddTo (T 55) (Plain (Copy (T 21)));
  (*1678*) Del (T 21);
  (*1679*) AddTo (T 55) (Times (Copy (T 22)) (1) 2);
  (*1680*) Del (T 22);
  (*1681*) Assign (T 35) (Times (Einsum [(n_t1'aa,[0;1]); (T 34,[0;2;3;4])] [2;3;4;1]) (2) 1);
  (*1682*) Del (T 34);
  (*1683*) Assign (T 12) (Times (Copy n_delta'bb'oo) (-1) 1);
  (*1684*) AddTo (T 12) (Plain (Copy (T 9)));
  (*1685*) Del (T 9);
  (*1686*) AddTo (T 12) (Plain (Copy (T 10)));
  (*1687*) Del (T 10);
  (*1688*) AddTo (T 12) (Times (Copy (T 11)) (2) 1);
  (*1689*) Del (T 11);
  (*1690*) Assign (T 4) (Times (Copy n_delta'aa'oo) (-1) 1);
  (*1691*) AddTo (T 4) (Plain (Copy (T 1)));
  (*1692*) Del (T 1);
  (*1693*) AddTo (T 4) (Times (Copy (T 2)) (2) 1);
  (*1694*) Del (T 2);
  (*1695*) AddTo (T 4) (Plain (Copy (T 3)));
  (*1696*) Del (T 3);
  (*1697*) Assign n_rdm2'bbbb'vvvv (Times (Transpose (T 133) [1;0;3;2]) (2) 1);
  (*1698*) Del (T 133);
  (*1699*) AddTo n_rdm2'bbbb'vvvv (Times (Einsum [(T 131,[0;1;2;3]); (n_t1'bb,[0;4])] [1;2;4;3]) (2) 1);
  (*1700*) Assign n_rdm2'abab'vvvv (Plain (Einsum [(n_t2'abab,[0;1;2;3]); (n_l2'abab,[4;5;0;1])] [4;5;2;3]));
  (*1701*) AddTo n_rdm2'abab'vvvv (Plain (Einsum [(n_t1'aa,[0;1]); (T 130,[0;2;3;4])] [2;3;1;4]));
  (*1702*) Assign n_rdm2'aaaa'vvvv (Times (Transpose (T 132) [1;0;3;2]) (2) 1);
  (*1703*) Del (T 132);
  (*1704*) AddTo n_rdm2'aaaa'vvvv (Times (Einsum [(T 129,[0;1;2;3]); (n_t1'aa,[0;4])] [1;2;4;3]) (2) 1);
  (*1705*) Assign n_rdm2'bbbb'vvvo (Times (Transpose (T 131) [2;1;3;0]) (2) 1);
  (*1706*) Assign n_rdm2'abab'vvvo (Plain (Einsum [(n_t1'aa,[0;1]); (n_l2'abab,[2;3;0;4])] [2;3;1;4]));
  (*1707*) Assign n_rdm2'aaaa'vvvo (Times (Transpose (T 129) [2;1;3;0]) (2) 1);
  (*1708*) Assign n_rdm2'bbbb'vvov (Times (Transpose (T 131) [2;1;0;3]) (-2) 1);
  (*1709*) Del (T 131);
  (*1710*) Assign n_rdm2'abab'vvov (Plain (Transpose (T 130) [1;2;0;3]));
  (*1711*) Del (T 130);
  (*1712*) Assign n_rdm2'aaaa'vvov (Times (Transpose (T 129) [2;1;0;3]) (-2) 1);
  (*1713*) Del (T 129);
  (*1714*) Assign n_rdm2'bbbb'vovv (Times (Transpose (T 124) [1;0;3;2]) (2) 1);
  (*1715*) AddTo n_rdm2'bbbb'vovv (Times (Einsum [(T 109,[0;1]); (n_t1'bb,[2;3])] [0;2;3;1]) (-2) 1);
  (*1716*) AddTo n_rdm2'bbbb'vovv (Plain (Einsum [(T 115,[0;1]); (n_t1'bb,[2;3])] [0;2;1;3]));
  (*1717*) AddTo n_rdm2'bbbb'vovv (Plain (Transpose (T 126) [2;0;1;3]));
  (*1718*) AddTo n_rdm2'bbbb'vovv (Times (Transpose (T 126) [2;0;3;1]) (-1) 1);
  (*1719*) AddTo n_rdm2'bbbb'vovv (Times (Transpose (T 127) [1;0;3;2]) (2) 1);
  (*1720*) AddTo n_rdm2'bbbb'vovv (Times (Transpose (T 128) [1;0;3;2]) (2) 1);
  (*1721*) Assign n_rdm2'abab'vovv (Plain (Einsum [(n_t2'abab,[0;1;2;3]); (n_l1'aa,[4;0])] [4;1;2;3]));
  (*1722*) AddTo n_rdm2'abab'vovv (Plain (Einsum [(T 106,[0;1]); (n_t1'bb,[2;3])] [0;2;1;3]));
  (*1723*) AddTo n_rdm2'abab'vovv (Times (Einsum [(T 87,[0;1;2;3]); (n_t1'aa,[0;4])] [2;1;4;3]) (2) 1);
  (*1724*) AddTo n_rdm2'abab'vovv (Times (Einsum [(T 91,[0;1;2;3]); (n_t1'bb,[0;4])] [2;1;3;4]) (-1) 1);
  (*1725*) AddTo n_rdm2'abab'vovv (Times (Einsum [(T 14,[0;1;2;3]); (n_t2'abab,[0;1;4;5])] [3;2;4;5]) (-1) 1);
  (*1726*) AddTo n_rdm2'abab'vovv (Times (Einsum [(n_t1'aa,[0;1]); (T 116,[0;2;3;4])] [3;2;1;4]) (-1) 1);
  (*1727*) Assign n_rdm2'aaaa'vovv (Times (Transpose (T 117) [1;0;3;2]) (2) 1);
  (*1728*) AddTo n_rdm2'aaaa'vovv (Times (Einsum [(n_t1'aa,[0;1]); (T 106,[2;3])] [2;0;1;3]) (-1) 1);
  (*1729*) AddTo n_rdm2'aaaa'vovv (Plain (Einsum [(T 106,[0;1]); (n_t1'aa,[2;3])] [0;2;1;3]));
  (*1730*) AddTo n_rdm2'aaaa'vovv (Plain (Transpose (T 120) [2;0;1;3]));
  (*1731*) AddTo n_rdm2'aaaa'vovv (Times (Transpose (T 120) [2;0;3;1]) (-1) 1);
  (*1732*) AddTo n_rdm2'aaaa'vovv (Times (Transpose (T 121) [1;0;3;2]) (2) 1);
  (*1733*) AddTo n_rdm2'aaaa'vovv (Times (Transpose (T 122) [1;0;3;2]) (2) 1);
  (*1734*) Assign n_rdm2'bbbb'ovvv (Times (Transpose (T 124) [0;1;3;2]) (-2) 1);
  (*1735*) Del (T 124);
  (*1736*) AddTo n_rdm2'bbbb'ovvv (Times (Einsum [(T 109,[0;1]); (n_t1'bb,[2;3])] [2;0;3;1]) (2) 1);
  (*1737*) AddTo n_rdm2'bbbb'ovvv (Times (Einsum [(T 115,[0;1]); (n_t1'bb,[2;3])] [2;0;1;3]) (-1) 1);
  (*1738*) AddTo n_rdm2'bbbb'ovvv (Times (Einsum [(T 125,[0;1;2;3]); (n_t1'bb,[0;4])] [1;2;4;3]) (-4) 1);
  (*1739*) Del (T 125);
  (*1740*) AddTo n_rdm2'bbbb'ovvv (Plain (Transpose (T 126) [0;2;3;1]));
  (*1741*) Del (T 126);
  (*1742*) AddTo n_rdm2'bbbb'ovvv (Times (Transpose (T 127) [0;1;3;2]) (-2) 1);
  (*1743*) Del (T 127);
  (*1744*) AddTo n_rdm2'bbbb'ovvv (Times (Transpose (T 128) [0;1;3;2]) (-2) 1);
  (*1745*) Del (T 128);
  (*1746*) Assign n_rdm2'abab'ovvv (Plain (Einsum [(n_t2'abab,[0;1;2;3]); (n_l1'bb,[4;1])] [0;4;2;3]));
  (*1747*) AddTo n_rdm2'abab'ovvv (Times (Einsum [(n_t1'aa,[0;1]); (T 109,[2;3])] [0;2;1;3]) (2) 1);
  (*1748*) AddTo n_rdm2'abab'ovvv (Times (Einsum [(n_t1'aa,[0;1]); (T 110,[0;2;3;4])] [2;3;1;4]) (-1) 1);
  (*1749*) AddTo n_rdm2'abab'ovvv (Times (Einsum [(T 123,[0;1;2;3]); (n_t1'bb,[1;4])] [0;3;2;4]) (2) 1);
  (*1750*) Del (T 123);
  (*1751*) AddTo n_rdm2'abab'ovvv (Times (Einsum [(n_t2'abab,[0;1;2;3]); (T 27,[0;4;1;5])] [4;5;2;3]) (-1) 1);
  (*1752*) AddTo n_rdm2'abab'ovvv (Times (Einsum [(T 114,[0;1;2;3]); (n_t1'bb,[1;4])] [0;3;2;4]) (-1) 1);
  (*1753*) Assign n_rdm2'aaaa'ovvv (Times (Transpose (T 117) [0;1;3;2]) (-2) 1);
  (*1754*) Del (T 117);
  (*1755*) AddTo n_rdm2'aaaa'ovvv (Plain (Einsum [(n_t1'aa,[0;1]); (T 106,[2;3])] [0;2;1;3]));
  (*1756*) AddTo n_rdm2'aaaa'ovvv (Times (Einsum [(T 106,[0;1]); (n_t1'aa,[2;3])] [2;0;1;3]) (-1) 1);
  (*1757*) AddTo n_rdm2'aaaa'ovvv (Times (Einsum [(T 118,[0;1;2;3]); (n_t1'aa,[0;4])] [1;2;4;3]) (-1) 1);
  (*1758*) Del (T 118);
  (*1759*) AddTo n_rdm2'aaaa'ovvv (Plain (Transpose (T 120) [0;2;3;1]));
  (*1760*) Del (T 120);
  (*1761*) AddTo n_rdm2'aaaa'ovvv (Times (Transpose (T 121) [0;1;3;2]) (-2) 1);
  (*1762*) Del (T 121);
  (*1763*) AddTo n_rdm2'aaaa'ovvv (Times (Transpose (T 122) [0;1;3;2]) (-2) 1);
  (*1764*) Del (T 122);
  (*1765*) Assign n_rdm2'bbbb'vvoo (Times (Copy n_l2'bbbb) (2) 1);
  (*1766*) Assign n_rdm2'abab'vvoo (Plain (Copy n_l2'abab));
  (*1767*) Assign n_rdm2'aaaa'vvoo (Times (Copy n_l2'aaaa) (2) 1);
  (*1768*) Assign n_rdm2'bbbb'vovo (Plain (Einsum [(T 115,[0;1]); (n_delta'bb'oo,[2;3])] [0;2;1;3]));
  (*1769*) AddTo n_rdm2'bbbb'vovo (Times (Einsum [(n_l1'bb,[0;1]); (n_t1'bb,[2;3])] [0;2;3;1]) (-1) 1);
  (*1770*) AddTo n_rdm2'bbbb'vovo (Times (Transpose (T 89) [2;1;3;0]) (-4) 1);
  (*1771*) AddTo n_rdm2'bbbb'vovo (Times (Transpose (T 88) [2;1;3;0]) (-1) 1);
  (*1772*) AddTo n_rdm2'bbbb'vovo (Times (Transpose (T 111) [2;1;3;0]) (2) 1);
  (*1773*) Assign n_rdm2'abab'vovo (Plain (Einsum [(n_delta'bb'oo,[0;1]); (T 106,[2;3])] [2;0;3;1]));
  (*1774*) AddTo n_rdm2'abab'vovo (Times (Transpose (T 91) [2;1;3;0]) (-1) 1);
  (*1775*) AddTo n_rdm2'abab'vovo (Times (Einsum [(T 14,[0;1;2;3]); (n_t1'aa,[0;4])] [3;2;4;1]) (-1) 1);
  (*1776*) Assign n_rdm2'aaaa'vovo (Plain (Einsum [(n_delta'aa'oo,[0;1]); (T 106,[2;3])] [2;0;3;1]));
  (*1777*) AddTo n_rdm2'aaaa'vovo (Times (Transpose (T 72) [2;1;3;0]) (-1) 1);
  (*1778*) AddTo n_rdm2'aaaa'vovo (Times (Transpose (T 70) [2;1;3;0]) (-4) 1);
  (*1779*) AddTo n_rdm2'aaaa'vovo (Times (Einsum [(n_t1'aa,[0;1]); (n_l1'aa,[2;3])] [2;0;1;3]) (-1) 1);
  (*1780*) AddTo n_rdm2'aaaa'vovo (Times (Transpose (T 107) [2;1;3;0]) (2) 1);
  (*1781*) Assign n_rdm2'bbbb'voov (Times (Einsum [(n_delta'bb'oo,[0;1]); (T 109,[2;3])] [2;0;1;3]) (-2) 1);
  (*1782*) AddTo n_rdm2'bbbb'voov (Plain (Einsum [(n_l1'bb,[0;1]); (n_t1'bb,[2;3])] [0;2;1;3]));
  (*1783*) AddTo n_rdm2'bbbb'voov (Times (Transpose (T 89) [2;1;0;3]) (4) 1);
  (*1784*) AddTo n_rdm2'bbbb'voov (Plain (Transpose (T 88) [2;1;0;3]));
  (*1785*) AddTo n_rdm2'bbbb'voov (Times (Transpose (T 111) [2;1;0;3]) (-2) 1);
  (*1786*) Assign n_rdm2'abab'voov (Times (Transpose (T 85) [2;1;0;3]) (2) 1);
  (*1787*) Del (T 85);
  (*1788*) AddTo n_rdm2'abab'voov (Plain (Einsum [(n_l1'aa,[0;1]); (n_t1'bb,[2;3])] [0;2;1;3]));
  (*1789*) AddTo n_rdm2'abab'voov (Times (Transpose (T 86) [2;1;0;3]) (2) 1);
  (*1790*) Del (T 86);
  (*1791*) AddTo n_rdm2'abab'voov (Times (Transpose (T 116) [2;1;0;3]) (-1) 1);
  (*1792*) Del (T 116);
  (*1793*) Assign n_rdm2'aaaa'voov (Times (Einsum [(n_delta'aa'oo,[0;1]); (T 106,[2;3])] [2;0;1;3]) (-1) 1);
  (*1794*) AddTo n_rdm2'aaaa'voov (Plain (Transpose (T 72) [2;1;0;3]));
  (*1795*) AddTo n_rdm2'aaaa'voov (Times (Transpose (T 70) [2;1;0;3]) (4) 1);
  (*1796*) AddTo n_rdm2'aaaa'voov (Plain (Einsum [(n_t1'aa,[0;1]); (n_l1'aa,[2;3])] [2;0;3;1]));
  (*1797*) AddTo n_rdm2'aaaa'voov (Times (Transpose (T 107) [2;1;0;3]) (-2) 1);
  (*1798*) Assign n_rdm2'bbbb'ovvo (Times (Einsum [(T 115,[0;1]); (n_delta'bb'oo,[2;3])] [2;0;1;3]) (-1) 1);
  (*1799*) Del (T 115);
  (*1800*) AddTo n_rdm2'bbbb'ovvo (Plain (Einsum [(n_l1'bb,[0;1]); (n_t1'bb,[2;3])] [2;0;3;1]));
  (*1801*) AddTo n_rdm2'bbbb'ovvo (Times (Transpose (T 89) [1;2;3;0]) (4) 1);
  (*1802*) AddTo n_rdm2'bbbb'ovvo (Plain (Transpose (T 88) [1;2;3;0]));
  (*1803*) AddTo n_rdm2'bbbb'ovvo (Times (Transpose (T 111) [1;2;3;0]) (-2) 1);
  (*1804*) Assign n_rdm2'abab'ovvo (Times (Transpose (T 113) [0;3;2;1]) (2) 1);
  (*1805*) Del (T 113);
  (*1806*) AddTo n_rdm2'abab'ovvo (Plain (Einsum [(n_t1'aa,[0;1]); (n_l1'bb,[2;3])] [0;2;1;3]));
  (*1807*) AddTo n_rdm2'abab'ovvo (Times (Transpose (T 68) [0;3;2;1]) (2) 1);
  (*1808*) Del (T 68);
  (*1809*) AddTo n_rdm2'abab'ovvo (Times (Transpose (T 114) [0;3;2;1]) (-1) 1);
  (*1810*) Del (T 114);
  (*1811*) Assign n_rdm2'aaaa'ovvo (Times (Einsum [(n_delta'aa'oo,[0;1]); (T 112,[2;3])] [0;2;3;1]) (-2) 1);
  (*1812*) Del (T 112);
  (*1813*) AddTo n_rdm2'aaaa'ovvo (Plain (Transpose (T 72) [1;2;3;0]));
  (*1814*) AddTo n_rdm2'aaaa'ovvo (Times (Transpose (T 70) [1;2;3;0]) (4) 1);
  (*1815*) AddTo n_rdm2'aaaa'ovvo (Plain (Einsum [(n_t1'aa,[0;1]); (n_l1'aa,[2;3])] [0;2;1;3]));
  (*1816*) AddTo n_rdm2'aaaa'ovvo (Times (Transpose (T 107) [1;2;3;0]) (-2) 1);
  (*1817*) Assign n_rdm2'bbbb'ovov (Times (Einsum [(n_delta'bb'oo,[0;1]); (T 109,[2;3])] [0;2;1;3]) (2) 1);
  (*1818*) AddTo n_rdm2'bbbb'ovov (Times (Einsum [(n_l1'bb,[0;1]); (n_t1'bb,[2;3])] [2;0;1;3]) (-1) 1);
  (*1819*) AddTo n_rdm2'bbbb'ovov (Times (Transpose (T 89) [1;2;0;3]) (-4) 1);
  (*1820*) Del (T 89);
  (*1821*) AddTo n_rdm2'bbbb'ovov (Times (Transpose (T 88) [1;2;0;3]) (-1) 1);
  (*1822*) Del (T 88);
  (*1823*) AddTo n_rdm2'bbbb'ovov (Times (Transpose (T 111) [1;2;0;3]) (2) 1);
  (*1824*) Del (T 111);
  (*1825*) Assign n_rdm2'abab'ovov (Times (Einsum [(n_delta'aa'oo,[0;1]); (T 109,[2;3])] [0;2;1;3]) (2) 1);
  (*1826*) Del (T 109);
  (*1827*) AddTo n_rdm2'abab'ovov (Times (Transpose (T 110) [1;2;0;3]) (-1) 1);
  (*1828*) Del (T 110);
  (*1829*) AddTo n_rdm2'abab'ovov (Times (Einsum [(T 27,[0;1;2;3]); (n_t1'bb,[2;4])] [1;3;0;4]) (-1) 1);
  (*1830*) Assign n_rdm2'aaaa'ovov (Plain (Einsum [(n_delta'aa'oo,[0;1]); (T 106,[2;3])] [0;2;1;3]));
  (*1831*) Del (T 106);
  (*1832*) AddTo n_rdm2'aaaa'ovov (Times (Transpose (T 72) [1;2;0;3]) (-1) 1);
  (*1833*) Del (T 72);
  (*1834*) AddTo n_rdm2'aaaa'ovov (Times (Transpose (T 70) [1;2;0;3]) (-4) 1);
  (*1835*) Del (T 70);
  (*1836*) AddTo n_rdm2'aaaa'ovov (Times (Einsum [(n_t1'aa,[0;1]); (n_l1'aa,[2;3])] [0;2;3;1]) (-1) 1);
  (*1837*) AddTo n_rdm2'aaaa'ovov (Times (Transpose (T 107) [1;2;0;3]) (2) 1);
  (*1838*) Del (T 107);
  (*1839*) Assign n_rdm2'bbbb'oovv (Times (Copy n_t2'bbbb) (2) 1);
  (*1840*) AddTo n_rdm2'bbbb'oovv (Times (Einsum [(T 94,[0;1]); (n_t2'bbbb,[2;3;4;0])] [2;3;4;1]) (-4) 1);
  (*1841*) Del (T 94);
  (*1842*) AddTo n_rdm2'bbbb'oovv (Times (Transpose (T 95) [0;1;3;2]) (-8) 1);
  (*1843*) AddTo n_rdm2'bbbb'oovv (Times (Transpose (T 96) [0;1;3;2]) (-2) 1);
  (*1844*) AddTo n_rdm2'bbbb'oovv (Times (Transpose (T 97) [0;1;3;2]) (-2) 1);
  (*1845*) AddTo n_rdm2'bbbb'oovv (Times (Transpose (T 97) [1;0;2;3]) (-2) 1);
  (*1846*) AddTo n_rdm2'bbbb'oovv (Times (Einsum [(T 49,[0;1]); (n_t1'bb,[2;3])] [0;2;3;1]) (-2) 1);
  (*1847*) AddTo n_rdm2'bbbb'oovv (Times (Copy (T 95)) (8) 1);
  (*1848*) Del (T 95);
  (*1849*) AddTo n_rdm2'bbbb'oovv (Times (Transpose (T 96) [1;0;3;2]) (2) 1);
  (*1850*) Del (T 96);
  (*1851*) AddTo n_rdm2'bbbb'oovv (Times (Copy (T 97)) (2) 1);
  (*1852*) AddTo n_rdm2'bbbb'oovv (Times (Transpose (T 97) [1;0;3;2]) (2) 1);
  (*1853*) Del (T 97);
  (*1854*) AddTo n_rdm2'bbbb'oovv (Plain (Einsum [(T 38,[0;1]); (n_t1'bb,[2;3])] [2;0;3;1]));
  (*1855*) AddTo n_rdm2'bbbb'oovv (Plain (Einsum [(T 98,[0;1]); (n_t1'bb,[2;3])] [0;2;1;3]));
  (*1856*) AddTo n_rdm2'bbbb'oovv (Times (Einsum [(T 98,[0;1]); (n_t1'bb,[2;3])] [2;0;1;3]) (-1) 1);
  (*1857*) Del (T 98);
  (*1858*) AddTo n_rdm2'bbbb'oovv (Times (Copy (T 99)) (2) 1);
  (*1859*) AddTo n_rdm2'bbbb'oovv (Times (Einsum [(T 84,[0;1]); (n_t2'bbbb,[2;3;4;0])] [2;3;1;4]) (2) 1);
  (*1860*) AddTo n_rdm2'bbbb'oovv (Times (Transpose (T 99) [0;1;3;2]) (-2) 1);
  (*1861*) Del (T 99);
  (*1862*) AddTo n_rdm2'bbbb'oovv (Times (Transpose (T 100) [0;1;3;2]) (-2) 1);
  (*1863*) AddTo n_rdm2'bbbb'oovv (Times (Einsum [(T 64,[0;1]); (n_t1'bb,[2;3])] [2;0;3;1]) (-2) 1);
  (*1864*) AddTo n_rdm2'bbbb'oovv (Plain (Einsum [(T 43,[0;1]); (n_t1'bb,[2;3])] [2;0;1;3]));
  (*1865*) AddTo n_rdm2'bbbb'oovv (Times (Transpose (T 100) [1;0;3;2]) (2) 1);
  (*1866*) Del (T 100);
  (*1867*) AddTo n_rdm2'bbbb'oovv (Times (Einsum [(T 64,[0;1]); (n_t1'bb,[2;3])] [0;2;3;1]) (2) 1);
  (*1868*) AddTo n_rdm2'bbbb'oovv (Times (Einsum [(T 43,[0;1]); (n_t1'bb,[2;3])] [0;2;1;3]) (-1) 1);
  (*1869*) AddTo n_rdm2'bbbb'oovv (Times (Transpose (T 101) [1;0;3;2]) (2) 1);
  (*1870*) Del (T 101);
  (*1871*) AddTo n_rdm2'bbbb'oovv (Times (Einsum [(T 102,[0;1;2;3]); (n_t1'bb,[0;4])] [1;2;4;3]) (2) 1);
  (*1872*) Del (T 102);
  (*1873*) AddTo n_rdm2'bbbb'oovv (Plain (Transpose (T 104) [1;0;2;3]));
  (*1874*) AddTo n_rdm2'bbbb'oovv (Times (Copy (T 104)) (-1) 1);
  (*1875*) AddTo n_rdm2'bbbb'oovv (Times (Transpose (T 104) [1;0;3;2]) (-1) 1);
  (*1876*) AddTo n_rdm2'bbbb'oovv (Plain (Transpose (T 104) [0;1;3;2]));
  (*1877*) Del (T 104);
  (*1878*) Assign n_rdm2'abab'oovv (Plain (Copy n_t2'abab));
  (*1879*) AddTo n_rdm2'abab'oovv (Times (Einsum [(T 84,[0;1]); (n_t2'abab,[2;3;4;0])] [2;3;4;1]) (-1) 1);
  (*1880*) Del (T 84);
  (*1881*) AddTo n_rdm2'abab'oovv (Times (Einsum [(T 87,[0;1;2;3]); (n_t2'aaaa,[4;0;5;2])] [4;1;5;3]) (4) 1);
  (*1882*) Del (T 87);
  (*1883*) AddTo n_rdm2'abab'oovv (Plain (Einsum [(T 90,[0;1;2;3]); (n_t2'abab,[4;0;5;2])] [4;1;5;3]));
  (*1884*) Del (T 90);
  (*1885*) AddTo n_rdm2'abab'oovv (Plain (Einsum [(n_t1'aa,[0;1]); (T 38,[2;3])] [0;2;1;3]));
  (*1886*) AddTo n_rdm2'abab'oovv (Plain (Einsum [(T 74,[0;1]); (n_t1'bb,[2;3])] [0;2;1;3]));
  (*1887*) AddTo n_rdm2'abab'oovv (Times (Einsum [(T 39,[0;1;2;3]); (n_t1'aa,[0;4])] [1;2;4;3]) (-1) 1);
  (*1888*) AddTo n_rdm2'abab'oovv (Times (Einsum [(T 76,[0;1]); (n_t2'abab,[2;3;0;4])] [2;3;1;4]) (-1) 1);
  (*1889*) AddTo n_rdm2'abab'oovv (Times (Einsum [(T 58,[0;1;2;3]); (n_t1'bb,[1;4])] [0;2;3;4]) (-1) 1);
  (*1890*) AddTo n_rdm2'abab'oovv (Times (Einsum [(n_t2'abab,[0;1;2;3]); (T 16,[1;4])] [0;4;2;3]) (-1) 1);
  (*1891*) AddTo n_rdm2'abab'oovv (Times (Einsum [(n_t1'aa,[0;1]); (T 43,[2;3])] [0;2;1;3]) (-1) 1);
  (*1892*) AddTo n_rdm2'abab'oovv (Times (Einsum [(n_t2'abab,[0;1;2;3]); (T 5,[0;4])] [4;1;2;3]) (-2) 1);
  (*1893*) AddTo n_rdm2'abab'oovv (Plain (Einsum [(T 46,[0;1;2;3]); (n_t2'abab,[0;2;4;5])] [1;3;4;5]));
  (*1894*) AddTo n_rdm2'abab'oovv (Plain (Einsum [(n_t1'aa,[0;1]); (T 47,[0;2;3;4])] [2;3;1;4]));
  (*1895*) AddTo n_rdm2'abab'oovv (Plain (Einsum [(n_t2'abab,[0;1;2;3]); (T 91,[1;4;2;5])] [0;4;5;3]));
  (*1896*) Del (T 91);
  (*1897*) AddTo n_rdm2'abab'oovv (Times (Einsum [(T 30,[0;1]); (n_t1'bb,[2;3])] [0;2;1;3]) (-1) 1);
  (*1898*) AddTo n_rdm2'abab'oovv (Plain (Einsum [(T 48,[0;1;2;3]); (n_t1'aa,[0;4])] [1;2;4;3]));
  (*1899*) AddTo n_rdm2'abab'oovv (Times (Einsum [(n_t1'aa,[0;1]); (T 92,[0;2;3;4])] [2;3;1;4]) (-2) 1);
  (*1900*) Del (T 92);
  (*1901*) AddTo n_rdm2'abab'oovv (Times (Einsum [(T 93,[0;1;2;3]); (n_t1'bb,[1;4])] [0;2;3;4]) (-2) 1);
  (*1902*) Del (T 93);
  (*1903*) AddTo n_rdm2'abab'oovv (Plain (Einsum [(T 61,[0;1;2;3]); (n_t1'bb,[1;4])] [0;2;3;4]));
  (*1904*) Assign n_rdm2'aaaa'oovv (Times (Copy n_t2'aaaa) (2) 1);
  (*1905*) AddTo n_rdm2'aaaa'oovv (Times (Einsum [(T 67,[0;1]); (n_t2'aaaa,[2;3;4;0])] [2;3;4;1]) (-4) 1);
  (*1906*) Del (T 67);
  (*1907*) AddTo n_rdm2'aaaa'oovv (Times (Transpose (T 69) [0;1;3;2]) (-2) 1);
  (*1908*) AddTo n_rdm2'aaaa'oovv (Times (Transpose (T 71) [0;1;3;2]) (-8) 1);
  (*1909*) AddTo n_rdm2'aaaa'oovv (Times (Transpose (T 73) [0;1;3;2]) (-2) 1);
  (*1910*) AddTo n_rdm2'aaaa'oovv (Times (Transpose (T 73) [1;0;2;3]) (-2) 1);
  (*1911*) AddTo n_rdm2'aaaa'oovv (Times (Einsum [(n_t1'aa,[0;1]); (T 23,[2;3])] [2;0;1;3]) (-1) 1);
  (*1912*) AddTo n_rdm2'aaaa'oovv (Times (Copy (T 69)) (2) 1);
  (*1913*) Del (T 69);
  (*1914*) AddTo n_rdm2'aaaa'oovv (Times (Copy (T 71)) (8) 1);
  (*1915*) Del (T 71);
  (*1916*) AddTo n_rdm2'aaaa'oovv (Times (Copy (T 73)) (2) 1);
  (*1917*) AddTo n_rdm2'aaaa'oovv (Times (Transpose (T 73) [1;0;3;2]) (2) 1);
  (*1918*) Del (T 73);
  (*1919*) AddTo n_rdm2'aaaa'oovv (Plain (Einsum [(n_t1'aa,[0;1]); (T 24,[2;3])] [0;2;1;3]));
  (*1920*) AddTo n_rdm2'aaaa'oovv (Plain (Einsum [(T 74,[0;1]); (n_t1'aa,[2;3])] [0;2;1;3]));
  (*1921*) AddTo n_rdm2'aaaa'oovv (Times (Einsum [(n_t1'aa,[0;1]); (T 74,[2;3])] [0;2;3;1]) (-1) 1);
  (*1922*) Del (T 74);
  (*1923*) AddTo n_rdm2'aaaa'oovv (Times (Copy (T 75)) (2) 1);
  (*1924*) AddTo n_rdm2'aaaa'oovv (Times (Einsum [(n_t2'aaaa,[0;1;2;3]); (T 76,[3;4])] [0;1;4;2]) (2) 1);
  (*1925*) Del (T 76);
  (*1926*) AddTo n_rdm2'aaaa'oovv (Times (Transpose (T 75) [0;1;3;2]) (-2) 1);
  (*1927*) Del (T 75);
  (*1928*) AddTo n_rdm2'aaaa'oovv (Times (Transpose (T 77) [1;0;3;2]) (-2) 1);
  (*1929*) AddTo n_rdm2'aaaa'oovv (Times (Einsum [(n_t1'aa,[0;1]); (T 30,[2;3])] [0;2;1;3]) (-1) 1);
  (*1930*) AddTo n_rdm2'aaaa'oovv (Plain (Einsum [(T 30,[0;1]); (n_t1'aa,[2;3])] [2;0;1;3]));
  (*1931*) AddTo n_rdm2'aaaa'oovv (Times (Transpose (T 77) [0;1;3;2]) (2) 1);
  (*1932*) Del (T 77);
  (*1933*) AddTo n_rdm2'aaaa'oovv (Plain (Einsum [(n_t1'aa,[0;1]); (T 30,[2;3])] [2;0;1;3]));
  (*1934*) AddTo n_rdm2'aaaa'oovv (Times (Einsum [(T 30,[0;1]); (n_t1'aa,[2;3])] [0;2;1;3]) (-1) 1);
  (*1935*) AddTo n_rdm2'aaaa'oovv (Times (Transpose (T 78) [1;0;3;2]) (2) 1);
  (*1936*) Del (T 78);
  (*1937*) AddTo n_rdm2'aaaa'oovv (Times (Einsum [(T 79,[0;1;2;3]); (n_t1'aa,[0;4])] [1;2;4;3]) (2) 1);
  (*1938*) Del (T 79);
  (*1939*) AddTo n_rdm2'aaaa'oovv (Plain (Transpose (T 81) [1;0;2;3]));
  (*1940*) AddTo n_rdm2'aaaa'oovv (Times (Copy (T 81)) (-1) 1);
  (*1941*) AddTo n_rdm2'aaaa'oovv (Times (Transpose (T 81) [1;0;3;2]) (-1) 1);
  (*1942*) AddTo n_rdm2'aaaa'oovv (Plain (Transpose (T 81) [0;1;3;2]));
  (*1943*) Del (T 81);
  (*1944*) Assign n_rdm2'bbbb'vooo (Plain (Einsum [(n_l1'bb,[0;1]); (n_delta'bb'oo,[2;3])] [0;2;1;3]));
  (*1945*) AddTo n_rdm2'bbbb'vooo (Times (Einsum [(n_delta'bb'oo,[0;1]); (n_l1'bb,[2;3])] [2;0;1;3]) (-1) 1);
  (*1946*) AddTo n_rdm2'bbbb'vooo (Times (Transpose (T 19) [3;2;1;0]) (2) 1);
  (*1947*) Assign n_rdm2'abab'vooo (Plain (Einsum [(n_delta'bb'oo,[0;1]); (n_l1'aa,[2;3])] [2;0;3;1]));
  (*1948*) AddTo n_rdm2'abab'vooo (Times (Transpose (T 14) [3;2;0;1]) (-1) 1);
  (*1949*) Del (T 14);
  (*1950*) Assign n_rdm2'aaaa'vooo (Plain (Einsum [(n_delta'aa'oo,[0;1]); (n_l1'aa,[2;3])] [2;0;3;1]));
  (*1951*) AddTo n_rdm2'aaaa'vooo (Times (Einsum [(n_delta'aa'oo,[0;1]); (n_l1'aa,[2;3])] [2;0;1;3]) (-1) 1);
  (*1952*) AddTo n_rdm2'aaaa'vooo (Times (Transpose (T 7) [3;2;1;0]) (2) 1);
  (*1953*) Assign n_rdm2'bbbb'ovoo (Times (Einsum [(n_l1'bb,[0;1]); (n_delta'bb'oo,[2;3])] [2;0;1;3]) (-1) 1);
  (*1954*) AddTo n_rdm2'bbbb'ovoo (Plain (Einsum [(n_delta'bb'oo,[0;1]); (n_l1'bb,[2;3])] [0;2;1;3]));
  (*1955*) AddTo n_rdm2'bbbb'ovoo (Times (Transpose (T 19) [2;3;1;0]) (-2) 1);
  (*1956*) Del (T 19);
  (*1957*) Assign n_rdm2'abab'ovoo (Plain (Einsum [(n_delta'aa'oo,[0;1]); (n_l1'bb,[2;3])] [0;2;1;3]));
  (*1958*) AddTo n_rdm2'abab'ovoo (Times (Transpose (T 27) [1;3;0;2]) (-1) 1);
  (*1959*) Del (T 27);
  (*1960*) Assign n_rdm2'aaaa'ovoo (Times (Einsum [(n_delta'aa'oo,[0;1]); (n_l1'aa,[2;3])] [0;2;3;1]) (-1) 1);
  (*1961*) AddTo n_rdm2'aaaa'ovoo (Plain (Einsum [(n_delta'aa'oo,[0;1]); (n_l1'aa,[2;3])] [0;2;1;3]));
  (*1962*) AddTo n_rdm2'aaaa'ovoo (Times (Transpose (T 7) [2;3;1;0]) (-2) 1);
  (*1963*) Del (T 7);
  (*1964*) Assign n_rdm2'bbbb'oovo (Plain (Einsum [(n_delta'bb'oo,[0;1]); (T 62,[2;3])] [2;0;3;1]));
  (*1965*) Del (T 62);
  (*1966*) AddTo n_rdm2'bbbb'oovo (Times (Einsum [(T 38,[0;1]); (n_delta'bb'oo,[2;3])] [2;0;1;3]) (-1) 1);
  (*1967*) AddTo n_rdm2'bbbb'oovo (Times (Transpose (T 50) [2;1;3;0]) (2) 1);
  (*1968*) AddTo n_rdm2'bbbb'oovo (Times (Einsum [(n_delta'bb'oo,[0;1]); (T 64,[2;3])] [2;0;3;1]) (-2) 1);
  (*1969*) AddTo n_rdm2'bbbb'oovo (Times (Einsum [(T 64,[0;1]); (n_delta'bb'oo,[2;3])] [2;0;1;3]) (2) 1);
  (*1970*) Del (T 64);
  (*1971*) AddTo n_rdm2'bbbb'oovo (Times (Transpose (T 51) [1;2;3;0]) (4) 1);
  (*1972*) AddTo n_rdm2'bbbb'oovo (Plain (Transpose (T 52) [1;2;3;0]));
  (*1973*) AddTo n_rdm2'bbbb'oovo (Times (Einsum [(T 17,[0;1]); (n_t1'bb,[2;3])] [1;2;3;0]) (2) 1);
  (*1974*) AddTo n_rdm2'bbbb'oovo (Times (Transpose (T 51) [2;1;3;0]) (-4) 1);
  (*1975*) AddTo n_rdm2'bbbb'oovo (Times (Transpose (T 52) [2;1;3;0]) (-1) 1);
  (*1976*) AddTo n_rdm2'bbbb'oovo (Times (Einsum [(T 17,[0;1]); (n_t1'bb,[2;3])] [2;1;3;0]) (-2) 1);
  (*1977*) AddTo n_rdm2'bbbb'oovo (Times (Transpose (T 54) [2;1;3;0]) (-1) 1);
  (*1978*) Assign n_rdm2'abab'oovo (Plain (Einsum [(n_delta'bb'oo,[0;1]); (T 23,[2;3])] [2;0;3;1]));
  (*1979*) AddTo n_rdm2'abab'oovo (Times (Transpose (T 58) [0;2;3;1]) (-1) 1);
  (*1980*) Del (T 58);
  (*1981*) AddTo n_rdm2'abab'oovo (Times (Einsum [(n_delta'bb'oo,[0;1]); (T 57,[2;3])] [2;0;3;1]) (-2) 1);
  (*1982*) AddTo n_rdm2'abab'oovo (Times (Transpose (T 59) [0;2;3;1]) (-2) 1);
  (*1983*) Del (T 59);
  (*1984*) AddTo n_rdm2'abab'oovo (Times (Transpose (T 60) [0;2;3;1]) (-2) 1);
  (*1985*) Del (T 60);
  (*1986*) AddTo n_rdm2'abab'oovo (Times (Einsum [(n_t1'aa,[0;1]); (T 16,[2;3])] [0;3;1;2]) (-1) 1);
  (*1987*) AddTo n_rdm2'abab'oovo (Plain (Einsum [(n_t1'aa,[0;1]); (T 46,[0;2;3;4])] [2;4;1;3]));
  (*1988*) Del (T 46);
  (*1989*) AddTo n_rdm2'abab'oovo (Plain (Transpose (T 61) [0;2;3;1]));
  (*1990*) Del (T 61);
  (*1991*) Assign n_rdm2'aaaa'oovo (Times (Einsum [(T 55,[0;1]); (n_delta'aa'oo,[2;3])] [0;2;1;3]) (2) 1);
  (*1992*) Del (T 55);
  (*1993*) AddTo n_rdm2'aaaa'oovo (Times (Einsum [(T 24,[0;1]); (n_delta'aa'oo,[2;3])] [2;0;1;3]) (-1) 1);
  (*1994*) AddTo n_rdm2'aaaa'oovo (Times (Transpose (T 25) [2;1;3;0]) (2) 1);
  (*1995*) AddTo n_rdm2'aaaa'oovo (Times (Einsum [(T 57,[0;1]); (n_delta'aa'oo,[2;3])] [0;2;1;3]) (-2) 1);
  (*1996*) AddTo n_rdm2'aaaa'oovo (Times (Einsum [(T 57,[0;1]); (n_delta'aa'oo,[2;3])] [2;0;1;3]) (2) 1);
  (*1997*) Del (T 57);
  (*1998*) AddTo n_rdm2'aaaa'oovo (Plain (Transpose (T 31) [1;2;3;0]));
  (*1999*) AddTo n_rdm2'aaaa'oovo (Times (Transpose (T 32) [1;2;3;0]) (4) 1);
  (*2000*) AddTo n_rdm2'aaaa'oovo (Plain (Einsum [(T 33,[0;1]); (n_t1'aa,[2;3])] [1;2;3;0]));
  (*2001*) AddTo n_rdm2'aaaa'oovo (Times (Transpose (T 31) [2;1;3;0]) (-1) 1);
  (*2002*) AddTo n_rdm2'aaaa'oovo (Times (Transpose (T 32) [2;1;3;0]) (-4) 1);
  (*2003*) AddTo n_rdm2'aaaa'oovo (Times (Einsum [(n_t1'aa,[0;1]); (T 33,[2;3])] [0;3;1;2]) (-1) 1);
  (*2004*) AddTo n_rdm2'aaaa'oovo (Times (Transpose (T 35) [2;1;3;0]) (-1) 1);
  (*2005*) Assign n_rdm2'bbbb'ooov (Times (Einsum [(n_delta'bb'oo,[0;1]); (T 49,[2;3])] [2;0;1;3]) (-2) 1);
  (*2006*) Del (T 49);
  (*2007*) AddTo n_rdm2'bbbb'ooov (Plain (Einsum [(T 38,[0;1]); (n_delta'bb'oo,[2;3])] [2;0;3;1]));
  (*2008*) AddTo n_rdm2'bbbb'ooov (Times (Transpose (T 50) [2;1;0;3]) (-2) 1);
  (*2009*) Del (T 50);
  (*2010*) AddTo n_rdm2'bbbb'ooov (Plain (Einsum [(n_delta'bb'oo,[0;1]); (T 43,[2;3])] [2;0;1;3]));
  (*2011*) AddTo n_rdm2'bbbb'ooov (Times (Einsum [(T 43,[0;1]); (n_delta'bb'oo,[2;3])] [2;0;3;1]) (-1) 1);
  (*2012*) AddTo n_rdm2'bbbb'ooov (Times (Transpose (T 51) [1;2;0;3]) (-4) 1);
  (*2013*) AddTo n_rdm2'bbbb'ooov (Times (Transpose (T 52) [1;2;0;3]) (-1) 1);
  (*2014*) AddTo n_rdm2'bbbb'ooov (Times (Einsum [(T 16,[0;1]); (n_t1'bb,[2;3])] [1;2;0;3]) (-1) 1);
  (*2015*) AddTo n_rdm2'bbbb'ooov (Times (Transpose (T 51) [2;1;0;3]) (4) 1);
  (*2016*) Del (T 51);
  (*2017*) AddTo n_rdm2'bbbb'ooov (Plain (Transpose (T 52) [2;1;0;3]));
  (*2018*) Del (T 52);
  (*2019*) AddTo n_rdm2'bbbb'ooov (Plain (Einsum [(T 16,[0;1]); (n_t1'bb,[2;3])] [2;1;0;3]));
  (*2020*) AddTo n_rdm2'bbbb'ooov (Plain (Transpose (T 54) [2;1;0;3]));
  (*2021*) Del (T 54);
  (*2022*) Assign n_rdm2'abab'ooov (Plain (Einsum [(T 38,[0;1]); (n_delta'aa'oo,[2;3])] [2;0;3;1]));
  (*2023*) Del (T 38);
  (*2024*) AddTo n_rdm2'abab'ooov (Times (Transpose (T 39) [1;2;0;3]) (-1) 1);
  (*2025*) Del (T 39);
  (*2026*) AddTo n_rdm2'abab'ooov (Times (Einsum [(n_delta'aa'oo,[0;1]); (T 43,[2;3])] [0;2;1;3]) (-1) 1);
  (*2027*) Del (T 43);
  (*2028*) AddTo n_rdm2'abab'ooov (Times (Transpose (T 44) [1;2;0;3]) (-2) 1);
  (*2029*) Del (T 44);
  (*2030*) AddTo n_rdm2'abab'ooov (Times (Transpose (T 45) [1;2;0;3]) (-2) 1);
  (*2031*) Del (T 45);
  (*2032*) AddTo n_rdm2'abab'ooov (Times (Einsum [(T 33,[0;1]); (n_t1'bb,[2;3])] [1;2;0;3]) (-1) 1);
  (*2033*) AddTo n_rdm2'abab'ooov (Plain (Transpose (T 47) [1;2;0;3]));
  (*2034*) Del (T 47);
  (*2035*) AddTo n_rdm2'abab'ooov (Plain (Transpose (T 48) [1;2;0;3]));
  (*2036*) Del (T 48);
  (*2037*) Assign n_rdm2'aaaa'ooov (Times (Einsum [(n_delta'aa'oo,[0;1]); (T 23,[2;3])] [2;0;1;3]) (-1) 1);
  (*2038*) Del (T 23);
  (*2039*) AddTo n_rdm2'aaaa'ooov (Plain (Einsum [(T 24,[0;1]); (n_delta'aa'oo,[2;3])] [2;0;3;1]));
  (*2040*) Del (T 24);
  (*2041*) AddTo n_rdm2'aaaa'ooov (Times (Transpose (T 25) [2;1;0;3]) (-2) 1);
  (*2042*) Del (T 25);
  (*2043*) AddTo n_rdm2'aaaa'ooov (Plain (Einsum [(T 30,[0;1]); (n_delta'aa'oo,[2;3])] [0;2;3;1]));
  (*2044*) AddTo n_rdm2'aaaa'ooov (Times (Einsum [(T 30,[0;1]); (n_delta'aa'oo,[2;3])] [2;0;3;1]) (-1) 1);
  (*2045*) Del (T 30);
  (*2046*) AddTo n_rdm2'aaaa'ooov (Times (Transpose (T 31) [1;2;0;3]) (-1) 1);
  (*2047*) AddTo n_rdm2'aaaa'ooov (Times (Transpose (T 32) [1;2;0;3]) (-4) 1);
  (*2048*) AddTo n_rdm2'aaaa'ooov (Times (Einsum [(T 33,[0;1]); (n_t1'aa,[2;3])] [1;2;0;3]) (-1) 1);
  (*2049*) AddTo n_rdm2'aaaa'ooov (Plain (Transpose (T 31) [2;1;0;3]));
  (*2050*) Del (T 31);
  (*2051*) AddTo n_rdm2'aaaa'ooov (Times (Transpose (T 32) [2;1;0;3]) (4) 1);
  (*2052*) Del (T 32);
  (*2053*) AddTo n_rdm2'aaaa'ooov (Plain (Einsum [(n_t1'aa,[0;1]); (T 33,[2;3])] [0;3;2;1]));
  (*2054*) Del (T 33);
  (*2055*) AddTo n_rdm2'aaaa'ooov (Plain (Transpose (T 35) [2;1;0;3]));
  (*2056*) Del (T 35);
  (*2057*) Assign n_rdm2'bbbb'oooo (Times (Einsum [(T 12,[0;1]); (n_delta'bb'oo,[2;3])] [2;1;3;0]) (-1) 1);
  (*2058*) AddTo n_rdm2'bbbb'oooo (Plain (Einsum [(T 12,[0;1]); (n_delta'bb'oo,[2;3])] [1;2;3;0]));
  (*2059*) AddTo n_rdm2'bbbb'oooo (Times (Einsum [(n_delta'bb'oo,[0;1]); (T 16,[2;3])] [3;0;2;1]) (-1) 1);
  (*2060*) Del (T 16);
  (*2061*) AddTo n_rdm2'bbbb'oooo (Times (Einsum [(T 17,[0;1]); (n_delta'bb'oo,[2;3])] [2;1;0;3]) (2) 1);
  (*2062*) Del (T 17);
  (*2063*) AddTo n_rdm2'bbbb'oooo (Times (Transpose (T 18) [3;2;1;0]) (2) 1);
  (*2064*) Del (T 18);
  (*2065*) AddTo n_rdm2'bbbb'oooo (Times (Transpose (T 20) [2;3;1;0]) (-2) 1);
  (*2066*) Del (T 20);
  (*2067*) Assign n_rdm2'abab'oooo (Times (Einsum [(n_delta'aa'oo,[0;1]); (T 12,[2;3])] [0;3;1;2]) (-1) 1);
  (*2068*) Del (T 12);
  (*2069*) AddTo n_rdm2'abab'oooo (Times (Einsum [(n_delta'bb'oo,[0;1]); (T 5,[2;3])] [3;0;2;1]) (-2) 1);
  (*2070*) AddTo n_rdm2'abab'oooo (Plain (Transpose (T 13) [1;3;0;2]));
  (*2071*) Del (T 13);
  (*2072*) AddTo n_rdm2'abab'oooo (Plain (Transpose (T 15) [1;3;0;2]));
  (*2073*) Del (T 15);
  (*2074*) Assign n_rdm2'aaaa'oooo (Times (Einsum [(n_delta'aa'oo,[0;1]); (T 4,[2;3])] [0;3;1;2]) (-1) 1);
  (*2075*) AddTo n_rdm2'aaaa'oooo (Plain (Einsum [(n_delta'aa'oo,[0;1]); (T 4,[2;3])] [3;0;1;2]));
  (*2076*) Del (T 4);
  (*2077*) AddTo n_rdm2'aaaa'oooo (Times (Einsum [(T 5,[0;1]); (n_delta'aa'oo,[2;3])] [1;2;0;3]) (-2) 1);
  (*2078*) AddTo n_rdm2'aaaa'oooo (Times (Einsum [(n_delta'aa'oo,[0;1]); (T 5,[2;3])] [0;3;2;1]) (2) 1);
  (*2079*) Del (T 5);
  (*2079*) Del n_delta'aa'oo;
  (*2079*) Del n_delta'aa'vv;
  (*2079*) Del n_delta'bb'oo;
  (*2079*) Del n_delta'bb'vv;
  (*2080*) AddTo n_rdm2'aaaa'oooo (Times (Transpose (T 6) [3;2;1;0]) (2) 1);
  (*2081*) Del (T 6);
  (*2082*) AddTo n_rdm2'aaaa'oooo (Times (Transpose (T 8) [2;3;1;0]) (-2) 1);
  (*2083*) Del (T 8)]
 [(n_rdm2'aaaa'oooo,[4;4;4;4]); (n_rdm2'aaaa'ooov,[4;4;4;5]); (n_rdm2'aaaa'oovo,[4;4;5;4]); (n_rdm2'aaaa'ovoo,[4;5;4;4]); (n_rdm2'aaaa'vooo,[5;4;4;4]); (n_rdm2'aaaa'oovv,[4;4;5;5]); (n_rdm2'aaaa'ovov,[4;5;4;5]); (n_rdm2'aaaa'ovvo,[4;5;5;4]); (n_rdm2'aaaa'voov,[5;4;4;5]); (n_rdm2'aaaa'vovo,[5;4;5;4]); (n_rdm2'aaaa'vvoo,[5;5;4;4]); (n_rdm2'aaaa'ovvv,[4;5;5;5]); (n_rdm2'aaaa'vovv,[5;4;5;5]); (n_rdm2'aaaa'vvov,[5;5;4;5]); (n_rdm2'aaaa'vvvo,[5;5;5;4]); (n_rdm2'aaaa'vvvv,[5;5;5;5]); (n_rdm2'abab'oooo,[4;6;4;6]); (n_rdm2'abab'ooov,[4;6;4;7]); (n_rdm2'abab'oovo,[4;6;5;6]); (n_rdm2'abab'ovoo,[4;7;4;6]); (n_rdm2'abab'vooo,[5;6;4;6]); (n_rdm2'abab'oovv,[4;6;5;7]); (n_rdm2'abab'ovov,[4;7;4;7]); (n_rdm2'abab'ovvo,[4;7;5;6]); (n_rdm2'abab'voov,[5;6;4;7]); (n_rdm2'abab'vovo,[5;6;5;6]); (n_rdm2'abab'vvoo,[5;7;4;6]); (n_rdm2'abab'ovvv,[4;7;5;7]); (n_rdm2'abab'vovv,[5;6;5;7]); (n_rdm2'abab'vvov,[5;7;4;7]); (n_rdm2'abab'vvvo,[5;7;5;6]); (n_rdm2'abab'vvvv,[5;7;5;7]); (n_rdm2'bbbb'oooo,[6;6;6;6]); (n_rdm2'bbbb'ooov,[6;6;6;7]); (n_rdm2'bbbb'oovo,[6;6;7;6]); (n_rdm2'bbbb'ovoo,[6;7;6;6]); (n_rdm2'bbbb'vooo,[7;6;6;6]); (n_rdm2'bbbb'oovv,[6;6;7;7]); (n_rdm2'bbbb'ovov,[6;7;6;7]); (n_rdm2'bbbb'ovvo,[6;7;7;6]); (n_rdm2'bbbb'voov,[7;6;6;7]); (n_rdm2'bbbb'vovo,[7;6;7;6]); (n_rdm2'bbbb'vvoo,[7;7;6;6]); (n_rdm2'bbbb'ovvv,[6;7;7;7]); (n_rdm2'bbbb'vovv,[7;6;7;7]); (n_rdm2'bbbb'vvov,[7;7;6;7]); (n_rdm2'bbbb'vvvo,[7;7;7;6]); (n_rdm2'bbbb'vvvv,[7;7;7;7])].

(** ebcc/codegen/UCC2.py:2095-2293 [hbar_matvec_ip_intermediates] *)
Definition UCC2_hbar_matvec_ip_intermediates : prog := mkprog
 [(n_t1'bb,[6;7]); (n_f'bb'ov,[6;7]); (n_t1'aa,[4;5]); (n_f'aa'ov,[4;5]); (n_v'aabb'ovov,[4;5;6;7]); (n_v'bbbb'ovov,[6;7;6;7]); (n_v'aaaa'ovov,[4;5;4;5]); (n_t2'bbbb,[6;6;7;7]); (n_t2'abab,[4;6;5;7]); (n_v'aabb'ovoo,[4;5;6;6]); (n_v'bbbb'ooov,[6;6;6;7]); (n_v'bbbb'ovvv,[6;7;7;7]); (n_v'aabb'ovvv,[4;5;7;7]); (n_f'bb'vv,[7;7]); (n_f'bb'oo,[6;6]); (n_v'aabb'ooov,[4;4;6;7]); (n_v'aaaa'ooov,[4;4;4;5]); (n_t2'aaaa,[4;4;5;5]); (n_v'aabb'vvov,[5;5;6;7]); (n_f'aa'oo,[4;4]); (n_v'aaaa'ovvv,[4;5;5;5]); (n_f'aa'vv,[5;5])]
 [(*2203*) Assign (T 29) (Plain (Einsum [(n_t1'bb,[0;1]); (n_f'bb'ov,[2;1])] [2;0]));
  (*2204*) Assign (T 2) (Plain (Einsum [(n_t1'aa,[0;1]); (n_f'aa'ov,[2;1])] [2;0]));
  (*2205*) Assign (T 16) (Plain (Einsum [(n_t1'aa,[0;1]); (n_v'aabb'ovov,[0;1;2;3])] [2;3]));
  (*2206*) Assign (T 13) (Plain (Einsum [(n_t1'bb,[0;1]); (n_v'bbbb'ovov,[2;3;0;1])] [2;3]));
  (*2207*) Assign (T 12) (Plain (Einsum [(n_t1'bb,[0;1]); (n_v'bbbb'ovov,[2;1;0;3])] [2;3]));
  (*2208*) Assign (T 14) (Plain (Einsum [(n_v'aabb'ovov,[0;1;2;3]); (n_t1'bb,[2;3])] [0;1]));
  (*2209*) Assign (T 10) (Plain (Einsum [(n_v'aaaa'ovov,[0;1;2;3]); (n_t1'aa,[2;3])] [0;1]));
  (*2210*) Assign (T 8) (Plain (Einsum [(n_v'aaaa'ovov,[0;1;2;3]); (n_t1'aa,[2;1])] [0;3]));
  (*2211*) Assign (T 199) (Plain (Einsum [(n_f'bb'ov,[0;1]); (n_t2'bbbb,[2;3;4;1])] [0;2;3;4]));
  (*2212*) Assign (T 189) (Plain (Einsum [(n_t2'abab,[0;1;2;3]); (n_v'aabb'ovoo,[0;2;4;5])] [1;4;5;3]));
  (*2213*) Assign (T 187) (Plain (Einsum [(n_t2'bbbb,[0;1;2;3]); (n_v'bbbb'ooov,[4;5;1;3])] [0;4;5;2]));
  (*2214*) Assign (T 185) (Plain (Einsum [(n_t2'bbbb,[0;1;2;3]); (n_v'bbbb'ooov,[4;1;5;3])] [0;4;5;2]));
  (*2215*) Assign (T 179) (Times (Einsum [(n_t2'bbbb,[0;1;2;3]); (n_v'bbbb'ovov,[4;3;5;2])] [0;1;4;5]) (-1) 1);
  (*2216*) Assign (T 177) (Times (Einsum [(n_v'bbbb'ovvv,[0;1;2;3]); (n_t2'bbbb,[4;5;3;1])] [4;5;0;2]) (-1) 1);
  (*2217*) Assign (T 171) (Plain (Einsum [(T 29,[0;1]); (n_t1'bb,[0;2])] [1;2]));
  (*2218*) Assign (T 168) (Plain (Einsum [(n_t2'abab,[0;1;2;3]); (n_v'aabb'ovvv,[0;2;4;3])] [1;4]));
  (*2219*) Assign (T 167) (Times (Einsum [(n_v'bbbb'ovvv,[0;1;2;3]); (n_t2'bbbb,[4;0;3;1])] [4;2]) (-1) 1);
  (*2220*) Assign (T 166) (Plain (Einsum [(n_f'bb'vv,[0;1]); (n_t1'bb,[2;1])] [2;0]));
  (*2221*) Assign (T 163) (Plain (Einsum [(n_t2'abab,[0;1;2;3]); (n_v'aabb'ovov,[4;2;1;5])] [0;4;3;5]));
  (*2222*) Assign (T 161) (Plain (Einsum [(n_t2'abab,[0;1;2;3]); (n_v'aabb'ovov,[0;2;1;4])] [3;4]));
  (*2223*) Assign (T 159) (Plain (Einsum [(n_v'bbbb'ovov,[0;1;2;3]); (n_t2'bbbb,[0;2;4;3])] [4;1]));
  (*2224*) Assign (T 158) (Plain (Einsum [(n_v'aabb'ovoo,[0;1;2;3]); (n_t2'abab,[4;3;1;5])] [4;0;2;5]));
  (*2225*) Assign (T 157) (Plain (Einsum [(n_v'aabb'ovoo,[0;1;2;3]); (n_t2'abab,[0;3;1;4])] [2;4]));
  (*2226*) Assign (T 156) (Plain (Einsum [(n_t2'bbbb,[0;1;2;3]); (n_v'bbbb'ooov,[4;0;1;3])] [4;2]));
  (*2227*) Assign (T 155) (Plain (Einsum [(n_t2'abab,[0;1;2;3]); (n_f'aa'ov,[4;2])] [4;0;1;3]));
  (*2228*) Assign (T 153) (Plain (Einsum [(n_t1'bb,[0;1]); (n_f'bb'oo,[2;0])] [2;1]));
  (*2229*) Assign (T 152) (Plain (Einsum [(n_t2'abab,[0;1;2;3]); (n_v'aabb'ovov,[0;2;4;5])] [1;4;3;5]));
  (*2230*) Assign (T 150) (Plain (Einsum [(n_t2'bbbb,[0;1;2;3]); (n_v'aabb'ovov,[4;5;1;3])] [4;0;5;2]));
  (*2231*) Assign (T 148) (Plain (Einsum [(n_t2'bbbb,[0;1;2;3]); (n_v'bbbb'ovov,[4;5;1;3])] [0;4;2;5]));
  (*2232*) Assign (T 146) (Plain (Einsum [(n_t2'bbbb,[0;1;2;3]); (n_v'bbbb'ovov,[4;3;1;5])] [0;4;2;5]));
  (*2233*) Assign (T 144) (Plain (Einsum [(n_v'aaaa'ovov,[0;1;2;3]); (n_t2'abab,[2;4;3;5])] [0;4;1;5]));
  (*2234*) Assign (T 142) (Plain (Einsum [(n_v'aaaa'ovov,[0;1;2;3]); (n_t2'abab,[2;4;1;5])] [0;4;3;5]));
  (*2235*) Assign (T 140) (Plain (Einsum [(n_t2'bbbb,[0;1;2;3]); (n_v'aabb'ooov,[4;5;1;3])] [4;5;0;2]));
  (*2236*) Assign (T 139) (Plain (Einsum [(n_t2'abab,[0;1;2;3]); (n_v'aaaa'ooov,[4;5;0;2])] [4;5;1;3]));
  (*2237*) Assign (T 138) (Plain (Einsum [(n_t2'abab,[0;1;2;3]); (n_v'aaaa'ooov,[4;0;5;2])] [4;5;1;3]));
  (*2238*) Assign (T 136) (Plain (Einsum [(n_t2'bbbb,[0;1;2;3]); (n_f'bb'ov,[1;3])] [0;2]));
  (*2239*) Assign (T 135) (Plain (Einsum [(n_t2'abab,[0;1;2;3]); (n_f'aa'ov,[0;2])] [1;3]));
  (*2240*) Assign (T 132) (Plain (Einsum [(n_t2'abab,[0;1;2;3]); (n_v'aabb'ovvv,[4;2;5;3])] [0;4;1;5]));
  (*2241*) Assign (T 122) (Plain (Einsum [(n_t2'abab,[0;1;2;3]); (n_v'aabb'ovov,[0;4;5;3])] [1;5;2;4]));
  (*2242*) Assign (T 119) (Plain (Einsum [(n_t2'abab,[0;1;2;3]); (n_v'aabb'ooov,[4;0;5;3])] [4;1;5;2]));
  (*2243*) Assign (T 118) (Plain (Einsum [(n_t2'abab,[0;1;2;3]); (n_f'bb'ov,[4;3])] [0;4;1;2]));
  (*2244*) Assign (T 110) (Plain (Einsum [(n_v'aabb'ovoo,[0;1;2;3]); (n_t2'aaaa,[4;0;5;1])] [4;2;3;5]));
  (*2245*) Assign (T 109) (Plain (Einsum [(n_t2'abab,[0;1;2;3]); (n_v'bbbb'ooov,[4;5;1;3])] [0;4;5;2]));
  (*2246*) Assign (T 108) (Plain (Einsum [(n_t2'abab,[0;1;2;3]); (n_v'bbbb'ooov,[4;1;5;3])] [0;4;5;2]));
  (*2247*) Assign (T 105) (Plain (Einsum [(n_t2'abab,[0;1;2;3]); (n_v'aabb'ovov,[4;2;5;3])] [0;4;1;5]));
  (*2248*) Assign (T 103) (Plain (Einsum [(n_t2'abab,[0;1;2;3]); (n_v'aabb'vvov,[4;2;5;3])] [0;1;5;4]));
  (*2249*) Assign (T 97) (Plain (Einsum [(n_t1'aa,[0;1]); (T 2,[0;2])] [2;1]));
  (*2250*) Assign (T 90) (Plain (Einsum [(n_f'aa'ov,[0;1]); (n_t2'aaaa,[2;3;4;1])] [0;2;3;4]));
  (*2251*) Assign (T 88) (Plain (Einsum [(n_v'aabb'ovov,[0;1;2;3]); (n_t2'aaaa,[4;0;5;1])] [4;2;5;3]));
  (*2252*) Assign (T 86) (Plain (Einsum [(n_t2'abab,[0;1;2;3]); (n_v'aabb'ovov,[4;5;1;3])] [0;4;2;5]));
  (*2253*) Assign (T 84) (Plain (Einsum [(n_v'bbbb'ovov,[0;1;2;3]); (n_t2'abab,[4;2;5;3])] [4;0;5;1]));
  (*2254*) Assign (T 82) (Plain (Einsum [(n_v'bbbb'ovov,[0;1;2;3]); (n_t2'abab,[4;2;5;1])] [4;0;5;3]));
  (*2255*) Assign (T 80) (Plain (Einsum [(n_v'aaaa'ovov,[0;1;2;3]); (n_t2'aaaa,[4;2;5;3])] [4;0;5;1]));
  (*2256*) Assign (T 78) (Plain (Einsum [(n_v'aaaa'ovov,[0;1;2;3]); (n_t2'aaaa,[4;2;5;1])] [4;0;5;3]));
  (*2257*) Assign (T 76) (Plain (Einsum [(n_t2'abab,[0;1;2;3]); (n_v'aabb'ovov,[0;4;1;3])] [2;4]));
  (*2258*) Assign (T 74) (Plain (Einsum [(n_v'aaaa'ovov,[0;1;2;3]); (n_t2'aaaa,[0;2;4;3])] [4;1]));
  (*2259*) Assign (T 72) (Plain (Einsum [(n_t2'abab,[0;1;2;3]); (n_v'aabb'ooov,[4;5;1;3])] [0;4;5;2]));
  (*2260*) Assign (T 70) (Plain (Einsum [(n_v'aaaa'ooov,[0;1;2;3]); (n_t2'aaaa,[4;2;5;3])] [4;0;1;5]));
  (*2261*) Assign (T 68) (Plain (Einsum [(n_v'aaaa'ooov,[0;1;2;3]); (n_t2'aaaa,[4;1;5;3])] [4;0;2;5]));
  (*2262*) Assign (T 67) (Plain (Einsum [(n_t2'abab,[0;1;2;3]); (n_v'aabb'ooov,[4;0;1;3])] [4;2]));
  (*2263*) Assign (T 66) (Plain (Einsum [(n_v'aaaa'ooov,[0;1;2;3]); (n_t2'aaaa,[1;2;4;3])] [0;4]));
  (*2264*) Assign (T 64) (Plain (Einsum [(n_t2'abab,[0;1;2;3]); (n_f'bb'ov,[1;3])] [0;2]));
  (*2265*) Assign (T 63) (Plain (Einsum [(n_t2'aaaa,[0;1;2;3]); (n_f'aa'ov,[1;3])] [0;2]));
  (*2266*) Assign (T 60) (Plain (Einsum [(n_f'aa'oo,[0;1]); (n_t1'aa,[1;2])] [0;2]));
  (*2267*) Assign (T 57) (Plain (Einsum [(n_t2'aaaa,[0;1;2;3]); (n_v'aaaa'ovov,[4;2;5;3])] [0;1;4;5]));
  (*2268*) Assign (T 55) (Times (Einsum [(n_v'aaaa'ovvv,[0;1;2;3]); (n_t2'aaaa,[4;5;3;1])] [4;5;0;2]) (-1) 1);
  (*2269*) Assign (T 54) (Plain (Einsum [(n_t2'abab,[0;1;2;3]); (n_v'aabb'vvov,[4;2;1;3])] [0;4]));
  (*2270*) Assign (T 53) (Times (Einsum [(n_v'aaaa'ovvv,[0;1;2;3]); (n_t2'aaaa,[4;0;3;1])] [4;2]) (-1) 1);
  (*2271*) Assign (T 50) (Plain (Einsum [(n_f'aa'vv,[0;1]); (n_t1'aa,[2;1])] [2;0]));
  (*2272*) Assign (T 48) (Plain (Einsum [(T 16,[0;1]); (n_t1'bb,[2;1])] [2;0]));
  (*2273*) Assign (T 47) (Plain (Einsum [(T 13,[0;1]); (n_t1'bb,[2;1])] [2;0]));
  (*2274*) Assign (T 46) (Plain (Einsum [(T 12,[0;1]); (n_t1'bb,[2;1])] [2;0]));
  (*2275*) Assign (T 44) (Plain (Einsum [(n_t2'abab,[0;1;2;3]); (n_v'aabb'ovov,[0;2;4;3])] [1;4]));
  (*2276*) Assign (T 42) (Plain (Einsum [(n_v'bbbb'ovov,[0;1;2;3]); (n_t2'bbbb,[4;2;1;3])] [4;0]));
  (*2277*) Assign (T 40) (Plain (Einsum [(n_v'aabb'ovov,[0;1;2;3]); (n_t1'bb,[4;3])] [0;4;2;1]));
  (*2278*) Assign (T 38) (Plain (Einsum [(n_v'bbbb'ovov,[0;1;2;3]); (n_t1'bb,[4;3])] [4;0;2;1]));
  (*2279*) Assign (T 34) (Plain (Einsum [(n_t1'aa,[0;1]); (n_v'aabb'ovoo,[0;1;2;3])] [2;3]));
  (*2280*) Assign (T 33) (Plain (Einsum [(n_v'bbbb'ooov,[0;1;2;3]); (n_t1'bb,[2;3])] [0;1]));
  (*2281*) Assign (T 32) (Plain (Einsum [(n_t1'bb,[0;1]); (n_v'bbbb'ooov,[2;0;3;1])] [2;3]));
  (*2282*) Assign (T 27) (Plain (Einsum [(n_t1'aa,[0;1]); (T 14,[2;1])] [0;2]));
  (*2283*) Assign (T 26) (Plain (Einsum [(n_t1'aa,[0;1]); (T 10,[2;1])] [0;2]));
  (*2284*) Assign (T 25) (Plain (Einsum [(n_t1'aa,[0;1]); (T 8,[2;1])] [0;2]));
  (*2285*) Assign (T 23) (Plain (Einsum [(n_t2'abab,[0;1;2;3]); (n_v'aabb'ovov,[4;2;1;3])] [0;4]));
  (*2286*) Assign (T 21) (Plain (Einsum [(n_t2'aaaa,[0;1;2;3]); (n_v'aaaa'ovov,[4;2;1;3])] [0;4]));
  (*2287*) Assign (T 19) (Plain (Einsum [(n_t1'aa,[0;1]); (n_v'aabb'ovov,[2;1;3;4])] [0;2;3;4]));
  (*2288*) Assign (T 17) (Plain (Einsum [(n_t1'aa,[0;1]); (n_v'aaaa'ovov,[2;3;4;1])] [0;2;4;3]));
  (*2289*) Assign (T 7) (Plain (Einsum [(n_v'aabb'ooov,[0;1;2;3]); (n_t1'bb,[2;3])] [0;1]));
  (*2290*) Assign (T 6) (Plain (Einsum [(n_t1'aa,[0;1]); (n_v'aaaa'ooov,[2;3;0;1])] [2;3]));
  (*2291*) Assign (T 5) (Plain (Einsum [(n_v'aaaa'ooov,[0;1;2;3]); (n_t1'aa,[1;3])] [0;2]))]
 [(T 2,[4;4]); (T 103,[4;6;6;5]); (T 105,[4;4;6;6]); (T 108,[4;6;6;5]); (T 109,[4;6;6;5]); (T 110,[4;6;6;5]); (T 12,[6;7]); (T 118,[4;6;6;5]); (T 119,[4;6;6;5]); (T 13,[6;7]); (T 122,[6;6;5;5]); (T 14,[4;5]); (T 132,[4;4;6;7]); (T 135,[6;7]); (T 136,[6;7]); (T 138,[4;4;6;7]); (T 139,[4;4;6;7]); (T 140,[4;4;6;7]); (T 142,[4;6;5;7]); (T 144,[4;6;5;7]); (T 146,[6;6;7;7]); (T 148,[6;6;7;7]); (T 150,[4;6;5;7]); (T 16,[6;7]); (T 152,[6;6;7;7]); (T 153,[6;7]); (T 155,[4;4;6;7]); (T 156,[6;7]); (T 157,[6;7]); (T 158,[4;4;6;7]); (T 159,[7;7]); (T 17,[4;4;4;5]); (T 161,[7;7]); (T 163,[4;4;7;7]); (T 166,[6;7]); (T 167,[6;7]); (T 168,[6;7]); (T 171,[6;7]); (T 177,[6;6;6;7]); (T 179,[6;6;6;6]); (T 19,[4;4;6;7]); (T 185,[6;6;6;7]); (T 187,[6;6;6;7]); (T 189,[6;6;6;7]); (T 199,[6;6;6;7]); (T 21,[4;4]); (T 23,[4;4]); (T 25,[4;4]); (T 26,[4;4]); (T 27,[4;4]); (T 29,[6;6]); (T 32,[6;6]); (T 33,[6;6]); (T 34,[6;6]); (T 38,[6;6;6;7]); (T 40,[4;6;6;5]); (T 5,[4;4]); (T 42,[6;6]); (T 44,[6;6]); (T 46,[6;6]); (T 47,[6;6]); (T 48,[6;6]); (T 50,[4;5]); (T 6,[4;4]); (T 53,[4;5]); (T 54,[4;5]); (T 55,[4;4;4;5]); (T 57,[4;4;4;4]); (T 60,[4;5]); (T 7,[4;4]); (T 63,[4;5]); (T 64,[4;5]); (T 66,[4;5]); (T 67,[4;5]); (T 68,[4;4;4;5]); (T 70,[4;4;4;5]); (T 8,[4;5]); (T 72,[4;4;4;5]); (T 74,[5;5]); (T 76,[5;5]); (T 78,[4;4;5;5]); (T 80,[4;4;5;5]); (T 82,[4;6;5;7]); (T 84,[4;6;5;7]); (T 86,[4;4;5;5]); (T 88,[4;6;5;7]); (T 90,[4;4;4;5]); (T 10,[4;5]); (T 97,[4;5])].

(** ebcc/codegen/UCC2.py:2295-2743 [hbar_matvec_ip] *)
Definition UCC2_hbar_matvec_ip : prog := mkprog
 [(n_f'bb'oo,[6;6]); (IT 29,[6;6]); (IT 144,[4;6;5;7]); (IT 150,[4;6;5;7]); (IT 189,[6;6;6;7]); (IT 187,[6;6;6;7]); (IT 42,[6;6]); (IT 44,[6;6]); (IT 185,[6;6;6;7]); (n_v'bbbb'ooov,[6;6;6;7]); (IT 148,[6;6;7;7]); (IT 152,[6;6;7;7]); (IT 68,[4;4;4;5]); (n_v'aaaa'ooov,[4;4;4;5]); (IT 84,[4;6;5;7]); (IT 88,[4;6;5;7]); (IT 21,[4;4]); (IT 23,[4;4]); (IT 80,[4;4;5;5]); (IT 86,[4;4;5;5]); (n_f'aa'oo,[4;4]); (IT 2,[4;4]); (IT 72,[4;4;4;5]); (IT 70,[4;4;4;5]); (IT 146,[6;6;7;7]); (n_r2'bbb,[6;6;7]); (n_v'bbbb'ovov,[6;7;6;7]); (n_r2'aba,[4;6;5]); (n_r1'b,[6]); (n_t1'bb,[6;7]); (n_f'bb'ov,[6;7]); (n_v'aabb'ovov,[4;5;6;7]); (IT 142,[4;6;5;7]); (n_v'bbbb'oovv,[6;6;7;7]); (n_r2'bab,[6;4;7]); (n_r2'aaa,[4;4;5]); (n_v'aaaa'ovov,[4;5;4;5]); (n_t1'aa,[4;5]); (n_f'aa'ov,[4;5]); (n_r1'a,[4]); (n_v'aaaa'oovv,[4;4;5;5]); (IT 78,[4;4;5;5]); (IT 82,[4;6;5;7]); (IT 153,[6;7]); (IT 156,[6;7]); (IT 157,[6;7]); (IT 167,[6;7]); (IT 171,[6;7]); (IT 135,[6;7]); (IT 136,[6;7]); (IT 166,[6;7]); (IT 168,[6;7]); (IT 159,[7;7]); (IT 161,[7;7]); (n_f'bb'vv,[7;7]); (IT 179,[6;6;6;6]); (n_v'bbbb'oooo,[6;6;6;6]); (IT 177,[6;6;6;7]); (IT 199,[6;6;6;7]); (IT 132,[4;4;6;7]); (IT 139,[4;4;6;7]); (IT 140,[4;4;6;7]); (IT 155,[4;4;6;7]); (n_v'aabb'ooov,[4;4;6;7]); (IT 138,[4;4;6;7]); (IT 158,[4;4;6;7]); (IT 163,[4;4;7;7]); (n_v'aabb'oovv,[4;4;7;7]); (IT 105,[4;4;6;6]); (n_v'aabb'oooo,[4;4;6;6]); (IT 103,[4;6;6;5]); (IT 109,[4;6;6;5]); (IT 110,[4;6;6;5]); (IT 118,[4;6;6;5]); (n_v'aabb'ovoo,[4;5;6;6]); (IT 108,[4;6;6;5]); (IT 119,[4;6;6;5]); (IT 53,[4;5]); (IT 60,[4;5]); (IT 66,[4;5]); (IT 67,[4;5]); (IT 97,[4;5]); (IT 50,[4;5]); (IT 54,[4;5]); (IT 63,[4;5]); (IT 64,[4;5]); (IT 122,[6;6;5;5]); (n_v'aabb'vvoo,[5;5;6;6]); (IT 74,[5;5]); (IT 76,[5;5]); (n_f'aa'vv,[5;5]); (IT 57,[4;4;4;4]); (n_v'aaaa'oooo,[4;4;4;4]); (IT 55,[4;4;4;5]); (IT 90,[4;4;4;5]); (IT 33,[6;6]); (IT 34,[6;6]); (IT 47,[6;6]); (IT 48,[6;6]); (IT 32,[6;6]); (IT 46,[6;6]); (IT 14,[4;5]); (IT 10,[4;5]); (IT 8,[4;5]); (IT 40,[4;6;6;5]); (IT 13,[6;7]); (IT 16,[6;7]); (IT 12,[6;7]); (IT 38,[6;6;6;7]); (IT 26,[4;4]); (IT 27,[4;4]); (IT 6,[4;4]); (IT 7,[4;4]); (IT 25,[4;4]); (IT 5,[4;4]); (IT 17,[4;4;4;5]); (IT 19,[4;4;6;7]); (n_t2'bbbb,[6;6;7;7]); (n_t2'abab,[4;6;5;7]); (n_t2'aaaa,[4;4;5;5])]
 [(*2325*) Assign (T 59) (Plain (Copy n_f'bb'oo));
  (*2326*) AddTo (T 59) (Plain (Copy (IT 29)));
  (*2327*) Assign (T 57) (Plain (Copy (IT 144)));
  (*2328*) AddTo (T 57) (Times (Copy (IT 150)) (2) 1);
  (*2329*) Assign (T 61) (Plain (Copy (IT 189)));
  (*2330*) Del (IT 189);
  (*2331*) AddTo (T 61) (Times (Copy (IT 187)) (2) 1);
  (*2332*) Del (IT 187);
  (*2333*) Assign (T 69) (Times (Copy (IT 42)) (2) 1);
  (*2334*) AddTo (T 69) (Plain (Copy (IT 44)));
  (*2335*) Assign (T 71) (Plain (Copy (IT 185)));
  (*2336*) Del (IT 185);
  (*2337*) AddTo (T 71) (Times (Transpose n_v'bbbb'ooov [0;2;1;3]) (1) 2);
  (*2338*) Assign (T 67) (Plain (Copy (IT 148)));
  (*2339*) AddTo (T 67) (Times (Copy (IT 152)) (1) 2);
  (*2340*) Assign (T 16) (Plain (Copy (IT 68)));
  (*2341*) Del (IT 68);
  (*2342*) AddTo (T 16) (Times (Transpose n_v'aaaa'ooov [0;2;1;3]) (1) 2);
  (*2343*) Assign (T 12) (Plain (Copy (IT 84)));
  (*2344*) AddTo (T 12) (Times (Copy (IT 88)) (2) 1);
  (*2345*) Assign (T 14) (Times (Copy (IT 21)) (2) 1);
  (*2346*) AddTo (T 14) (Plain (Copy (IT 23)));
  (*2347*) Assign (T 10) (Plain (Copy (IT 80)));
  (*2348*) AddTo (T 10) (Times (Copy (IT 86)) (1) 2);
  (*2349*) Assign (T 23) (Plain (Copy n_f'aa'oo));
  (*2350*) AddTo (T 23) (Plain (Copy (IT 2)));
  (*2351*) Assign (T 25) (Plain (Copy (IT 72)));
  (*2352*) Del (IT 72);
  (*2353*) AddTo (T 25) (Times (Copy (IT 70)) (2) 1);
  (*2354*) Del (IT 70);
  (*2355*) Assign (T 55) (Plain (Einsum [(IT 146,[0;1;2;3]); (n_r2'bbb,[4;1;3])] [0;4;2]));
  (*2356*) Assign (T 60) (Times (Einsum [(T 59,[0;1]); (n_r2'bbb,[2;0;3])] [2;1;3]) (-1) 1);
  (*2357*) Del (T 59);
  (*2358*) Assign (T 56) (Plain (Einsum [(n_r2'bbb,[0;1;2]); (n_v'bbbb'ovov,[3;4;1;2])] [0;3;4]));
  (*2359*) Assign (T 58) (Plain (Einsum [(n_r2'aba,[0;1;2]); (T 57,[0;3;2;4])] [1;3;4]));
  (*2360*) Del (T 57);
  (*2361*) Assign (T 62) (Plain (Einsum [(n_r1'b,[0]); (T 61,[1;2;0;3])] [1;2;3]));
  (*2362*) Del (T 61);
  (*2363*) Assign (T 50) (Plain (Einsum [(n_t1'bb,[0;1]); (n_f'bb'ov,[0;2])] [2;1]));
  (*2364*) Assign (T 40) (Plain (Einsum [(n_r2'aba,[0;1;2]); (n_v'aabb'ovov,[0;2;1;3])] [3]));
  (*2365*) Assign (T 41) (Times (Einsum [(n_r2'bbb,[0;1;2]); (n_v'bbbb'ovov,[0;2;1;3])] [3]) (-1) 1);
  (*2366*) Assign (T 70) (Times (Einsum [(T 69,[0;1]); (n_r2'bbb,[2;1;3])] [2;0;3]) (-2) 1);
  (*2367*) Del (T 69);
  (*2368*) Assign (T 64) (Plain (Einsum [(n_r2'aba,[0;1;2]); (IT 142,[0;3;2;4])] [3;1;4]));
  (*2369*) Assign (T 66) (Plain (Einsum [(n_r2'bbb,[0;1;2]); (n_v'bbbb'oovv,[3;1;4;2])] [0;3;4]));
  (*2370*) Assign (T 65) (Plain (Einsum [(n_r2'aba,[0;1;2]); (n_v'aabb'ovov,[0;2;3;4])] [1;3;4]));
  (*2371*) Assign (T 72) (Times (Einsum [(T 71,[0;1;2;3]); (n_r1'b,[2])] [0;1;3]) (2) 1);
  (*2372*) Del (T 71);
  (*2373*) Assign (T 68) (Times (Einsum [(n_r2'bbb,[0;1;2]); (T 67,[3;1;4;2])] [0;3;4]) (-4) 1);
  (*2374*) Del (T 67);
  (*2375*) Assign (T 32) (Times (Einsum [(n_r2'bab,[0;1;2]); (n_v'aabb'ovov,[1;3;0;2])] [3]) (-1) 1);
  (*2376*) Assign (T 31) (Plain (Einsum [(n_r2'aaa,[0;1;2]); (n_v'aaaa'ovov,[0;3;1;2])] [3]));
  (*2377*) Assign (T 29) (Plain (Einsum [(n_t1'aa,[0;1]); (n_f'aa'ov,[0;2])] [2;1]));
  (*2378*) Assign (T 17) (Times (Einsum [(n_r1'a,[0]); (T 16,[1;2;0;3])] [1;2;3]) (2) 1);
  (*2379*) Del (T 16);
  (*2380*) Assign (T 13) (Times (Einsum [(T 12,[0;1;2;3]); (n_r2'bab,[1;4;3])] [4;0;2]) (-1) 1);
  (*2381*) Del (T 12);
  (*2382*) Assign (T 9) (Plain (Einsum [(n_r2'aaa,[0;1;2]); (n_v'aaaa'oovv,[3;1;4;2])] [0;3;4]));
  (*2383*) Assign (T 15) (Times (Einsum [(T 14,[0;1]); (n_r2'aaa,[2;1;3])] [2;0;3]) (-2) 1);
  (*2384*) Del (T 14);
  (*2385*) Assign (T 11) (Times (Einsum [(T 10,[0;1;2;3]); (n_r2'aaa,[4;1;3])] [4;0;2]) (-4) 1);
  (*2386*) Del (T 10);
  (*2387*) Assign (T 22) (Times (Einsum [(n_v'aabb'ovov,[0;1;2;3]); (n_r2'bab,[2;4;3])] [4;0;1]) (-1) 1);
  (*2388*) Assign (T 24) (Times (Einsum [(T 23,[0;1]); (n_r2'aaa,[2;0;3])] [2;1;3]) (-1) 1);
  (*2389*) Del (T 23);
  (*2390*) Assign (T 26) (Plain (Einsum [(n_r1'a,[0]); (T 25,[1;2;0;3])] [1;2;3]));
  (*2391*) Del (T 25);
  (*2392*) Assign (T 19) (Plain (Einsum [(IT 78,[0;1;2;3]); (n_r2'aaa,[4;1;3])] [0;4;2]));
  (*2393*) Assign (T 21) (Times (Einsum [(n_r2'bab,[0;1;2]); (IT 82,[3;0;4;2])] [3;1;4]) (-1) 1);
  (*2394*) Assign (T 20) (Plain (Einsum [(n_v'aaaa'ovov,[0;1;2;3]); (n_r2'aaa,[4;2;3])] [4;0;1]));
  (*2395*) Assign (T 54) (Plain (Copy (IT 153)));
  (*2396*) Del (IT 153);
  (*2397*) AddTo (T 54) (Times (Copy (IT 156)) (2) 1);
  (*2398*) Del (IT 156);
  (*2399*) AddTo (T 54) (Plain (Copy (IT 157)));
  (*2400*) Del (IT 157);
  (*2401*) AddTo (T 54) (Times (Copy (IT 167)) (2) 1);
  (*2402*) Del (IT 167);
  (*2403*) AddTo (T 54) (Plain (Copy (IT 171)));
  (*2404*) Del (IT 171);
  (*2405*) AddTo (T 54) (Times (Copy n_f'bb'ov) (-1) 1);
  (*2406*) AddTo (T 54) (Times (Copy (IT 135)) (-1) 1);
  (*2407*) Del (IT 135);
  (*2408*) AddTo (T 54) (Times (Copy (IT 136)) (-2) 1);
  (*2409*) Del (IT 136);
  (*2410*) AddTo (T 54) (Times (Copy (IT 166)) (-1) 1);
  (*2411*) Del (IT 166);
  (*2412*) AddTo (T 54) (Times (Copy (IT 168)) (-1) 1);
  (*2413*) Del (IT 168);
  (*2414*) Assign (T 63) (Times (Copy (T 55)) (4) 1);
  (*2415*) Del (T 55);
  (*2416*) AddTo (T 63) (Times (Copy (T 56)) (2) 1);
  (*2417*) Del (T 56);
  (*2418*) AddTo (T 63) (Plain (Transpose (T 58) [1;0;2]));
  (*2419*) Del (T 58);
  (*2420*) AddTo (T 63) (Times (Transpose (T 60) [1;0;2]) (-2) 1);
  (*2421*) Del (T 60);
  (*2422*) AddTo (T 63) (Plain (Copy (T 62)));
  (*2423*) Del (T 62);
  (*2424*) Assign (T 51) (Times (Transpose (IT 159) [1;0]) (2) 1);
  (*2425*) Del (IT 159);
  (*2426*) AddTo (T 51) (Plain (Transpose (IT 161) [1;0]));
  (*2427*) Del (IT 161);
  (*2428*) AddTo (T 51) (Times (Copy n_f'bb'vv) (-1) 1);
  (*2429*) AddTo (T 51) (Plain (Copy (T 50)));
  (*2430*) Del (T 50);
  (*2431*) Assign (T 75) (Times (Copy (T 40)) (-1) 2);
  (*2432*) AddTo (T 75) (Plain (Copy (T 41)));
  (*2433*) Assign (T 74) (Plain (Copy (IT 179)));
  (*2434*) Del (IT 179);
  (*2435*) AddTo (T 74) (Times (Transpose n_v'bbbb'oooo [0;2;3;1]) (-1) 1);
  (*2436*) Assign (T 76) (Plain (Copy (IT 177)));
  (*2437*) Del (IT 177);
  (*2438*) AddTo (T 76) (Times (Transpose (IT 199) [1;2;0;3]) (-1) 1);
  (*2439*) Del (IT 199);
  (*2440*) Assign (T 73) (Plain (Copy (T 64)));
  (*2441*) Del (T 64);
  (*2442*) AddTo (T 73) (Plain (Copy (T 65)));
  (*2443*) Del (T 65);
  (*2444*) AddTo (T 73) (Times (Copy (T 66)) (2) 1);
  (*2445*) Del (T 66);
  (*2446*) AddTo (T 73) (Times (Transpose (T 68) [1;0;2]) (-1) 1);
  (*2447*) Del (T 68);
  (*2448*) AddTo (T 73) (Plain (Transpose (T 70) [1;0;2]));
  (*2449*) Del (T 70);
  (*2450*) AddTo (T 73) (Plain (Copy (T 72)));
  (*2451*) Del (T 72);
  (*2452*) Assign (T 52) (Plain (Copy (T 31)));
  (*2453*) AddTo (T 52) (Times (Copy (T 32)) (1) 2);
  (*2454*) Assign (T 47) (Plain (Copy (IT 144)));
  (*2455*) Del (IT 144);
  (*2456*) AddTo (T 47) (Times (Copy (IT 150)) (2) 1);
  (*2457*) Del (IT 150);
  (*2458*) AddTo (T 47) (Plain (Transpose n_v'aabb'ovov [0;2;1;3]));
  (*2459*) AddTo (T 47) (Times (Copy (IT 142)) (-1) 1);
  (*2460*) Del (IT 142);
  (*2461*) Assign (T 53) (Plain (Copy (IT 132)));
  (*2462*) Del (IT 132);
  (*2463*) AddTo (T 53) (Plain (Copy (IT 139)));
  (*2464*) Del (IT 139);
  (*2465*) AddTo (T 53) (Times (Copy (IT 140)) (2) 1);
  (*2466*) Del (IT 140);
  (*2467*) AddTo (T 53) (Plain (Transpose (IT 155) [1;0;2;3]));
  (*2468*) Del (IT 155);
  (*2469*) AddTo (T 53) (Plain (Copy n_v'aabb'ooov));
  (*2470*) AddTo (T 53) (Times (Copy (IT 138)) (-1) 1);
  (*2471*) Del (IT 138);
  (*2472*) AddTo (T 53) (Times (Copy (IT 158)) (-1) 1);
  (*2473*) Del (IT 158);
  (*2474*) Assign (T 45) (Plain (Copy n_f'bb'oo));
  (*2475*) AddTo (T 45) (Plain (Copy (IT 29)));
  (*2476*) AddTo (T 45) (Times (Transpose (IT 42) [1;0]) (2) 1);
  (*2477*) AddTo (T 45) (Plain (Transpose (IT 44) [1;0]));
  (*2478*) Assign (T 48) (Plain (Copy (IT 163)));
  (*2479*) Del (IT 163);
  (*2480*) AddTo (T 48) (Times (Copy n_v'aabb'oovv) (-1) 1);
  (*2481*) Assign (T 46) (Times (Copy (IT 148)) (2) 1);
  (*2482*) Del (IT 148);
  (*2483*) AddTo (T 46) (Plain (Copy (IT 152)));
  (*2484*) Del (IT 152);
  (*2485*) AddTo (T 46) (Plain (Transpose n_v'bbbb'ovov [0;2;1;3]));
  (*2486*) AddTo (T 46) (Times (Copy (IT 146)) (-2) 1);
  (*2487*) Del (IT 146);
  (*2488*) AddTo (T 46) (Times (Copy n_v'bbbb'oovv) (-1) 1);
  (*2489*) Assign (T 49) (Plain (Copy (IT 105)));
  (*2490*) AddTo (T 49) (Plain (Copy n_v'aabb'oooo));
  (*2491*) Assign (T 44) (Plain (Copy n_f'aa'oo));
  (*2492*) AddTo (T 44) (Plain (Copy (IT 2)));
  (*2493*) AddTo (T 44) (Times (Transpose (IT 21) [1;0]) (2) 1);
  (*2494*) AddTo (T 44) (Plain (Transpose (IT 23) [1;0]));
  (*2495*) Assign (T 37) (Plain (Copy (IT 84)));
  (*2496*) Del (IT 84);
  (*2497*) AddTo (T 37) (Times (Copy (IT 88)) (2) 1);
  (*2498*) Del (IT 88);
  (*2499*) AddTo (T 37) (Plain (Transpose n_v'aabb'ovov [0;2;1;3]));
  (*2500*) AddTo (T 37) (Times (Copy (IT 82)) (-1) 1);
  (*2501*) Del (IT 82);
  (*2502*) Assign (T 42) (Times (Copy (T 40)) (-1) 1);
  (*2503*) Del (T 40);
  (*2504*) AddTo (T 42) (Times (Copy (T 41)) (2) 1);
  (*2505*) Del (T 41);
  (*2506*) Assign (T 43) (Plain (Copy (IT 103)));
  (*2507*) Del (IT 103);
  (*2508*) AddTo (T 43) (Plain (Copy (IT 109)));
  (*2509*) Del (IT 109);
  (*2510*) AddTo (T 43) (Times (Copy (IT 110)) (2) 1);
  (*2511*) Del (IT 110);
  (*2512*) AddTo (T 43) (Plain (Transpose (IT 118) [0;2;1;3]));
  (*2513*) Del (IT 118);
  (*2514*) AddTo (T 43) (Plain (Transpose n_v'aabb'ovoo [0;2;3;1]));
  (*2515*) AddTo (T 43) (Times (Copy (IT 108)) (-1) 1);
  (*2516*) Del (IT 108);
  (*2517*) AddTo (T 43) (Times (Copy (IT 119)) (-1) 1);
  (*2518*) Del (IT 119);
  (*2519*) Assign (T 39) (Plain (Copy (IT 105)));
  (*2520*) Del (IT 105);
  (*2521*) AddTo (T 39) (Plain (Copy n_v'aabb'oooo));
  (*2522*) Assign (T 36) (Times (Copy (IT 80)) (2) 1);
  (*2523*) Del (IT 80);
  (*2524*) AddTo (T 36) (Plain (Copy (IT 86)));
  (*2525*) Del (IT 86);
  (*2526*) AddTo (T 36) (Plain (Transpose n_v'aaaa'ovov [0;2;1;3]));
  (*2527*) AddTo (T 36) (Times (Copy (IT 78)) (-2) 1);
  (*2528*) Del (IT 78);
  (*2529*) AddTo (T 36) (Times (Copy n_v'aaaa'oovv) (-1) 1);
  (*2530*) Assign (T 35) (Times (Copy (IT 53)) (2) 1);
  (*2531*) Del (IT 53);
  (*2532*) AddTo (T 35) (Plain (Copy (IT 60)));
  (*2533*) Del (IT 60);
  (*2534*) AddTo (T 35) (Times (Copy (IT 66)) (2) 1);
  (*2535*) Del (IT 66);
  (*2536*) AddTo (T 35) (Plain (Copy (IT 67)));
  (*2537*) Del (IT 67);
  (*2538*) AddTo (T 35) (Plain (Copy (IT 97)));
  (*2539*) Del (IT 97);
  (*2540*) AddTo (T 35) (Times (Copy n_f'aa'ov) (-1) 1);
  (*2541*) AddTo (T 35) (Times (Copy (IT 50)) (-1) 1);
  (*2542*) Del (IT 50);
  (*2543*) AddTo (T 35) (Times (Copy (IT 54)) (-1) 1);
  (*2544*) Del (IT 54);
  (*2545*) AddTo (T 35) (Times (Copy (IT 63)) (-2) 1);
  (*2546*) Del (IT 63);
  (*2547*) AddTo (T 35) (Times (Copy (IT 64)) (-1) 1);
  (*2548*) Del (IT 64);
  (*2549*) Assign (T 38) (Plain (Copy (IT 122)));
  (*2550*) Del (IT 122);
  (*2551*) AddTo (T 38) (Times (Transpose n_v'aabb'vvoo [2;3;0;1]) (-1) 1);
  (*2552*) Assign (T 30) (Times (Transpose (IT 74) [1;0]) (2) 1);
  (*2553*) Del (IT 74);
  (*2554*) AddTo (T 30) (Plain (Transpose (IT 76) [1;0]));
  (*2555*) Del (IT 76);
  (*2556*) AddTo (T 30) (Times (Copy n_f'aa'vv) (-1) 1);
  (*2557*) AddTo (T 30) (Plain (Copy (T 29)));
  (*2558*) Del (T 29);
  (*2559*) Assign (T 33) (Times (Copy (T 31)) (2) 1);
  (*2560*) Del (T 31);
  (*2561*) AddTo (T 33) (Plain (Copy (T 32)));
  (*2562*) Del (T 32);
  (*2563*) Assign (T 28) (Plain (Copy (IT 57)));
  (*2564*) Del (IT 57);
  (*2565*) AddTo (T 28) (Times (Transpose n_v'aaaa'oooo [0;2;3;1]) (-1) 1);
  (*2566*) Assign (T 18) (Times (Copy (T 9)) (2) 1);
  (*2567*) Del (T 9);
  (*2568*) AddTo (T 18) (Times (Transpose (T 11) [1;0;2]) (-1) 1);
  (*2569*) Del (T 11);
  (*2570*) AddTo (T 18) (Plain (Transpose (T 13) [1;0;2]));
  (*2571*) Del (T 13);
  (*2572*) AddTo (T 18) (Plain (Transpose (T 15) [1;0;2]));
  (*2573*) Del (T 15);
  (*2574*) AddTo (T 18) (Plain (Copy (T 17)));
  (*2575*) Del (T 17);
  (*2576*) Assign (T 34) (Plain (Copy (IT 55)));
  (*2577*) Del (IT 55);
  (*2578*) AddTo (T 34) (Times (Transpose (IT 90) [1;2;0;3]) (-1) 1);
  (*2579*) Del (IT 90);
  (*2580*) Assign (T 27) (Times (Copy (T 19)) (4) 1);
  (*2581*) Del (T 19);
  (*2582*) AddTo (T 27) (Times (Copy (T 20)) (2) 1);
  (*2583*) Del (T 20);
  (*2584*) AddTo (T 27) (Plain (Copy (T 21)));
  (*2585*) Del (T 21);
  (*2586*) AddTo (T 27) (Plain (Copy (T 22)));
  (*2587*) Del (T 22);
  (*2588*) AddTo (T 27) (Times (Transpose (T 24) [1;0;2]) (-2) 1);
  (*2589*) Del (T 24);
  (*2590*) AddTo (T 27) (Plain (Copy (T 26)));
  (*2591*) Del (T 26);
  (*2592*) Assign (T 8) (Plain (Copy n_f'bb'oo));
  (*2593*) AddTo (T 8) (Plain (Copy (IT 29)));
  (*2594*) Del (IT 29);
  (*2595*) AddTo (T 8) (Plain (Transpose (IT 33) [1;0]));
  (*2596*) Del (IT 33);
  (*2597*) AddTo (T 8) (Plain (Transpose (IT 34) [1;0]));
  (*2598*) Del (IT 34);
  (*2599*) AddTo (T 8) (Times (Transpose (IT 42) [1;0]) (2) 1);
  (*2600*) Del (IT 42);
  (*2601*) AddTo (T 8) (Plain (Transpose (IT 44) [1;0]));
  (*2602*) Del (IT 44);
  (*2603*) AddTo (T 8) (Plain (Transpose (IT 47) [1;0]));
  (*2604*) Del (IT 47);
  (*2605*) AddTo (T 8) (Plain (Transpose (IT 48) [1;0]));
  (*2606*) Del (IT 48);
  (*2607*) AddTo (T 8) (Times (Transpose (IT 32) [1;0]) (-1) 1);
  (*2608*) Del (IT 32);
  (*2609*) AddTo (T 8) (Times (Transpose (IT 46) [1;0]) (-1) 1);
  (*2610*) Del (IT 46);
  (*2611*) Assign (T 4) (Plain (Copy n_f'aa'ov));
  (*2612*) AddTo (T 4) (Plain (Copy (IT 14)));
  (*2613*) Del (IT 14);
  (*2614*) AddTo (T 4) (Plain (Copy (IT 10)));
  (*2615*) Del (IT 10);
  (*2616*) AddTo (T 4) (Times (Copy (IT 8)) (-1) 1);
  (*2617*) Del (IT 8);
  (*2618*) Assign (T 6) (Plain (Copy (IT 40)));
  (*2619*) Del (IT 40);
  (*2620*) AddTo (T 6) (Plain (Transpose n_v'aabb'ovoo [0;2;3;1]));
  (*2621*) Assign (T 3) (Plain (Copy n_f'bb'ov));
  (*2622*) AddTo (T 3) (Plain (Copy (IT 13)));
  (*2623*) Del (IT 13);
  (*2624*) AddTo (T 3) (Plain (Copy (IT 16)));
  (*2625*) Del (IT 16);
  (*2626*) AddTo (T 3) (Times (Copy (IT 12)) (-1) 1);
  (*2627*) Del (IT 12);
  (*2628*) Assign (T 7) (Plain (Copy (IT 38)));
  (*2629*) Del (IT 38);
  (*2630*) AddTo (T 7) (Times (Copy n_v'bbbb'ooov) (-1) 1);
  (*2631*) Assign (T 5) (Plain (Copy n_f'aa'oo));
  (*2632*) AddTo (T 5) (Plain (Copy (IT 2)));
  (*2633*) Del (IT 2);
  (*2634*) AddTo (T 5) (Times (Transpose (IT 21) [1;0]) (2) 1);
  (*2635*) Del (IT 21);
  (*2636*) AddTo (T 5) (Plain (Transpose (IT 23) [1;0]));
  (*2637*) Del (IT 23);
  (*2638*) AddTo (T 5) (Plain (Transpose (IT 26) [1;0]));
  (*2639*) Del (IT 26);
  (*2640*) AddTo (T 5) (Plain (Transpose (IT 27) [1;0]));
  (*2641*) Del (IT 27);
  (*2642*) AddTo (T 5) (Plain (Transpose (IT 6) [1;0]));
  (*2643*) Del (IT 6);
  (*2644*) AddTo (T 5) (Plain (Transpose (IT 7) [1;0]));
  (*2645*) Del (IT 7);
  (*2646*) AddTo (T 5) (Times (Transpose (IT 25) [1;0]) (-1) 1);
  (*2647*) Del (IT 25);
  (*2648*) AddTo (T 5) (Times (Transpose (IT 5) [1;0]) (-1) 1);
  (*2649*) Del (IT 5);
  (*2650*) Assign (T 1) (Plain (Copy (IT 17)));
  (*2651*) Del (IT 17);
  (*2652*) AddTo (T 1) (Times (Copy n_v'aaaa'ooov) (-1) 1);
  (*2653*) Assign (T 2) (Plain (Copy (IT 19)));
  (*2654*) Del (IT 19);
  (*2655*) AddTo (T 2) (Plain (Copy n_v'aabb'ooov));
  (*2656*) Assign n_r2new'bbb (Plain (Copy (T 63)));
  (*2657*) AddTo n_r2new'bbb (Times (Transpose (T 63) [1;0;2]) (-1) 1);
  (*2658*) Del (T 63);
  (*2659*) AddTo n_r2new'bbb (Times (Copy (T 73)) (-1) 1);
  (*2660*) AddTo n_r2new'bbb (Plain (Transpose (T 73) [1;0;2]));
  (*2661*) Del (T 73);
  (*2662*) AddTo n_r2new'bbb (Times (Einsum [(T 74,[0;1;2;3]); (n_r2'bbb,[2;3;4])] [0;1;4]) (2) 1);
  (*2663*) Del (T 74);
  (*2664*) AddTo n_r2new'bbb (Times (Einsum [(n_r2'bbb,[0;1;2]); (T 51,[2;3])] [0;1;3]) (-2) 1);
  (*2665*) AddTo n_r2new'bbb (Times (Einsum [(T 75,[0]); (n_t2'bbbb,[1;2;3;0])] [1;2;3]) (4) 1);
  (*2666*) Del (T 75);
  (*2667*) AddTo n_r2new'bbb (Times (Einsum [(T 76,[0;1;2;3]); (n_r1'b,[2])] [1;0;3]) (2) 1);
  (*2668*) Del (T 76);
  (*2669*) AddTo n_r2new'bbb (Times (Einsum [(n_r1'b,[0]); (T 54,[1;2])] [0;1;2]) (-1) 1);
  (*2670*) AddTo n_r2new'bbb (Plain (Einsum [(T 54,[0;1]); (n_r1'b,[2])] [0;2;1]));
  (*2671*) Assign n_r2new'bab (Plain (Einsum [(n_r2'bab,[0;1;2]); (T 46,[3;0;4;2])] [3;1;4]));
  (*2672*) Del (T 46);
  (*2673*) AddTo n_r2new'bab (Times (Einsum [(n_r2'aaa,[0;1;2]); (T 47,[1;3;2;4])] [3;0;4]) (-2) 1);
  (*2674*) Del (T 47);
  (*2675*) AddTo n_r2new'bab (Plain (Einsum [(n_r2'bab,[0;1;2]); (T 48,[3;1;4;2])] [0;3;4]));
  (*2676*) Del (T 48);
  (*2677*) AddTo n_r2new'bab (Plain (Einsum [(T 49,[0;1;2;3]); (n_r2'bab,[3;1;4])] [2;0;4]));
  (*2678*) Del (T 49);
  (*2679*) AddTo n_r2new'bab (Times (Einsum [(n_r2'bab,[0;1;2]); (T 51,[2;3])] [0;1;3]) (-1) 1);
  (*2680*) Del (T 51);
  (*2681*) AddTo n_r2new'bab (Times (Einsum [(n_t2'abab,[0;1;2;3]); (T 52,[2])] [1;0;3]) (2) 1);
  (*2682*) Del (T 52);
  (*2683*) AddTo n_r2new'bab (Plain (Einsum [(n_r1'a,[0]); (T 53,[1;0;2;3])] [2;1;3]));
  (*2684*) Del (T 53);
  (*2685*) AddTo n_r2new'bab (Times (Einsum [(T 44,[0;1]); (n_r2'bab,[2;0;3])] [2;1;3]) (-1) 1);
  (*2686*) AddTo n_r2new'bab (Times (Einsum [(n_r2'bab,[0;1;2]); (T 45,[0;3])] [3;1;2]) (-1) 1);
  (*2687*) AddTo n_r2new'bab (Plain (Einsum [(T 54,[0;1]); (n_r1'a,[2])] [0;2;1]));
  (*2688*) Del (T 54);
  (*2689*) Assign n_r2new'aba (Plain (Einsum [(n_r2'aba,[0;1;2]); (T 36,[3;0;4;2])] [3;1;4]));
  (*2690*) Del (T 36);
  (*2691*) AddTo n_r2new'aba (Times (Einsum [(n_r2'bbb,[0;1;2]); (T 37,[3;1;4;2])] [3;0;4]) (-2) 1);
  (*2692*) Del (T 37);
  (*2693*) AddTo n_r2new'aba (Plain (Einsum [(n_r2'aba,[0;1;2]); (T 38,[3;1;4;2])] [0;3;4]));
  (*2694*) Del (T 38);
  (*2695*) AddTo n_r2new'aba (Plain (Einsum [(n_r2'aba,[0;1;2]); (T 39,[3;0;4;1])] [3;4;2]));
  (*2696*) Del (T 39);
  (*2697*) AddTo n_r2new'aba (Times (Einsum [(T 30,[0;1]); (n_r2'aba,[2;3;0])] [2;3;1]) (-1) 1);
  (*2698*) AddTo n_r2new'aba (Plain (Einsum [(n_t2'abab,[0;1;2;3]); (T 42,[3])] [0;1;2]));
  (*2699*) Del (T 42);
  (*2700*) AddTo n_r2new'aba (Plain (Einsum [(T 43,[0;1;2;3]); (n_r1'b,[2])] [0;1;3]));
  (*2701*) Del (T 43);
  (*2702*) AddTo n_r2new'aba (Times (Einsum [(T 44,[0;1]); (n_r2'aba,[0;2;3])] [1;2;3]) (-1) 1);
  (*2703*) Del (T 44);
  (*2704*) AddTo n_r2new'aba (Times (Einsum [(T 45,[0;1]); (n_r2'aba,[2;0;3])] [2;1;3]) (-1) 1);
  (*2705*) Del (T 45);
  (*2706*) AddTo n_r2new'aba (Plain (Einsum [(n_r1'b,[0]); (T 35,[1;2])] [1;0;2]));
  (*2707*) Assign n_r2new'aaa (Times (Copy (T 18)) (-1) 1);
  (*2708*) AddTo n_r2new'aaa (Plain (Transpose (T 18) [1;0;2]));
  (*2709*) Del (T 18);
  (*2710*) AddTo n_r2new'aaa (Plain (Copy (T 27)));
  (*2711*) AddTo n_r2new'aaa (Times (Transpose (T 27) [1;0;2]) (-1) 1);
  (*2712*) Del (T 27);
  (*2713*) AddTo n_r2new'aaa (Times (Einsum [(n_r2'aaa,[0;1;2]); (T 28,[3;4;0;1])] [3;4;2]) (2) 1);
  (*2714*) Del (T 28);
  (*2715*) AddTo n_r2new'aaa (Times (Einsum [(T 30,[0;1]); (n_r2'aaa,[2;3;0])] [2;3;1]) (-2) 1);
  (*2716*) Del (T 30);
  (*2717*) AddTo n_r2new'aaa (Times (Einsum [(T 33,[0]); (n_t2'aaaa,[1;2;3;0])] [1;2;3]) (2) 1);
  (*2718*) Del (T 33);
  (*2719*) AddTo n_r2new'aaa (Times (Einsum [(n_r1'a,[0]); (T 34,[1;2;0;3])] [2;1;3]) (2) 1);
  (*2720*) Del (T 34);
  (*2721*) AddTo n_r2new'aaa (Times (Einsum [(T 35,[0;1]); (n_r1'a,[2])] [2;0;1]) (-1) 1);
  (*2722*) AddTo n_r2new'aaa (Plain (Einsum [(n_r1'a,[0]); (T 35,[1;2])] [1;0;2]));
  (*2723*) Del (T 35);
  (*2724*) Assign n_r1new'b (Plain (Einsum [(n_r2'aba,[0;1;2]); (T 6,[0;3;1;2])] [3]));
  (*2725*) Del (T 6);
  (*2726*) AddTo n_r1new'b (Times (Einsum [(T 7,[0;1;2;3]); (n_r2'bbb,[2;1;3])] [0]) (-2) 1);
  (*2727*) Del (T 7);
  (*2728*) AddTo n_r1new'b (Times (Einsum [(n_r2'aba,[0;1;2]); (T 4,[0;2])] [1]) (-1) 1);
  (*2729*) AddTo n_r1new'b (Times (Einsum [(n_r2'bbb,[0;1;2]); (T 3,[1;2])] [0]) (2) 1);
  (*2730*) AddTo n_r1new'b (Times (Einsum [(n_r1'b,[0]); (T 8,[0;1])] [1]) (-1) 1);
  (*2731*) Del (T 8);
  (*2732*) Assign n_r1new'a (Times (Einsum [(T 1,[0;1;2;3]); (n_r2'aaa,[2;1;3])] [0]) (-2) 1);
  (*2733*) Del (T 1);
  (*2734*) AddTo n_r1new'a (Plain (Einsum [(n_r2'bab,[0;1;2]); (T 2,[3;1;0;2])] [3]));
  (*2735*) Del (T 2);
  (*2736*) AddTo n_r1new'a (Times (Einsum [(n_r2'bab,[0;1;2]); (T 3,[0;2])] [1]) (-1) 1);
  (*2737*) Del (T 3);
  (*2738*) AddTo n_r1new'a (Times (Einsum [(n_r2'aaa,[0;1;2]); (T 4,[1;2])] [0]) (2) 1);
  (*2739*) Del (T 4);
  (*2740*) AddTo n_r1new'a (Times (Einsum [(n_r1'a,[0]); (T 5,[0;1])] [1]) (-1) 1);
  (*2741*) Del (T 5)]
 [(n_r1new'b,[6]); (n_r1new'a,[4]); (n_r2new'bbb,[6;6;7]); (n_r2new'bab,[6;4;7]); (n_r2new'aba,[4;6;5]); (n_r2new'aaa,[4;4;5])].

(** ebcc/codegen/UCC2.py:2745-2909 [hbar_matvec_ea_intermediates] *)
Definition UCC2_hbar_matvec_ea_intermediates : prog := mkprog
 [(n_t1'bb,[6;7]); (n_f'bb'ov,[6;7]); (n_t1'aa,[4;5]); (n_f'aa'ov,[4;5]); (n_t2'bbbb,[6;6;7;7]); (n_v'bbbb'ooov,[6;6;6;7]); (n_t2'abab,[4;6;5;7]); (n_v'aabb'ovvv,[4;5;7;7]); (n_v'bbbb'ovvv,[6;7;7;7]); (n_v'aabb'ovov,[4;5;6;7]); (n_v'bbbb'ovov,[6;7;6;7]); (n_v'aaaa'ovov,[4;5;4;5]); (n_v'aabb'vvov,[5;5;6;7]); (n_v'aaaa'ovvv,[4;5;5;5]); (n_v'aabb'ovoo,[4;5;6;6]); (n_f'bb'oo,[6;6]); (n_f'bb'vv,[7;7]); (n_t2'aaaa,[4;4;5;5]); (n_v'aabb'ooov,[4;4;6;7]); (n_f'aa'vv,[5;5]); (n_v'aaaa'ooov,[4;4;4;5]); (n_f'aa'oo,[4;4])]
 [(*2836*) Assign (T 140) (Plain (Einsum [(n_t1'bb,[0;1]); (n_f'bb'ov,[2;1])] [2;0]));
  (*2837*) Assign (T 90) (Plain (Einsum [(n_t1'aa,[0;1]); (n_f'aa'ov,[2;1])] [2;0]));
  (*2838*) Assign (T 194) (Plain (Einsum [(n_t2'bbbb,[0;1;2;3]); (n_v'bbbb'ooov,[4;0;1;5])] [4;2;3;5]));
  (*2839*) Assign (T 181) (Plain (Einsum [(n_t2'abab,[0;1;2;3]); (n_v'aabb'ovvv,[0;2;4;5])] [1;3;4;5]));
  (*2840*) Assign (T 179) (Plain (Einsum [(n_t2'bbbb,[0;1;2;3]); (n_v'bbbb'ovvv,[1;4;5;3])] [0;2;4;5]));
  (*2841*) Assign (T 177) (Plain (Einsum [(n_t2'bbbb,[0;1;2;3]); (n_v'bbbb'ovvv,[1;3;4;5])] [0;2;4;5]));
  (*2842*) Assign (T 171) (Plain (Einsum [(n_t2'abab,[0;1;2;3]); (n_v'aabb'ovov,[0;2;4;5])] [1;4;3;5]));
  (*2843*) Assign (T 169) (Plain (Einsum [(n_t2'bbbb,[0;1;2;3]); (n_v'aabb'ovov,[4;5;1;3])] [4;0;5;2]));
  (*2844*) Assign (T 167) (Plain (Einsum [(n_t2'bbbb,[0;1;2;3]); (n_v'bbbb'ovov,[4;5;1;3])] [0;4;2;5]));
  (*2845*) Assign (T 165) (Plain (Einsum [(n_t2'bbbb,[0;1;2;3]); (n_v'bbbb'ovov,[4;3;1;5])] [0;4;2;5]));
  (*2846*) Assign (T 163) (Plain (Einsum [(n_v'aaaa'ovov,[0;1;2;3]); (n_t2'abab,[2;4;3;5])] [0;4;1;5]));
  (*2847*) Assign (T 161) (Plain (Einsum [(n_v'aaaa'ovov,[0;1;2;3]); (n_t2'abab,[2;4;1;5])] [0;4;3;5]));
  (*2848*) Assign (T 157) (Plain (Einsum [(n_t2'bbbb,[0;1;2;3]); (n_v'aabb'vvov,[4;5;1;3])] [0;4;5;2]));
  (*2849*) Assign (T 156) (Plain (Einsum [(n_t2'abab,[0;1;2;3]); (n_v'aaaa'ovvv,[0;4;5;2])] [1;4;5;3]));
  (*2850*) Assign (T 155) (Plain (Einsum [(n_t2'abab,[0;1;2;3]); (n_v'aaaa'ovvv,[0;2;4;5])] [1;4;5;3]));
  (*2851*) Assign (T 154) (Plain (Einsum [(n_t2'bbbb,[0;1;2;3]); (n_f'bb'ov,[1;3])] [0;2]));
  (*2852*) Assign (T 153) (Plain (Einsum [(n_t2'abab,[0;1;2;3]); (n_f'aa'ov,[0;2])] [1;3]));
  (*2853*) Assign (T 151) (Plain (Einsum [(n_v'aabb'ovoo,[0;1;2;3]); (n_t2'abab,[0;3;1;4])] [2;4]));
  (*2854*) Assign (T 150) (Plain (Einsum [(n_t2'bbbb,[0;1;2;3]); (n_v'bbbb'ooov,[4;0;1;3])] [4;2]));
  (*2855*) Assign (T 149) (Plain (Einsum [(n_t1'bb,[0;1]); (n_f'bb'oo,[2;0])] [2;1]));
  (*2856*) Assign (T 148) (Plain (Einsum [(T 140,[0;1]); (n_t1'bb,[0;2])] [1;2]));
  (*2857*) Assign (T 146) (Plain (Einsum [(n_t2'abab,[0;1;2;3]); (n_v'aabb'ovov,[0;2;4;3])] [1;4]));
  (*2858*) Assign (T 144) (Times (Einsum [(n_v'bbbb'ovov,[0;1;2;3]); (n_t2'bbbb,[4;2;3;1])] [4;0]) (-1) 1);
  (*2859*) Assign (T 143) (Plain (Einsum [(n_t2'abab,[0;1;2;3]); (n_v'aabb'ovvv,[0;2;4;3])] [1;4]));
  (*2860*) Assign (T 142) (Times (Einsum [(n_v'bbbb'ovvv,[0;1;2;3]); (n_t2'bbbb,[4;0;3;1])] [4;2]) (-1) 1);
  (*2861*) Assign (T 139) (Plain (Einsum [(n_f'bb'vv,[0;1]); (n_t1'bb,[2;1])] [2;0]));
  (*2862*) Assign (T 133) (Plain (Einsum [(n_v'aabb'ovoo,[0;1;2;3]); (n_t2'abab,[0;3;4;5])] [2;4;1;5]));
  (*2863*) Assign (T 132) (Plain (Einsum [(n_t2'abab,[0;1;2;3]); (n_v'aabb'ovov,[0;4;5;3])] [1;5;2;4]));
  (*2864*) Assign (T 129) (Plain (Einsum [(n_t2'abab,[0;1;2;3]); (n_v'aabb'ovvv,[0;4;5;3])] [1;2;4;5]));
  (*2865*) Assign (T 118) (Plain (Einsum [(n_v'aabb'ovvv,[0;1;2;3]); (n_t2'aaaa,[4;0;5;1])] [4;5;2;3]));
  (*2866*) Assign (T 117) (Plain (Einsum [(n_t2'abab,[0;1;2;3]); (n_v'bbbb'ovvv,[1;4;5;3])] [0;2;4;5]));
  (*2867*) Assign (T 116) (Plain (Einsum [(n_v'bbbb'ovvv,[0;1;2;3]); (n_t2'abab,[4;0;5;1])] [4;5;2;3]));
  (*2868*) Assign (T 106) (Plain (Einsum [(n_t2'abab,[0;1;2;3]); (n_v'aabb'ooov,[4;0;1;5])] [4;2;3;5]));
  (*2869*) Assign (T 105) (Plain (Einsum [(n_t2'abab,[0;1;2;3]); (n_v'aabb'ovov,[4;2;1;5])] [0;4;3;5]));
  (*2870*) Assign (T 102) (Plain (Einsum [(n_t2'abab,[0;1;2;3]); (n_v'aabb'vvov,[4;2;1;5])] [0;4;3;5]));
  (*2871*) Assign (T 98) (Plain (Einsum [(n_t2'abab,[0;1;2;3]); (n_v'aabb'ovov,[4;2;1;3])] [0;4]));
  (*2872*) Assign (T 96) (Plain (Einsum [(n_t2'aaaa,[0;1;2;3]); (n_v'aaaa'ovov,[4;2;1;3])] [0;4]));
  (*2873*) Assign (T 95) (Plain (Einsum [(n_t2'abab,[0;1;2;3]); (n_v'aabb'vvov,[4;2;1;3])] [0;4]));
  (*2874*) Assign (T 94) (Plain (Einsum [(n_t2'aaaa,[0;1;2;3]); (n_v'aaaa'ovvv,[1;2;4;3])] [0;4]));
  (*2875*) Assign (T 92) (Plain (Einsum [(n_t1'aa,[0;1]); (T 90,[0;2])] [2;1]));
  (*2876*) Assign (T 89) (Plain (Einsum [(n_f'aa'vv,[0;1]); (n_t1'aa,[2;1])] [2;0]));
  (*2877*) Assign (T 82) (Plain (Einsum [(n_v'aaaa'ooov,[0;1;2;3]); (n_t2'aaaa,[1;2;4;5])] [0;4;5;3]));
  (*2878*) Assign (T 81) (Plain (Einsum [(n_t2'abab,[0;1;2;3]); (n_v'aabb'ooov,[4;0;1;3])] [4;2]));
  (*2879*) Assign (T 80) (Plain (Einsum [(n_v'aaaa'ooov,[0;1;2;3]); (n_t2'aaaa,[1;2;4;3])] [0;4]));
  (*2880*) Assign (T 77) (Plain (Einsum [(n_f'aa'oo,[0;1]); (n_t1'aa,[1;2])] [0;2]));
  (*2881*) Assign (T 74) (Plain (Einsum [(n_v'aabb'ovov,[0;1;2;3]); (n_t2'aaaa,[4;0;5;1])] [4;2;5;3]));
  (*2882*) Assign (T 72) (Plain (Einsum [(n_t2'abab,[0;1;2;3]); (n_v'aabb'ovov,[4;5;1;3])] [0;4;2;5]));
  (*2883*) Assign (T 70) (Plain (Einsum [(n_v'bbbb'ovov,[0;1;2;3]); (n_t2'abab,[4;2;5;3])] [4;0;5;1]));
  (*2884*) Assign (T 68) (Plain (Einsum [(n_v'bbbb'ovov,[0;1;2;3]); (n_t2'abab,[4;2;5;1])] [4;0;5;3]));
  (*2885*) Assign (T 66) (Plain (Einsum [(n_v'aaaa'ovov,[0;1;2;3]); (n_t2'aaaa,[4;2;5;3])] [4;0;5;1]));
  (*2886*) Assign (T 64) (Plain (Einsum [(n_v'aaaa'ovov,[0;1;2;3]); (n_t2'aaaa,[4;2;5;1])] [4;0;5;3]));
  (*2887*) Assign (T 60) (Plain (Einsum [(n_t2'abab,[0;1;2;3]); (n_v'aabb'vvov,[4;5;1;3])] [0;2;4;5]));
  (*2888*) Assign (T 58) (Plain (Einsum [(n_v'aaaa'ovvv,[0;1;2;3]); (n_t2'aaaa,[4;0;5;3])] [4;5;1;2]));
  (*2889*) Assign (T 56) (Plain (Einsum [(n_t2'aaaa,[0;1;2;3]); (n_v'aaaa'ovvv,[1;3;4;5])] [0;2;4;5]));
  (*2890*) Assign (T 52) (Plain (Einsum [(n_t2'abab,[0;1;2;3]); (n_f'bb'ov,[1;3])] [0;2]));
  (*2891*) Assign (T 51) (Plain (Einsum [(n_t2'aaaa,[0;1;2;3]); (n_f'aa'ov,[1;3])] [0;2]));
  (*2892*) Assign (T 44) (Plain (Einsum [(n_t2'abab,[0;1;2;3]); (n_v'aabb'ovov,[0;2;1;4])] [3;4]));
  (*2893*) Assign (T 42) (Times (Einsum [(n_v'bbbb'ovov,[0;1;2;3]); (n_t2'bbbb,[0;2;4;1])] [4;3]) (-1) 1);
  (*2894*) Assign (T 34) (Plain (Einsum [(n_t1'aa,[0;1]); (n_v'aabb'ovvv,[0;1;2;3])] [2;3]));
  (*2895*) Assign (T 33) (Plain (Einsum [(n_t1'bb,[0;1]); (n_v'bbbb'ovvv,[0;2;3;1])] [2;3]));
  (*2896*) Assign (T 32) (Plain (Einsum [(n_v'bbbb'ovvv,[0;1;2;3]); (n_t1'bb,[0;1])] [2;3]));
  (*2897*) Assign (T 23) (Plain (Einsum [(n_t2'abab,[0;1;2;3]); (n_v'aabb'ovov,[0;4;1;3])] [2;4]));
  (*2898*) Assign (T 21) (Times (Einsum [(n_t2'aaaa,[0;1;2;3]); (n_v'aaaa'ovov,[0;3;1;4])] [2;4]) (-1) 1);
  (*2899*) Assign (T 16) (Plain (Einsum [(n_t1'aa,[0;1]); (n_v'aabb'ovov,[0;1;2;3])] [2;3]));
  (*2900*) Assign (T 14) (Plain (Einsum [(n_v'aabb'ovov,[0;1;2;3]); (n_t1'bb,[2;3])] [0;1]));
  (*2901*) Assign (T 13) (Plain (Einsum [(n_t1'bb,[0;1]); (n_v'bbbb'ovov,[2;3;0;1])] [2;3]));
  (*2902*) Assign (T 12) (Plain (Einsum [(n_t1'bb,[0;1]); (n_v'bbbb'ovov,[2;1;0;3])] [2;3]));
  (*2903*) Assign (T 10) (Plain (Einsum [(n_v'aaaa'ovov,[0;1;2;3]); (n_t1'aa,[2;3])] [0;1]));
  (*2904*) Assign (T 8) (Plain (Einsum [(n_v'aaaa'ovov,[0;1;2;3]); (n_t1'aa,[2;1])] [0;3]));
  (*2905*) Assign (T 7) (Plain (Einsum [(n_v'aabb'vvov,[0;1;2;3]); (n_t1'bb,[2;3])] [0;1]));
  (*2906*) Assign (T 6) (Plain (Einsum [(n_v'aaaa'ovvv,[0;1;2;3]); (n_t1'aa,[0;3])] [1;2]));
  (*2907*) Assign (T 5) (Plain (Einsum [(n_v'aaaa'ovvv,[0;1;2;3]); (n_t1'aa,[0;1])] [2;3]))]
 [(T 102,[4;5;7;7]); (T 105,[4;4;7;7]); (T 106,[4;5;7;7]); (T 12,[6;7]); (T 116,[4;5;7;7]); (T 117,[4;5;7;7]); (T 118,[4;5;7;7]); (T 13,[6;7]); (T 129,[6;5;5;7]); (T 14,[4;5]); (T 132,[6;6;5;5]); (T 133,[6;5;5;7]); (T 139,[6;7]); (T 140,[6;6]); (T 142,[6;7]); (T 143,[6;7]); (T 144,[6;6]); (T 146,[6;6]); (T 148,[6;7]); (T 149,[6;7]); (T 150,[6;7]); (T 16,[6;7]); (T 151,[6;7]); (T 153,[6;7]); (T 154,[6;7]); (T 155,[6;5;5;7]); (T 156,[6;5;5;7]); (T 157,[6;5;5;7]); (T 161,[4;6;5;7]); (T 163,[4;6;5;7]); (T 165,[6;6;7;7]); (T 167,[6;6;7;7]); (T 169,[4;6;5;7]); (T 171,[6;6;7;7]); (T 177,[6;7;7;7]); (T 179,[6;7;7;7]); (T 181,[6;7;7;7]); (T 194,[6;7;7;7]); (T 21,[5;5]); (T 23,[5;5]); (T 32,[7;7]); (T 33,[7;7]); (T 34,[7;7]); (T 5,[5;5]); (T 42,[7;7]); (T 44,[7;7]); (T 6,[5;5]); (T 51,[4;5]); (T 52,[4;5]); (T 56,[4;5;5;5]); (T 58,[4;5;5;5]); (T 60,[4;5;5;5]); (T 7,[5;5]); (T 64,[4;4;5;5]); (T 66,[4;4;5;5]); (T 68,[4;6;5;7]); (T 70,[4;6;5;7]); (T 8,[4;5]); (T 72,[4;4;5;5]); (T 74,[4;6;5;7]); (T 77,[4;5]); (T 80,[4;5]); (T 81,[4;5]); (T 82,[4;5;5;5]); (T 89,[4;5]); (T 90,[4;4]); (T 10,[4;5]); (T 92,[4;5]); (T 94,[4;5]); (T 95,[4;5]); (T 96,[4;4]); (T 98,[4;4])].

(** ebcc/codegen/UCC2.py:2911-3320 [hbar_matvec_ea] *)
Definition UCC2_hbar_matvec_ea : prog := mkprog
 [(IT 163,[4;6;5;7]); (IT 169,[4;6;5;7]); (IT 167,[6;6;7;7]); (IT 171,[6;6;7;7]); (IT 177,[6;7;7;7]); (IT 181,[6;7;7;7]); (n_v'bbbb'ovvv,[6;7;7;7]); (n_f'bb'ov,[6;7]); (n_r2'bbb,[7;7;6]); (IT 42,[7;7]); (IT 44,[7;7]); (n_f'bb'vv,[7;7]); (IT 56,[4;5;5;5]); (IT 60,[4;5;5;5]); (n_v'aaaa'ovvv,[4;5;5;5]); (n_f'aa'ov,[4;5]); (n_r2'aaa,[5;5;4]); (IT 66,[4;4;5;5]); (IT 72,[4;4;5;5]); (IT 70,[4;6;5;7]); (IT 74,[4;6;5;7]); (IT 21,[5;5]); (IT 23,[5;5]); (n_f'aa'vv,[5;5]); (n_v'bbbb'ovov,[6;7;6;7]); (n_r1'b,[7]); (IT 179,[6;7;7;7]); (IT 165,[6;6;7;7]); (n_r2'aba,[5;7;4]); (n_v'aabb'ovov,[4;5;6;7]); (n_v'bbbb'oovv,[6;6;7;7]); (n_t1'bb,[6;7]); (IT 161,[4;6;5;7]); (n_t1'aa,[4;5]); (n_r1'a,[5]); (n_v'aaaa'ovov,[4;5;4;5]); (n_r2'bab,[7;5;6]); (n_v'aaaa'oovv,[4;4;5;5]); (IT 58,[4;5;5;5]); (IT 64,[4;4;5;5]); (IT 68,[4;6;5;7]); (IT 13,[6;7]); (IT 16,[6;7]); (IT 12,[6;7]); (IT 14,[4;5]); (IT 10,[4;5]); (IT 8,[4;5]); (IT 142,[6;7]); (IT 148,[6;7]); (IT 149,[6;7]); (IT 150,[6;7]); (IT 151,[6;7]); (IT 139,[6;7]); (IT 143,[6;7]); (IT 153,[6;7]); (IT 154,[6;7]); (n_f'bb'oo,[6;6]); (IT 140,[6;6]); (IT 144,[6;6]); (IT 146,[6;6]); (IT 132,[6;6;5;5]); (n_v'aabb'vvoo,[5;5;6;6]); (IT 133,[6;5;5;7]); (IT 155,[6;5;5;7]); (IT 157,[6;5;5;7]); (n_v'aabb'vvov,[5;5;6;7]); (IT 129,[6;5;5;7]); (IT 156,[6;5;5;7]); (IT 105,[4;4;7;7]); (n_v'aabb'oovv,[4;4;7;7]); (IT 77,[4;5]); (IT 80,[4;5]); (IT 81,[4;5]); (IT 92,[4;5]); (IT 94,[4;5]); (IT 51,[4;5]); (IT 52,[4;5]); (IT 89,[4;5]); (IT 95,[4;5]); (IT 106,[4;5;7;7]); (IT 116,[4;5;7;7]); (IT 118,[4;5;7;7]); (n_v'aabb'ovvv,[4;5;7;7]); (IT 102,[4;5;7;7]); (IT 117,[4;5;7;7]); (n_f'aa'oo,[4;4]); (IT 90,[4;4]); (IT 96,[4;4]); (IT 98,[4;4]); (IT 33,[7;7]); (IT 32,[7;7]); (IT 34,[7;7]); (IT 6,[5;5]); (IT 5,[5;5]); (IT 7,[5;5]); (IT 194,[6;7;7;7]); (n_v'bbbb'vvvv,[7;7;7;7]); (n_t2'bbbb,[6;6;7;7]); (n_v'aabb'vvvv,[5;5;7;7]); (n_t2'abab,[4;6;5;7]); (n_t2'aaaa,[4;4;5;5]); (IT 82,[4;5;5;5]); (n_v'aaaa'vvvv,[5;5;5;5])]
 [(*2941*) Assign (T 68) (Plain (Copy (IT 163)));
  (*2942*) AddTo (T 68) (Times (Copy (IT 169)) (2) 1);
  (*2943*) Assign (T 58) (Times (Copy (IT 167)) (2) 1);
  (*2944*) AddTo (T 58) (Plain (Copy (IT 171)));
  (*2945*) Assign (T 62) (Plain (Copy (IT 177)));
  (*2946*) Del (IT 177);
  (*2947*) AddTo (T 62) (Times (Copy (IT 181)) (1) 2);
  (*2948*) Del (IT 181);
  (*2949*) AddTo (T 62) (Times (Copy n_v'bbbb'ovvv) (1) 2);
  (*2950*) Assign (T 56) (Plain (Einsum [(n_f'bb'ov,[0;1]); (n_r2'bbb,[2;1;3])] [0;3;2]));
  (*2951*) Assign (T 60) (Plain (Transpose (IT 42) [1;0]));
  (*2952*) AddTo (T 60) (Times (Transpose (IT 44) [1;0]) (1) 2);
  (*2953*) AddTo (T 60) (Times (Copy n_f'bb'vv) (-1) 2);
  (*2954*) Assign (T 21) (Plain (Copy (IT 56)));
  (*2955*) Del (IT 56);
  (*2956*) AddTo (T 21) (Times (Copy (IT 60)) (1) 2);
  (*2957*) Del (IT 60);
  (*2958*) AddTo (T 21) (Times (Copy n_v'aaaa'ovvv) (1) 2);
  (*2959*) Assign (T 13) (Plain (Einsum [(n_f'aa'ov,[0;1]); (n_r2'aaa,[2;1;3])] [0;3;2]));
  (*2960*) Assign (T 15) (Times (Copy (IT 66)) (2) 1);
  (*2961*) AddTo (T 15) (Plain (Copy (IT 72)));
  (*2962*) Assign (T 17) (Times (Copy (IT 70)) (1) 2);
  (*2963*) AddTo (T 17) (Plain (Copy (IT 74)));
  (*2964*) Assign (T 19) (Plain (Transpose (IT 21) [1;0]));
  (*2965*) AddTo (T 19) (Times (Transpose (IT 23) [1;0]) (1) 2);
  (*2966*) AddTo (T 19) (Times (Copy n_f'aa'vv) (-1) 2);
  (*2967*) Assign (T 67) (Plain (Einsum [(n_r2'bbb,[0;1;2]); (n_v'bbbb'ovov,[3;4;2;1])] [3;0;4]));
  (*2968*) Assign (T 65) (Plain (Einsum [(n_r1'b,[0]); (IT 179,[1;2;0;3])] [1;2;3]));
  (*2969*) Del (IT 179);
  (*2970*) Assign (T 66) (Plain (Einsum [(IT 165,[0;1;2;3]); (n_r2'bbb,[4;3;1])] [0;2;4]));
  (*2971*) Assign (T 69) (Plain (Einsum [(T 68,[0;1;2;3]); (n_r2'aba,[2;4;0])] [1;4;3]));
  (*2972*) Del (T 68);
  (*2973*) Assign (T 54) (Plain (Einsum [(n_v'aabb'ovov,[0;1;2;3]); (n_r2'aba,[1;4;0])] [2;4;3]));
  (*2974*) Assign (T 55) (Plain (Einsum [(n_r2'bbb,[0;1;2]); (n_v'bbbb'oovv,[3;2;4;1])] [3;0;4]));
  (*2975*) Assign (T 59) (Times (Einsum [(n_r2'bbb,[0;1;2]); (T 58,[3;2;4;1])] [3;0;4]) (-2) 1);
  (*2976*) Del (T 58);
  (*2977*) Assign (T 63) (Times (Einsum [(n_r1'b,[0]); (T 62,[1;2;3;0])] [1;2;3]) (2) 1);
  (*2978*) Del (T 62);
  (*2979*) Assign (T 57) (Plain (Einsum [(T 56,[0;1;2]); (n_t1'bb,[0;3])] [1;2;3]));
  (*2980*) Del (T 56);
  (*2981*) Assign (T 53) (Plain (Einsum [(n_r2'aba,[0;1;2]); (IT 161,[2;3;0;4])] [3;4;1]));
  (*2982*) Assign (T 61) (Times (Einsum [(n_r2'bbb,[0;1;2]); (T 60,[1;3])] [2;0;3]) (-4) 1);
  (*2983*) Del (T 60);
  (*2984*) Assign (T 8) (Plain (Einsum [(n_v'aabb'ovov,[0;1;2;3]); (n_r2'aba,[1;3;0])] [2]));
  (*2985*) Assign (T 43) (Plain (Einsum [(n_r1'b,[0]); (n_f'bb'ov,[1;0])] [1]));
  (*2986*) Assign (T 9) (Plain (Einsum [(n_r2'bbb,[0;1;2]); (n_v'bbbb'ovov,[3;0;2;1])] [3]));
  (*2987*) Assign (T 39) (Plain (Einsum [(n_t1'aa,[0;1]); (n_f'aa'ov,[0;2])] [2;1]));
  (*2988*) Assign (T 41) (Plain (Einsum [(n_t1'bb,[0;1]); (n_f'bb'ov,[0;2])] [2;1]));
  (*2989*) Assign (T 31) (Plain (Einsum [(n_r1'a,[0]); (n_f'aa'ov,[1;0])] [1]));
  (*2990*) Assign (T 4) (Plain (Einsum [(n_v'aaaa'ovov,[0;1;2;3]); (n_r2'aaa,[1;3;2])] [0]));
  (*2991*) Assign (T 5) (Times (Einsum [(n_v'aabb'ovov,[0;1;2;3]); (n_r2'bab,[3;1;2])] [0]) (-1) 1);
  (*2992*) Assign (T 22) (Times (Einsum [(T 21,[0;1;2;3]); (n_r1'a,[3])] [0;1;2]) (2) 1);
  (*2993*) Del (T 21);
  (*2994*) Assign (T 14) (Plain (Einsum [(T 13,[0;1;2]); (n_t1'aa,[0;3])] [1;2;3]));
  (*2995*) Del (T 13);
  (*2996*) Assign (T 12) (Plain (Einsum [(n_v'aaaa'oovv,[0;1;2;3]); (n_r2'aaa,[4;3;1])] [0;4;2]));
  (*2997*) Assign (T 16) (Times (Einsum [(n_r2'aaa,[0;1;2]); (T 15,[3;2;4;1])] [3;0;4]) (-2) 1);
  (*2998*) Del (T 15);
  (*2999*) Assign (T 18) (Times (Einsum [(T 17,[0;1;2;3]); (n_r2'bab,[3;4;1])] [0;4;2]) (-2) 1);
  (*3000*) Del (T 17);
  (*3001*) Assign (T 20) (Times (Einsum [(n_r2'aaa,[0;1;2]); (T 19,[1;3])] [2;0;3]) (-4) 1);
  (*3002*) Del (T 19);
  (*3003*) Assign (T 24) (Plain (Einsum [(IT 58,[0;1;2;3]); (n_r1'a,[2])] [0;1;3]));
  (*3004*) Del (IT 58);
  (*3005*) Assign (T 26) (Plain (Einsum [(n_v'aaaa'ovov,[0;1;2;3]); (n_r2'aaa,[4;3;2])] [0;4;1]));
  (*3006*) Assign (T 28) (Times (Einsum [(n_v'aabb'ovov,[0;1;2;3]); (n_r2'bab,[3;4;2])] [0;4;1]) (-1) 1);
  (*3007*) Assign (T 25) (Plain (Einsum [(IT 64,[0;1;2;3]); (n_r2'aaa,[4;3;1])] [0;2;4]));
  (*3008*) Assign (T 27) (Times (Einsum [(n_r2'bab,[0;1;2]); (IT 68,[3;2;4;0])] [3;4;1]) (-1) 1);
  (*3009*) Assign (T 1) (Plain (Copy n_f'bb'ov));
  (*3010*) AddTo (T 1) (Plain (Copy (IT 13)));
  (*3011*) Del (IT 13);
  (*3012*) AddTo (T 1) (Plain (Copy (IT 16)));
  (*3013*) Del (IT 16);
  (*3014*) AddTo (T 1) (Times (Copy (IT 12)) (-1) 1);
  (*3015*) Del (IT 12);
  (*3016*) Assign (T 2) (Plain (Copy n_f'aa'ov));
  (*3017*) AddTo (T 2) (Plain (Copy (IT 14)));
  (*3018*) Del (IT 14);
  (*3019*) AddTo (T 2) (Plain (Copy (IT 10)));
  (*3020*) Del (IT 10);
  (*3021*) AddTo (T 2) (Times (Copy (IT 8)) (-1) 1);
  (*3022*) Del (IT 8);
  (*3023*) Assign (T 52) (Times (Einsum [(n_v'bbbb'ovov,[0;1;2;3]); (n_r2'bbb,[3;1;4])] [4;0;2]) (-1) 1);
  (*3024*) Assign (T 51) (Times (Copy (IT 142)) (2) 1);
  (*3025*) Del (IT 142);
  (*3026*) AddTo (T 51) (Plain (Copy (IT 148)));
  (*3027*) Del (IT 148);
  (*3028*) AddTo (T 51) (Plain (Copy (IT 149)));
  (*3029*) Del (IT 149);
  (*3030*) AddTo (T 51) (Times (Copy (IT 150)) (2) 1);
  (*3031*) Del (IT 150);
  (*3032*) AddTo (T 51) (Plain (Copy (IT 151)));
  (*3033*) Del (IT 151);
  (*3034*) AddTo (T 51) (Times (Copy n_f'bb'ov) (-1) 1);
  (*3035*) AddTo (T 51) (Times (Copy (IT 139)) (-1) 1);
  (*3036*) Del (IT 139);
  (*3037*) AddTo (T 51) (Times (Copy (IT 143)) (-1) 1);
  (*3038*) Del (IT 143);
  (*3039*) AddTo (T 51) (Times (Copy (IT 153)) (-1) 1);
  (*3040*) Del (IT 153);
  (*3041*) AddTo (T 51) (Times (Copy (IT 154)) (-2) 1);
  (*3042*) Del (IT 154);
  (*3043*) Assign (T 70) (Times (Copy (T 65)) (2) 1);
  (*3044*) Del (T 65);
  (*3045*) AddTo (T 70) (Times (Copy (T 66)) (4) 1);
  (*3046*) Del (T 66);
  (*3047*) AddTo (T 70) (Times (Copy (T 67)) (2) 1);
  (*3048*) Del (T 67);
  (*3049*) AddTo (T 70) (Plain (Transpose (T 69) [0;2;1]));
  (*3050*) Del (T 69);
  (*3051*) Assign (T 50) (Plain (Copy n_f'bb'oo));
  (*3052*) AddTo (T 50) (Plain (Copy (IT 140)));
  (*3053*) Del (IT 140);
  (*3054*) AddTo (T 50) (Times (Transpose (IT 144) [1;0]) (2) 1);
  (*3055*) Del (IT 144);
  (*3056*) AddTo (T 50) (Plain (Transpose (IT 146) [1;0]));
  (*3057*) Del (IT 146);
  (*3058*) Assign (T 64) (Plain (Copy (T 53)));
  (*3059*) Del (T 53);
  (*3060*) AddTo (T 64) (Plain (Copy (T 54)));
  (*3061*) Del (T 54);
  (*3062*) AddTo (T 64) (Times (Copy (T 55)) (2) 1);
  (*3063*) Del (T 55);
  (*3064*) AddTo (T 64) (Times (Copy (T 57)) (2) 1);
  (*3065*) Del (T 57);
  (*3066*) AddTo (T 64) (Times (Transpose (T 59) [0;2;1]) (-1) 1);
  (*3067*) Del (T 59);
  (*3068*) AddTo (T 64) (Plain (Transpose (T 61) [0;2;1]));
  (*3069*) Del (T 61);
  (*3070*) AddTo (T 64) (Plain (Copy (T 63)));
  (*3071*) Del (T 63);
  (*3072*) Assign (T 44) (Times (Copy (T 43)) (1) 2);
  (*3073*) Del (T 43);
  (*3074*) AddTo (T 44) (Times (Copy (T 8)) (-1) 2);
  (*3075*) AddTo (T 44) (Plain (Copy (T 9)));
  (*3076*) Assign (T 40) (Times (Transpose (IT 21) [1;0]) (2) 1);
  (*3077*) AddTo (T 40) (Plain (Transpose (IT 23) [1;0]));
  (*3078*) AddTo (T 40) (Times (Copy n_f'aa'vv) (-1) 1);
  (*3079*) AddTo (T 40) (Plain (Copy (T 39)));
  (*3080*) Del (T 39);
  (*3081*) Assign (T 47) (Plain (Copy (IT 163)));
  (*3082*) Del (IT 163);
  (*3083*) AddTo (T 47) (Times (Copy (IT 169)) (2) 1);
  (*3084*) Del (IT 169);
  (*3085*) AddTo (T 47) (Plain (Transpose n_v'aabb'ovov [0;2;1;3]));
  (*3086*) AddTo (T 47) (Times (Copy (IT 161)) (-1) 1);
  (*3087*) Del (IT 161);
  (*3088*) Assign (T 42) (Times (Transpose (IT 42) [1;0]) (2) 1);
  (*3089*) AddTo (T 42) (Plain (Transpose (IT 44) [1;0]));
  (*3090*) AddTo (T 42) (Times (Copy n_f'bb'vv) (-1) 1);
  (*3091*) AddTo (T 42) (Plain (Copy (T 41)));
  (*3092*) Del (T 41);
  (*3093*) Assign (T 32) (Plain (Copy (T 31)));
  (*3094*) Del (T 31);
  (*3095*) AddTo (T 32) (Times (Copy (T 4)) (2) 1);
  (*3096*) AddTo (T 32) (Plain (Copy (T 5)));
  (*3097*) Assign (T 45) (Times (Einsum [(n_v'aabb'ovov,[0;1;2;3]); (n_r2'bab,[3;1;4])] [0;4;2]) (-1) 1);
  (*3098*) Assign (T 48) (Plain (Copy (IT 132)));
  (*3099*) Del (IT 132);
  (*3100*) AddTo (T 48) (Times (Transpose n_v'aabb'vvoo [2;3;0;1]) (-1) 1);
  (*3101*) Assign (T 46) (Times (Copy (IT 167)) (2) 1);
  (*3102*) Del (IT 167);
  (*3103*) AddTo (T 46) (Plain (Copy (IT 171)));
  (*3104*) Del (IT 171);
  (*3105*) AddTo (T 46) (Plain (Transpose n_v'bbbb'ovov [0;2;1;3]));
  (*3106*) AddTo (T 46) (Times (Copy (IT 165)) (-2) 1);
  (*3107*) Del (IT 165);
  (*3108*) AddTo (T 46) (Times (Copy n_v'bbbb'oovv) (-1) 1);
  (*3109*) Assign (T 49) (Plain (Copy (IT 133)));
  (*3110*) Del (IT 133);
  (*3111*) AddTo (T 49) (Plain (Copy (IT 155)));
  (*3112*) Del (IT 155);
  (*3113*) AddTo (T 49) (Times (Copy (IT 157)) (2) 1);
  (*3114*) Del (IT 157);
  (*3115*) AddTo (T 49) (Plain (Transpose n_v'aabb'vvov [2;0;1;3]));
  (*3116*) AddTo (T 49) (Times (Copy (IT 129)) (-1) 1);
  (*3117*) Del (IT 129);
  (*3118*) AddTo (T 49) (Times (Transpose (IT 156) [0;2;1;3]) (-1) 1);
  (*3119*) Del (IT 156);
  (*3120*) Assign (T 37) (Plain (Copy (IT 105)));
  (*3121*) Del (IT 105);
  (*3122*) AddTo (T 37) (Times (Copy n_v'aabb'oovv) (-1) 1);
  (*3123*) Assign (T 34) (Plain (Einsum [(n_v'aabb'ovov,[0;1;2;3]); (n_r2'aba,[1;3;4])] [4;0;2]));
  (*3124*) Assign (T 33) (Plain (Copy (IT 77)));
  (*3125*) Del (IT 77);
  (*3126*) AddTo (T 33) (Times (Copy (IT 80)) (2) 1);
  (*3127*) Del (IT 80);
  (*3128*) AddTo (T 33) (Plain (Copy (IT 81)));
  (*3129*) Del (IT 81);
  (*3130*) AddTo (T 33) (Plain (Copy (IT 92)));
  (*3131*) Del (IT 92);
  (*3132*) AddTo (T 33) (Times (Copy (IT 94)) (2) 1);
  (*3133*) Del (IT 94);
  (*3134*) AddTo (T 33) (Times (Copy n_f'aa'ov) (-1) 1);
  (*3135*) AddTo (T 33) (Times (Copy (IT 51)) (-2) 1);
  (*3136*) Del (IT 51);
  (*3137*) AddTo (T 33) (Times (Copy (IT 52)) (-1) 1);
  (*3138*) Del (IT 52);
  (*3139*) AddTo (T 33) (Times (Copy (IT 89)) (-1) 1);
  (*3140*) Del (IT 89);
  (*3141*) AddTo (T 33) (Times (Copy (IT 95)) (-1) 1);
  (*3142*) Del (IT 95);
  (*3143*) Assign (T 36) (Plain (Copy (IT 70)));
  (*3144*) Del (IT 70);
  (*3145*) AddTo (T 36) (Times (Copy (IT 74)) (2) 1);
  (*3146*) Del (IT 74);
  (*3147*) AddTo (T 36) (Plain (Transpose n_v'aabb'ovov [0;2;1;3]));
  (*3148*) AddTo (T 36) (Times (Copy (IT 68)) (-1) 1);
  (*3149*) Del (IT 68);
  (*3150*) Assign (T 35) (Times (Copy (IT 66)) (2) 1);
  (*3151*) Del (IT 66);
  (*3152*) AddTo (T 35) (Plain (Copy (IT 72)));
  (*3153*) Del (IT 72);
  (*3154*) AddTo (T 35) (Plain (Transpose n_v'aaaa'ovov [0;2;1;3]));
  (*3155*) AddTo (T 35) (Times (Copy (IT 64)) (-2) 1);
  (*3156*) Del (IT 64);
  (*3157*) AddTo (T 35) (Times (Copy n_v'aaaa'oovv) (-1) 1);
  (*3158*) Assign (T 38) (Plain (Copy (IT 106)));
  (*3159*) Del (IT 106);
  (*3160*) AddTo (T 38) (Plain (Copy (IT 116)));
  (*3161*) Del (IT 116);
  (*3162*) AddTo (T 38) (Times (Copy (IT 118)) (2) 1);
  (*3163*) Del (IT 118);
  (*3164*) AddTo (T 38) (Plain (Copy n_v'aabb'ovvv));
  (*3165*) AddTo (T 38) (Times (Copy (IT 102)) (-1) 1);
  (*3166*) Del (IT 102);
  (*3167*) AddTo (T 38) (Times (Transpose (IT 117) [0;1;3;2]) (-1) 1);
  (*3168*) Del (IT 117);
  (*3169*) Assign (T 30) (Plain (Copy n_f'aa'oo));
  (*3170*) AddTo (T 30) (Plain (Copy (IT 90)));
  (*3171*) Del (IT 90);
  (*3172*) AddTo (T 30) (Times (Transpose (IT 96) [1;0]) (2) 1);
  (*3173*) Del (IT 96);
  (*3174*) AddTo (T 30) (Plain (Transpose (IT 98) [1;0]));
  (*3175*) Del (IT 98);
  (*3176*) Assign (T 23) (Times (Copy (T 12)) (2) 1);
  (*3177*) Del (T 12);
  (*3178*) AddTo (T 23) (Times (Copy (T 14)) (2) 1);
  (*3179*) Del (T 14);
  (*3180*) AddTo (T 23) (Times (Transpose (T 16) [0;2;1]) (-1) 1);
  (*3181*) Del (T 16);
  (*3182*) AddTo (T 23) (Plain (Transpose (T 18) [0;2;1]));
  (*3183*) Del (T 18);
  (*3184*) AddTo (T 23) (Plain (Transpose (T 20) [0;2;1]));
  (*3185*) Del (T 20);
  (*3186*) AddTo (T 23) (Plain (Copy (T 22)));
  (*3187*) Del (T 22);
  (*3188*) Assign (T 29) (Times (Copy (T 24)) (2) 1);
  (*3189*) Del (T 24);
  (*3190*) AddTo (T 29) (Times (Copy (T 25)) (4) 1);
  (*3191*) Del (T 25);
  (*3192*) AddTo (T 29) (Times (Copy (T 26)) (2) 1);
  (*3193*) Del (T 26);
  (*3194*) AddTo (T 29) (Plain (Copy (T 27)));
  (*3195*) Del (T 27);
  (*3196*) AddTo (T 29) (Plain (Copy (T 28)));
  (*3197*) Del (T 28);
  (*3198*) Assign (T 11) (Plain (Einsum [(n_v'aaaa'ovov,[0;1;2;3]); (n_r2'aaa,[1;3;4])] [4;0;2]));
  (*3199*) Assign (T 7) (Plain (Copy (IT 33)));
  (*3200*) Del (IT 33);
  (*3201*) AddTo (T 7) (Times (Transpose (IT 42) [1;0]) (2) 1);
  (*3202*) Del (IT 42);
  (*3203*) AddTo (T 7) (Plain (Transpose (IT 44) [1;0]));
  (*3204*) Del (IT 44);
  (*3205*) AddTo (T 7) (Times (Copy n_f'bb'vv) (-1) 1);
  (*3206*) AddTo (T 7) (Times (Transpose (IT 32) [1;0]) (-1) 1);
  (*3207*) Del (IT 32);
  (*3208*) AddTo (T 7) (Times (Transpose (IT 34) [1;0]) (-1) 1);
  (*3209*) Del (IT 34);
  (*3210*) Assign (T 10) (Times (Copy (T 8)) (-1) 1);
  (*3211*) Del (T 8);
  (*3212*) AddTo (T 10) (Times (Copy (T 9)) (2) 1);
  (*3213*) Del (T 9);
  (*3214*) AddTo (T 10) (Plain (Einsum [(T 1,[0;1]); (n_r1'b,[1])] [0]));
  (*3215*) Assign (T 6) (Times (Copy (T 4)) (2) 1);
  (*3216*) Del (T 4);
  (*3217*) AddTo (T 6) (Plain (Copy (T 5)));
  (*3218*) Del (T 5);
  (*3219*) AddTo (T 6) (Plain (Einsum [(T 2,[0;1]); (n_r1'a,[1])] [0]));
  (*3220*) Assign (T 3) (Times (Transpose (IT 21) [1;0]) (2) 1);
  (*3221*) Del (IT 21);
  (*3222*) AddTo (T 3) (Plain (Transpose (IT 23) [1;0]));
  (*3223*) Del (IT 23);
  (*3224*) AddTo (T 3) (Plain (Copy (IT 6)));
  (*3225*) Del (IT 6);
  (*3226*) AddTo (T 3) (Times (Copy n_f'aa'vv) (-1) 1);
  (*3227*) AddTo (T 3) (Times (Transpose (IT 5) [1;0]) (-1) 1);
  (*3228*) Del (IT 5);
  (*3229*) AddTo (T 3) (Times (Transpose (IT 7) [1;0]) (-1) 1);
  (*3230*) Del (IT 7);
  (*3231*) Assign n_r2new'bbb (Times (Einsum [(IT 194,[0;1;2;3]); (n_r1'b,[3])] [2;1;0]) (2) 1);
  (*3232*) Del (IT 194);
  (*3233*) AddTo n_r2new'bbb (Times (Einsum [(n_r2'bbb,[0;1;2]); (n_v'bbbb'vvvv,[3;0;4;1])] [3;4;2]) (2) 1);
  (*3234*) AddTo n_r2new'bbb (Times (Einsum [(n_t2'bbbb,[0;1;2;3]); (T 52,[4;1;0])] [2;3;4]) (-2) 1);
  (*3235*) Del (T 52);
  (*3236*) AddTo n_r2new'bbb (Times (Transpose (T 64) [1;2;0]) (-1) 1);
  (*3237*) AddTo n_r2new'bbb (Plain (Transpose (T 64) [2;1;0]));
  (*3238*) Del (T 64);
  (*3239*) AddTo n_r2new'bbb (Plain (Transpose (T 70) [1;2;0]));
  (*3240*) AddTo n_r2new'bbb (Times (Transpose (T 70) [2;1;0]) (-1) 1);
  (*3241*) Del (T 70);
  (*3242*) AddTo n_r2new'bbb (Times (Einsum [(n_r2'bbb,[0;1;2]); (T 50,[2;3])] [0;1;3]) (-2) 1);
  (*3243*) AddTo n_r2new'bbb (Times (Einsum [(n_t2'bbbb,[0;1;2;3]); (T 44,[1])] [2;3;0]) (4) 1);
  (*3244*) AddTo n_r2new'bbb (Times (Einsum [(n_r1'b,[0]); (T 51,[1;2])] [0;2;1]) (-1) 1);
  (*3245*) AddTo n_r2new'bbb (Plain (Einsum [(n_r1'b,[0]); (T 51,[1;2])] [2;0;1]));
  (*3246*) Assign n_r2new'bab (Plain (Einsum [(n_r2'bab,[0;1;2]); (n_v'aabb'vvvv,[3;1;4;0])] [4;3;2]));
  (*3247*) AddTo n_r2new'bab (Times (Einsum [(n_t2'abab,[0;1;2;3]); (T 45,[0;4;1])] [3;2;4]) (-1) 1);
  (*3248*) Del (T 45);
  (*3249*) AddTo n_r2new'bab (Plain (Einsum [(n_r2'bab,[0;1;2]); (T 46,[3;2;4;0])] [4;1;3]));
  (*3250*) Del (T 46);
  (*3251*) AddTo n_r2new'bab (Times (Einsum [(T 47,[0;1;2;3]); (n_r2'aaa,[4;2;0])] [3;4;1]) (-2) 1);
  (*3252*) Del (T 47);
  (*3253*) AddTo n_r2new'bab (Plain (Einsum [(T 48,[0;1;2;3]); (n_r2'bab,[4;3;1])] [4;2;0]));
  (*3254*) Del (T 48);
  (*3255*) AddTo n_r2new'bab (Times (Einsum [(n_r1'a,[0]); (T 49,[1;2;0;3])] [3;2;1]) (-1) 1);
  (*3256*) Del (T 49);
  (*3257*) AddTo n_r2new'bab (Times (Einsum [(T 42,[0;1]); (n_r2'bab,[0;2;3])] [1;2;3]) (-1) 1);
  (*3258*) AddTo n_r2new'bab (Times (Einsum [(n_r2'bab,[0;1;2]); (T 40,[1;3])] [0;3;2]) (-1) 1);
  (*3259*) AddTo n_r2new'bab (Times (Einsum [(T 50,[0;1]); (n_r2'bab,[2;3;0])] [2;3;1]) (-1) 1);
  (*3260*) Del (T 50);
  (*3261*) AddTo n_r2new'bab (Plain (Einsum [(n_t2'abab,[0;1;2;3]); (T 32,[0])] [3;2;1]));
  (*3262*) AddTo n_r2new'bab (Plain (Einsum [(n_r1'a,[0]); (T 51,[1;2])] [2;0;1]));
  (*3263*) Del (T 51);
  (*3264*) Assign n_r2new'aba (Plain (Einsum [(n_t2'abab,[0;1;2;3]); (T 34,[4;0;1])] [2;3;4]));
  (*3265*) Del (T 34);
  (*3266*) AddTo n_r2new'aba (Plain (Einsum [(n_v'aabb'vvvv,[0;1;2;3]); (n_r2'aba,[1;3;4])] [0;2;4]));
  (*3267*) AddTo n_r2new'aba (Plain (Einsum [(n_r2'aba,[0;1;2]); (T 35,[3;2;4;0])] [4;1;3]));
  (*3268*) Del (T 35);
  (*3269*) AddTo n_r2new'aba (Times (Einsum [(n_r2'bbb,[0;1;2]); (T 36,[3;2;4;1])] [4;0;3]) (-2) 1);
  (*3270*) Del (T 36);
  (*3271*) AddTo n_r2new'aba (Plain (Einsum [(T 37,[0;1;2;3]); (n_r2'aba,[4;3;1])] [4;2;0]));
  (*3272*) Del (T 37);
  (*3273*) AddTo n_r2new'aba (Times (Einsum [(n_r1'b,[0]); (T 38,[1;2;3;0])] [2;3;1]) (-1) 1);
  (*3274*) Del (T 38);
  (*3275*) AddTo n_r2new'aba (Times (Einsum [(T 40,[0;1]); (n_r2'aba,[0;2;3])] [1;2;3]) (-1) 1);
  (*3276*) Del (T 40);
  (*3277*) AddTo n_r2new'aba (Times (Einsum [(T 42,[0;1]); (n_r2'aba,[2;0;3])] [2;1;3]) (-1) 1);
  (*3278*) Del (T 42);
  (*3279*) AddTo n_r2new'aba (Times (Einsum [(T 30,[0;1]); (n_r2'aba,[2;3;0])] [2;3;1]) (-1) 1);
  (*3280*) AddTo n_r2new'aba (Times (Einsum [(n_t2'abab,[0;1;2;3]); (T 44,[1])] [2;3;0]) (2) 1);
  (*3281*) Del (T 44);
  (*3282*) AddTo n_r2new'aba (Plain (Einsum [(T 33,[0;1]); (n_r1'b,[2])] [1;2;0]));
  (*3283*) Assign n_r2new'aaa (Times (Einsum [(T 11,[0;1;2]); (n_t2'aaaa,[2;1;3;4])] [3;4;0]) (-2) 1);
  (*3284*) Del (T 11);
  (*3285*) AddTo n_r2new'aaa (Times (Einsum [(IT 82,[0;1;2;3]); (n_r1'a,[3])] [2;1;0]) (2) 1);
  (*3286*) Del (IT 82);
  (*3287*) AddTo n_r2new'aaa (Times (Einsum [(n_r2'aaa,[0;1;2]); (n_v'aaaa'vvvv,[3;1;4;0])] [3;4;2]) (-2) 1);
  (*3288*) AddTo n_r2new'aaa (Times (Transpose (T 23) [1;2;0]) (-1) 1);
  (*3289*) AddTo n_r2new'aaa (Plain (Transpose (T 23) [2;1;0]));
  (*3290*) Del (T 23);
  (*3291*) AddTo n_r2new'aaa (Plain (Transpose (T 29) [1;2;0]));
  (*3292*) AddTo n_r2new'aaa (Times (Transpose (T 29) [2;1;0]) (-1) 1);
  (*3293*) Del (T 29);
  (*3294*) AddTo n_r2new'aaa (Times (Einsum [(T 30,[0;1]); (n_r2'aaa,[2;3;0])] [2;3;1]) (-2) 1);
  (*3295*) Del (T 30);
  (*3296*) AddTo n_r2new'aaa (Times (Einsum [(n_t2'aaaa,[0;1;2;3]); (T 32,[1])] [2;3;0]) (2) 1);
  (*3297*) Del (T 32);
  (*3298*) AddTo n_r2new'aaa (Times (Einsum [(T 33,[0;1]); (n_r1'a,[2])] [2;1;0]) (-1) 1);
  (*3299*) AddTo n_r2new'aaa (Plain (Einsum [(T 33,[0;1]); (n_r1'a,[2])] [1;2;0]));
  (*3300*) Del (T 33);
  (*3301*) Assign n_r1new'b (Times (Einsum [(n_v'aabb'ovvv,[0;1;2;3]); (n_r2'aba,[1;3;0])] [2]) (-1) 1);
  (*3302*) AddTo n_r1new'b (Times (Einsum [(n_r2'bbb,[0;1;2]); (n_v'bbbb'ovvv,[2;1;3;0])] [3]) (2) 1);
  (*3303*) AddTo n_r1new'b (Times (Einsum [(T 2,[0;1]); (n_r2'aba,[1;2;0])] [2]) (-1) 1);
  (*3304*) AddTo n_r1new'b (Times (Einsum [(T 1,[0;1]); (n_r2'bbb,[2;1;0])] [2]) (2) 1);
  (*3305*) AddTo n_r1new'b (Times (Einsum [(T 7,[0;1]); (n_r1'b,[0])] [1]) (-1) 1);
  (*3306*) Del (T 7);
  (*3307*) AddTo n_r1new'b (Times (Einsum [(T 10,[0]); (n_t1'bb,[0;1])] [1]) (-1) 1);
  (*3308*) Del (T 10);
  (*3309*) Assign n_r1new'a (Times (Einsum [(n_r2'bab,[0;1;2]); (n_v'aabb'vvov,[3;1;2;0])] [3]) (-1) 1);
  (*3310*) AddTo n_r1new'a (Times (Einsum [(n_v'aaaa'ovvv,[0;1;2;3]); (n_r2'aaa,[3;1;0])] [2]) (2) 1);
  (*3311*) AddTo n_r1new'a (Times (Einsum [(T 1,[0;1]); (n_r2'bab,[1;2;0])] [2]) (-1) 1);
  (*3312*) Del (T 1);
  (*3313*) AddTo n_r1new'a (Times (Einsum [(T 2,[0;1]); (n_r2'aaa,[2;1;0])] [2]) (2) 1);
  (*3314*) Del (T 2);
  (*3315*) AddTo n_r1new'a (Times (Einsum [(T 3,[0;1]); (n_r1'a,[0])] [1]) (-1) 1);
  (*3316*) Del (T 3);
  (*3317*) AddTo n_r1new'a (Times (Einsum [(n_t1'aa,[0;1]); (T 6,[0])] [1]) (-1) 1);
  (*3318*) Del (T 6)]
 [(n_r1new'b,[7]); (n_r1new'a,[5]); (n_r2new'bbb,[7;7;6]); (n_r2new'bab,[7;5;6]); (n_r2new'aba,[5;7;4]); (n_r2new'aaa,[5;5;4])].

(** ebcc/codegen/UCC2.py:3322-3742 [hbar_lmatvec_ip_intermediates] *)
Definition UCC2_hbar_lmatvec_ip_intermediates : prog := mkprog
 [(n_t1'aa,[4;5]); (n_v'aabb'ovov,[4;5;6;7]); (n_v'bbbb'ovov,[6;7;6;7]); (n_t1'bb,[6;7]); (n_v'aaaa'ovov,[4;5;4;5]); (n_v'aabb'vvov,[5;5;6;7]); (n_v'bbbb'ovvv,[6;7;7;7]); (n_v'aabb'ovoo,[4;5;6;6]); (n_v'aabb'ooov,[4;4;6;7]); (n_v'bbbb'ooov,[6;6;6;7]); (n_t2'abab,[4;6;5;7]); (n_t2'bbbb,[6;6;7;7]); (n_v'aabb'ovvv,[4;5;7;7]); (n_v'aaaa'ovvv,[4;5;5;5]); (n_v'aaaa'ooov,[4;4;4;5]); (n_t2'aaaa,[4;4;5;5]); (n_f'bb'ov,[6;7]); (n_f'aa'ov,[4;5]); (n_v'aabb'vvoo,[5;5;6;6]); (n_v'bbbb'oovv,[6;6;7;7]); (n_v'aabb'oooo,[4;4;6;6]); (n_v'bbbb'oooo,[6;6;6;6]); (n_v'aabb'oovv,[4;4;7;7]); (n_v'aaaa'oovv,[4;4;5;5]); (n_v'aaaa'oooo,[4;4;4;4]); (n_f'bb'vv,[7;7]); (n_f'aa'vv,[5;5]); (n_f'bb'oo,[6;6]); (n_f'aa'oo,[4;4])]
 [(*3522*) Assign (T 46) (Plain (Einsum [(n_t1'aa,[0;1]); (n_v'aabb'ovov,[2;1;3;4])] [0;2;3;4]));
  (*3523*) Assign (T 120) (Plain (Einsum [(n_v'bbbb'ovov,[0;1;2;3]); (n_t1'bb,[4;3])] [4;0;2;1]));
  (*3524*) Assign (T 42) (Plain (Einsum [(n_t1'aa,[0;1]); (n_v'aaaa'ovov,[2;3;4;1])] [0;2;4;3]));
  (*3525*) Assign (T 39) (Plain (Einsum [(n_t1'aa,[0;1]); (n_v'aabb'ovov,[0;1;2;3])] [2;3]));
  (*3526*) Assign (T 40) (Plain (Einsum [(n_v'aabb'ovov,[0;1;2;3]); (n_t1'bb,[2;3])] [0;1]));
  (*3527*) Assign (T 37) (Plain (Einsum [(n_t1'bb,[0;1]); (n_v'bbbb'ovov,[2;3;0;1])] [2;3]));
  (*3528*) Assign (T 90) (Plain (Einsum [(n_t1'bb,[0;1]); (n_v'bbbb'ovov,[2;1;0;3])] [2;3]));
  (*3529*) Assign (T 33) (Plain (Einsum [(n_v'aaaa'ovov,[0;1;2;3]); (n_t1'aa,[2;3])] [0;1]));
  (*3530*) Assign (T 83) (Plain (Einsum [(n_v'aaaa'ovov,[0;1;2;3]); (n_t1'aa,[2;1])] [0;3]));
  (*3531*) Assign (T 215) (Plain (Einsum [(T 46,[0;1;2;3]); (n_t1'bb,[4;3])] [0;1;4;2]));
  (*3532*) Assign (T 334) (Plain (Einsum [(T 120,[0;1;2;3]); (n_t1'bb,[4;3])] [4;0;1;2]));
  (*3533*) Assign (T 328) (Plain (Einsum [(n_v'aabb'vvov,[0;1;2;3]); (n_t1'bb,[4;3])] [4;2;0;1]));
  (*3534*) Assign (T 325) (Plain (Einsum [(n_v'bbbb'ovvv,[0;1;2;3]); (n_t1'bb,[4;3])] [4;0;1;2]));
  (*3535*) Assign (T 175) (Plain (Einsum [(n_t1'aa,[0;1]); (n_v'aabb'ovoo,[2;1;3;4])] [0;2;3;4]));
  (*3536*) Assign (T 177) (Plain (Einsum [(n_v'aabb'ooov,[0;1;2;3]); (n_t1'bb,[4;3])] [0;1;4;2]));
  (*3537*) Assign (T 315) (Plain (Einsum [(n_v'bbbb'ooov,[0;1;2;3]); (n_t1'bb,[4;3])] [4;0;1;2]));
  (*3538*) Assign (T 152) (Plain (Einsum [(n_t2'abab,[0;1;2;3]); (n_v'aabb'ovov,[4;2;5;3])] [0;4;1;5]));
  (*3539*) Assign (T 307) (Times (Einsum [(n_t2'bbbb,[0;1;2;3]); (n_v'bbbb'ovov,[4;3;5;2])] [0;1;4;5]) (-1) 1);
  (*3540*) Assign (T 125) (Plain (Einsum [(n_v'aabb'ovov,[0;1;2;3]); (n_t1'bb,[4;3])] [0;4;2;1]));
  (*3541*) Assign (T 212) (Plain (Einsum [(n_t1'aa,[0;1]); (T 42,[2;3;4;1])] [0;2;3;4]));
  (*3542*) Assign (T 210) (Plain (Einsum [(T 39,[0;1]); (n_t1'bb,[2;1])] [2;0]));
  (*3543*) Assign (T 157) (Plain (Einsum [(n_t1'aa,[0;1]); (T 40,[2;1])] [0;2]));
  (*3544*) Assign (T 206) (Plain (Einsum [(T 37,[0;1]); (n_t1'bb,[2;1])] [2;0]));
  (*3545*) Assign (T 204) (Plain (Einsum [(T 90,[0;1]); (n_t1'bb,[2;1])] [2;0]));
  (*3546*) Assign (T 156) (Plain (Einsum [(n_t1'aa,[0;1]); (T 33,[2;1])] [0;2]));
  (*3547*) Assign (T 155) (Plain (Einsum [(n_t1'aa,[0;1]); (T 83,[2;1])] [0;2]));
  (*3548*) Assign (T 197) (Plain (Einsum [(n_t1'aa,[0;1]); (n_v'aabb'ovvv,[2;1;3;4])] [0;2;3;4]));
  (*3549*) Assign (T 194) (Plain (Einsum [(n_v'aaaa'ovvv,[0;1;2;3]); (n_t1'aa,[4;3])] [4;0;1;2]));
  (*3550*) Assign (T 191) (Plain (Einsum [(n_v'aabb'vvov,[0;1;2;3]); (n_t1'bb,[2;3])] [0;1]));
  (*3551*) Assign (T 189) (Plain (Einsum [(n_t1'aa,[0;1]); (n_v'aabb'ovvv,[0;1;2;3])] [2;3]));
  (*3552*) Assign (T 187) (Plain (Einsum [(n_v'bbbb'ovvv,[0;1;2;3]); (n_t1'bb,[0;3])] [1;2]));
  (*3553*) Assign (T 185) (Plain (Einsum [(n_v'bbbb'ovvv,[0;1;2;3]); (n_t1'bb,[0;1])] [2;3]));
  (*3554*) Assign (T 182) (Plain (Einsum [(n_v'aaaa'ovvv,[0;1;2;3]); (n_t1'aa,[0;3])] [1;2]));
  (*3555*) Assign (T 179) (Plain (Einsum [(n_v'aaaa'ovvv,[0;1;2;3]); (n_t1'aa,[0;1])] [2;3]));
  (*3556*) Assign (T 170) (Plain (Einsum [(n_t1'aa,[0;1]); (n_v'aaaa'ooov,[2;3;4;1])] [0;2;3;4]));
  (*3557*) Assign (T 168) (Plain (Einsum [(n_t1'aa,[0;1]); (n_v'aabb'ovoo,[0;1;2;3])] [2;3]));
  (*3558*) Assign (T 28) (Plain (Einsum [(n_v'aabb'ooov,[0;1;2;3]); (n_t1'bb,[2;3])] [0;1]));
  (*3559*) Assign (T 164) (Plain (Einsum [(n_v'bbbb'ooov,[0;1;2;3]); (n_t1'bb,[2;3])] [0;1]));
  (*3560*) Assign (T 162) (Plain (Einsum [(n_v'bbbb'ooov,[0;1;2;3]); (n_t1'bb,[1;3])] [0;2]));
  (*3561*) Assign (T 27) (Plain (Einsum [(n_t1'aa,[0;1]); (n_v'aaaa'ooov,[2;3;0;1])] [2;3]));
  (*3562*) Assign (T 26) (Plain (Einsum [(n_t1'aa,[0;1]); (n_v'aaaa'ooov,[2;0;3;1])] [2;3]));
  (*3563*) Assign (T 149) (Times (Einsum [(n_t2'aaaa,[0;1;2;3]); (n_v'aaaa'ovov,[4;3;5;2])] [0;1;4;5]) (-1) 1);
  (*3564*) Assign (T 50) (Plain (Einsum [(n_t2'abab,[0;1;2;3]); (n_v'aabb'ovov,[4;2;1;3])] [0;4]));
  (*3565*) Assign (T 144) (Plain (Einsum [(n_t2'abab,[0;1;2;3]); (n_v'aabb'ovov,[0;2;4;3])] [1;4]));
  (*3566*) Assign (T 141) (Times (Einsum [(n_t2'bbbb,[0;1;2;3]); (n_v'bbbb'ovov,[4;3;1;2])] [0;4]) (-1) 1);
  (*3567*) Assign (T 48) (Plain (Einsum [(n_v'aaaa'ovov,[0;1;2;3]); (n_t2'aaaa,[4;2;1;3])] [4;0]));
  (*3568*) Assign (T 22) (Plain (Einsum [(n_t1'bb,[0;1]); (n_f'bb'ov,[2;1])] [2;0]));
  (*3569*) Assign (T 2) (Plain (Einsum [(n_t1'aa,[0;1]); (n_f'aa'ov,[2;1])] [2;0]));
  (*3570*) Assign (T 417) (Plain (Einsum [(n_t2'abab,[0;1;2;3]); (n_v'aabb'ovov,[4;2;1;5])] [0;4;3;5]));
  (*3571*) Assign (T 415) (Plain (Einsum [(n_t2'abab,[0;1;2;3]); (n_v'aabb'ovov,[0;2;1;4])] [3;4]));
  (*3572*) Assign (T 413) (Plain (Einsum [(n_v'bbbb'ovov,[0;1;2;3]); (n_t2'bbbb,[0;2;4;3])] [4;1]));
  (*3573*) Assign (T 403) (Plain (Einsum [(n_t2'abab,[0;1;2;3]); (n_v'aabb'ovov,[0;2;4;5])] [1;4;3;5]));
  (*3574*) Assign (T 401) (Plain (Einsum [(n_v'aabb'ovov,[0;1;2;3]); (n_t2'aaaa,[4;0;5;1])] [4;2;5;3]));
  (*3575*) Assign (T 399) (Plain (Einsum [(n_v'bbbb'ovov,[0;1;2;3]); (n_t2'bbbb,[4;2;5;3])] [4;0;5;1]));
  (*3576*) Assign (T 397) (Plain (Einsum [(n_v'bbbb'ovov,[0;1;2;3]); (n_t2'abab,[4;2;5;3])] [4;0;5;1]));
  (*3577*) Assign (T 395) (Plain (Einsum [(n_v'bbbb'ovov,[0;1;2;3]); (n_t2'bbbb,[4;2;5;1])] [4;0;5;3]));
  (*3578*) Assign (T 393) (Plain (Einsum [(n_v'bbbb'ovov,[0;1;2;3]); (n_t2'abab,[4;2;5;1])] [4;0;5;3]));
  (*3579*) Assign (T 391) (Plain (Einsum [(n_t2'abab,[0;1;2;3]); (n_v'aabb'ovov,[0;4;5;3])] [1;5;2;4]));
  (*3580*) Assign (T 370) (Plain (Einsum [(n_t2'abab,[0;1;2;3]); (n_v'aabb'ovov,[0;4;1;3])] [2;4]));
  (*3581*) Assign (T 368) (Plain (Einsum [(n_v'aaaa'ovov,[0;1;2;3]); (n_t2'aaaa,[0;2;4;3])] [4;1]));
  (*3582*) Assign (T 352) (Plain (Einsum [(n_t2'bbbb,[0;1;2;3]); (n_v'aabb'ovov,[4;5;1;3])] [4;0;5;2]));
  (*3583*) Assign (T 350) (Plain (Einsum [(n_t2'abab,[0;1;2;3]); (n_v'aabb'ovov,[4;5;1;3])] [0;4;2;5]));
  (*3584*) Assign (T 348) (Plain (Einsum [(n_v'aaaa'ovov,[0;1;2;3]); (n_t2'abab,[2;4;3;5])] [0;4;1;5]));
  (*3585*) Assign (T 346) (Plain (Einsum [(n_t2'aaaa,[0;1;2;3]); (n_v'aaaa'ovov,[4;5;1;3])] [0;4;2;5]));
  (*3586*) Assign (T 344) (Plain (Einsum [(n_v'aaaa'ovov,[0;1;2;3]); (n_t2'abab,[2;4;1;5])] [0;4;3;5]));
  (*3587*) Assign (T 342) (Plain (Einsum [(n_t2'aaaa,[0;1;2;3]); (n_v'aaaa'ovov,[4;3;1;5])] [0;4;2;5]));
  (*3588*) Assign (T 337) (Plain (Einsum [(T 215,[0;1;2;3]); (n_t1'aa,[1;4])] [0;2;3;4]));
  (*3589*) Assign (T 335) (Plain (Einsum [(T 334,[0;1;2;3]); (n_t1'bb,[3;4])] [0;1;2;4]));
  (*3590*) Del (T 334);
  (*3591*) Assign (T 329) (Plain (Einsum [(n_t1'aa,[0;1]); (T 328,[2;3;4;1])] [0;2;3;4]));
  (*3592*) Del (T 328);
  (*3593*) Assign (T 326) (Plain (Einsum [(T 325,[0;1;2;3]); (n_t1'bb,[4;2])] [4;0;1;3]));
  (*3594*) Del (T 325);
  (*3595*) Assign (T 321) (Plain (Einsum [(n_t1'aa,[0;1]); (T 175,[2;0;3;4])] [2;3;4;1]));
  (*3596*) Assign (T 320) (Plain (Einsum [(n_t1'aa,[0;1]); (T 177,[2;0;3;4])] [2;3;4;1]));
  (*3597*) Assign (T 318) (Plain (Einsum [(n_t1'bb,[0;1]); (T 315,[2;3;4;0])] [2;3;4;1]));
  (*3598*) Assign (T 316) (Plain (Einsum [(T 315,[0;1;2;3]); (n_t1'bb,[2;4])] [0;1;3;4]));
  (*3599*) Del (T 315);
  (*3600*) Assign (T 310) (Plain (Einsum [(n_t1'aa,[0;1]); (T 152,[2;0;3;4])] [2;3;4;1]));
  (*3601*) Assign (T 308) (Plain (Einsum [(T 307,[0;1;2;3]); (n_t1'bb,[3;4])] [0;1;2;4]));
  (*3602*) Assign (T 302) (Plain (Einsum [(n_t2'abab,[0;1;2;3]); (T 46,[4;0;5;3])] [4;1;5;2]));
  (*3603*) Assign (T 300) (Plain (Einsum [(T 125,[0;1;2;3]); (n_t2'abab,[0;4;3;5])] [1;4;2;5]));
  (*3604*) Assign (T 298) (Plain (Einsum [(T 125,[0;1;2;3]); (n_t2'aaaa,[4;0;5;3])] [4;1;2;5]));
  (*3605*) Assign (T 296) (Plain (Einsum [(n_t2'bbbb,[0;1;2;3]); (T 120,[4;5;1;3])] [4;0;5;2]));
  (*3606*) Assign (T 295) (Plain (Einsum [(n_t2'abab,[0;1;2;3]); (T 120,[4;5;1;3])] [0;4;5;2]));
  (*3607*) Assign (T 293) (Plain (Einsum [(T 120,[0;1;2;3]); (n_t2'bbbb,[4;1;5;3])] [0;4;2;5]));
  (*3608*) Assign (T 292) (Plain (Einsum [(T 120,[0;1;2;3]); (n_t2'abab,[4;1;5;3])] [4;0;2;5]));
  (*3609*) Assign (T 286) (Plain (Einsum [(T 39,[0;1]); (n_t2'bbbb,[2;3;4;1])] [2;3;0;4]));
  (*3610*) Assign (T 284) (Plain (Einsum [(n_t2'abab,[0;1;2;3]); (T 39,[4;3])] [0;1;4;2]));
  (*3611*) Assign (T 282) (Plain (Einsum [(n_t2'bbbb,[0;1;2;3]); (T 37,[4;3])] [0;1;4;2]));
  (*3612*) Assign (T 280) (Plain (Einsum [(n_t2'abab,[0;1;2;3]); (T 37,[4;3])] [0;1;4;2]));
  (*3613*) Assign (T 278) (Plain (Einsum [(n_t2'bbbb,[0;1;2;3]); (T 90,[4;3])] [0;1;4;2]));
  (*3614*) Assign (T 276) (Plain (Einsum [(n_t2'abab,[0;1;2;3]); (T 90,[4;3])] [0;1;4;2]));
  (*3615*) Assign (T 265) (Plain (Einsum [(n_t2'abab,[0;1;2;3]); (n_v'aabb'vvov,[4;2;5;3])] [0;1;5;4]));
  (*3616*) Assign (T 263) (Times (Einsum [(n_t2'bbbb,[0;1;2;3]); (n_v'bbbb'ovvv,[4;3;5;2])] [0;1;4;5]) (-1) 1);
  (*3617*) Assign (T 257) (Plain (Einsum [(n_t2'abab,[0;1;2;3]); (n_v'aabb'ovoo,[0;2;4;5])] [1;4;5;3]));
  (*3618*) Assign (T 255) (Plain (Einsum [(n_v'aabb'ovoo,[0;1;2;3]); (n_t2'aaaa,[4;0;5;1])] [4;2;3;5]));
  (*3619*) Assign (T 254) (Plain (Einsum [(n_t2'abab,[0;1;2;3]); (n_v'aabb'ooov,[4;0;5;3])] [4;1;5;2]));
  (*3620*) Assign (T 252) (Plain (Einsum [(n_t2'bbbb,[0;1;2;3]); (n_v'bbbb'ooov,[4;5;1;3])] [0;4;5;2]));
  (*3621*) Assign (T 251) (Plain (Einsum [(n_t2'abab,[0;1;2;3]); (n_v'bbbb'ooov,[4;5;1;3])] [0;4;5;2]));
  (*3622*) Assign (T 249) (Plain (Einsum [(n_t2'bbbb,[0;1;2;3]); (n_v'bbbb'ooov,[4;1;5;3])] [0;4;5;2]));
  (*3623*) Assign (T 248) (Plain (Einsum [(n_v'bbbb'ooov,[0;1;2;3]); (n_t2'abab,[4;1;5;3])] [4;0;2;5]));
  (*3624*) Assign (T 241) (Plain (Einsum [(n_t1'aa,[0;1]); (n_v'aabb'vvoo,[2;1;3;4])] [0;3;4;2]));
  (*3625*) Assign (T 239) (Plain (Einsum [(n_v'bbbb'oovv,[0;1;2;3]); (n_t1'bb,[4;3])] [4;0;1;2]));
  (*3626*) Assign (T 233) (Plain (Einsum [(n_t1'aa,[0;1]); (n_v'aabb'oooo,[2;0;3;4])] [2;3;4;1]));
  (*3627*) Assign (T 231) (Plain (Einsum [(n_t1'bb,[0;1]); (n_v'bbbb'oooo,[2;3;4;0])] [2;3;4;1]));
  (*3628*) Assign (T 226) (Plain (Einsum [(n_f'bb'ov,[0;1]); (n_t2'bbbb,[2;3;4;1])] [0;2;3;4]));
  (*3629*) Assign (T 224) (Plain (Einsum [(n_t2'abab,[0;1;2;3]); (n_f'bb'ov,[4;3])] [0;4;1;2]));
  (*3630*) Assign (T 216) (Plain (Einsum [(T 215,[0;1;2;3]); (n_t1'bb,[3;4])] [0;1;2;4]));
  (*3631*) Del (T 215);
  (*3632*) Assign (T 213) (Plain (Einsum [(T 212,[0;1;2;3]); (n_t1'aa,[3;4])] [0;1;2;4]));
  (*3633*) Del (T 212);
  (*3634*) Assign (T 211) (Plain (Einsum [(T 210,[0;1]); (n_t1'bb,[1;2])] [0;2]));
  (*3635*) Assign (T 208) (Plain (Einsum [(T 157,[0;1]); (n_t1'aa,[1;2])] [0;2]));
  (*3636*) Assign (T 207) (Plain (Einsum [(T 206,[0;1]); (n_t1'bb,[1;2])] [0;2]));
  (*3637*) Assign (T 205) (Plain (Einsum [(T 204,[0;1]); (n_t1'bb,[1;2])] [0;2]));
  (*3638*) Assign (T 202) (Plain (Einsum [(n_t1'aa,[0;1]); (T 156,[2;0])] [2;1]));
  (*3639*) Assign (T 200) (Plain (Einsum [(n_t1'aa,[0;1]); (T 155,[2;0])] [2;1]));
  (*3640*) Assign (T 198) (Plain (Einsum [(T 197,[0;1;2;3]); (n_t1'bb,[4;3])] [0;1;4;2]));
  (*3641*) Del (T 197);
  (*3642*) Assign (T 195) (Plain (Einsum [(n_t1'aa,[0;1]); (T 194,[2;3;1;4])] [0;2;3;4]));
  (*3643*) Del (T 194);
  (*3644*) Assign (T 192) (Plain (Einsum [(T 191,[0;1]); (n_t1'aa,[2;1])] [2;0]));
  (*3645*) Del (T 191);
  (*3646*) Assign (T 190) (Plain (Einsum [(T 189,[0;1]); (n_t1'bb,[2;1])] [2;0]));
  (*3647*) Del (T 189);
  (*3648*) Assign (T 188) (Plain (Einsum [(T 187,[0;1]); (n_t1'bb,[2;0])] [2;1]));
  (*3649*) Del (T 187);
  (*3650*) Assign (T 186) (Plain (Einsum [(T 185,[0;1]); (n_t1'bb,[2;1])] [2;0]));
  (*3651*) Del (T 185);
  (*3652*) Assign (T 183) (Plain (Einsum [(n_t1'aa,[0;1]); (T 182,[1;2])] [0;2]));
  (*3653*) Del (T 182);
  (*3654*) Assign (T 180) (Plain (Einsum [(n_t1'aa,[0;1]); (T 179,[2;1])] [0;2]));
  (*3655*) Del (T 179);
  (*3656*) Assign (T 178) (Plain (Einsum [(T 177,[0;1;2;3]); (n_t1'bb,[3;4])] [0;1;2;4]));
  (*3657*) Del (T 177);
  (*3658*) Assign (T 176) (Plain (Einsum [(T 175,[0;1;2;3]); (n_t1'bb,[3;4])] [0;1;2;4]));
  (*3659*) Del (T 175);
  (*3660*) Assign (T 173) (Plain (Einsum [(T 170,[0;1;2;3]); (n_t1'aa,[3;4])] [0;1;2;4]));
  (*3661*) Assign (T 171) (Plain (Einsum [(T 170,[0;1;2;3]); (n_t1'aa,[2;4])] [0;1;3;4]));
  (*3662*) Del (T 170);
  (*3663*) Assign (T 169) (Plain (Einsum [(T 168,[0;1]); (n_t1'bb,[1;2])] [0;2]));
  (*3664*) Assign (T 166) (Plain (Einsum [(n_t1'aa,[0;1]); (T 28,[2;0])] [2;1]));
  (*3665*) Assign (T 165) (Plain (Einsum [(T 164,[0;1]); (n_t1'bb,[1;2])] [0;2]));
  (*3666*) Assign (T 163) (Plain (Einsum [(T 162,[0;1]); (n_t1'bb,[1;2])] [0;2]));
  (*3667*) Assign (T 160) (Plain (Einsum [(n_t1'aa,[0;1]); (T 27,[2;0])] [2;1]));
  (*3668*) Assign (T 158) (Plain (Einsum [(n_t1'aa,[0;1]); (T 26,[2;0])] [2;1]));
  (*3669*) Assign (T 153) (Plain (Einsum [(T 152,[0;1;2;3]); (n_t1'bb,[3;4])] [0;1;2;4]));
  (*3670*) Assign (T 150) (Plain (Einsum [(T 149,[0;1;2;3]); (n_t1'aa,[3;4])] [0;1;2;4]));
  (*3671*) Assign (T 147) (Plain (Einsum [(n_t1'aa,[0;1]); (T 50,[2;0])] [2;1]));
  (*3672*) Assign (T 145) (Plain (Einsum [(T 144,[0;1]); (n_t1'bb,[1;2])] [0;2]));
  (*3673*) Assign (T 142) (Plain (Einsum [(T 141,[0;1]); (n_t1'bb,[1;2])] [0;2]));
  (*3674*) Assign (T 139) (Plain (Einsum [(T 48,[0;1]); (n_t1'aa,[1;2])] [0;2]));
  (*3675*) Assign (T 138) (Plain (Einsum [(T 125,[0;1;2;3]); (n_t2'abab,[4;2;3;5])] [4;0;1;5]));
  (*3676*) Assign (T 136) (Plain (Einsum [(n_t2'bbbb,[0;1;2;3]); (T 46,[4;5;1;3])] [4;5;0;2]));
  (*3677*) Assign (T 134) (Plain (Einsum [(n_t2'abab,[0;1;2;3]); (T 46,[4;5;1;3])] [4;0;5;2]));
  (*3678*) Assign (T 133) (Plain (Einsum [(n_t2'abab,[0;1;2;3]); (T 42,[4;5;0;2])] [4;5;1;3]));
  (*3679*) Assign (T 131) (Plain (Einsum [(T 42,[0;1;2;3]); (n_t2'aaaa,[4;2;5;3])] [0;4;1;5]));
  (*3680*) Assign (T 130) (Plain (Einsum [(n_t2'abab,[0;1;2;3]); (T 42,[4;0;5;2])] [4;5;1;3]));
  (*3681*) Assign (T 128) (Plain (Einsum [(T 42,[0;1;2;3]); (n_t2'aaaa,[4;1;5;3])] [0;4;2;5]));
  (*3682*) Assign (T 126) (Plain (Einsum [(T 125,[0;1;2;3]); (n_t2'abab,[0;2;3;4])] [1;4]));
  (*3683*) Assign (T 123) (Plain (Einsum [(n_t2'abab,[0;1;2;3]); (T 46,[4;0;1;3])] [4;2]));
  (*3684*) Assign (T 121) (Plain (Einsum [(n_t2'bbbb,[0;1;2;3]); (T 120,[4;1;0;3])] [4;2]));
  (*3685*) Assign (T 118) (Plain (Einsum [(T 42,[0;1;2;3]); (n_t2'aaaa,[2;1;4;3])] [0;4]));
  (*3686*) Assign (T 116) (Plain (Einsum [(n_t2'abab,[0;1;2;3]); (T 40,[4;2])] [0;4;1;3]));
  (*3687*) Assign (T 114) (Plain (Einsum [(n_t2'aaaa,[0;1;2;3]); (T 40,[4;3])] [0;1;4;2]));
  (*3688*) Assign (T 112) (Plain (Einsum [(n_t2'abab,[0;1;2;3]); (T 33,[4;2])] [0;4;1;3]));
  (*3689*) Assign (T 110) (Plain (Einsum [(T 33,[0;1]); (n_t2'aaaa,[2;3;4;1])] [2;3;0;4]));
  (*3690*) Assign (T 108) (Plain (Einsum [(T 83,[0;1]); (n_t2'abab,[2;3;1;4])] [2;0;3;4]));
  (*3691*) Assign (T 106) (Plain (Einsum [(n_t2'aaaa,[0;1;2;3]); (T 83,[4;3])] [0;1;4;2]));
  (*3692*) Assign (T 104) (Plain (Einsum [(T 39,[0;1]); (n_t2'bbbb,[2;0;3;1])] [2;3]));
  (*3693*) Assign (T 102) (Plain (Einsum [(n_t2'abab,[0;1;2;3]); (T 39,[1;3])] [0;2]));
  (*3694*) Assign (T 101) (Plain (Einsum [(n_t2'abab,[0;1;2;3]); (T 40,[0;2])] [1;3]));
  (*3695*) Assign (T 99) (Plain (Einsum [(T 40,[0;1]); (n_t2'aaaa,[2;0;3;1])] [2;3]));
  (*3696*) Assign (T 97) (Plain (Einsum [(T 37,[0;1]); (n_t2'bbbb,[2;0;3;1])] [2;3]));
  (*3697*) Assign (T 95) (Plain (Einsum [(n_t2'abab,[0;1;2;3]); (T 37,[1;3])] [0;2]));
  (*3698*) Assign (T 93) (Plain (Einsum [(T 90,[0;1]); (n_t2'bbbb,[2;0;3;1])] [2;3]));
  (*3699*) Assign (T 91) (Plain (Einsum [(n_t2'abab,[0;1;2;3]); (T 90,[1;3])] [0;2]));
  (*3700*) Del (T 90);
  (*3701*) Assign (T 89) (Plain (Einsum [(n_t2'abab,[0;1;2;3]); (T 33,[0;2])] [1;3]));
  (*3702*) Assign (T 87) (Plain (Einsum [(n_t2'aaaa,[0;1;2;3]); (T 33,[1;3])] [0;2]));
  (*3703*) Assign (T 86) (Plain (Einsum [(n_t2'abab,[0;1;2;3]); (T 83,[0;2])] [1;3]));
  (*3704*) Assign (T 84) (Plain (Einsum [(T 83,[0;1]); (n_t2'aaaa,[2;0;3;1])] [2;3]));
  (*3705*) Del (T 83);
  (*3706*) Assign (T 81) (Plain (Einsum [(n_t2'abab,[0;1;2;3]); (n_v'aabb'ovvv,[4;2;5;3])] [0;4;1;5]));
  (*3707*) Assign (T 79) (Times (Einsum [(n_v'aaaa'ovvv,[0;1;2;3]); (n_t2'aaaa,[4;5;3;1])] [4;5;0;2]) (-1) 1);
  (*3708*) Assign (T 77) (Plain (Einsum [(n_t2'abab,[0;1;2;3]); (n_v'aabb'vvov,[4;2;1;3])] [0;4]));
  (*3709*) Assign (T 75) (Plain (Einsum [(n_t2'abab,[0;1;2;3]); (n_v'aabb'ovvv,[0;2;4;3])] [1;4]));
  (*3710*) Assign (T 73) (Times (Einsum [(n_v'bbbb'ovvv,[0;1;2;3]); (n_t2'bbbb,[4;0;3;1])] [4;2]) (-1) 1);
  (*3711*) Assign (T 71) (Times (Einsum [(n_t2'aaaa,[0;1;2;3]); (n_v'aaaa'ovvv,[1;3;4;2])] [0;4]) (-1) 1);
  (*3712*) Assign (T 69) (Plain (Einsum [(n_v'aabb'ooov,[0;1;2;3]); (n_t2'bbbb,[4;2;5;3])] [0;1;4;5]));
  (*3713*) Assign (T 67) (Plain (Einsum [(n_t2'abab,[0;1;2;3]); (n_v'aabb'ooov,[4;5;1;3])] [0;4;5;2]));
  (*3714*) Assign (T 66) (Plain (Einsum [(n_v'aabb'ovoo,[0;1;2;3]); (n_t2'abab,[4;3;1;5])] [4;0;2;5]));
  (*3715*) Assign (T 65) (Plain (Einsum [(n_t2'abab,[0;1;2;3]); (n_v'aaaa'ooov,[4;5;0;2])] [4;5;1;3]));
  (*3716*) Assign (T 63) (Plain (Einsum [(n_v'aaaa'ooov,[0;1;2;3]); (n_t2'aaaa,[4;2;5;3])] [4;0;1;5]));
  (*3717*) Assign (T 62) (Plain (Einsum [(n_t2'abab,[0;1;2;3]); (n_v'aaaa'ooov,[4;0;5;2])] [4;5;1;3]));
  (*3718*) Assign (T 60) (Plain (Einsum [(n_v'aaaa'ooov,[0;1;2;3]); (n_t2'aaaa,[4;1;5;3])] [4;0;2;5]));
  (*3719*) Assign (T 58) (Plain (Einsum [(n_t2'abab,[0;1;2;3]); (n_v'aabb'ooov,[4;0;1;3])] [4;2]));
  (*3720*) Assign (T 56) (Plain (Einsum [(n_v'aabb'ovoo,[0;1;2;3]); (n_t2'abab,[0;3;1;4])] [2;4]));
  (*3721*) Assign (T 54) (Plain (Einsum [(n_t2'bbbb,[0;1;2;3]); (n_v'bbbb'ooov,[4;0;1;3])] [4;2]));
  (*3722*) Assign (T 52) (Plain (Einsum [(n_t2'aaaa,[0;1;2;3]); (n_v'aaaa'ooov,[4;0;1;3])] [4;2]));
  (*3723*) Assign (T 47) (Plain (Einsum [(n_v'aabb'oovv,[0;1;2;3]); (n_t1'bb,[4;3])] [0;1;4;2]));
  (*3724*) Assign (T 44) (Plain (Einsum [(n_t1'aa,[0;1]); (n_v'aaaa'oovv,[2;3;4;1])] [0;2;3;4]));
  (*3725*) Assign (T 38) (Plain (Einsum [(n_v'bbbb'oovv,[0;1;2;3]); (n_t1'bb,[1;3])] [0;2]));
  (*3726*) Assign (T 35) (Plain (Einsum [(n_v'aaaa'oovv,[0;1;2;3]); (n_t1'aa,[1;3])] [0;2]));
  (*3727*) Assign (T 31) (Plain (Einsum [(n_v'aabb'oooo,[0;1;2;3]); (n_t1'bb,[3;4])] [0;1;2;4]));
  (*3728*) Assign (T 29) (Plain (Einsum [(n_v'aaaa'oooo,[0;1;2;3]); (n_t1'aa,[3;4])] [0;1;2;4]));
  (*3729*) Assign (T 23) (Plain (Einsum [(T 22,[0;1]); (n_t1'bb,[0;2])] [1;2]));
  (*3730*) Assign (T 20) (Plain (Einsum [(n_t1'aa,[0;1]); (T 2,[0;2])] [2;1]));
  (*3731*) Assign (T 18) (Plain (Einsum [(n_t2'abab,[0;1;2;3]); (n_f'aa'ov,[4;2])] [4;0;1;3]));
  (*3732*) Assign (T 16) (Plain (Einsum [(n_f'aa'ov,[0;1]); (n_t2'aaaa,[2;3;4;1])] [0;2;3;4]));
  (*3733*) Assign (T 14) (Plain (Einsum [(n_t2'bbbb,[0;1;2;3]); (n_f'bb'ov,[1;3])] [0;2]));
  (*3734*) Assign (T 12) (Plain (Einsum [(n_t2'abab,[0;1;2;3]); (n_f'bb'ov,[1;3])] [0;2]));
  (*3735*) Assign (T 11) (Plain (Einsum [(n_t2'abab,[0;1;2;3]); (n_f'aa'ov,[0;2])] [1;3]));
  (*3736*) Assign (T 9) (Plain (Einsum [(n_t2'aaaa,[0;1;2;3]); (n_f'aa'ov,[1;3])] [0;2]));
  (*3737*) Assign (T 8) (Plain (Einsum [(n_f'bb'vv,[0;1]); (n_t1'bb,[2;1])] [2;0]));
  (*3738*) Assign (T 6) (Plain (Einsum [(n_t1'aa,[0;1]); (n_f'aa'vv,[2;1])] [0;2]));
  (*3739*) Assign (T 5) (Plain (Einsum [(n_t1'bb,[0;1]); (n_f'bb'oo,[2;0])] [2;1]));
  (*3740*) Assign (T 3) (Plain (Einsum [(n_f'aa'oo,[0;1]); (n_t1'aa,[1;2])] [0;2]))]
 [(T 2,[4;4]); (T 11,[6;7]); (T 101,[6;7]); (T 102,[4;5]); (T 104,[6;7]); (T 106,[4;4;4;5]); (T 108,[4;4;6;7]); (T 110,[4;4;4;5]); (T 12,[4;5]); (T 112,[4;4;6;7]); (T 114,[4;4;4;5]); (T 116,[4;4;6;7]); (T 118,[4;5]); (T 120,[6;6;6;7]); (T 121,[6;7]); (T 123,[4;5]); (T 125,[4;6;6;5]); (T 126,[6;7]); (T 128,[4;4;4;5]); (T 130,[4;4;6;7]); (T 14,[6;7]); (T 131,[4;4;4;5]); (T 133,[4;4;6;7]); (T 134,[4;4;4;5]); (T 136,[4;4;6;7]); (T 138,[4;4;6;7]); (T 139,[4;5]); (T 141,[6;6]); (T 142,[6;7]); (T 144,[6;6]); (T 145,[6;7]); (T 147,[4;5]); (T 149,[4;4;4;4]); (T 150,[4;4;4;5]); (T 16,[4;4;4;5]); (T 152,[4;4;6;6]); (T 153,[4;4;6;7]); (T 155,[4;4]); (T 156,[4;4]); (T 157,[4;4]); (T 158,[4;5]); (T 160,[4;5]); (T 162,[6;6]); (T 163,[6;7]); (T 164,[6;6]); (T 165,[6;7]); (T 166,[4;5]); (T 168,[6;6]); (T 169,[6;7]); (T 18,[4;4;6;7]); (T 171,[4;4;4;5]); (T 173,[4;4;4;5]); (T 176,[4;4;6;7]); (T 178,[4;4;6;7]); (T 180,[4;5]); (T 183,[4;5]); (T 186,[6;7]); (T 188,[6;7]); (T 190,[6;7]); (T 20,[4;5]); (T 192,[4;5]); (T 195,[4;4;4;5]); (T 198,[4;4;6;7]); (T 200,[4;5]); (T 3,[4;5]); (T 202,[4;5]); (T 204,[6;6]); (T 205,[6;7]); (T 206,[6;6]); (T 207,[6;7]); (T 208,[4;5]); (T 210,[6;6]); (T 22,[6;6]); (T 211,[6;7]); (T 213,[4;4;4;5]); (T 216,[4;4;6;7]); (T 23,[6;7]); (T 224,[4;6;6;5]); (T 226,[6;6;6;7]); (T 231,[6;6;6;7]); (T 233,[4;6;6;5]); (T 239,[6;6;6;7]); (T 241,[4;6;6;5]); (T 248,[4;6;6;5]); (T 249,[6;6;6;7]); (T 26,[4;4]); (T 251,[4;6;6;5]); (T 252,[6;6;6;7]); (T 254,[4;6;6;5]); (T 255,[4;6;6;5]); (T 257,[6;6;6;7]); (T 27,[4;4]); (T 263,[6;6;6;7]); (T 265,[4;6;6;5]); (T 28,[4;4]); (T 276,[4;6;6;5]); (T 278,[6;6;6;7]); (T 280,[4;6;6;5]); (T 29,[4;4;4;5]); (T 282,[6;6;6;7]); (T 284,[4;6;6;5]); (T 286,[6;6;6;7]); (T 292,[4;6;6;5]); (T 293,[6;6;6;7]); (T 295,[4;6;6;5]); (T 296,[6;6;6;7]); (T 298,[4;6;6;5]); (T 300,[6;6;6;7]); (T 31,[4;4;6;7]); (T 302,[4;6;6;5]); (T 307,[6;6;6;6]); (T 308,[6;6;6;7]); (T 310,[4;6;6;5]); (T 316,[6;6;6;7]); (T 318,[6;6;6;7]); (T 320,[4;6;6;5]); (T 33,[4;5]); (T 321,[4;6;6;5]); (T 326,[6;6;6;7]); (T 329,[4;6;6;5]); (T 335,[6;6;6;7]); (T 337,[4;6;6;5]); (T 35,[4;5]); (T 342,[4;4;5;5]); (T 344,[4;6;5;7]); (T 346,[4;4;5;5]); (T 348,[4;6;5;7]); (T 350,[4;4;5;5]); (T 352,[4;6;5;7]); (T 37,[6;7]); (T 368,[5;5]); (T 370,[5;5]); (T 38,[6;7]); (T 39,[6;7]); (T 40,[4;5]); (T 391,[6;6;5;5]); (T 393,[4;6;5;7]); (T 395,[6;6;7;7]); (T 397,[4;6;5;7]); (T 399,[6;6;7;7]); (T 5,[6;7]); (T 401,[4;6;5;7]); (T 403,[6;6;7;7]); (T 42,[4;4;4;5]); (T 413,[7;7]); (T 415,[7;7]); (T 417,[4;4;7;7]); (T 44,[4;4;4;5]); (T 46,[4;4;6;7]); (T 47,[4;4;6;7]); (T 48,[4;4]); (T 50,[4;4]); (T 6,[4;5]); (T 52,[4;5]); (T 54,[6;7]); (T 56,[6;7]); (T 58,[4;5]); (T 60,[4;4;4;5]); (T 62,[4;4;6;7]); (T 63,[4;4;4;5]); (T 65,[4;4;6;7]); (T 66,[4;4;6;7]); (T 67,[4;4;4;5]); (T 69,[4;4;6;7]); (T 8,[6;7]); (T 71,[4;5]); (T 73,[6;7]); (T 75,[6;7]); (T 77,[4;5]); (T 79,[4;4;4;5]); (T 9,[4;5]); (T 81,[4;4;6;7]); (T 84,[4;5]); (T 86,[6;7]); (T 87,[4;5]); (T 89,[6;7]); (T 91,[4;5]); (T 93,[6;7]); (T 95,[4;5]); (T 97,[6;7]); (T 99,[4;5])].

(** ebcc/codegen/UCC2.py:3744-4354 [hbar_lmatvec_ip] *)
Definition UCC2_hbar_lmatvec_ip : prog := mkprog
 [(n_r2'aba,[4;6;5]); (n_t2'abab,[4;6;5;7]); (n_r2'bbb,[6;6;7]); (n_t2'bbbb,[6;6;7;7]); (IT 141,[6;6]); (IT 144,[6;6]); (IT 399,[6;6;7;7]); (IT 403,[6;6;7;7]); (IT 397,[4;6;5;7]); (IT 401,[4;6;5;7]); (n_f'bb'oo,[6;6]); (IT 22,[6;6]); (n_r2'bab,[6;4;7]); (n_f'aa'oo,[4;4]); (IT 2,[4;4]); (IT 346,[4;4;5;5]); (IT 350,[4;4;5;5]); (n_r2'aaa,[4;4;5]); (n_t2'aaaa,[4;4;5;5]); (IT 348,[4;6;5;7]); (IT 352,[4;6;5;7]); (IT 48,[4;4]); (IT 50,[4;4]); (n_v'bbbb'ovov,[6;7;6;7]); (n_v'bbbb'oovv,[6;6;7;7]); (n_v'aabb'ovov,[4;5;6;7]); (n_v'bbbb'ooov,[6;6;6;7]); (n_r1'b,[6]); (IT 393,[4;6;5;7]); (n_t1'bb,[6;7]); (n_f'bb'ov,[6;7]); (IT 395,[6;6;7;7]); (n_t1'aa,[4;5]); (n_f'aa'ov,[4;5]); (IT 344,[4;6;5;7]); (n_v'aaaa'ovov,[4;5;4;5]); (IT 342,[4;4;5;5]); (n_v'aaaa'oovv,[4;4;5;5]); (n_r1'a,[4]); (n_v'aaaa'ooov,[4;4;4;5]); (IT 307,[6;6;6;6]); (n_v'bbbb'oooo,[6;6;6;6]); (IT 413,[7;7]); (IT 415,[7;7]); (n_f'bb'vv,[7;7]); (IT 417,[4;4;7;7]); (n_v'aabb'oovv,[4;4;7;7]); (IT 152,[4;4;6;6]); (n_v'aabb'oooo,[4;4;6;6]); (IT 391,[6;6;5;5]); (n_v'aabb'vvoo,[5;5;6;6]); (IT 368,[5;5]); (IT 370,[5;5]); (n_f'aa'vv,[5;5]); (IT 149,[4;4;4;4]); (n_v'aaaa'oooo,[4;4;4;4]); (IT 164,[6;6]); (IT 168,[6;6]); (IT 206,[6;6]); (IT 210,[6;6]); (IT 162,[6;6]); (IT 204,[6;6]); (IT 118,[4;5]); (IT 123,[4;5]); (IT 139,[4;5]); (IT 147,[4;5]); (IT 160,[4;5]); (IT 166,[4;5]); (IT 183,[4;5]); (IT 20,[4;5]); (IT 202,[4;5]); (IT 208,[4;5]); (IT 3,[4;5]); (IT 35,[4;5]); (IT 52,[4;5]); (IT 58,[4;5]); (IT 71,[4;5]); (IT 84,[4;5]); (IT 91,[4;5]); (IT 102,[4;5]); (IT 12,[4;5]); (IT 158,[4;5]); (IT 180,[4;5]); (IT 192,[4;5]); (IT 200,[4;5]); (IT 33,[4;5]); (IT 40,[4;5]); (IT 6,[4;5]); (IT 77,[4;5]); (IT 87,[4;5]); (IT 9,[4;5]); (IT 95,[4;5]); (IT 99,[4;5]); (IT 125,[4;6;6;5]); (IT 224,[4;6;6;5]); (IT 241,[4;6;6;5]); (IT 251,[4;6;6;5]); (IT 255,[4;6;6;5]); (IT 265,[4;6;6;5]); (IT 280,[4;6;6;5]); (IT 284,[4;6;6;5]); (IT 292,[4;6;6;5]); (IT 298,[4;6;6;5]); (IT 329,[4;6;6;5]); (n_v'aabb'ovoo,[4;5;6;6]); (IT 233,[4;6;6;5]); (IT 248,[4;6;6;5]); (IT 254,[4;6;6;5]); (IT 276,[4;6;6;5]); (IT 295,[4;6;6;5]); (IT 302,[4;6;6;5]); (IT 310,[4;6;6;5]); (IT 320,[4;6;6;5]); (IT 321,[4;6;6;5]); (IT 337,[4;6;6;5]); (IT 121,[6;7]); (IT 126,[6;7]); (IT 142,[6;7]); (IT 145,[6;7]); (IT 165,[6;7]); (IT 169,[6;7]); (IT 188,[6;7]); (IT 207,[6;7]); (IT 211,[6;7]); (IT 23,[6;7]); (IT 38,[6;7]); (IT 5,[6;7]); (IT 54,[6;7]); (IT 56,[6;7]); (IT 73,[6;7]); (IT 86,[6;7]); (IT 93,[6;7]); (IT 101,[6;7]); (IT 104,[6;7]); (IT 11,[6;7]); (IT 14,[6;7]); (IT 163,[6;7]); (IT 186,[6;7]); (IT 190,[6;7]); (IT 205,[6;7]); (IT 37,[6;7]); (IT 39,[6;7]); (IT 75,[6;7]); (IT 8,[6;7]); (IT 89,[6;7]); (IT 97,[6;7]); (IT 226,[6;6;6;7]); (IT 231,[6;6;6;7]); (IT 239,[6;6;6;7]); (IT 252,[6;6;6;7]); (IT 257,[6;6;6;7]); (IT 282,[6;6;6;7]); (IT 286,[6;6;6;7]); (IT 296,[6;6;6;7]); (IT 308,[6;6;6;7]); (IT 316,[6;6;6;7]); (IT 335,[6;6;6;7]); (IT 120,[6;6;6;7]); (IT 249,[6;6;6;7]); (IT 263,[6;6;6;7]); (IT 278,[6;6;6;7]); (IT 293,[6;6;6;7]); (IT 300,[6;6;6;7]); (IT 318,[6;6;6;7]); (IT 326,[6;6;6;7]); (IT 156,[4;4]); (IT 157,[4;4]); (IT 27,[4;4]); (IT 28,[4;4]); (IT 155,[4;4]); (IT 26,[4;4]); (IT 112,[4;4;6;7]); (IT 116,[4;4;6;7]); (IT 130,[4;4;6;7]); (IT 136,[4;4;6;7]); (IT 18,[4;4;6;7]); (IT 198,[4;4;6;7]); (IT 46,[4;4;6;7]); (IT 47,[4;4;6;7]); (IT 65,[4;4;6;7]); (IT 69,[4;4;6;7]); (IT 81,[4;4;6;7]); (n_v'aabb'ooov,[4;4;6;7]); (IT 108,[4;4;6;7]); (IT 133,[4;4;6;7]); (IT 138,[4;4;6;7]); (IT 153,[4;4;6;7]); (IT 176,[4;4;6;7]); (IT 178,[4;4;6;7]); (IT 216,[4;4;6;7]); (IT 31,[4;4;6;7]); (IT 62,[4;4;6;7]); (IT 66,[4;4;6;7]); (IT 110,[4;4;4;5]); (IT 114,[4;4;4;5]); (IT 131,[4;4;4;5]); (IT 150,[4;4;4;5]); (IT 16,[4;4;4;5]); (IT 171,[4;4;4;5]); (IT 213,[4;4;4;5]); (IT 29,[4;4;4;5]); (IT 44,[4;4;4;5]); (IT 63,[4;4;4;5]); (IT 67,[4;4;4;5]); (IT 106,[4;4;4;5]); (IT 128,[4;4;4;5]); (IT 134,[4;4;4;5]); (IT 173,[4;4;4;5]); (IT 195,[4;4;4;5]); (IT 42,[4;4;4;5]); (IT 60,[4;4;4;5]); (IT 79,[4;4;4;5])]
 [(*3774*) Assign (T 36) (Plain (Einsum [(n_r2'aba,[0;1;2]); (n_t2'abab,[0;1;2;3])] [3]));
  (*3775*) Assign (T 37) (Plain (Einsum [(n_r2'bbb,[0;1;2]); (n_t2'bbbb,[0;1;3;2])] [3]));
  (*3776*) Assign (T 54) (Times (Copy (T 36)) (-1) 2);
  (*3777*) AddTo (T 54) (Plain (Copy (T 37)));
  (*3778*) Assign (T 56) (Times (Copy (IT 141)) (2) 1);
  (*3779*) AddTo (T 56) (Plain (Copy (IT 144)));
  (*3780*) Assign (T 52) (Plain (Copy (IT 399)));
  (*3781*) AddTo (T 52) (Times (Copy (IT 403)) (1) 2);
  (*3782*) Assign (T 61) (Plain (Copy (IT 397)));
  (*3783*) AddTo (T 61) (Times (Copy (IT 401)) (2) 1);
  (*3784*) Assign (T 63) (Plain (Copy n_f'bb'oo));
  (*3785*) AddTo (T 63) (Plain (Transpose (IT 22) [1;0]));
  (*3786*) Assign (T 24) (Times (Einsum [(n_t2'abab,[0;1;2;3]); (n_r2'bab,[1;0;3])] [2]) (-1) 1);
  (*3787*) Assign (T 26) (Plain (Copy n_f'aa'oo));
  (*3788*) AddTo (T 26) (Plain (Transpose (IT 2) [1;0]));
  (*3789*) Assign (T 13) (Plain (Copy (IT 346)));
  (*3790*) AddTo (T 13) (Times (Copy (IT 350)) (1) 2);
  (*3791*) Assign (T 11) (Plain (Einsum [(n_r2'aaa,[0;1;2]); (n_t2'aaaa,[0;1;3;2])] [3]));
  (*3792*) Assign (T 15) (Plain (Copy (IT 348)));
  (*3793*) AddTo (T 15) (Times (Copy (IT 352)) (2) 1);
  (*3794*) Assign (T 17) (Times (Copy (IT 48)) (2) 1);
  (*3795*) AddTo (T 17) (Plain (Copy (IT 50)));
  (*3796*) Assign (T 55) (Times (Einsum [(T 54,[0]); (n_v'bbbb'ovov,[1;0;2;3])] [1;2;3]) (2) 1);
  (*3797*) Del (T 54);
  (*3798*) Assign (T 57) (Times (Einsum [(n_r2'bbb,[0;1;2]); (T 56,[1;3])] [0;3;2]) (-2) 1);
  (*3799*) Del (T 56);
  (*3800*) Assign (T 51) (Plain (Einsum [(n_r2'bbb,[0;1;2]); (n_v'bbbb'oovv,[3;1;4;2])] [0;3;4]));
  (*3801*) Assign (T 50) (Plain (Einsum [(n_r2'aba,[0;1;2]); (n_v'aabb'ovov,[0;2;3;4])] [1;3;4]));
  (*3802*) Assign (T 53) (Times (Einsum [(n_r2'bbb,[0;1;2]); (T 52,[1;3;2;4])] [0;3;4]) (-4) 1);
  (*3803*) Del (T 52);
  (*3804*) Assign (T 48) (Plain (Einsum [(n_v'bbbb'ooov,[0;1;2;3]); (n_r1'b,[1])] [0;2;3]));
  (*3805*) Assign (T 49) (Plain (Einsum [(n_r2'aba,[0;1;2]); (IT 393,[0;3;2;4])] [3;1;4]));
  (*3806*) Assign (T 45) (Plain (Einsum [(n_t1'bb,[0;1]); (n_f'bb'ov,[0;2])] [2;1]));
  (*3807*) Assign (T 59) (Plain (Einsum [(IT 395,[0;1;2;3]); (n_r2'bbb,[4;0;2])] [1;4;3]));
  (*3808*) Assign (T 62) (Plain (Einsum [(n_r2'aba,[0;1;2]); (T 61,[0;3;2;4])] [1;3;4]));
  (*3809*) Del (T 61);
  (*3810*) Assign (T 64) (Times (Einsum [(T 63,[0;1]); (n_r2'bbb,[2;0;3])] [2;1;3]) (-1) 1);
  (*3811*) Del (T 63);
  (*3812*) Assign (T 60) (Plain (Einsum [(n_r2'bbb,[0;1;2]); (n_v'bbbb'ovov,[3;4;1;2])] [0;3;4]));
  (*3813*) Assign (T 30) (Plain (Einsum [(n_t1'aa,[0;1]); (n_f'aa'ov,[0;2])] [2;1]));
  (*3814*) Assign (T 22) (Times (Einsum [(n_r2'bab,[0;1;2]); (IT 344,[3;0;4;2])] [3;1;4]) (-1) 1);
  (*3815*) Assign (T 23) (Times (Einsum [(n_v'aabb'ovov,[0;1;2;3]); (n_r2'bab,[2;4;3])] [4;0;1]) (-1) 1);
  (*3816*) Assign (T 25) (Plain (Einsum [(T 24,[0]); (n_v'aaaa'ovov,[1;2;3;0])] [1;3;2]));
  (*3817*) Assign (T 21) (Plain (Einsum [(n_v'aaaa'ovov,[0;1;2;3]); (n_r2'aaa,[4;2;3])] [4;0;1]));
  (*3818*) Assign (T 20) (Plain (Einsum [(n_r2'aaa,[0;1;2]); (IT 342,[1;3;2;4])] [3;0;4]));
  (*3819*) Assign (T 27) (Times (Einsum [(T 26,[0;1]); (n_r2'aaa,[2;0;3])] [2;1;3]) (-1) 1);
  (*3820*) Del (T 26);
  (*3821*) Assign (T 14) (Times (Einsum [(T 13,[0;1;2;3]); (n_r2'aaa,[4;0;2])] [4;1;3]) (-4) 1);
  (*3822*) Del (T 13);
  (*3823*) Assign (T 12) (Times (Einsum [(T 11,[0]); (n_v'aaaa'ovov,[1;2;3;0])] [1;3;2]) (-1) 1);
  (*3824*) Assign (T 16) (Times (Einsum [(n_r2'bab,[0;1;2]); (T 15,[3;0;4;2])] [1;3;4]) (-1) 1);
  (*3825*) Del (T 15);
  (*3826*) Assign (T 18) (Times (Einsum [(n_r2'aaa,[0;1;2]); (T 17,[1;3])] [0;3;2]) (-2) 1);
  (*3827*) Del (T 17);
  (*3828*) Assign (T 10) (Plain (Einsum [(n_r2'aaa,[0;1;2]); (n_v'aaaa'oovv,[3;1;4;2])] [0;3;4]));
  (*3829*) Assign (T 9) (Plain (Einsum [(n_r1'a,[0]); (n_v'aaaa'ooov,[1;0;2;3])] [1;2;3]));
  (*3830*) Assign (T 66) (Plain (Copy (IT 307)));
  (*3831*) Del (IT 307);
  (*3832*) AddTo (T 66) (Times (Transpose n_v'bbbb'oooo [0;2;3;1]) (-1) 1);
  (*3833*) Assign (T 58) (Plain (Einsum [(n_r1'b,[0]); (n_f'bb'ov,[1;2])] [1;0;2]));
  (*3834*) AddTo (T 58) (Plain (Copy (T 48)));
  (*3835*) Del (T 48);
  (*3836*) AddTo (T 58) (Plain (Copy (T 49)));
  (*3837*) Del (T 49);
  (*3838*) AddTo (T 58) (Plain (Copy (T 50)));
  (*3839*) Del (T 50);
  (*3840*) AddTo (T 58) (Times (Copy (T 51)) (2) 1);
  (*3841*) Del (T 51);
  (*3842*) AddTo (T 58) (Times (Transpose (T 53) [1;0;2]) (-1) 1);
  (*3843*) Del (T 53);
  (*3844*) AddTo (T 58) (Times (Transpose (T 55) [1;0;2]) (-1) 1);
  (*3845*) Del (T 55);
  (*3846*) AddTo (T 58) (Plain (Transpose (T 57) [1;0;2]));
  (*3847*) Del (T 57);
  (*3848*) Assign (T 46) (Times (Copy (IT 413)) (2) 1);
  (*3849*) Del (IT 413);
  (*3850*) AddTo (T 46) (Plain (Copy (IT 415)));
  (*3851*) Del (IT 415);
  (*3852*) AddTo (T 46) (Times (Copy n_f'bb'vv) (-1) 1);
  (*3853*) AddTo (T 46) (Plain (Transpose (T 45) [1;0]));
  (*3854*) Del (T 45);
  (*3855*) Assign (T 65) (Times (Copy (T 59)) (4) 1);
  (*3856*) Del (T 59);
  (*3857*) AddTo (T 65) (Times (Copy (T 60)) (2) 1);
  (*3858*) Del (T 60);
  (*3859*) AddTo (T 65) (Plain (Transpose (T 62) [1;0;2]));
  (*3860*) Del (T 62);
  (*3861*) AddTo (T 65) (Times (Transpose (T 64) [1;0;2]) (-2) 1);
  (*3862*) Del (T 64);
  (*3863*) Assign (T 40) (Plain (Copy n_f'bb'oo));
  (*3864*) AddTo (T 40) (Times (Copy (IT 141)) (2) 1);
  (*3865*) AddTo (T 40) (Plain (Copy (IT 144)));
  (*3866*) AddTo (T 40) (Plain (Transpose (IT 22) [1;0]));
  (*3867*) Assign (T 42) (Plain (Copy (IT 397)));
  (*3868*) Del (IT 397);
  (*3869*) AddTo (T 42) (Times (Copy (IT 401)) (2) 1);
  (*3870*) Del (IT 401);
  (*3871*) AddTo (T 42) (Plain (Transpose n_v'aabb'ovov [0;2;1;3]));
  (*3872*) AddTo (T 42) (Times (Copy (IT 393)) (-1) 1);
  (*3873*) Del (IT 393);
  (*3874*) Assign (T 43) (Plain (Copy (IT 417)));
  (*3875*) Del (IT 417);
  (*3876*) AddTo (T 43) (Times (Copy n_v'aabb'oovv) (-1) 1);
  (*3877*) Assign (T 39) (Plain (Copy n_f'aa'oo));
  (*3878*) AddTo (T 39) (Plain (Transpose (IT 2) [1;0]));
  (*3879*) AddTo (T 39) (Times (Copy (IT 48)) (2) 1);
  (*3880*) AddTo (T 39) (Plain (Copy (IT 50)));
  (*3881*) Assign (T 47) (Plain (Copy (T 11)));
  (*3882*) Del (T 11);
  (*3883*) AddTo (T 47) (Times (Copy (T 24)) (1) 2);
  (*3884*) Del (T 24);
  (*3885*) Assign (T 41) (Times (Copy (IT 399)) (2) 1);
  (*3886*) Del (IT 399);
  (*3887*) AddTo (T 41) (Plain (Copy (IT 403)));
  (*3888*) Del (IT 403);
  (*3889*) AddTo (T 41) (Plain (Transpose n_v'bbbb'ovov [0;2;1;3]));
  (*3890*) AddTo (T 41) (Times (Copy (IT 395)) (-2) 1);
  (*3891*) Del (IT 395);
  (*3892*) AddTo (T 41) (Times (Copy n_v'bbbb'oovv) (-1) 1);
  (*3893*) Assign (T 44) (Plain (Copy (IT 152)));
  (*3894*) AddTo (T 44) (Plain (Copy n_v'aabb'oooo));
  (*3895*) Assign (T 33) (Plain (Copy (IT 348)));
  (*3896*) Del (IT 348);
  (*3897*) AddTo (T 33) (Times (Copy (IT 352)) (2) 1);
  (*3898*) Del (IT 352);
  (*3899*) AddTo (T 33) (Plain (Transpose n_v'aabb'ovov [0;2;1;3]));
  (*3900*) AddTo (T 33) (Times (Copy (IT 344)) (-1) 1);
  (*3901*) Del (IT 344);
  (*3902*) Assign (T 34) (Plain (Copy (IT 391)));
  (*3903*) Del (IT 391);
  (*3904*) AddTo (T 34) (Times (Transpose n_v'aabb'vvoo [2;3;0;1]) (-1) 1);
  (*3905*) Assign (T 32) (Times (Copy (IT 346)) (2) 1);
  (*3906*) Del (IT 346);
  (*3907*) AddTo (T 32) (Plain (Copy (IT 350)));
  (*3908*) Del (IT 350);
  (*3909*) AddTo (T 32) (Plain (Transpose n_v'aaaa'ovov [0;2;1;3]));
  (*3910*) AddTo (T 32) (Times (Copy (IT 342)) (-2) 1);
  (*3911*) Del (IT 342);
  (*3912*) AddTo (T 32) (Times (Copy n_v'aaaa'oovv) (-1) 1);
  (*3913*) Assign (T 31) (Times (Copy (IT 368)) (2) 1);
  (*3914*) Del (IT 368);
  (*3915*) AddTo (T 31) (Plain (Copy (IT 370)));
  (*3916*) Del (IT 370);
  (*3917*) AddTo (T 31) (Times (Copy n_f'aa'vv) (-1) 1);
  (*3918*) AddTo (T 31) (Plain (Transpose (T 30) [1;0]));
  (*3919*) Del (T 30);
  (*3920*) Assign (T 35) (Plain (Copy (IT 152)));
  (*3921*) Del (IT 152);
  (*3922*) AddTo (T 35) (Plain (Copy n_v'aabb'oooo));
  (*3923*) Assign (T 38) (Times (Copy (T 36)) (-1) 1);
  (*3924*) Del (T 36);
  (*3925*) AddTo (T 38) (Times (Copy (T 37)) (2) 1);
  (*3926*) Del (T 37);
  (*3927*) Assign (T 28) (Times (Copy (T 20)) (4) 1);
  (*3928*) Del (T 20);
  (*3929*) AddTo (T 28) (Times (Copy (T 21)) (2) 1);
  (*3930*) Del (T 21);
  (*3931*) AddTo (T 28) (Plain (Copy (T 22)));
  (*3932*) Del (T 22);
  (*3933*) AddTo (T 28) (Plain (Copy (T 23)));
  (*3934*) Del (T 23);
  (*3935*) AddTo (T 28) (Plain (Copy (T 25)));
  (*3936*) Del (T 25);
  (*3937*) AddTo (T 28) (Times (Transpose (T 27) [1;0;2]) (-2) 1);
  (*3938*) Del (T 27);
  (*3939*) Assign (T 19) (Plain (Einsum [(n_r1'a,[0]); (n_f'aa'ov,[1;2])] [1;0;2]));
  (*3940*) AddTo (T 19) (Plain (Copy (T 9)));
  (*3941*) Del (T 9);
  (*3942*) AddTo (T 19) (Times (Copy (T 10)) (2) 1);
  (*3943*) Del (T 10);
  (*3944*) AddTo (T 19) (Times (Copy (T 12)) (2) 1);
  (*3945*) Del (T 12);
  (*3946*) AddTo (T 19) (Times (Transpose (T 14) [1;0;2]) (-1) 1);
  (*3947*) Del (T 14);
  (*3948*) AddTo (T 19) (Plain (Transpose (T 16) [1;0;2]));
  (*3949*) Del (T 16);
  (*3950*) AddTo (T 19) (Plain (Transpose (T 18) [1;0;2]));
  (*3951*) Del (T 18);
  (*3952*) Assign (T 29) (Plain (Copy (IT 149)));
  (*3953*) Del (IT 149);
  (*3954*) AddTo (T 29) (Times (Transpose n_v'aaaa'oooo [0;2;3;1]) (-1) 1);
  (*3955*) Assign (T 8) (Plain (Copy n_f'bb'oo));
  (*3956*) AddTo (T 8) (Times (Copy (IT 141)) (2) 1);
  (*3957*) Del (IT 141);
  (*3958*) AddTo (T 8) (Plain (Copy (IT 144)));
  (*3959*) Del (IT 144);
  (*3960*) AddTo (T 8) (Plain (Transpose (IT 164) [1;0]));
  (*3961*) Del (IT 164);
  (*3962*) AddTo (T 8) (Plain (Transpose (IT 168) [1;0]));
  (*3963*) Del (IT 168);
  (*3964*) AddTo (T 8) (Plain (Copy (IT 206)));
  (*3965*) Del (IT 206);
  (*3966*) AddTo (T 8) (Plain (Copy (IT 210)));
  (*3967*) Del (IT 210);
  (*3968*) AddTo (T 8) (Plain (Transpose (IT 22) [1;0]));
  (*3969*) Del (IT 22);
  (*3970*) AddTo (T 8) (Times (Copy (IT 162)) (-1) 1);
  (*3971*) Del (IT 162);
  (*3972*) AddTo (T 8) (Times (Copy (IT 204)) (-1) 1);
  (*3973*) Del (IT 204);
  (*3974*) Assign (T 4) (Plain (Copy (IT 118)));
  (*3975*) Del (IT 118);
  (*3976*) AddTo (T 4) (Times (Copy (IT 123)) (1) 2);
  (*3977*) Del (IT 123);
  (*3978*) AddTo (T 4) (Plain (Copy (IT 139)));
  (*3979*) Del (IT 139);
  (*3980*) AddTo (T 4) (Times (Copy (IT 147)) (1) 2);
  (*3981*) Del (IT 147);
  (*3982*) AddTo (T 4) (Times (Copy (IT 160)) (1) 2);
  (*3983*) Del (IT 160);
  (*3984*) AddTo (T 4) (Times (Copy (IT 166)) (1) 2);
  (*3985*) Del (IT 166);
  (*3986*) AddTo (T 4) (Times (Copy (IT 183)) (1) 2);
  (*3987*) Del (IT 183);
  (*3988*) AddTo (T 4) (Times (Copy (IT 20)) (1) 2);
  (*3989*) Del (IT 20);
  (*3990*) AddTo (T 4) (Times (Copy (IT 202)) (1) 2);
  (*3991*) Del (IT 202);
  (*3992*) AddTo (T 4) (Times (Copy (IT 208)) (1) 2);
  (*3993*) Del (IT 208);
  (*3994*) AddTo (T 4) (Times (Copy (IT 3)) (1) 2);
  (*3995*) Del (IT 3);
  (*3996*) AddTo (T 4) (Times (Copy (IT 35)) (1) 2);
  (*3997*) Del (IT 35);
  (*3998*) AddTo (T 4) (Plain (Copy (IT 52)));
  (*3999*) Del (IT 52);
  (*4000*) AddTo (T 4) (Times (Copy (IT 58)) (1) 2);
  (*4001*) Del (IT 58);
  (*4002*) AddTo (T 4) (Plain (Copy (IT 71)));
  (*4003*) Del (IT 71);
  (*4004*) AddTo (T 4) (Plain (Copy (IT 84)));
  (*4005*) Del (IT 84);
  (*4006*) AddTo (T 4) (Times (Copy (IT 91)) (1) 2);
  (*4007*) Del (IT 91);
  (*4008*) AddTo (T 4) (Times (Copy n_f'aa'ov) (-1) 2);
  (*4009*) AddTo (T 4) (Times (Copy (IT 102)) (-1) 2);
  (*4010*) Del (IT 102);
  (*4011*) AddTo (T 4) (Times (Copy (IT 12)) (-1) 2);
  (*4012*) Del (IT 12);
  (*4013*) AddTo (T 4) (Times (Copy (IT 158)) (-1) 2);
  (*4014*) Del (IT 158);
  (*4015*) AddTo (T 4) (Times (Copy (IT 180)) (-1) 2);
  (*4016*) Del (IT 180);
  (*4017*) AddTo (T 4) (Times (Copy (IT 192)) (-1) 2);
  (*4018*) Del (IT 192);
  (*4019*) AddTo (T 4) (Times (Copy (IT 200)) (-1) 2);
  (*4020*) Del (IT 200);
  (*4021*) AddTo (T 4) (Times (Copy (IT 33)) (-1) 2);
  (*4022*) Del (IT 33);
  (*4023*) AddTo (T 4) (Times (Copy (IT 40)) (-1) 2);
  (*4024*) Del (IT 40);
  (*4025*) AddTo (T 4) (Times (Copy (IT 6)) (-1) 2);
  (*4026*) Del (IT 6);
  (*4027*) AddTo (T 4) (Times (Copy (IT 77)) (-1) 2);
  (*4028*) Del (IT 77);
  (*4029*) AddTo (T 4) (Times (Copy (IT 87)) (-1) 1);
  (*4030*) Del (IT 87);
  (*4031*) AddTo (T 4) (Times (Copy (IT 9)) (-1) 1);
  (*4032*) Del (IT 9);
  (*4033*) AddTo (T 4) (Times (Copy (IT 95)) (-1) 2);
  (*4034*) Del (IT 95);
  (*4035*) AddTo (T 4) (Times (Copy (IT 99)) (-1) 1);
  (*4036*) Del (IT 99);
  (*4037*) Assign (T 6) (Plain (Copy (IT 125)));
  (*4038*) Del (IT 125);
  (*4039*) AddTo (T 6) (Plain (Transpose (IT 224) [0;2;1;3]));
  (*4040*) Del (IT 224);
  (*4041*) AddTo (T 6) (Plain (Transpose (IT 241) [0;2;1;3]));
  (*4042*) Del (IT 241);
  (*4043*) AddTo (T 6) (Plain (Transpose (IT 251) [0;2;1;3]));
  (*4044*) Del (IT 251);
  (*4045*) AddTo (T 6) (Times (Transpose (IT 255) [0;2;1;3]) (2) 1);
  (*4046*) Del (IT 255);
  (*4047*) AddTo (T 6) (Plain (Copy (IT 265)));
  (*4048*) Del (IT 265);
  (*4049*) AddTo (T 6) (Plain (Copy (IT 280)));
  (*4050*) Del (IT 280);
  (*4051*) AddTo (T 6) (Plain (Copy (IT 284)));
  (*4052*) Del (IT 284);
  (*4053*) AddTo (T 6) (Plain (Copy (IT 292)));
  (*4054*) Del (IT 292);
  (*4055*) AddTo (T 6) (Times (Copy (IT 298)) (2) 1);
  (*4056*) Del (IT 298);
  (*4057*) AddTo (T 6) (Plain (Copy (IT 329)));
  (*4058*) Del (IT 329);
  (*4059*) AddTo (T 6) (Plain (Transpose n_v'aabb'ovoo [0;2;3;1]));
  (*4060*) AddTo (T 6) (Times (Transpose (IT 233) [0;2;1;3]) (-1) 1);
  (*4061*) Del (IT 233);
  (*4062*) AddTo (T 6) (Times (Copy (IT 248)) (-1) 1);
  (*4063*) Del (IT 248);
  (*4064*) AddTo (T 6) (Times (Copy (IT 254)) (-1) 1);
  (*4065*) Del (IT 254);
  (*4066*) AddTo (T 6) (Times (Copy (IT 276)) (-1) 1);
  (*4067*) Del (IT 276);
  (*4068*) AddTo (T 6) (Times (Copy (IT 295)) (-1) 1);
  (*4069*) Del (IT 295);
  (*4070*) AddTo (T 6) (Times (Copy (IT 302)) (-1) 1);
  (*4071*) Del (IT 302);
  (*4072*) AddTo (T 6) (Times (Copy (IT 310)) (-1) 1);
  (*4073*) Del (IT 310);
  (*4074*) AddTo (T 6) (Times (Copy (IT 320)) (-1) 1);
  (*4075*) Del (IT 320);
  (*4076*) AddTo (T 6) (Times (Transpose (IT 321) [0;2;1;3]) (-1) 1);
  (*4077*) Del (IT 321);
  (*4078*) AddTo (T 6) (Times (Copy (IT 337)) (-1) 1);
  (*4079*) Del (IT 337);
  (*4080*) Assign (T 3) (Plain (Copy (IT 121)));
  (*4081*) Del (IT 121);
  (*4082*) AddTo (T 3) (Times (Copy (IT 126)) (1) 2);
  (*4083*) Del (IT 126);
  (*4084*) AddTo (T 3) (Plain (Copy (IT 142)));
  (*4085*) Del (IT 142);
  (*4086*) AddTo (T 3) (Times (Copy (IT 145)) (1) 2);
  (*4087*) Del (IT 145);
  (*4088*) AddTo (T 3) (Times (Copy (IT 165)) (1) 2);
  (*4089*) Del (IT 165);
  (*4090*) AddTo (T 3) (Times (Copy (IT 169)) (1) 2);
  (*4091*) Del (IT 169);
  (*4092*) AddTo (T 3) (Times (Copy (IT 188)) (1) 2);
  (*4093*) Del (IT 188);
  (*4094*) AddTo (T 3) (Times (Copy (IT 207)) (1) 2);
  (*4095*) Del (IT 207);
  (*4096*) AddTo (T 3) (Times (Copy (IT 211)) (1) 2);
  (*4097*) Del (IT 211);
  (*4098*) AddTo (T 3) (Times (Copy (IT 23)) (1) 2);
  (*4099*) Del (IT 23);
  (*4100*) AddTo (T 3) (Times (Copy (IT 38)) (1) 2);
  (*4101*) Del (IT 38);
  (*4102*) AddTo (T 3) (Times (Copy (IT 5)) (1) 2);
  (*4103*) Del (IT 5);
  (*4104*) AddTo (T 3) (Plain (Copy (IT 54)));
  (*4105*) Del (IT 54);
  (*4106*) AddTo (T 3) (Times (Copy (IT 56)) (1) 2);
  (*4107*) Del (IT 56);
  (*4108*) AddTo (T 3) (Plain (Copy (IT 73)));
  (*4109*) Del (IT 73);
  (*4110*) AddTo (T 3) (Times (Copy (IT 86)) (1) 2);
  (*4111*) Del (IT 86);
  (*4112*) AddTo (T 3) (Plain (Copy (IT 93)));
  (*4113*) Del (IT 93);
  (*4114*) AddTo (T 3) (Times (Copy n_f'bb'ov) (-1) 2);
  (*4115*) AddTo (T 3) (Times (Copy (IT 101)) (-1) 2);
  (*4116*) Del (IT 101);
  (*4117*) AddTo (T 3) (Times (Copy (IT 104)) (-1) 1);
  (*4118*) Del (IT 104);
  (*4119*) AddTo (T 3) (Times (Copy (IT 11)) (-1) 2);
  (*4120*) Del (IT 11);
  (*4121*) AddTo (T 3) (Times (Copy (IT 14)) (-1) 1);
  (*4122*) Del (IT 14);
  (*4123*) AddTo (T 3) (Times (Copy (IT 163)) (-1) 2);
  (*4124*) Del (IT 163);
  (*4125*) AddTo (T 3) (Times (Copy (IT 186)) (-1) 2);
  (*4126*) Del (IT 186);
  (*4127*) AddTo (T 3) (Times (Copy (IT 190)) (-1) 2);
  (*4128*) Del (IT 190);
  (*4129*) AddTo (T 3) (Times (Copy (IT 205)) (-1) 2);
  (*4130*) Del (IT 205);
  (*4131*) AddTo (T 3) (Times (Copy (IT 37)) (-1) 2);
  (*4132*) Del (IT 37);
  (*4133*) AddTo (T 3) (Times (Copy (IT 39)) (-1) 2);
  (*4134*) Del (IT 39);
  (*4135*) AddTo (T 3) (Times (Copy (IT 75)) (-1) 2);
  (*4136*) Del (IT 75);
  (*4137*) AddTo (T 3) (Times (Copy (IT 8)) (-1) 2);
  (*4138*) Del (IT 8);
  (*4139*) AddTo (T 3) (Times (Copy (IT 89)) (-1) 2);
  (*4140*) Del (IT 89);
  (*4141*) AddTo (T 3) (Times (Copy (IT 97)) (-1) 1);
  (*4142*) Del (IT 97);
  (*4143*) Assign (T 7) (Plain (Transpose (IT 226) [1;2;0;3]));
  (*4144*) Del (IT 226);
  (*4145*) AddTo (T 7) (Plain (Transpose (IT 231) [1;2;0;3]));
  (*4146*) Del (IT 231);
  (*4147*) AddTo (T 7) (Plain (Transpose (IT 239) [0;2;1;3]));
  (*4148*) Del (IT 239);
  (*4149*) AddTo (T 7) (Times (Transpose (IT 252) [0;2;1;3]) (2) 1);
  (*4150*) Del (IT 252);
  (*4151*) AddTo (T 7) (Plain (Transpose (IT 257) [0;2;1;3]));
  (*4152*) Del (IT 257);
  (*4153*) AddTo (T 7) (Plain (Copy (IT 282)));
  (*4154*) Del (IT 282);
  (*4155*) AddTo (T 7) (Plain (Copy (IT 286)));
  (*4156*) Del (IT 286);
  (*4157*) AddTo (T 7) (Times (Copy (IT 296)) (2) 1);
  (*4158*) Del (IT 296);
  (*4159*) AddTo (T 7) (Plain (Copy (IT 308)));
  (*4160*) Del (IT 308);
  (*4161*) AddTo (T 7) (Plain (Copy (IT 316)));
  (*4162*) Del (IT 316);
  (*4163*) AddTo (T 7) (Plain (Copy (IT 335)));
  (*4164*) Del (IT 335);
  (*4165*) AddTo (T 7) (Times (Copy (IT 120)) (-1) 1);
  (*4166*) Del (IT 120);
  (*4167*) AddTo (T 7) (Times (Copy (IT 249)) (-2) 1);
  (*4168*) Del (IT 249);
  (*4169*) AddTo (T 7) (Times (Copy (IT 263)) (-1) 1);
  (*4170*) Del (IT 263);
  (*4171*) AddTo (T 7) (Times (Copy (IT 278)) (-1) 1);
  (*4172*) Del (IT 278);
  (*4173*) AddTo (T 7) (Times (Copy (IT 293)) (-2) 1);
  (*4174*) Del (IT 293);
  (*4175*) AddTo (T 7) (Times (Copy (IT 300)) (-1) 1);
  (*4176*) Del (IT 300);
  (*4177*) AddTo (T 7) (Times (Transpose (IT 318) [0;2;1;3]) (-1) 1);
  (*4178*) Del (IT 318);
  (*4179*) AddTo (T 7) (Times (Copy (IT 326)) (-1) 1);
  (*4180*) Del (IT 326);
  (*4181*) AddTo (T 7) (Times (Transpose n_v'bbbb'ooov [0;2;1;3]) (-1) 1);
  (*4182*) Assign (T 5) (Plain (Copy n_f'aa'oo));
  (*4183*) AddTo (T 5) (Plain (Copy (IT 156)));
  (*4184*) Del (IT 156);
  (*4185*) AddTo (T 5) (Plain (Copy (IT 157)));
  (*4186*) Del (IT 157);
  (*4187*) AddTo (T 5) (Plain (Transpose (IT 2) [1;0]));
  (*4188*) Del (IT 2);
  (*4189*) AddTo (T 5) (Plain (Transpose (IT 27) [1;0]));
  (*4190*) Del (IT 27);
  (*4191*) AddTo (T 5) (Plain (Transpose (IT 28) [1;0]));
  (*4192*) Del (IT 28);
  (*4193*) AddTo (T 5) (Times (Copy (IT 48)) (2) 1);
  (*4194*) Del (IT 48);
  (*4195*) AddTo (T 5) (Plain (Copy (IT 50)));
  (*4196*) Del (IT 50);
  (*4197*) AddTo (T 5) (Times (Copy (IT 155)) (-1) 1);
  (*4198*) Del (IT 155);
  (*4199*) AddTo (T 5) (Times (Copy (IT 26)) (-1) 1);
  (*4200*) Del (IT 26);
  (*4201*) Assign (T 1) (Plain (Copy (IT 112)));
  (*4202*) Del (IT 112);
  (*4203*) AddTo (T 1) (Plain (Copy (IT 116)));
  (*4204*) Del (IT 116);
  (*4205*) AddTo (T 1) (Plain (Copy (IT 130)));
  (*4206*) Del (IT 130);
  (*4207*) AddTo (T 1) (Times (Copy (IT 136)) (2) 1);
  (*4208*) Del (IT 136);
  (*4209*) AddTo (T 1) (Plain (Transpose (IT 18) [1;0;2;3]));
  (*4210*) Del (IT 18);
  (*4211*) AddTo (T 1) (Plain (Copy (IT 198)));
  (*4212*) Del (IT 198);
  (*4213*) AddTo (T 1) (Plain (Copy (IT 46)));
  (*4214*) Del (IT 46);
  (*4215*) AddTo (T 1) (Plain (Transpose (IT 47) [1;0;2;3]));
  (*4216*) Del (IT 47);
  (*4217*) AddTo (T 1) (Plain (Transpose (IT 65) [1;0;2;3]));
  (*4218*) Del (IT 65);
  (*4219*) AddTo (T 1) (Times (Transpose (IT 69) [1;0;2;3]) (2) 1);
  (*4220*) Del (IT 69);
  (*4221*) AddTo (T 1) (Plain (Copy (IT 81)));
  (*4222*) Del (IT 81);
  (*4223*) AddTo (T 1) (Plain (Copy n_v'aabb'ooov));
  (*4224*) AddTo (T 1) (Times (Copy (IT 108)) (-1) 1);
  (*4225*) Del (IT 108);
  (*4226*) AddTo (T 1) (Times (Copy (IT 133)) (-1) 1);
  (*4227*) Del (IT 133);
  (*4228*) AddTo (T 1) (Times (Copy (IT 138)) (-1) 1);
  (*4229*) Del (IT 138);
  (*4230*) AddTo (T 1) (Times (Copy (IT 153)) (-1) 1);
  (*4231*) Del (IT 153);
  (*4232*) AddTo (T 1) (Times (Copy (IT 176)) (-1) 1);
  (*4233*) Del (IT 176);
  (*4234*) AddTo (T 1) (Times (Transpose (IT 178) [1;0;2;3]) (-1) 1);
  (*4235*) Del (IT 178);
  (*4236*) AddTo (T 1) (Times (Copy (IT 216)) (-1) 1);
  (*4237*) Del (IT 216);
  (*4238*) AddTo (T 1) (Times (Transpose (IT 31) [1;0;2;3]) (-1) 1);
  (*4239*) Del (IT 31);
  (*4240*) AddTo (T 1) (Times (Copy (IT 62)) (-1) 1);
  (*4241*) Del (IT 62);
  (*4242*) AddTo (T 1) (Times (Copy (IT 66)) (-1) 1);
  (*4243*) Del (IT 66);
  (*4244*) Assign (T 2) (Plain (Copy (IT 110)));
  (*4245*) Del (IT 110);
  (*4246*) AddTo (T 2) (Plain (Copy (IT 114)));
  (*4247*) Del (IT 114);
  (*4248*) AddTo (T 2) (Times (Copy (IT 131)) (2) 1);
  (*4249*) Del (IT 131);
  (*4250*) AddTo (T 2) (Plain (Copy (IT 150)));
  (*4251*) Del (IT 150);
  (*4252*) AddTo (T 2) (Plain (Transpose (IT 16) [1;2;0;3]));
  (*4253*) Del (IT 16);
  (*4254*) AddTo (T 2) (Plain (Copy (IT 171)));
  (*4255*) Del (IT 171);
  (*4256*) AddTo (T 2) (Plain (Copy (IT 213)));
  (*4257*) Del (IT 213);
  (*4258*) AddTo (T 2) (Plain (Transpose (IT 29) [1;2;0;3]));
  (*4259*) Del (IT 29);
  (*4260*) AddTo (T 2) (Plain (Transpose (IT 44) [0;2;1;3]));
  (*4261*) Del (IT 44);
  (*4262*) AddTo (T 2) (Times (Transpose (IT 63) [0;2;1;3]) (2) 1);
  (*4263*) Del (IT 63);
  (*4264*) AddTo (T 2) (Plain (Transpose (IT 67) [0;2;1;3]));
  (*4265*) Del (IT 67);
  (*4266*) AddTo (T 2) (Times (Copy (IT 106)) (-1) 1);
  (*4267*) Del (IT 106);
  (*4268*) AddTo (T 2) (Times (Copy (IT 128)) (-2) 1);
  (*4269*) Del (IT 128);
  (*4270*) AddTo (T 2) (Times (Copy (IT 134)) (-1) 1);
  (*4271*) Del (IT 134);
  (*4272*) AddTo (T 2) (Times (Transpose (IT 173) [0;2;1;3]) (-1) 1);
  (*4273*) Del (IT 173);
  (*4274*) AddTo (T 2) (Times (Copy (IT 195)) (-1) 1);
  (*4275*) Del (IT 195);
  (*4276*) AddTo (T 2) (Times (Copy (IT 42)) (-1) 1);
  (*4277*) Del (IT 42);
  (*4278*) AddTo (T 2) (Times (Copy (IT 60)) (-2) 1);
  (*4279*) Del (IT 60);
  (*4280*) AddTo (T 2) (Times (Copy (IT 79)) (-1) 1);
  (*4281*) Del (IT 79);
  (*4282*) AddTo (T 2) (Times (Transpose n_v'aaaa'ooov [0;2;1;3]) (-1) 1);
  (*4283*) Assign n_r2new'bbb (Times (Copy (T 58)) (-1) 1);
  (*4284*) AddTo n_r2new'bbb (Plain (Transpose (T 58) [1;0;2]));
  (*4285*) Del (T 58);
  (*4286*) AddTo n_r2new'bbb (Plain (Copy (T 65)));
  (*4287*) AddTo n_r2new'bbb (Times (Transpose (T 65) [1;0;2]) (-1) 1);
  (*4288*) Del (T 65);
  (*4289*) AddTo n_r2new'bbb (Times (Einsum [(T 66,[0;1;2;3]); (n_r2'bbb,[0;1;4])] [2;3;4]) (2) 1);
  (*4290*) Del (T 66);
  (*4291*) AddTo n_r2new'bbb (Times (Einsum [(n_r2'bbb,[0;1;2]); (T 46,[2;3])] [0;1;3]) (-2) 1);
  (*4292*) Assign n_r2new'bab (Times (Einsum [(n_f'bb'ov,[0;1]); (n_r1'a,[2])] [0;2;1]) (-1) 1);
  (*4293*) AddTo n_r2new'bab (Plain (Einsum [(n_r1'a,[0]); (n_v'aabb'ooov,[1;0;2;3])] [2;1;3]));
  (*4294*) AddTo n_r2new'bab (Plain (Einsum [(n_r2'bab,[0;1;2]); (T 41,[0;3;2;4])] [3;1;4]));
  (*4295*) Del (T 41);
  (*4296*) AddTo n_r2new'bab (Times (Einsum [(n_r2'aaa,[0;1;2]); (T 42,[1;3;2;4])] [3;0;4]) (-2) 1);
  (*4297*) Del (T 42);
  (*4298*) AddTo n_r2new'bab (Plain (Einsum [(n_r2'bab,[0;1;2]); (T 43,[1;3;2;4])] [0;3;4]));
  (*4299*) Del (T 43);
  (*4300*) AddTo n_r2new'bab (Plain (Einsum [(T 44,[0;1;2;3]); (n_r2'bab,[2;0;4])] [3;1;4]));
  (*4301*) Del (T 44);
  (*4302*) AddTo n_r2new'bab (Times (Einsum [(n_r2'bab,[0;1;2]); (T 46,[2;3])] [0;1;3]) (-1) 1);
  (*4303*) Del (T 46);
  (*4304*) AddTo n_r2new'bab (Times (Einsum [(n_v'aabb'ovov,[0;1;2;3]); (T 47,[1])] [2;0;3]) (2) 1);
  (*4305*) Del (T 47);
  (*4306*) AddTo n_r2new'bab (Times (Einsum [(n_r2'bab,[0;1;2]); (T 39,[1;3])] [0;3;2]) (-1) 1);
  (*4307*) AddTo n_r2new'bab (Times (Einsum [(T 40,[0;1]); (n_r2'bab,[0;2;3])] [1;2;3]) (-1) 1);
  (*4308*) Assign n_r2new'aba (Times (Einsum [(n_r1'b,[0]); (n_f'aa'ov,[1;2])] [1;0;2]) (-1) 1);
  (*4309*) AddTo n_r2new'aba (Plain (Einsum [(n_r1'b,[0]); (n_v'aabb'ovoo,[1;2;3;0])] [1;3;2]));
  (*4310*) AddTo n_r2new'aba (Plain (Einsum [(n_r2'aba,[0;1;2]); (T 32,[0;3;2;4])] [3;1;4]));
  (*4311*) Del (T 32);
  (*4312*) AddTo n_r2new'aba (Times (Einsum [(n_r2'bbb,[0;1;2]); (T 33,[3;1;4;2])] [3;0;4]) (-2) 1);
  (*4313*) Del (T 33);
  (*4314*) AddTo n_r2new'aba (Plain (Einsum [(n_r2'aba,[0;1;2]); (T 34,[1;3;2;4])] [0;3;4]));
  (*4315*) Del (T 34);
  (*4316*) AddTo n_r2new'aba (Plain (Einsum [(T 35,[0;1;2;3]); (n_r2'aba,[0;2;4])] [1;3;4]));
  (*4317*) Del (T 35);
  (*4318*) AddTo n_r2new'aba (Times (Einsum [(T 31,[0;1]); (n_r2'aba,[2;3;0])] [2;3;1]) (-1) 1);
  (*4319*) AddTo n_r2new'aba (Plain (Einsum [(T 38,[0]); (n_v'aabb'ovov,[1;2;3;0])] [1;3;2]));
  (*4320*) Del (T 38);
  (*4321*) AddTo n_r2new'aba (Times (Einsum [(n_r2'aba,[0;1;2]); (T 39,[0;3])] [3;1;2]) (-1) 1);
  (*4322*) Del (T 39);
  (*4323*) AddTo n_r2new'aba (Times (Einsum [(T 40,[0;1]); (n_r2'aba,[2;0;3])] [2;1;3]) (-1) 1);
  (*4324*) Del (T 40);
  (*4325*) Assign n_r2new'aaa (Times (Copy (T 19)) (-1) 1);
  (*4326*) AddTo n_r2new'aaa (Plain (Transpose (T 19) [1;0;2]));
  (*4327*) Del (T 19);
  (*4328*) AddTo n_r2new'aaa (Plain (Copy (T 28)));
  (*4329*) AddTo n_r2new'aaa (Times (Transpose (T 28) [1;0;2]) (-1) 1);
  (*4330*) Del (T 28);
  (*4331*) AddTo n_r2new'aaa (Times (Einsum [(n_r2'aaa,[0;1;2]); (T 29,[0;1;3;4])] [3;4;2]) (2) 1);
  (*4332*) Del (T 29);
  (*4333*) AddTo n_r2new'aaa (Times (Einsum [(T 31,[0;1]); (n_r2'aaa,[2;3;0])] [2;3;1]) (-2) 1);
  (*4334*) Del (T 31);
  (*4335*) Assign n_r1new'b (Plain (Einsum [(T 6,[0;1;2;3]); (n_r2'aba,[0;1;3])] [2]));
  (*4336*) Del (T 6);
  (*4337*) AddTo n_r1new'b (Times (Einsum [(n_r2'bbb,[0;1;2]); (T 7,[1;0;3;2])] [3]) (-2) 1);
  (*4338*) Del (T 7);
  (*4339*) AddTo n_r1new'b (Times (Einsum [(n_r2'aba,[0;1;2]); (T 4,[0;2])] [1]) (2) 1);
  (*4340*) AddTo n_r1new'b (Times (Einsum [(n_r2'bbb,[0;1;2]); (T 3,[1;2])] [0]) (-4) 1);
  (*4341*) AddTo n_r1new'b (Times (Einsum [(n_r1'b,[0]); (T 8,[0;1])] [1]) (-1) 1);
  (*4342*) Del (T 8);
  (*4343*) Assign n_r1new'a (Plain (Einsum [(T 1,[0;1;2;3]); (n_r2'bab,[2;0;3])] [1]));
  (*4344*) Del (T 1);
  (*4345*) AddTo n_r1new'a (Times (Einsum [(T 2,[0;1;2;3]); (n_r2'aaa,[1;0;3])] [2]) (-2) 1);
  (*4346*) Del (T 2);
  (*4347*) AddTo n_r1new'a (Times (Einsum [(n_r2'bab,[0;1;2]); (T 3,[0;2])] [1]) (2) 1);
  (*4348*) Del (T 3);
  (*4349*) AddTo n_r1new'a (Times (Einsum [(n_r2'aaa,[0;1;2]); (T 4,[1;2])] [0]) (-4) 1);
  (*4350*) Del (T 4);
  (*4351*) AddTo n_r1new'a (Times (Einsum [(n_r1'a,[0]); (T 5,[0;1])] [1]) (-1) 1);
  (*4352*) Del (T 5)]
 [(n_r1new'b,[6]); (n_r1new'a,[4]); (n_r2new'bbb,[6;6;7]); (n_r2new'bab,[6;4;7]); (n_r2new'aba,[4;6;5]); (n_r2new'aaa,[4;4;5])].

(** ebcc/codegen/UCC2.py:4356-4664 [hbar_lmatvec_ea_intermediates] *)
Definition UCC2_hbar_lmatvec_ea_intermediates : prog := mkprog
 [(n_t1'aa,[4;5]); (n_v'aabb'ovov,[4;5;6;7]); (n_t1'bb,[6;7]); (n_v'bbbb'ovov,[6;7;6;7]); (n_v'aaaa'ovov,[4;5;4;5]); (n_v'aabb'vvov,[5;5;6;7]); (n_v'aabb'ovvv,[4;5;7;7]); (n_v'bbbb'ovvv,[6;7;7;7]); (n_v'aaaa'ovvv,[4;5;5;5]); (n_v'aabb'ovoo,[4;5;6;6]); (n_v'aabb'ooov,[4;4;6;7]); (n_v'bbbb'ooov,[6;6;6;7]); (n_v'aaaa'ooov,[4;4;4;5]); (n_t2'abab,[4;6;5;7]); (n_t2'bbbb,[6;6;7;7]); (n_t2'aaaa,[4;4;5;5]); (n_f'bb'ov,[6;7]); (n_f'aa'ov,[4;5]); (n_v'aabb'vvvv,[5;5;7;7]); (n_v'bbbb'vvvv,[7;7;7;7]); (n_v'aaaa'vvvv,[5;5;5;5]); (n_v'bbbb'oovv,[6;6;7;7]); (n_v'aaaa'oovv,[4;4;5;5]); (n_f'bb'vv,[7;7]); (n_f'aa'vv,[5;5]); (n_f'bb'oo,[6;6]); (n_f'aa'oo,[4;4])]
 [(*4507*) Assign (T 36) (Plain (Einsum [(n_t1'aa,[0;1]); (n_v'aabb'ovov,[0;1;2;3])] [2;3]));
  (*4508*) Assign (T 37) (Plain (Einsum [(n_v'aabb'ovov,[0;1;2;3]); (n_t1'bb,[2;3])] [0;1]));
  (*4509*) Assign (T 34) (Plain (Einsum [(n_t1'bb,[0;1]); (n_v'bbbb'ovov,[2;3;0;1])] [2;3]));
  (*4510*) Assign (T 90) (Plain (Einsum [(n_t1'bb,[0;1]); (n_v'bbbb'ovov,[2;1;0;3])] [2;3]));
  (*4511*) Assign (T 30) (Plain (Einsum [(n_v'aaaa'ovov,[0;1;2;3]); (n_t1'aa,[2;3])] [0;1]));
  (*4512*) Assign (T 83) (Plain (Einsum [(n_v'aaaa'ovov,[0;1;2;3]); (n_t1'aa,[2;1])] [0;3]));
  (*4513*) Assign (T 118) (Plain (Einsum [(n_t1'aa,[0;1]); (n_v'aabb'ovov,[2;1;3;4])] [0;2;3;4]));
  (*4514*) Assign (T 115) (Plain (Einsum [(n_v'bbbb'ovov,[0;1;2;3]); (n_t1'bb,[4;3])] [4;0;2;1]));
  (*4515*) Assign (T 201) (Plain (Einsum [(T 36,[0;1]); (n_t1'bb,[2;1])] [2;0]));
  (*4516*) Assign (T 198) (Plain (Einsum [(n_t1'aa,[0;1]); (T 37,[2;1])] [0;2]));
  (*4517*) Assign (T 196) (Plain (Einsum [(T 34,[0;1]); (n_t1'bb,[2;1])] [2;0]));
  (*4518*) Assign (T 194) (Plain (Einsum [(T 90,[0;1]); (n_t1'bb,[2;1])] [2;0]));
  (*4519*) Assign (T 191) (Plain (Einsum [(n_t1'aa,[0;1]); (T 30,[2;1])] [0;2]));
  (*4520*) Assign (T 188) (Plain (Einsum [(n_t1'aa,[0;1]); (T 83,[2;1])] [0;2]));
  (*4521*) Assign (T 29) (Plain (Einsum [(n_v'aabb'vvov,[0;1;2;3]); (n_t1'bb,[2;3])] [0;1]));
  (*4522*) Assign (T 178) (Plain (Einsum [(n_t1'aa,[0;1]); (n_v'aabb'ovvv,[0;1;2;3])] [2;3]));
  (*4523*) Assign (T 176) (Plain (Einsum [(n_v'bbbb'ovvv,[0;1;2;3]); (n_t1'bb,[0;3])] [1;2]));
  (*4524*) Assign (T 174) (Plain (Einsum [(n_v'bbbb'ovvv,[0;1;2;3]); (n_t1'bb,[0;1])] [2;3]));
  (*4525*) Assign (T 28) (Plain (Einsum [(n_v'aaaa'ovvv,[0;1;2;3]); (n_t1'aa,[0;3])] [1;2]));
  (*4526*) Assign (T 27) (Plain (Einsum [(n_v'aaaa'ovvv,[0;1;2;3]); (n_t1'aa,[0;1])] [2;3]));
  (*4527*) Assign (T 164) (Plain (Einsum [(n_t1'aa,[0;1]); (n_v'aabb'ovoo,[0;1;2;3])] [2;3]));
  (*4528*) Assign (T 161) (Plain (Einsum [(n_v'aabb'ooov,[0;1;2;3]); (n_t1'bb,[2;3])] [0;1]));
  (*4529*) Assign (T 159) (Plain (Einsum [(n_v'bbbb'ooov,[0;1;2;3]); (n_t1'bb,[2;3])] [0;1]));
  (*4530*) Assign (T 157) (Plain (Einsum [(n_v'bbbb'ooov,[0;1;2;3]); (n_t1'bb,[1;3])] [0;2]));
  (*4531*) Assign (T 154) (Plain (Einsum [(n_t1'aa,[0;1]); (n_v'aaaa'ooov,[2;3;0;1])] [2;3]));
  (*4532*) Assign (T 151) (Plain (Einsum [(n_t1'aa,[0;1]); (n_v'aaaa'ooov,[2;0;3;1])] [2;3]));
  (*4533*) Assign (T 137) (Plain (Einsum [(n_t2'abab,[0;1;2;3]); (n_v'aabb'ovov,[4;2;1;3])] [0;4]));
  (*4534*) Assign (T 134) (Plain (Einsum [(n_t2'abab,[0;1;2;3]); (n_v'aabb'ovov,[0;2;4;3])] [1;4]));
  (*4535*) Assign (T 131) (Times (Einsum [(n_t2'bbbb,[0;1;2;3]); (n_v'bbbb'ovov,[4;3;1;2])] [0;4]) (-1) 1);
  (*4536*) Assign (T 128) (Plain (Einsum [(n_v'aaaa'ovov,[0;1;2;3]); (n_t2'aaaa,[4;2;1;3])] [4;0]));
  (*4537*) Assign (T 121) (Plain (Einsum [(n_v'aabb'ovov,[0;1;2;3]); (n_t1'bb,[4;3])] [0;4;2;1]));
  (*4538*) Assign (T 112) (Plain (Einsum [(n_v'aaaa'ovov,[0;1;2;3]); (n_t1'aa,[4;3])] [4;0;2;1]));
  (*4539*) Assign (T 23) (Plain (Einsum [(n_t1'bb,[0;1]); (n_f'bb'ov,[2;1])] [2;0]));
  (*4540*) Assign (T 20) (Plain (Einsum [(n_t1'aa,[0;1]); (n_f'aa'ov,[2;1])] [2;0]));
  (*4541*) Assign (T 311) (Plain (Einsum [(n_t1'aa,[0;1]); (n_v'aabb'vvov,[2;1;3;4])] [0;3;2;4]));
  (*4542*) Assign (T 310) (Plain (Einsum [(n_t1'aa,[0;1]); (n_v'aabb'ovvv,[2;1;3;4])] [0;2;3;4]));
  (*4543*) Assign (T 308) (Plain (Einsum [(n_v'bbbb'ovvv,[0;1;2;3]); (n_t1'bb,[4;3])] [4;0;1;2]));
  (*4544*) Assign (T 306) (Plain (Einsum [(n_v'bbbb'ovvv,[0;1;2;3]); (n_t1'bb,[4;1])] [4;0;2;3]));
  (*4545*) Assign (T 295) (Plain (Einsum [(n_t2'abab,[0;1;2;3]); (n_v'aabb'ovov,[4;2;1;5])] [0;4;3;5]));
  (*4546*) Assign (T 293) (Plain (Einsum [(n_t2'abab,[0;1;2;3]); (n_v'aabb'ovov,[0;2;4;5])] [1;4;3;5]));
  (*4547*) Assign (T 291) (Plain (Einsum [(n_v'aabb'ovov,[0;1;2;3]); (n_t2'aaaa,[4;0;5;1])] [4;2;5;3]));
  (*4548*) Assign (T 289) (Plain (Einsum [(n_v'bbbb'ovov,[0;1;2;3]); (n_t2'bbbb,[4;2;5;1])] [4;0;5;3]));
  (*4549*) Assign (T 288) (Plain (Einsum [(n_v'bbbb'ovov,[0;1;2;3]); (n_t2'abab,[4;2;5;1])] [4;0;5;3]));
  (*4550*) Assign (T 286) (Plain (Einsum [(n_v'bbbb'ovov,[0;1;2;3]); (n_t2'bbbb,[4;2;5;3])] [4;0;5;1]));
  (*4551*) Assign (T 285) (Plain (Einsum [(n_v'bbbb'ovov,[0;1;2;3]); (n_t2'abab,[4;2;5;3])] [4;0;5;1]));
  (*4552*) Assign (T 279) (Plain (Einsum [(n_t2'abab,[0;1;2;3]); (T 118,[4;0;1;5])] [4;2;3;5]));
  (*4553*) Assign (T 277) (Plain (Einsum [(n_t2'bbbb,[0;1;2;3]); (T 115,[4;0;1;5])] [4;2;3;5]));
  (*4554*) Assign (T 257) (Plain (Einsum [(n_t2'abab,[0;1;2;3]); (n_v'aabb'vvov,[4;2;1;5])] [0;4;3;5]));
  (*4555*) Assign (T 255) (Plain (Einsum [(n_t2'abab,[0;1;2;3]); (n_v'aabb'ovvv,[0;2;4;5])] [1;3;4;5]));
  (*4556*) Assign (T 253) (Plain (Einsum [(n_v'aabb'ovvv,[0;1;2;3]); (n_t2'aaaa,[4;0;5;1])] [4;5;2;3]));
  (*4557*) Assign (T 251) (Plain (Einsum [(n_t2'bbbb,[0;1;2;3]); (n_v'bbbb'ovvv,[1;4;5;3])] [0;2;4;5]));
  (*4558*) Assign (T 250) (Plain (Einsum [(n_v'bbbb'ovvv,[0;1;2;3]); (n_t2'abab,[4;0;5;3])] [4;5;1;2]));
  (*4559*) Assign (T 248) (Plain (Einsum [(n_t2'bbbb,[0;1;2;3]); (n_v'bbbb'ovvv,[1;3;4;5])] [0;2;4;5]));
  (*4560*) Assign (T 247) (Plain (Einsum [(n_v'bbbb'ovvv,[0;1;2;3]); (n_t2'abab,[4;0;5;1])] [4;5;2;3]));
  (*4561*) Assign (T 241) (Plain (Einsum [(n_t2'abab,[0;1;2;3]); (n_v'aabb'ooov,[4;0;1;5])] [4;2;3;5]));
  (*4562*) Assign (T 239) (Plain (Einsum [(n_t2'bbbb,[0;1;2;3]); (n_v'bbbb'ooov,[4;0;1;5])] [4;2;3;5]));
  (*4563*) Assign (T 233) (Plain (Einsum [(n_t2'abab,[0;1;2;3]); (n_v'aabb'ovov,[0;2;1;4])] [3;4]));
  (*4564*) Assign (T 231) (Plain (Einsum [(n_v'bbbb'ovov,[0;1;2;3]); (n_t2'bbbb,[0;2;4;3])] [4;1]));
  (*4565*) Assign (T 229) (Plain (Einsum [(n_v'aabb'vvvv,[0;1;2;3]); (n_t1'aa,[4;1])] [4;0;2;3]));
  (*4566*) Assign (T 227) (Plain (Einsum [(n_t1'bb,[0;1]); (n_v'bbbb'vvvv,[2;3;4;1])] [0;2;3;4]));
  (*4567*) Assign (T 202) (Plain (Einsum [(T 201,[0;1]); (n_t1'bb,[1;2])] [0;2]));
  (*4568*) Del (T 201);
  (*4569*) Assign (T 199) (Plain (Einsum [(n_t1'aa,[0;1]); (T 198,[2;0])] [2;1]));
  (*4570*) Del (T 198);
  (*4571*) Assign (T 197) (Plain (Einsum [(T 196,[0;1]); (n_t1'bb,[1;2])] [0;2]));
  (*4572*) Del (T 196);
  (*4573*) Assign (T 195) (Plain (Einsum [(T 194,[0;1]); (n_t1'bb,[1;2])] [0;2]));
  (*4574*) Del (T 194);
  (*4575*) Assign (T 192) (Plain (Einsum [(n_t1'aa,[0;1]); (T 191,[2;0])] [2;1]));
  (*4576*) Del (T 191);
  (*4577*) Assign (T 189) (Plain (Einsum [(n_t1'aa,[0;1]); (T 188,[2;0])] [2;1]));
  (*4578*) Del (T 188);
  (*4579*) Assign (T 187) (Plain (Einsum [(n_v'aabb'ovvv,[0;1;2;3]); (n_t1'bb,[4;3])] [0;4;1;2]));
  (*4580*) Assign (T 186) (Plain (Einsum [(n_v'aabb'vvov,[0;1;2;3]); (n_t1'bb,[4;3])] [4;2;0;1]));
  (*4581*) Assign (T 184) (Plain (Einsum [(n_v'aaaa'ovvv,[0;1;2;3]); (n_t1'aa,[4;3])] [4;0;1;2]));
  (*4582*) Assign (T 182) (Plain (Einsum [(n_v'aaaa'ovvv,[0;1;2;3]); (n_t1'aa,[4;1])] [4;0;2;3]));
  (*4583*) Assign (T 180) (Plain (Einsum [(n_t1'aa,[0;1]); (T 29,[2;1])] [0;2]));
  (*4584*) Assign (T 179) (Plain (Einsum [(T 178,[0;1]); (n_t1'bb,[2;1])] [2;0]));
  (*4585*) Assign (T 177) (Plain (Einsum [(T 176,[0;1]); (n_t1'bb,[2;0])] [2;1]));
  (*4586*) Assign (T 175) (Plain (Einsum [(T 174,[0;1]); (n_t1'bb,[2;1])] [2;0]));
  (*4587*) Assign (T 172) (Plain (Einsum [(n_t1'aa,[0;1]); (T 28,[1;2])] [0;2]));
  (*4588*) Assign (T 170) (Plain (Einsum [(T 27,[0;1]); (n_t1'aa,[2;1])] [2;0]));
  (*4589*) Assign (T 165) (Plain (Einsum [(T 164,[0;1]); (n_t1'bb,[1;2])] [0;2]));
  (*4590*) Del (T 164);
  (*4591*) Assign (T 162) (Plain (Einsum [(n_t1'aa,[0;1]); (T 161,[2;0])] [2;1]));
  (*4592*) Del (T 161);
  (*4593*) Assign (T 160) (Plain (Einsum [(T 159,[0;1]); (n_t1'bb,[1;2])] [0;2]));
  (*4594*) Del (T 159);
  (*4595*) Assign (T 158) (Plain (Einsum [(T 157,[0;1]); (n_t1'bb,[1;2])] [0;2]));
  (*4596*) Del (T 157);
  (*4597*) Assign (T 155) (Plain (Einsum [(n_t1'aa,[0;1]); (T 154,[2;0])] [2;1]));
  (*4598*) Del (T 154);
  (*4599*) Assign (T 152) (Plain (Einsum [(n_t1'aa,[0;1]); (T 151,[2;0])] [2;1]));
  (*4600*) Del (T 151);
  (*4601*) Assign (T 150) (Plain (Einsum [(n_t2'abab,[0;1;2;3]); (n_v'aabb'ovov,[0;4;5;3])] [1;5;2;4]));
  (*4602*) Assign (T 148) (Plain (Einsum [(n_t2'bbbb,[0;1;2;3]); (n_v'aabb'ovov,[4;5;1;3])] [4;0;5;2]));
  (*4603*) Assign (T 146) (Plain (Einsum [(n_t2'abab,[0;1;2;3]); (n_v'aabb'ovov,[4;5;1;3])] [0;4;2;5]));
  (*4604*) Assign (T 145) (Plain (Einsum [(n_v'aaaa'ovov,[0;1;2;3]); (n_t2'abab,[2;4;1;5])] [0;4;3;5]));
  (*4605*) Assign (T 143) (Plain (Einsum [(n_t2'aaaa,[0;1;2;3]); (n_v'aaaa'ovov,[4;3;1;5])] [0;4;2;5]));
  (*4606*) Assign (T 142) (Plain (Einsum [(n_v'aaaa'ovov,[0;1;2;3]); (n_t2'abab,[2;4;3;5])] [0;4;1;5]));
  (*4607*) Assign (T 140) (Plain (Einsum [(n_t2'aaaa,[0;1;2;3]); (n_v'aaaa'ovov,[4;5;1;3])] [0;4;2;5]));
  (*4608*) Assign (T 138) (Plain (Einsum [(T 137,[0;1]); (n_t1'aa,[1;2])] [0;2]));
  (*4609*) Assign (T 135) (Plain (Einsum [(T 134,[0;1]); (n_t1'bb,[1;2])] [0;2]));
  (*4610*) Assign (T 132) (Plain (Einsum [(T 131,[0;1]); (n_t1'bb,[1;2])] [0;2]));
  (*4611*) Assign (T 129) (Plain (Einsum [(n_t1'aa,[0;1]); (T 128,[2;0])] [2;1]));
  (*4612*) Assign (T 126) (Plain (Einsum [(T 121,[0;1;2;3]); (n_t2'abab,[0;2;4;5])] [1;4;3;5]));
  (*4613*) Assign (T 124) (Plain (Einsum [(T 112,[0;1;2;3]); (n_t2'aaaa,[1;2;4;5])] [0;4;5;3]));
  (*4614*) Assign (T 122) (Plain (Einsum [(T 121,[0;1;2;3]); (n_t2'abab,[0;2;3;4])] [1;4]));
  (*4615*) Assign (T 119) (Plain (Einsum [(n_t2'abab,[0;1;2;3]); (T 118,[4;0;1;3])] [4;2]));
  (*4616*) Assign (T 116) (Plain (Einsum [(n_t2'bbbb,[0;1;2;3]); (T 115,[4;1;0;3])] [4;2]));
  (*4617*) Assign (T 113) (Plain (Einsum [(T 112,[0;1;2;3]); (n_t2'aaaa,[2;1;4;3])] [0;4]));
  (*4618*) Assign (T 104) (Plain (Einsum [(n_t2'bbbb,[0;1;2;3]); (T 36,[1;3])] [0;2]));
  (*4619*) Assign (T 102) (Plain (Einsum [(n_t2'abab,[0;1;2;3]); (T 36,[1;3])] [0;2]));
  (*4620*) Assign (T 101) (Plain (Einsum [(n_t2'abab,[0;1;2;3]); (T 37,[0;2])] [1;3]));
  (*4621*) Assign (T 99) (Plain (Einsum [(T 37,[0;1]); (n_t2'aaaa,[2;0;3;1])] [2;3]));
  (*4622*) Assign (T 97) (Plain (Einsum [(n_t2'bbbb,[0;1;2;3]); (T 34,[1;3])] [0;2]));
  (*4623*) Assign (T 95) (Plain (Einsum [(n_t2'abab,[0;1;2;3]); (T 34,[1;3])] [0;2]));
  (*4624*) Assign (T 93) (Plain (Einsum [(T 90,[0;1]); (n_t2'bbbb,[2;0;3;1])] [2;3]));
  (*4625*) Assign (T 91) (Plain (Einsum [(n_t2'abab,[0;1;2;3]); (T 90,[1;3])] [0;2]));
  (*4626*) Assign (T 89) (Plain (Einsum [(n_t2'abab,[0;1;2;3]); (T 30,[0;2])] [1;3]));
  (*4627*) Assign (T 87) (Plain (Einsum [(T 30,[0;1]); (n_t2'aaaa,[2;0;3;1])] [2;3]));
  (*4628*) Assign (T 86) (Plain (Einsum [(n_t2'abab,[0;1;2;3]); (T 83,[0;2])] [1;3]));
  (*4629*) Assign (T 84) (Plain (Einsum [(T 83,[0;1]); (n_t2'aaaa,[2;0;3;1])] [2;3]));
  (*4630*) Assign (T 82) (Plain (Einsum [(n_t2'abab,[0;1;2;3]); (n_v'aabb'ovvv,[0;4;5;3])] [1;2;4;5]));
  (*4631*) Assign (T 80) (Plain (Einsum [(n_v'aabb'vvov,[0;1;2;3]); (n_t2'bbbb,[4;2;5;3])] [4;0;1;5]));
  (*4632*) Assign (T 78) (Plain (Einsum [(n_t2'abab,[0;1;2;3]); (n_v'aabb'vvov,[4;5;1;3])] [0;2;4;5]));
  (*4633*) Assign (T 77) (Plain (Einsum [(n_v'aaaa'ovvv,[0;1;2;3]); (n_t2'abab,[0;4;3;5])] [4;1;2;5]));
  (*4634*) Assign (T 75) (Plain (Einsum [(n_v'aaaa'ovvv,[0;1;2;3]); (n_t2'aaaa,[4;0;5;3])] [4;5;1;2]));
  (*4635*) Assign (T 74) (Plain (Einsum [(n_t2'abab,[0;1;2;3]); (n_v'aaaa'ovvv,[0;2;4;5])] [1;4;5;3]));
  (*4636*) Assign (T 72) (Plain (Einsum [(n_v'aaaa'ovvv,[0;1;2;3]); (n_t2'aaaa,[4;0;5;1])] [4;5;2;3]));
  (*4637*) Assign (T 70) (Plain (Einsum [(n_t2'abab,[0;1;2;3]); (n_v'aabb'vvov,[4;2;1;3])] [0;4]));
  (*4638*) Assign (T 68) (Plain (Einsum [(n_t2'abab,[0;1;2;3]); (n_v'aabb'ovvv,[0;2;4;3])] [1;4]));
  (*4639*) Assign (T 66) (Times (Einsum [(n_v'bbbb'ovvv,[0;1;2;3]); (n_t2'bbbb,[4;0;3;1])] [4;2]) (-1) 1);
  (*4640*) Assign (T 64) (Plain (Einsum [(n_v'aaaa'ovvv,[0;1;2;3]); (n_t2'aaaa,[4;0;1;3])] [4;2]));
  (*4641*) Assign (T 62) (Plain (Einsum [(n_v'aabb'ovoo,[0;1;2;3]); (n_t2'abab,[0;3;4;5])] [2;4;1;5]));
  (*4642*) Assign (T 60) (Plain (Einsum [(n_v'aaaa'ooov,[0;1;2;3]); (n_t2'aaaa,[1;2;4;5])] [0;4;5;3]));
  (*4643*) Assign (T 58) (Plain (Einsum [(n_t2'abab,[0;1;2;3]); (n_v'aabb'ooov,[4;0;1;3])] [4;2]));
  (*4644*) Assign (T 56) (Plain (Einsum [(n_v'aabb'ovoo,[0;1;2;3]); (n_t2'abab,[0;3;1;4])] [2;4]));
  (*4645*) Assign (T 54) (Plain (Einsum [(n_t2'bbbb,[0;1;2;3]); (n_v'bbbb'ooov,[4;0;1;3])] [4;2]));
  (*4646*) Assign (T 52) (Plain (Einsum [(n_t2'aaaa,[0;1;2;3]); (n_v'aaaa'ooov,[4;0;1;3])] [4;2]));
  (*4647*) Assign (T 50) (Plain (Einsum [(n_t2'abab,[0;1;2;3]); (n_v'aabb'ovov,[0;4;1;3])] [2;4]));
  (*4648*) Assign (T 48) (Times (Einsum [(n_v'aaaa'ovov,[0;1;2;3]); (n_t2'aaaa,[0;2;4;1])] [4;3]) (-1) 1);
  (*4649*) Assign (T 46) (Plain (Einsum [(n_v'aabb'vvvv,[0;1;2;3]); (n_t1'bb,[4;3])] [4;0;1;2]));
  (*4650*) Assign (T 44) (Plain (Einsum [(n_v'aaaa'vvvv,[0;1;2;3]); (n_t1'aa,[4;3])] [4;0;1;2]));
  (*4651*) Assign (T 35) (Plain (Einsum [(n_v'bbbb'oovv,[0;1;2;3]); (n_t1'bb,[1;3])] [0;2]));
  (*4652*) Assign (T 32) (Plain (Einsum [(n_v'aaaa'oovv,[0;1;2;3]); (n_t1'aa,[1;3])] [0;2]));
  (*4653*) Assign (T 24) (Plain (Einsum [(T 23,[0;1]); (n_t1'bb,[0;2])] [1;2]));
  (*4654*) Assign (T 21) (Plain (Einsum [(n_t1'aa,[0;1]); (T 20,[0;2])] [2;1]));
  (*4655*) Assign (T 14) (Plain (Einsum [(n_t2'bbbb,[0;1;2;3]); (n_f'bb'ov,[1;3])] [0;2]));
  (*4656*) Assign (T 12) (Plain (Einsum [(n_t2'abab,[0;1;2;3]); (n_f'bb'ov,[1;3])] [0;2]));
  (*4657*) Assign (T 11) (Plain (Einsum [(n_t2'abab,[0;1;2;3]); (n_f'aa'ov,[0;2])] [1;3]));
  (*4658*) Assign (T 9) (Plain (Einsum [(n_t2'aaaa,[0;1;2;3]); (n_f'aa'ov,[1;3])] [0;2]));
  (*4659*) Assign (T 8) (Plain (Einsum [(n_f'bb'vv,[0;1]); (n_t1'bb,[2;1])] [2;0]));
  (*4660*) Assign (T 6) (Plain (Einsum [(n_f'aa'vv,[0;1]); (n_t1'aa,[2;1])] [2;0]));
  (*4661*) Assign (T 5) (Plain (Einsum [(n_t1'bb,[0;1]); (n_f'bb'oo,[2;0])] [2;1]));
  (*4662*) Assign (T 3) (Plain (Einsum [(n_f'aa'oo,[0;1]); (n_t1'aa,[1;2])] [0;2]))]
 [(T 11,[6;7]); (T 101,[6;7]); (T 102,[4;5]); (T 104,[6;7]); (T 12,[4;5]); (T 112,[4;4;4;5]); (T 113,[4;5]); (T 115,[6;6;6;7]); (T 116,[6;7]); (T 118,[4;4;6;7]); (T 119,[4;5]); (T 121,[4;6;6;5]); (T 122,[6;7]); (T 124,[4;5;5;5]); (T 126,[6;5;5;7]); (T 128,[4;4]); (T 129,[4;5]); (T 14,[6;7]); (T 131,[6;6]); (T 132,[6;7]); (T 134,[6;6]); (T 135,[6;7]); (T 137,[4;4]); (T 138,[4;5]); (T 140,[4;4;5;5]); (T 142,[4;6;5;7]); (T 143,[4;4;5;5]); (T 145,[4;6;5;7]); (T 146,[4;4;5;5]); (T 148,[4;6;5;7]); (T 150,[6;6;5;5]); (T 152,[4;5]); (T 155,[4;5]); (T 158,[6;7]); (T 160,[6;7]); (T 162,[4;5]); (T 165,[6;7]); (T 170,[4;5]); (T 172,[4;5]); (T 174,[7;7]); (T 175,[6;7]); (T 176,[7;7]); (T 177,[6;7]); (T 178,[7;7]); (T 179,[6;7]); (T 180,[4;5]); (T 182,[4;4;5;5]); (T 184,[4;4;5;5]); (T 186,[6;6;5;5]); (T 187,[4;6;5;7]); (T 189,[4;5]); (T 20,[4;4]); (T 192,[4;5]); (T 195,[6;7]); (T 197,[6;7]); (T 199,[4;5]); (T 3,[4;5]); (T 21,[4;5]); (T 202,[6;7]); (T 23,[6;6]); (T 227,[6;7;7;7]); (T 229,[4;5;7;7]); (T 24,[6;7]); (T 231,[7;7]); (T 233,[7;7]); (T 239,[6;7;7;7]); (T 241,[4;5;7;7]); (T 247,[4;5;7;7]); (T 248,[6;7;7;7]); (T 250,[4;5;7;7]); (T 251,[6;7;7;7]); (T 253,[4;5;7;7]); (T 255,[6;7;7;7]); (T 257,[4;5;7;7]); (T 27,[5;5]); (T 28,[5;5]); (T 277,[6;7;7;7]); (T 279,[4;5;7;7]); (T 29,[5;5]); (T 285,[4;6;5;7]); (T 286,[6;6;7;7]); (T 288,[4;6;5;7]); (T 289,[6;6;7;7]); (T 30,[4;5]); (T 291,[4;6;5;7]); (T 293,[6;6;7;7]); (T 295,[4;4;7;7]); (T 306,[6;6;7;7]); (T 308,[6;6;7;7]); (T 310,[4;4;7;7]); (T 32,[4;5]); (T 311,[4;6;5;7]); (T 34,[6;7]); (T 35,[6;7]); (T 36,[6;7]); (T 37,[4;5]); (T 5,[6;7]); (T 44,[4;5;5;5]); (T 46,[6;5;5;7]); (T 48,[5;5]); (T 50,[5;5]); (T 6,[4;5]); (T 52,[4;5]); (T 54,[6;7]); (T 56,[6;7]); (T 58,[4;5]); (T 60,[4;5;5;5]); (T 62,[6;5;5;7]); (T 64,[4;5]); (T 66,[6;7]); (T 68,[6;7]); (T 70,[4;5]); (T 8,[6;7]); (T 72,[4;5;5;5]); (T 74,[6;5;5;7]); (T 75,[4;5;5;5]); (T 77,[6;5;5;7]); (T 78,[4;5;5;5]); (T 80,[6;5;5;7]); (T 9,[4;5]); (T 82,[6;5;5;7]); (T 83,[4;5]); (T 84,[4;5]); (T 86,[6;7]); (T 87,[4;5]); (T 89,[6;7]); (T 90,[6;7]); (T 91,[4;5]); (T 93,[6;7]); (T 95,[4;5]); (T 97,[6;7]); (T 99,[4;5])].

(** ebcc/codegen/UCC2.py:4666-5277 [hbar_lmatvec_ea] *)
Definition UCC2_hbar_lmatvec_ea : prog := mkprog
 [(n_r2'bbb,[7;7;6]); (n_t2'bbbb,[6;6;7;7]); (n_t2'abab,[4;6;5;7]); (n_r2'aba,[5;7;4]); (n_t1'bb,[6;7]); (IT 285,[4;6;5;7]); (IT 291,[4;6;5;7]); (IT 231,[7;7]); (IT 233,[7;7]); (n_f'bb'vv,[7;7]); (IT 286,[6;6;7;7]); (IT 293,[6;6;7;7]); (n_r2'bab,[7;5;6]); (n_r2'aaa,[5;5;4]); (n_t1'aa,[4;5]); (IT 48,[5;5]); (IT 50,[5;5]); (n_f'aa'vv,[5;5]); (IT 140,[4;4;5;5]); (IT 146,[4;4;5;5]); (IT 142,[4;6;5;7]); (IT 148,[4;6;5;7]); (n_t2'aaaa,[4;4;5;5]); (IT 289,[6;6;7;7]); (n_f'bb'ov,[6;7]); (n_v'bbbb'ovov,[6;7;6;7]); (n_v'aabb'ovov,[4;5;6;7]); (IT 288,[4;6;5;7]); (n_v'bbbb'oovv,[6;6;7;7]); (n_r1'b,[7]); (n_v'bbbb'ovvv,[6;7;7;7]); (n_f'aa'ov,[4;5]); (IT 145,[4;6;5;7]); (n_v'aaaa'ovov,[4;5;4;5]); (IT 143,[4;4;5;5]); (n_v'aaaa'oovv,[4;4;5;5]); (n_v'aaaa'ovvv,[4;5;5;5]); (n_r1'a,[5]); (n_f'bb'oo,[6;6]); (IT 131,[6;6]); (IT 134,[6;6]); (IT 23,[6;6]); (IT 150,[6;6;5;5]); (n_v'aabb'vvoo,[5;5;6;6]); (IT 295,[4;4;7;7]); (n_v'aabb'oovv,[4;4;7;7]); (n_f'aa'oo,[4;4]); (IT 128,[4;4]); (IT 137,[4;4]); (IT 20,[4;4]); (IT 308,[6;6;7;7]); (IT 306,[6;6;7;7]); (IT 34,[6;7]); (IT 36,[6;7]); (IT 90,[6;7]); (IT 311,[4;6;5;7]); (IT 176,[7;7]); (IT 174,[7;7]); (IT 178,[7;7]); (IT 113,[4;5]); (IT 119,[4;5]); (IT 129,[4;5]); (IT 138,[4;5]); (IT 155,[4;5]); (IT 162,[4;5]); (IT 172,[4;5]); (IT 192,[4;5]); (IT 199,[4;5]); (IT 21,[4;5]); (IT 3,[4;5]); (IT 32,[4;5]); (IT 52,[4;5]); (IT 58,[4;5]); (IT 64,[4;5]); (IT 84,[4;5]); (IT 91,[4;5]); (IT 102,[4;5]); (IT 12,[4;5]); (IT 152,[4;5]); (IT 170,[4;5]); (IT 180,[4;5]); (IT 189,[4;5]); (IT 30,[4;5]); (IT 37,[4;5]); (IT 6,[4;5]); (IT 70,[4;5]); (IT 87,[4;5]); (IT 9,[4;5]); (IT 95,[4;5]); (IT 99,[4;5]); (IT 229,[4;5;7;7]); (IT 241,[4;5;7;7]); (IT 247,[4;5;7;7]); (IT 253,[4;5;7;7]); (IT 279,[4;5;7;7]); (n_v'aabb'ovvv,[4;5;7;7]); (IT 250,[4;5;7;7]); (IT 257,[4;5;7;7]); (IT 118,[4;4;6;7]); (n_v'aabb'ooov,[4;4;6;7]); (IT 115,[6;6;6;7]); (n_v'bbbb'ooov,[6;6;6;7]); (IT 116,[6;7]); (IT 122,[6;7]); (IT 132,[6;7]); (IT 135,[6;7]); (IT 160,[6;7]); (IT 165,[6;7]); (IT 177,[6;7]); (IT 197,[6;7]); (IT 202,[6;7]); (IT 24,[6;7]); (IT 35,[6;7]); (IT 5,[6;7]); (IT 54,[6;7]); (IT 56,[6;7]); (IT 66,[6;7]); (IT 86,[6;7]); (IT 93,[6;7]); (IT 101,[6;7]); (IT 104,[6;7]); (IT 11,[6;7]); (IT 14,[6;7]); (IT 158,[6;7]); (IT 175,[6;7]); (IT 179,[6;7]); (IT 195,[6;7]); (IT 68,[6;7]); (IT 8,[6;7]); (IT 89,[6;7]); (IT 97,[6;7]); (IT 239,[6;7;7;7]); (IT 248,[6;7;7;7]); (IT 255,[6;7;7;7]); (IT 227,[6;7;7;7]); (IT 251,[6;7;7;7]); (IT 277,[6;7;7;7]); (IT 310,[4;4;7;7]); (IT 28,[5;5]); (IT 27,[5;5]); (IT 29,[5;5]); (IT 112,[4;4;4;5]); (n_v'aaaa'ooov,[4;4;4;5]); (IT 187,[4;6;5;7]); (IT 83,[4;5]); (IT 186,[6;6;5;5]); (IT 121,[4;6;6;5]); (n_v'aabb'ovoo,[4;5;6;6]); (IT 184,[4;4;5;5]); (IT 182,[4;4;5;5]); (IT 126,[6;5;5;7]); (IT 46,[6;5;5;7]); (IT 62,[6;5;5;7]); (IT 74,[6;5;5;7]); (IT 80,[6;5;5;7]); (n_v'aabb'vvov,[5;5;6;7]); (IT 77,[6;5;5;7]); (IT 82,[6;5;5;7]); (IT 60,[4;5;5;5]); (IT 72,[4;5;5;5]); (IT 78,[4;5;5;5]); (IT 124,[4;5;5;5]); (IT 44,[4;5;5;5]); (IT 75,[4;5;5;5]); (n_v'bbbb'vvvv,[7;7;7;7]); (n_v'aabb'vvvv,[5;5;7;7]); (n_v'aaaa'vvvv,[5;5;5;5])]
 [(*4696*) Assign (T 35) (Plain (Einsum [(n_r2'bbb,[0;1;2]); (n_t2'bbbb,[3;2;0;1])] [3]));
  (*4697*) Assign (T 34) (Plain (Einsum [(n_t2'abab,[0;1;2;3]); (n_r2'aba,[2;3;0])] [1]));
  (*4698*) Assign (T 22) (Plain (Einsum [(n_r2'bbb,[0;1;2]); (n_t1'bb,[3;1])] [2;3;0]));
  (*4699*) Assign (T 86) (Plain (Copy (IT 285)));
  (*4700*) AddTo (T 86) (Times (Copy (IT 291)) (2) 1);
  (*4701*) Assign (T 65) (Times (Copy (T 34)) (-1) 2);
  (*4702*) AddTo (T 65) (Plain (Copy (T 35)));
  (*4703*) Assign (T 79) (Plain (Copy (IT 231)));
  (*4704*) AddTo (T 79) (Times (Copy (IT 233)) (1) 2);
  (*4705*) AddTo (T 79) (Times (Copy n_f'bb'vv) (-1) 2);
  (*4706*) Assign (T 77) (Times (Copy (IT 286)) (2) 1);
  (*4707*) AddTo (T 77) (Plain (Copy (IT 293)));
  (*4708*) Assign (T 17) (Times (Einsum [(n_t2'abab,[0;1;2;3]); (n_r2'bab,[3;2;1])] [0]) (-1) 1);
  (*4709*) Assign (T 3) (Plain (Einsum [(n_r2'aaa,[0;1;2]); (n_t1'aa,[3;1])] [2;3;0]));
  (*4710*) Assign (T 46) (Plain (Copy (IT 48)));
  (*4711*) AddTo (T 46) (Times (Copy (IT 50)) (1) 2);
  (*4712*) AddTo (T 46) (Times (Copy n_f'aa'vv) (-1) 2);
  (*4713*) Assign (T 42) (Times (Copy (IT 140)) (2) 1);
  (*4714*) AddTo (T 42) (Plain (Copy (IT 146)));
  (*4715*) Assign (T 44) (Times (Copy (IT 142)) (1) 2);
  (*4716*) AddTo (T 44) (Plain (Copy (IT 148)));
  (*4717*) Assign (T 16) (Plain (Einsum [(n_t2'aaaa,[0;1;2;3]); (n_r2'aaa,[2;3;1])] [0]));
  (*4718*) Assign (T 83) (Plain (Einsum [(IT 289,[0;1;2;3]); (n_r2'bbb,[4;2;0])] [1;3;4]));
  (*4719*) Assign (T 85) (Plain (Einsum [(n_f'bb'ov,[0;1]); (T 22,[2;0;3])] [2;1;3]));
  (*4720*) Assign (T 84) (Plain (Einsum [(n_v'bbbb'ovov,[0;1;2;3]); (n_r2'bbb,[4;3;2])] [0;4;1]));
  (*4721*) Assign (T 87) (Plain (Einsum [(T 86,[0;1;2;3]); (n_r2'aba,[2;4;0])] [1;4;3]));
  (*4722*) Del (T 86);
  (*4723*) Assign (T 75) (Plain (Einsum [(n_v'aabb'ovov,[0;1;2;3]); (n_r2'aba,[1;4;0])] [2;4;3]));
  (*4724*) Assign (T 81) (Times (Einsum [(n_v'bbbb'ovov,[0;1;2;3]); (T 65,[2])] [0;3;1]) (2) 1);
  (*4725*) Assign (T 74) (Plain (Einsum [(IT 288,[0;1;2;3]); (n_r2'aba,[2;4;0])] [1;3;4]));
  (*4726*) Assign (T 80) (Times (Einsum [(n_r2'bbb,[0;1;2]); (T 79,[1;3])] [2;0;3]) (-4) 1);
  (*4727*) Del (T 79);
  (*4728*) Assign (T 76) (Plain (Einsum [(n_r2'bbb,[0;1;2]); (n_v'bbbb'oovv,[3;2;4;1])] [3;0;4]));
  (*4729*) Assign (T 78) (Times (Einsum [(n_r2'bbb,[0;1;2]); (T 77,[2;3;1;4])] [3;0;4]) (-2) 1);
  (*4730*) Del (T 77);
  (*4731*) Assign (T 73) (Plain (Einsum [(n_r1'b,[0]); (n_v'bbbb'ovvv,[1;2;3;0])] [1;2;3]));
  (*4732*) Assign (T 63) (Plain (Einsum [(n_t1'bb,[0;1]); (n_f'bb'ov,[0;2])] [2;1]));
  (*4733*) Assign (T 61) (Plain (Einsum [(n_t1'aa,[0;1]); (n_f'aa'ov,[0;2])] [2;1]));
  (*4734*) Assign (T 52) (Times (Einsum [(n_r2'bab,[0;1;2]); (IT 145,[3;2;4;0])] [3;4;1]) (-1) 1);
  (*4735*) Assign (T 54) (Plain (Einsum [(n_v'aaaa'ovov,[0;1;2;3]); (T 17,[2])] [0;1;3]));
  (*4736*) Assign (T 51) (Plain (Einsum [(T 3,[0;1;2]); (n_f'aa'ov,[1;3])] [0;3;2]));
  (*4737*) Assign (T 50) (Plain (Einsum [(n_r2'aaa,[0;1;2]); (n_v'aaaa'ovov,[3;4;2;1])] [3;0;4]));
  (*4738*) Assign (T 53) (Times (Einsum [(n_v'aabb'ovov,[0;1;2;3]); (n_r2'bab,[3;4;2])] [0;4;1]) (-1) 1);
  (*4739*) Assign (T 49) (Plain (Einsum [(IT 143,[0;1;2;3]); (n_r2'aaa,[4;2;0])] [1;3;4]));
  (*4740*) Assign (T 40) (Plain (Einsum [(n_v'aaaa'oovv,[0;1;2;3]); (n_r2'aaa,[4;3;1])] [0;4;2]));
  (*4741*) Assign (T 47) (Times (Einsum [(T 46,[0;1]); (n_r2'aaa,[2;0;3])] [3;2;1]) (-4) 1);
  (*4742*) Del (T 46);
  (*4743*) Assign (T 43) (Times (Einsum [(n_r2'aaa,[0;1;2]); (T 42,[2;3;1;4])] [3;0;4]) (-2) 1);
  (*4744*) Del (T 42);
  (*4745*) Assign (T 39) (Plain (Einsum [(n_v'aaaa'ovvv,[0;1;2;3]); (n_r1'a,[3])] [0;1;2]));
  (*4746*) Assign (T 45) (Times (Einsum [(T 44,[0;1;2;3]); (n_r2'bab,[3;4;1])] [0;4;2]) (-2) 1);
  (*4747*) Del (T 44);
  (*4748*) Assign (T 41) (Times (Einsum [(T 16,[0]); (n_v'aaaa'ovov,[1;2;0;3])] [1;2;3]) (-1) 1);
  (*4749*) Assign (T 26) (Plain (Einsum [(n_t1'aa,[0;1]); (n_r2'aba,[1;2;3])] [3;0;2]));
  (*4750*) Assign (T 7) (Times (Einsum [(n_r2'bab,[0;1;2]); (n_t1'bb,[3;0])] [2;3;1]) (-1) 1);
  (*4751*) Assign (T 70) (Plain (Copy n_f'bb'oo));
  (*4752*) AddTo (T 70) (Times (Copy (IT 131)) (2) 1);
  (*4753*) Del (IT 131);
  (*4754*) AddTo (T 70) (Plain (Copy (IT 134)));
  (*4755*) Del (IT 134);
  (*4756*) AddTo (T 70) (Plain (Transpose (IT 23) [1;0]));
  (*4757*) Del (IT 23);
  (*4758*) Assign (T 88) (Times (Copy (T 83)) (4) 1);
  (*4759*) Del (T 83);
  (*4760*) AddTo (T 88) (Times (Copy (T 84)) (2) 1);
  (*4761*) Del (T 84);
  (*4762*) AddTo (T 88) (Times (Copy (T 85)) (2) 1);
  (*4763*) Del (T 85);
  (*4764*) AddTo (T 88) (Plain (Transpose (T 87) [0;2;1]));
  (*4765*) Del (T 87);
  (*4766*) Assign (T 82) (Plain (Einsum [(n_r1'b,[0]); (n_f'bb'ov,[1;2])] [1;2;0]));
  (*4767*) AddTo (T 82) (Plain (Copy (T 73)));
  (*4768*) Del (T 73);
  (*4769*) AddTo (T 82) (Plain (Copy (T 74)));
  (*4770*) Del (T 74);
  (*4771*) AddTo (T 82) (Plain (Copy (T 75)));
  (*4772*) Del (T 75);
  (*4773*) AddTo (T 82) (Times (Copy (T 76)) (2) 1);
  (*4774*) Del (T 76);
  (*4775*) AddTo (T 82) (Times (Transpose (T 78) [0;2;1]) (-1) 1);
  (*4776*) Del (T 78);
  (*4777*) AddTo (T 82) (Plain (Transpose (T 80) [0;2;1]));
  (*4778*) Del (T 80);
  (*4779*) AddTo (T 82) (Times (Transpose (T 81) [0;2;1]) (-1) 1);
  (*4780*) Del (T 81);
  (*4781*) Assign (T 72) (Plain (Einsum [(n_t2'bbbb,[0;1;2;3]); (n_r2'bbb,[2;3;4])] [4;0;1]));
  (*4782*) Assign (T 64) (Times (Copy (IT 231)) (2) 1);
  (*4783*) AddTo (T 64) (Plain (Copy (IT 233)));
  (*4784*) AddTo (T 64) (Times (Copy n_f'bb'vv) (-1) 1);
  (*4785*) AddTo (T 64) (Plain (Transpose (T 63) [1;0]));
  (*4786*) Del (T 63);
  (*4787*) Assign (T 67) (Times (Copy (IT 286)) (2) 1);
  (*4788*) AddTo (T 67) (Plain (Copy (IT 293)));
  (*4789*) AddTo (T 67) (Plain (Transpose n_v'bbbb'ovov [0;2;1;3]));
  (*4790*) AddTo (T 67) (Times (Copy (IT 289)) (-2) 1);
  (*4791*) AddTo (T 67) (Times (Copy n_v'bbbb'oovv) (-1) 1);
  (*4792*) Assign (T 66) (Times (Einsum [(n_t2'abab,[0;1;2;3]); (n_r2'bab,[3;2;4])] [0;4;1]) (-1) 1);
  (*4793*) Assign (T 62) (Times (Copy (IT 48)) (2) 1);
  (*4794*) AddTo (T 62) (Plain (Copy (IT 50)));
  (*4795*) AddTo (T 62) (Times (Copy n_f'aa'vv) (-1) 1);
  (*4796*) AddTo (T 62) (Plain (Transpose (T 61) [1;0]));
  (*4797*) Del (T 61);
  (*4798*) Assign (T 71) (Plain (Copy (T 16)));
  (*4799*) AddTo (T 71) (Times (Copy (T 17)) (1) 2);
  (*4800*) Assign (T 68) (Plain (Copy (IT 285)));
  (*4801*) AddTo (T 68) (Times (Copy (IT 291)) (2) 1);
  (*4802*) AddTo (T 68) (Plain (Transpose n_v'aabb'ovov [0;2;1;3]));
  (*4803*) AddTo (T 68) (Times (Copy (IT 288)) (-1) 1);
  (*4804*) Assign (T 69) (Plain (Copy (IT 150)));
  (*4805*) AddTo (T 69) (Times (Transpose n_v'aabb'vvoo [2;3;0;1]) (-1) 1);
  (*4806*) Assign (T 57) (Plain (Einsum [(n_t2'abab,[0;1;2;3]); (n_r2'aba,[2;3;4])] [4;0;1]));
  (*4807*) Assign (T 60) (Plain (Copy (IT 295)));
  (*4808*) AddTo (T 60) (Times (Copy n_v'aabb'oovv) (-1) 1);
  (*4809*) Assign (T 56) (Plain (Copy n_f'aa'oo));
  (*4810*) AddTo (T 56) (Times (Copy (IT 128)) (2) 1);
  (*4811*) Del (IT 128);
  (*4812*) AddTo (T 56) (Plain (Copy (IT 137)));
  (*4813*) Del (IT 137);
  (*4814*) AddTo (T 56) (Plain (Transpose (IT 20) [1;0]));
  (*4815*) Del (IT 20);
  (*4816*) Assign (T 59) (Plain (Copy (IT 142)));
  (*4817*) AddTo (T 59) (Times (Copy (IT 148)) (2) 1);
  (*4818*) AddTo (T 59) (Plain (Transpose n_v'aabb'ovov [0;2;1;3]));
  (*4819*) AddTo (T 59) (Times (Copy (IT 145)) (-1) 1);
  (*4820*) Assign (T 58) (Times (Copy (IT 140)) (2) 1);
  (*4821*) AddTo (T 58) (Plain (Copy (IT 146)));
  (*4822*) AddTo (T 58) (Plain (Transpose n_v'aaaa'ovov [0;2;1;3]));
  (*4823*) AddTo (T 58) (Times (Copy (IT 143)) (-2) 1);
  (*4824*) AddTo (T 58) (Times (Copy n_v'aaaa'oovv) (-1) 1);
  (*4825*) Assign (T 55) (Times (Copy (T 49)) (4) 1);
  (*4826*) Del (T 49);
  (*4827*) AddTo (T 55) (Times (Copy (T 50)) (2) 1);
  (*4828*) Del (T 50);
  (*4829*) AddTo (T 55) (Times (Copy (T 51)) (2) 1);
  (*4830*) Del (T 51);
  (*4831*) AddTo (T 55) (Plain (Copy (T 52)));
  (*4832*) Del (T 52);
  (*4833*) AddTo (T 55) (Plain (Copy (T 53)));
  (*4834*) Del (T 53);
  (*4835*) AddTo (T 55) (Plain (Copy (T 54)));
  (*4836*) Del (T 54);
  (*4837*) Assign (T 48) (Plain (Einsum [(n_f'aa'ov,[0;1]); (n_r1'a,[2])] [0;1;2]));
  (*4838*) AddTo (T 48) (Plain (Copy (T 39)));
  (*4839*) Del (T 39);
  (*4840*) AddTo (T 48) (Times (Copy (T 40)) (2) 1);
  (*4841*) Del (T 40);
  (*4842*) AddTo (T 48) (Times (Copy (T 41)) (2) 1);
  (*4843*) Del (T 41);
  (*4844*) AddTo (T 48) (Times (Transpose (T 43) [0;2;1]) (-1) 1);
  (*4845*) Del (T 43);
  (*4846*) AddTo (T 48) (Plain (Transpose (T 45) [0;2;1]));
  (*4847*) Del (T 45);
  (*4848*) AddTo (T 48) (Plain (Transpose (T 47) [0;2;1]));
  (*4849*) Del (T 47);
  (*4850*) Assign (T 38) (Plain (Einsum [(n_t2'aaaa,[0;1;2;3]); (n_r2'aaa,[2;3;4])] [4;0;1]));
  (*4851*) Assign (T 23) (Times (Copy (IT 286)) (2) 1);
  (*4852*) Del (IT 286);
  (*4853*) AddTo (T 23) (Plain (Copy (IT 293)));
  (*4854*) Del (IT 293);
  (*4855*) AddTo (T 23) (Plain (Transpose (IT 308) [0;1;3;2]));
  (*4856*) Del (IT 308);
  (*4857*) AddTo (T 23) (Plain (Transpose n_v'bbbb'ovov [0;2;1;3]));
  (*4858*) AddTo (T 23) (Times (Copy (IT 289)) (-2) 1);
  (*4859*) Del (IT 289);
  (*4860*) AddTo (T 23) (Times (Transpose (IT 306) [0;1;3;2]) (-1) 1);
  (*4861*) Del (IT 306);
  (*4862*) AddTo (T 23) (Times (Copy n_v'bbbb'oovv) (-1) 1);
  (*4863*) Assign (T 37) (Plain (Copy n_f'bb'ov));
  (*4864*) AddTo (T 37) (Plain (Copy (IT 34)));
  (*4865*) AddTo (T 37) (Plain (Copy (IT 36)));
  (*4866*) AddTo (T 37) (Times (Copy (IT 90)) (-1) 1);
  (*4867*) Del (IT 90);
  (*4868*) Assign (T 25) (Plain (Copy (IT 285)));
  (*4869*) Del (IT 285);
  (*4870*) AddTo (T 25) (Times (Copy (IT 291)) (2) 1);
  (*4871*) Del (IT 291);
  (*4872*) AddTo (T 25) (Plain (Copy (IT 311)));
  (*4873*) Del (IT 311);
  (*4874*) AddTo (T 25) (Plain (Transpose n_v'aabb'ovov [0;2;1;3]));
  (*4875*) AddTo (T 25) (Times (Copy (IT 288)) (-1) 1);
  (*4876*) Del (IT 288);
  (*4877*) Assign (T 24) (Plain (Einsum [(n_r2'aba,[0;1;2]); (n_t1'bb,[3;1])] [2;3;0]));
  (*4878*) Assign (T 33) (Plain (Transpose (IT 176) [1;0]));
  (*4879*) Del (IT 176);
  (*4880*) AddTo (T 33) (Times (Copy (IT 231)) (2) 1);
  (*4881*) Del (IT 231);
  (*4882*) AddTo (T 33) (Plain (Copy (IT 233)));
  (*4883*) Del (IT 233);
  (*4884*) AddTo (T 33) (Times (Copy n_f'bb'vv) (-1) 1);
  (*4885*) AddTo (T 33) (Times (Transpose (IT 174) [1;0]) (-1) 1);
  (*4886*) Del (IT 174);
  (*4887*) AddTo (T 33) (Times (Transpose (IT 178) [1;0]) (-1) 1);
  (*4888*) Del (IT 178);
  (*4889*) Assign (T 36) (Plain (Einsum [(n_r1'b,[0]); (n_t1'bb,[1;0])] [1]));
  (*4890*) AddTo (T 36) (Times (Copy (T 34)) (-1) 1);
  (*4891*) Del (T 34);
  (*4892*) AddTo (T 36) (Times (Copy (T 35)) (2) 1);
  (*4893*) Del (T 35);
  (*4894*) Assign (T 10) (Plain (Copy (IT 113)));
  (*4895*) Del (IT 113);
  (*4896*) AddTo (T 10) (Times (Copy (IT 119)) (1) 2);
  (*4897*) Del (IT 119);
  (*4898*) AddTo (T 10) (Plain (Copy (IT 129)));
  (*4899*) Del (IT 129);
  (*4900*) AddTo (T 10) (Times (Copy (IT 138)) (1) 2);
  (*4901*) Del (IT 138);
  (*4902*) AddTo (T 10) (Times (Copy (IT 155)) (1) 2);
  (*4903*) Del (IT 155);
  (*4904*) AddTo (T 10) (Times (Copy (IT 162)) (1) 2);
  (*4905*) Del (IT 162);
  (*4906*) AddTo (T 10) (Times (Copy (IT 172)) (1) 2);
  (*4907*) Del (IT 172);
  (*4908*) AddTo (T 10) (Times (Copy (IT 192)) (1) 2);
  (*4909*) Del (IT 192);
  (*4910*) AddTo (T 10) (Times (Copy (IT 199)) (1) 2);
  (*4911*) Del (IT 199);
  (*4912*) AddTo (T 10) (Times (Copy (IT 21)) (1) 2);
  (*4913*) Del (IT 21);
  (*4914*) AddTo (T 10) (Times (Copy (IT 3)) (1) 2);
  (*4915*) Del (IT 3);
  (*4916*) AddTo (T 10) (Times (Copy (IT 32)) (1) 2);
  (*4917*) Del (IT 32);
  (*4918*) AddTo (T 10) (Plain (Copy (IT 52)));
  (*4919*) Del (IT 52);
  (*4920*) AddTo (T 10) (Times (Copy (IT 58)) (1) 2);
  (*4921*) Del (IT 58);
  (*4922*) AddTo (T 10) (Plain (Copy (IT 64)));
  (*4923*) Del (IT 64);
  (*4924*) AddTo (T 10) (Plain (Copy (IT 84)));
  (*4925*) Del (IT 84);
  (*4926*) AddTo (T 10) (Times (Copy (IT 91)) (1) 2);
  (*4927*) Del (IT 91);
  (*4928*) AddTo (T 10) (Times (Copy n_f'aa'ov) (-1) 2);
  (*4929*) AddTo (T 10) (Times (Copy (IT 102)) (-1) 2);
  (*4930*) Del (IT 102);
  (*4931*) AddTo (T 10) (Times (Copy (IT 12)) (-1) 2);
  (*4932*) Del (IT 12);
  (*4933*) AddTo (T 10) (Times (Copy (IT 152)) (-1) 2);
  (*4934*) Del (IT 152);
  (*4935*) AddTo (T 10) (Times (Copy (IT 170)) (-1) 2);
  (*4936*) Del (IT 170);
  (*4937*) AddTo (T 10) (Times (Copy (IT 180)) (-1) 2);
  (*4938*) Del (IT 180);
  (*4939*) AddTo (T 10) (Times (Copy (IT 189)) (-1) 2);
  (*4940*) Del (IT 189);
  (*4941*) AddTo (T 10) (Times (Copy (IT 30)) (-1) 2);
  (*4942*) AddTo (T 10) (Times (Copy (IT 37)) (-1) 2);
  (*4943*) AddTo (T 10) (Times (Copy (IT 6)) (-1) 2);
  (*4944*) Del (IT 6);
  (*4945*) AddTo (T 10) (Times (Copy (IT 70)) (-1) 2);
  (*4946*) Del (IT 70);
  (*4947*) AddTo (T 10) (Times (Copy (IT 87)) (-1) 1);
  (*4948*) Del (IT 87);
  (*4949*) AddTo (T 10) (Times (Copy (IT 9)) (-1) 1);
  (*4950*) Del (IT 9);
  (*4951*) AddTo (T 10) (Times (Copy (IT 95)) (-1) 2);
  (*4952*) Del (IT 95);
  (*4953*) AddTo (T 10) (Times (Copy (IT 99)) (-1) 1);
  (*4954*) Del (IT 99);
  (*4955*) Assign (T 20) (Plain (Copy (IT 229)));
  (*4956*) Del (IT 229);
  (*4957*) AddTo (T 20) (Plain (Transpose (IT 241) [0;1;3;2]));
  (*4958*) Del (IT 241);
  (*4959*) AddTo (T 20) (Plain (Copy (IT 247)));
  (*4960*) Del (IT 247);
  (*4961*) AddTo (T 20) (Times (Copy (IT 253)) (2) 1);
  (*4962*) Del (IT 253);
  (*4963*) AddTo (T 20) (Plain (Transpose (IT 279) [0;1;3;2]));
  (*4964*) Del (IT 279);
  (*4965*) AddTo (T 20) (Plain (Copy n_v'aabb'ovvv));
  (*4966*) AddTo (T 20) (Times (Copy (IT 250)) (-1) 1);
  (*4967*) Del (IT 250);
  (*4968*) AddTo (T 20) (Times (Transpose (IT 257) [0;1;3;2]) (-1) 1);
  (*4969*) Del (IT 257);
  (*4970*) Assign (T 32) (Plain (Copy (IT 118)));
  (*4971*) Del (IT 118);
  (*4972*) AddTo (T 32) (Plain (Copy n_v'aabb'ooov));
  (*4973*) Assign (T 31) (Plain (Einsum [(T 26,[0;1;2]); (n_t1'bb,[3;2])] [0;1;3]));
  (*4974*) Assign (T 29) (Times (Einsum [(n_t1'bb,[0;1]); (T 22,[2;3;1])] [2;3;0]) (-1) 1);
  (*4975*) Assign (T 30) (Plain (Copy (IT 115)));
  (*4976*) Del (IT 115);
  (*4977*) AddTo (T 30) (Times (Copy n_v'bbbb'ooov) (-1) 1);
  (*4978*) Assign (T 28) (Times (Copy (IT 116)) (2) 1);
  (*4979*) AddTo (T 28) (Plain (Copy (IT 122)));
  (*4980*) AddTo (T 28) (Times (Copy (IT 132)) (2) 1);
  (*4981*) AddTo (T 28) (Plain (Copy (IT 135)));
  (*4982*) AddTo (T 28) (Plain (Copy (IT 160)));
  (*4983*) AddTo (T 28) (Plain (Copy (IT 165)));
  (*4984*) AddTo (T 28) (Plain (Copy (IT 177)));
  (*4985*) AddTo (T 28) (Plain (Copy (IT 197)));
  (*4986*) AddTo (T 28) (Plain (Copy (IT 202)));
  (*4987*) AddTo (T 28) (Plain (Copy (IT 24)));
  (*4988*) AddTo (T 28) (Plain (Copy (IT 35)));
  (*4989*) AddTo (T 28) (Plain (Copy (IT 5)));
  (*4990*) AddTo (T 28) (Times (Copy (IT 54)) (2) 1);
  (*4991*) AddTo (T 28) (Plain (Copy (IT 56)));
  (*4992*) AddTo (T 28) (Times (Copy (IT 66)) (2) 1);
  (*4993*) AddTo (T 28) (Plain (Copy (IT 86)));
  (*4994*) AddTo (T 28) (Times (Copy (IT 93)) (2) 1);
  (*4995*) AddTo (T 28) (Times (Copy n_f'bb'ov) (-1) 1);
  (*4996*) AddTo (T 28) (Times (Copy (IT 101)) (-1) 1);
  (*4997*) AddTo (T 28) (Times (Copy (IT 104)) (-2) 1);
  (*4998*) AddTo (T 28) (Times (Copy (IT 11)) (-1) 1);
  (*4999*) AddTo (T 28) (Times (Copy (IT 14)) (-2) 1);
  (*5000*) AddTo (T 28) (Times (Copy (IT 158)) (-1) 1);
  (*5001*) AddTo (T 28) (Times (Copy (IT 175)) (-1) 1);
  (*5002*) AddTo (T 28) (Times (Copy (IT 179)) (-1) 1);
  (*5003*) AddTo (T 28) (Times (Copy (IT 195)) (-1) 1);
  (*5004*) AddTo (T 28) (Times (Copy (IT 34)) (-1) 1);
  (*5005*) AddTo (T 28) (Times (Copy (IT 36)) (-1) 1);
  (*5006*) AddTo (T 28) (Times (Copy (IT 68)) (-1) 1);
  (*5007*) AddTo (T 28) (Times (Copy (IT 8)) (-1) 1);
  (*5008*) AddTo (T 28) (Times (Copy (IT 89)) (-1) 1);
  (*5009*) AddTo (T 28) (Times (Copy (IT 97)) (-2) 1);
  (*5010*) Assign (T 21) (Times (Transpose (IT 239) [0;3;1;2]) (1) 2);
  (*5011*) Del (IT 239);
  (*5012*) AddTo (T 21) (Plain (Transpose (IT 248) [0;2;1;3]));
  (*5013*) Del (IT 248);
  (*5014*) AddTo (T 21) (Times (Transpose (IT 255) [0;2;1;3]) (1) 2);
  (*5015*) Del (IT 255);
  (*5016*) AddTo (T 21) (Times (Transpose n_v'bbbb'ovvv [0;2;1;3]) (1) 2);
  (*5017*) AddTo (T 21) (Times (Copy (IT 227)) (-1) 2);
  (*5018*) Del (IT 227);
  (*5019*) AddTo (T 21) (Times (Transpose (IT 251) [0;2;1;3]) (-1) 1);
  (*5020*) Del (IT 251);
  (*5021*) AddTo (T 21) (Times (Transpose (IT 277) [0;3;1;2]) (-1) 2);
  (*5022*) Del (IT 277);
  (*5023*) Assign (T 27) (Plain (Transpose (IT 310) [0;1;3;2]));
  (*5024*) Del (IT 310);
  (*5025*) AddTo (T 27) (Plain (Copy n_v'aabb'oovv));
  (*5026*) AddTo (T 27) (Times (Copy (IT 295)) (-1) 1);
  (*5027*) Del (IT 295);
  (*5028*) Assign (T 18) (Times (Einsum [(n_t1'aa,[0;1]); (n_r1'a,[1])] [0]) (1) 2);
  (*5029*) AddTo (T 18) (Plain (Copy (T 16)));
  (*5030*) Del (T 16);
  (*5031*) AddTo (T 18) (Times (Copy (T 17)) (1) 2);
  (*5032*) Del (T 17);
  (*5033*) Assign (T 5) (Times (Einsum [(n_t1'aa,[0;1]); (n_r2'bab,[2;1;3])] [0;3;2]) (-1) 1);
  (*5034*) Assign (T 15) (Plain (Transpose (IT 28) [1;0]));
  (*5035*) Del (IT 28);
  (*5036*) AddTo (T 15) (Times (Copy (IT 48)) (2) 1);
  (*5037*) Del (IT 48);
  (*5038*) AddTo (T 15) (Plain (Copy (IT 50)));
  (*5039*) Del (IT 50);
  (*5040*) AddTo (T 15) (Times (Copy n_f'aa'vv) (-1) 1);
  (*5041*) AddTo (T 15) (Times (Transpose (IT 27) [1;0]) (-1) 1);
  (*5042*) Del (IT 27);
  (*5043*) AddTo (T 15) (Times (Transpose (IT 29) [1;0]) (-1) 1);
  (*5044*) Del (IT 29);
  (*5045*) Assign (T 12) (Plain (Copy (IT 112)));
  (*5046*) Del (IT 112);
  (*5047*) AddTo (T 12) (Times (Copy n_v'aaaa'ooov) (-1) 1);
  (*5048*) Assign (T 6) (Plain (Copy (IT 142)));
  (*5049*) Del (IT 142);
  (*5050*) AddTo (T 6) (Times (Copy (IT 148)) (2) 1);
  (*5051*) Del (IT 148);
  (*5052*) AddTo (T 6) (Plain (Copy (IT 187)));
  (*5053*) Del (IT 187);
  (*5054*) AddTo (T 6) (Plain (Transpose n_v'aabb'ovov [0;2;1;3]));
  (*5055*) AddTo (T 6) (Times (Copy (IT 145)) (-1) 1);
  (*5056*) Del (IT 145);
  (*5057*) Assign (T 19) (Plain (Copy n_f'aa'ov));
  (*5058*) AddTo (T 19) (Plain (Copy (IT 30)));
  (*5059*) Del (IT 30);
  (*5060*) AddTo (T 19) (Plain (Copy (IT 37)));
  (*5061*) Del (IT 37);
  (*5062*) AddTo (T 19) (Times (Copy (IT 83)) (-1) 1);
  (*5063*) Del (IT 83);
  (*5064*) Assign (T 13) (Plain (Einsum [(n_t1'aa,[0;1]); (T 7,[2;3;1])] [0;2;3]));
  (*5065*) Assign (T 11) (Times (Einsum [(n_t1'aa,[0;1]); (T 3,[2;3;1])] [2;3;0]) (-1) 1);
  (*5066*) Assign (T 8) (Plain (Transpose (IT 186) [0;1;3;2]));
  (*5067*) Del (IT 186);
  (*5068*) AddTo (T 8) (Plain (Transpose n_v'aabb'vvoo [2;3;0;1]));
  (*5069*) AddTo (T 8) (Times (Copy (IT 150)) (-1) 1);
  (*5070*) Del (IT 150);
  (*5071*) Assign (T 14) (Plain (Copy (IT 121)));
  (*5072*) Del (IT 121);
  (*5073*) AddTo (T 14) (Plain (Transpose n_v'aabb'ovoo [0;2;3;1]));
  (*5074*) Assign (T 4) (Times (Copy (IT 140)) (2) 1);
  (*5075*) Del (IT 140);
  (*5076*) AddTo (T 4) (Plain (Copy (IT 146)));
  (*5077*) Del (IT 146);
  (*5078*) AddTo (T 4) (Plain (Transpose (IT 184) [0;1;3;2]));
  (*5079*) Del (IT 184);
  (*5080*) AddTo (T 4) (Plain (Transpose n_v'aaaa'ovov [0;2;1;3]));
  (*5081*) AddTo (T 4) (Times (Copy (IT 143)) (-2) 1);
  (*5082*) Del (IT 143);
  (*5083*) AddTo (T 4) (Times (Transpose (IT 182) [0;1;3;2]) (-1) 1);
  (*5084*) Del (IT 182);
  (*5085*) AddTo (T 4) (Times (Copy n_v'aaaa'oovv) (-1) 1);
  (*5086*) Assign (T 1) (Plain (Copy (IT 126)));
  (*5087*) Del (IT 126);
  (*5088*) AddTo (T 1) (Plain (Transpose (IT 46) [0;2;1;3]));
  (*5089*) Del (IT 46);
  (*5090*) AddTo (T 1) (Plain (Copy (IT 62)));
  (*5091*) Del (IT 62);
  (*5092*) AddTo (T 1) (Plain (Transpose (IT 74) [0;2;1;3]));
  (*5093*) Del (IT 74);
  (*5094*) AddTo (T 1) (Times (Transpose (IT 80) [0;2;1;3]) (2) 1);
  (*5095*) Del (IT 80);
  (*5096*) AddTo (T 1) (Plain (Transpose n_v'aabb'vvov [2;0;1;3]));
  (*5097*) AddTo (T 1) (Times (Transpose (IT 77) [0;2;1;3]) (-1) 1);
  (*5098*) Del (IT 77);
  (*5099*) AddTo (T 1) (Times (Copy (IT 82)) (-1) 1);
  (*5100*) Del (IT 82);
  (*5101*) Assign (T 9) (Plain (Copy (IT 116)));
  (*5102*) Del (IT 116);
  (*5103*) AddTo (T 9) (Times (Copy (IT 122)) (1) 2);
  (*5104*) Del (IT 122);
  (*5105*) AddTo (T 9) (Plain (Copy (IT 132)));
  (*5106*) Del (IT 132);
  (*5107*) AddTo (T 9) (Times (Copy (IT 135)) (1) 2);
  (*5108*) Del (IT 135);
  (*5109*) AddTo (T 9) (Times (Copy (IT 160)) (1) 2);
  (*5110*) Del (IT 160);
  (*5111*) AddTo (T 9) (Times (Copy (IT 165)) (1) 2);
  (*5112*) Del (IT 165);
  (*5113*) AddTo (T 9) (Times (Copy (IT 177)) (1) 2);
  (*5114*) Del (IT 177);
  (*5115*) AddTo (T 9) (Times (Copy (IT 197)) (1) 2);
  (*5116*) Del (IT 197);
  (*5117*) AddTo (T 9) (Times (Copy (IT 202)) (1) 2);
  (*5118*) Del (IT 202);
  (*5119*) AddTo (T 9) (Times (Copy (IT 24)) (1) 2);
  (*5120*) Del (IT 24);
  (*5121*) AddTo (T 9) (Times (Copy (IT 35)) (1) 2);
  (*5122*) Del (IT 35);
  (*5123*) AddTo (T 9) (Times (Copy (IT 5)) (1) 2);
  (*5124*) Del (IT 5);
  (*5125*) AddTo (T 9) (Plain (Copy (IT 54)));
  (*5126*) Del (IT 54);
  (*5127*) AddTo (T 9) (Times (Copy (IT 56)) (1) 2);
  (*5128*) Del (IT 56);
  (*5129*) AddTo (T 9) (Plain (Copy (IT 66)));
  (*5130*) Del (IT 66);
  (*5131*) AddTo (T 9) (Times (Copy (IT 86)) (1) 2);
  (*5132*) Del (IT 86);
  (*5133*) AddTo (T 9) (Plain (Copy (IT 93)));
  (*5134*) Del (IT 93);
  (*5135*) AddTo (T 9) (Times (Copy n_f'bb'ov) (-1) 2);
  (*5136*) AddTo (T 9) (Times (Copy (IT 101)) (-1) 2);
  (*5137*) Del (IT 101);
  (*5138*) AddTo (T 9) (Times (Copy (IT 104)) (-1) 1);
  (*5139*) Del (IT 104);
  (*5140*) AddTo (T 9) (Times (Copy (IT 11)) (-1) 2);
  (*5141*) Del (IT 11);
  (*5142*) AddTo (T 9) (Times (Copy (IT 14)) (-1) 1);
  (*5143*) Del (IT 14);
  (*5144*) AddTo (T 9) (Times (Copy (IT 158)) (-1) 2);
  (*5145*) Del (IT 158);
  (*5146*) AddTo (T 9) (Times (Copy (IT 175)) (-1) 2);
  (*5147*) Del (IT 175);
  (*5148*) AddTo (T 9) (Times (Copy (IT 179)) (-1) 2);
  (*5149*) Del (IT 179);
  (*5150*) AddTo (T 9) (Times (Copy (IT 195)) (-1) 2);
  (*5151*) Del (IT 195);
  (*5152*) AddTo (T 9) (Times (Copy (IT 34)) (-1) 2);
  (*5153*) Del (IT 34);
  (*5154*) AddTo (T 9) (Times (Copy (IT 36)) (-1) 2);
  (*5155*) Del (IT 36);
  (*5156*) AddTo (T 9) (Times (Copy (IT 68)) (-1) 2);
  (*5157*) Del (IT 68);
  (*5158*) AddTo (T 9) (Times (Copy (IT 8)) (-1) 2);
  (*5159*) Del (IT 8);
  (*5160*) AddTo (T 9) (Times (Copy (IT 89)) (-1) 2);
  (*5161*) Del (IT 89);
  (*5162*) AddTo (T 9) (Times (Copy (IT 97)) (-1) 1);
  (*5163*) Del (IT 97);
  (*5164*) Assign (T 2) (Times (Copy (IT 60)) (1) 2);
  (*5165*) Del (IT 60);
  (*5166*) AddTo (T 2) (Plain (Transpose (IT 72) [0;1;3;2]));
  (*5167*) Del (IT 72);
  (*5168*) AddTo (T 2) (Times (Transpose (IT 78) [0;1;3;2]) (1) 2);
  (*5169*) Del (IT 78);
  (*5170*) AddTo (T 2) (Times (Copy n_v'aaaa'ovvv) (1) 2);
  (*5171*) AddTo (T 2) (Times (Copy (IT 124)) (-1) 2);
  (*5172*) Del (IT 124);
  (*5173*) AddTo (T 2) (Times (Transpose (IT 44) [0;2;3;1]) (-1) 2);
  (*5174*) Del (IT 44);
  (*5175*) AddTo (T 2) (Times (Transpose (IT 75) [0;1;3;2]) (-1) 1);
  (*5176*) Del (IT 75);
  (*5177*) Assign n_r2new'bbb (Times (Einsum [(n_r2'bbb,[0;1;2]); (n_v'bbbb'vvvv,[3;0;4;1])] [3;4;2]) (2) 1);
  (*5178*) AddTo n_r2new'bbb (Times (Einsum [(T 72,[0;1;2]); (n_v'bbbb'ovov,[2;3;1;4])] [3;4;0]) (-2) 1);
  (*5179*) Del (T 72);
  (*5180*) AddTo n_r2new'bbb (Times (Transpose (T 82) [1;2;0]) (-1) 1);
  (*5181*) AddTo n_r2new'bbb (Plain (Transpose (T 82) [2;1;0]));
  (*5182*) Del (T 82);
  (*5183*) AddTo n_r2new'bbb (Plain (Transpose (T 88) [1;2;0]));
  (*5184*) AddTo n_r2new'bbb (Times (Transpose (T 88) [2;1;0]) (-1) 1);
  (*5185*) Del (T 88);
  (*5186*) AddTo n_r2new'bbb (Times (Einsum [(n_r2'bbb,[0;1;2]); (T 70,[2;3])] [0;1;3]) (-2) 1);
  (*5187*) Assign n_r2new'bab (Times (Einsum [(n_r1'a,[0]); (n_v'aabb'vvov,[1;0;2;3])] [3;1;2]) (-1) 1);
  (*5188*) AddTo n_r2new'bab (Times (Einsum [(n_r1'a,[0]); (n_f'bb'ov,[1;2])] [2;0;1]) (-1) 1);
  (*5189*) AddTo n_r2new'bab (Plain (Einsum [(n_r2'bab,[0;1;2]); (n_v'aabb'vvvv,[3;1;4;0])] [4;3;2]));
  (*5190*) AddTo n_r2new'bab (Times (Einsum [(T 66,[0;1;2]); (n_v'aabb'ovov,[0;3;2;4])] [4;3;1]) (-1) 1);
  (*5191*) Del (T 66);
  (*5192*) AddTo n_r2new'bab (Plain (Einsum [(T 67,[0;1;2;3]); (n_r2'bab,[2;4;0])] [3;4;1]));
  (*5193*) Del (T 67);
  (*5194*) AddTo n_r2new'bab (Times (Einsum [(T 68,[0;1;2;3]); (n_r2'aaa,[4;2;0])] [3;4;1]) (-2) 1);
  (*5195*) Del (T 68);
  (*5196*) AddTo n_r2new'bab (Plain (Einsum [(T 69,[0;1;2;3]); (n_r2'bab,[4;2;0])] [4;3;1]));
  (*5197*) Del (T 69);
  (*5198*) AddTo n_r2new'bab (Times (Einsum [(T 64,[0;1]); (n_r2'bab,[0;2;3])] [1;2;3]) (-1) 1);
  (*5199*) AddTo n_r2new'bab (Times (Einsum [(T 62,[0;1]); (n_r2'bab,[2;0;3])] [2;1;3]) (-1) 1);
  (*5200*) AddTo n_r2new'bab (Times (Einsum [(n_r2'bab,[0;1;2]); (T 70,[2;3])] [0;1;3]) (-1) 1);
  (*5201*) Del (T 70);
  (*5202*) AddTo n_r2new'bab (Times (Einsum [(T 71,[0]); (n_v'aabb'ovov,[0;1;2;3])] [3;1;2]) (2) 1);
  (*5203*) Del (T 71);
  (*5204*) Assign n_r2new'aba (Plain (Einsum [(n_v'aabb'vvvv,[0;1;2;3]); (n_r2'aba,[1;3;4])] [0;2;4]));
  (*5205*) AddTo n_r2new'aba (Plain (Einsum [(T 57,[0;1;2]); (n_v'aabb'ovov,[1;3;2;4])] [3;4;0]));
  (*5206*) Del (T 57);
  (*5207*) AddTo n_r2new'aba (Times (Einsum [(n_f'aa'ov,[0;1]); (n_r1'b,[2])] [1;2;0]) (-1) 1);
  (*5208*) AddTo n_r2new'aba (Times (Einsum [(n_v'aabb'ovvv,[0;1;2;3]); (n_r1'b,[3])] [1;2;0]) (-1) 1);
  (*5209*) AddTo n_r2new'aba (Plain (Einsum [(n_r2'aba,[0;1;2]); (T 58,[2;3;0;4])] [4;1;3]));
  (*5210*) Del (T 58);
  (*5211*) AddTo n_r2new'aba (Times (Einsum [(n_r2'bbb,[0;1;2]); (T 59,[3;2;4;1])] [4;0;3]) (-2) 1);
  (*5212*) Del (T 59);
  (*5213*) AddTo n_r2new'aba (Plain (Einsum [(T 60,[0;1;2;3]); (n_r2'aba,[4;2;0])] [4;3;1]));
  (*5214*) Del (T 60);
  (*5215*) AddTo n_r2new'aba (Times (Einsum [(T 62,[0;1]); (n_r2'aba,[0;2;3])] [1;2;3]) (-1) 1);
  (*5216*) Del (T 62);
  (*5217*) AddTo n_r2new'aba (Times (Einsum [(n_r2'aba,[0;1;2]); (T 64,[1;3])] [0;3;2]) (-1) 1);
  (*5218*) Del (T 64);
  (*5219*) AddTo n_r2new'aba (Times (Einsum [(n_r2'aba,[0;1;2]); (T 56,[2;3])] [0;1;3]) (-1) 1);
  (*5220*) AddTo n_r2new'aba (Times (Einsum [(T 65,[0]); (n_v'aabb'ovov,[1;2;0;3])] [2;3;1]) (2) 1);
  (*5221*) Del (T 65);
  (*5222*) Assign n_r2new'aaa (Times (Einsum [(T 38,[0;1;2]); (n_v'aaaa'ovov,[2;3;1;4])] [3;4;0]) (-2) 1);
  (*5223*) Del (T 38);
  (*5224*) AddTo n_r2new'aaa (Times (Einsum [(n_r2'aaa,[0;1;2]); (n_v'aaaa'vvvv,[3;1;4;0])] [3;4;2]) (-2) 1);
  (*5225*) AddTo n_r2new'aaa (Times (Transpose (T 48) [1;2;0]) (-1) 1);
  (*5226*) AddTo n_r2new'aaa (Plain (Transpose (T 48) [2;1;0]));
  (*5227*) Del (T 48);
  (*5228*) AddTo n_r2new'aaa (Plain (Transpose (T 55) [1;2;0]));
  (*5229*) AddTo n_r2new'aaa (Times (Transpose (T 55) [2;1;0]) (-1) 1);
  (*5230*) Del (T 55);
  (*5231*) AddTo n_r2new'aaa (Times (Einsum [(n_r2'aaa,[0;1;2]); (T 56,[2;3])] [0;1;3]) (-2) 1);
  (*5232*) Del (T 56);
  (*5233*) Assign n_r1new'b (Times (Einsum [(n_r2'aba,[0;1;2]); (T 20,[2;0;3;1])] [3]) (-1) 1);
  (*5234*) Del (T 20);
  (*5235*) AddTo n_r1new'b (Times (Einsum [(n_r2'bbb,[0;1;2]); (T 21,[2;3;0;1])] [3]) (-4) 1);
  (*5236*) Del (T 21);
  (*5237*) AddTo n_r1new'b (Times (Einsum [(T 23,[0;1;2;3]); (T 22,[0;1;2])] [3]) (2) 1);
  (*5238*) Del (T 22);
  (*5238*) Del (T 23);
  (*5239*) AddTo n_r1new'b (Plain (Einsum [(T 24,[0;1;2]); (T 25,[0;1;2;3])] [3]));
  (*5240*) Del (T 24);
  (*5240*) Del (T 25);
  (*5241*) AddTo n_r1new'b (Plain (Einsum [(T 27,[0;1;2;3]); (T 26,[0;1;2])] [3]));
  (*5242*) Del (T 26);
  (*5242*) Del (T 27);
  (*5243*) AddTo n_r1new'b (Times (Einsum [(T 28,[0;1]); (n_r2'bbb,[2;1;0])] [2]) (-2) 1);
  (*5244*) Del (T 28);
  (*5245*) AddTo n_r1new'b (Times (Einsum [(T 10,[0;1]); (n_r2'aba,[1;2;0])] [2]) (2) 1);
  (*5246*) AddTo n_r1new'b (Times (Einsum [(T 29,[0;1;2]); (T 30,[0;2;1;3])] [3]) (-2) 1);
  (*5247*) Del (T 29);
  (*5247*) Del (T 30);
  (*5248*) AddTo n_r1new'b (Times (Einsum [(T 31,[0;1;2]); (T 32,[0;1;2;3])] [3]) (-1) 1);
  (*5249*) Del (T 31);
  (*5249*) Del (T 32);
  (*5250*) AddTo n_r1new'b (Times (Einsum [(T 33,[0;1]); (n_r1'b,[0])] [1]) (-1) 1);
  (*5251*) Del (T 33);
  (*5252*) AddTo n_r1new'b (Times (Einsum [(T 36,[0]); (T 37,[0;1])] [1]) (-1) 1);
  (*5253*) Del (T 36);
  (*5253*) Del (T 37);
  (*5254*) Assign n_r1new'a (Times (Einsum [(n_r2'bab,[0;1;2]); (T 1,[2;1;3;0])] [3]) (-1) 1);
  (*5255*) Del (T 1);
  (*5256*) AddTo n_r1new'a (Times (Einsum [(n_r2'aaa,[0;1;2]); (T 2,[2;0;1;3])] [3]) (-4) 1);
  (*5257*) Del (T 2);
  (*5258*) AddTo n_r1new'a (Times (Einsum [(T 3,[0;1;2]); (T 4,[0;1;2;3])] [3]) (2) 1);
  (*5259*) Del (T 3);
  (*5259*) Del (T 4);
  (*5260*) AddTo n_r1new'a (Times (Einsum [(T 6,[0;1;2;3]); (T 5,[0;1;3])] [2]) (-1) 1);
  (*5261*) Del (T 6);
  (*5261*) Del (T 5);
  (*5262*) AddTo n_r1new'a (Times (Einsum [(T 8,[0;1;2;3]); (T 7,[0;1;2])] [3]) (-1) 1);
  (*5263*) Del (T 7);
  (*5263*) Del (T 8);
  (*5264*) AddTo n_r1new'a (Times (Einsum [(n_r2'bab,[0;1;2]); (T 9,[2;0])] [1]) (2) 1);
  (*5265*) Del (T 9);
  (*5266*) AddTo n_r1new'a (Times (Einsum [(T 10,[0;1]); (n_r2'aaa,[2;1;0])] [2]) (-4) 1);
  (*5267*) Del (T 10);
  (*5268*) AddTo n_r1new'a (Times (Einsum [(T 11,[0;1;2]); (T 12,[0;2;1;3])] [3]) (-2) 1);
  (*5269*) Del (T 11);
  (*5269*) Del (T 12);
  (*5270*) AddTo n_r1new'a (Plain (Einsum [(T 14,[0;1;2;3]); (T 13,[0;1;2])] [3]));
  (*5271*) Del (T 14);
  (*5271*) Del (T 13);
  (*5272*) AddTo n_r1new'a (Times (Einsum [(n_r1'a,[0]); (T 15,[0;1])] [1]) (-1) 1);
  (*5273*) Del (T 15);
  (*5274*) AddTo n_r1new'a (Times (Einsum [(T 18,[0]); (T 19,[0;1])] [1]) (-2) 1);
  (*5275*) Del (T 18);
  (*5275*) Del (T 19)]
 [(n_r1new'b,[7]); (n_r1new'a,[5]); (n_r2new'bbb,[7;7;6]); (n_r2new'bab,[7;5;6]); (n_r2new'aba,[5;7;4]); (n_r2new'aaa,[5;5;4])].

