(** Generated by tools/translate_codegen.py from ebcc/codegen/GCC3.py; one statement per source line
    (the number in the comment before it). *)
From Coq Require Import ZArith List.
From Verif Require Import CgModel CgNames.
Import ListNotations.

(** ebcc/codegen/GCC3.py:19-46 [energy] *)
Definition GCC3_energy : prog := mkprog
 [(n_t2,[0;0;1;1]); (n_t1,[0;1]); (n_f'ov,[0;1]); (n_v'oovv,[0;0;1;1])]
 [(*40*) Assign (T 1) (Plain (Copy n_t2));
  (*41*) AddTo (T 1) (Times (Einsum [(n_t1,[0;1]); (n_t1,[2;3])] [2;0;3;1]) (2) 1);
  (*42*) Assign n_e_cc (Plain (Einsum [(n_t1,[0;1]); (n_f'ov,[0;1])] []));
  (*43*) AddTo n_e_cc (Times (Einsum [(T 1,[0;1;2;3]); (n_v'oovv,[0;1;2;3])] []) (1) 4);
  (*44*) Del (T 1)]
 [(n_e_cc,[])].

(** ebcc/codegen/GCC3.py:48-433 [update_amps] *)
Definition GCC3_update_amps : prog := mkprog
 [(n_t1,[0;1]); (n_v'oovv,[0;0;1;1]); (n_t2,[0;0;1;1]); (n_f'ov,[0;1]); (n_v'ooov,[0;0;0;1]); (n_v'ovvv,[0;1;1;1]); (n_t3,[0;0;0;1;1;1]); (n_v'oooo,[0;0;0;0]); (n_v'vvvv,[1;1;1;1]); (n_f'oo,[0;0]); (n_v'ovov,[0;1;0;1]); (n_f'vv,[1;1]); (n_v'ovoo,[0;1;0;0])]
 [(*75*) Assign (T 1) (Plain (Einsum [(n_t1,[0;1]); (n_v'oovv,[2;3;4;1])] [0;2;3;4]));
  (*76*) Assign (T 61) (Plain (Einsum [(n_t1,[0;1]); (T 1,[2;3;4;1])] [2;0;4;3]));
  (*77*) Assign (T 13) (Plain (Einsum [(n_t2,[0;1;2;3]); (n_f'ov,[4;3])] [4;0;1;2]));
  (*78*) Assign (T 62) (Plain (Einsum [(T 61,[0;1;2;3]); (n_t1,[3;4])] [0;1;2;4]));
  (*79*) Del (T 61);
  (*80*) Assign (T 67) (Plain (Einsum [(n_t2,[0;1;2;3]); (T 1,[4;5;6;3])] [4;0;1;6;5;2]));
  (*81*) Assign (T 80) (Plain (Einsum [(n_t2,[0;1;2;3]); (n_v'ooov,[4;5;6;3])] [0;1;4;5;6;2]));
  (*82*) Assign (T 19) (Plain (Einsum [(n_v'ovvv,[0;1;2;3]); (n_t1,[4;3])] [4;0;1;2]));
  (*83*) Assign (T 4) (Plain (Einsum [(n_t1,[0;1]); (n_v'oovv,[2;0;3;1])] [2;3]));
  (*84*) Assign (T 14) (Plain (Einsum [(n_v'ovvv,[0;1;2;3]); (n_t2,[4;5;2;3])] [4;5;0;1]));
  (*85*) Assign (T 15) (Plain (Einsum [(n_v'oovv,[0;1;2;3]); (n_t3,[4;5;1;6;2;3])] [4;5;0;6]));
  (*86*) Assign (T 63) (Times (Transpose (T 13) [2;1;0;3]) (-1) 1);
  (*87*) AddTo (T 63) (Plain (Copy (T 62)));
  (*88*) Del (T 62);
  (*89*) Assign (T 6) (Plain (Einsum [(n_t1,[0;1]); (n_f'ov,[2;1])] [2;0]));
  (*90*) Assign (T 40) (Plain (Einsum [(n_v'ooov,[0;1;2;3]); (n_t1,[4;3])] [4;0;1;2]));
  (*91*) Assign (T 68) (Plain (Einsum [(T 67,[0;1;2;3;4;5]); (n_t1,[4;6])] [0;1;2;3;6;5]));
  (*92*) Del (T 67);
  (*93*) Assign (T 55) (Plain (Einsum [(n_v'oooo,[0;1;2;3]); (n_t1,[3;4])] [0;1;2;4]));
  (*94*) Assign (T 57) (Plain (Einsum [(n_v'vvvv,[0;1;2;3]); (n_t1,[4;3])] [4;0;1;2]));
  (*95*) Assign (T 71) (Plain (Einsum [(n_t1,[0;1]); (n_f'ov,[0;2])] [2;1]));
  (*96*) Assign (T 81) (Plain (Einsum [(T 80,[0;1;2;3;4;5]); (n_t1,[3;6])] [0;1;2;4;6;5]));
  (*97*) Del (T 80);
  (*98*) Assign (T 28) (Times (Einsum [(n_t1,[0;1]); (T 19,[2;3;4;1])] [2;0;3;4]) (-1) 1);
  (*99*) Assign (T 8) (Plain (Copy n_t2));
  (*100*) AddTo (T 8) (Times (Einsum [(n_t1,[0;1]); (n_t1,[2;3])] [2;0;3;1]) (2) 1);
  (*101*) Assign (T 38) (Plain (Einsum [(n_t2,[0;1;2;3]); (n_v'oovv,[4;1;2;3])] [0;4]));
  (*102*) Assign (T 7) (Plain (Einsum [(n_t1,[0;1]); (n_v'ooov,[2;0;3;1])] [2;3]));
  (*103*) Assign (T 47) (Plain (Einsum [(T 4,[0;1]); (n_t1,[2;1])] [2;0]));
  (*104*) Assign (T 16) (Plain (Transpose (T 13) [0;2;1;3]));
  (*105*) Del (T 13);
  (*106*) AddTo (T 16) (Times (Transpose (T 14) [2;1;0;3]) (-1) 2);
  (*107*) Del (T 14);
  (*108*) AddTo (T 16) (Times (Transpose (T 15) [2;1;0;3]) (1) 2);
  (*109*) Del (T 15);
  (*110*) Assign (T 11) (Plain (Einsum [(n_v'oovv,[0;1;2;3]); (n_t2,[0;1;4;3])] [4;2]));
  (*111*) Assign (T 21) (Plain (Einsum [(n_v'ovvv,[0;1;2;3]); (n_t1,[0;3])] [1;2]));
  (*112*) Assign (T 23) (Plain (Einsum [(n_t2,[0;1;2;3]); (n_v'oovv,[4;1;5;3])] [0;4;2;5]));
  (*113*) Assign (T 25) (Times (Einsum [(n_t2,[0;1;2;3]); (T 4,[4;3])] [0;1;4;2]) (-1) 1);
  (*114*) Assign (T 30) (Plain (Einsum [(n_v'ooov,[0;1;2;3]); (n_t2,[4;1;5;3])] [4;0;2;5]));
  (*115*) Assign (T 32) (Plain (Copy n_t2));
  (*116*) AddTo (T 32) (Times (Einsum [(n_t1,[0;1]); (n_t1,[2;3])] [2;0;1;3]) (-1) 1);
  (*117*) Assign (T 60) (Plain (Einsum [(n_v'ovvv,[0;1;2;3]); (n_t2,[4;5;6;1])] [4;5;0;6;2;3]));
  (*118*) Assign (T 64) (Times (Einsum [(n_t2,[0;1;2;3]); (T 63,[4;5;1;6])] [4;5;0;6;2;3]) (-1) 1);
  (*119*) Del (T 63);
  (*120*) Assign (T 74) (Plain (Copy n_f'oo));
  (*121*) AddTo (T 74) (Plain (Copy (T 6)));
  (*122*) Assign (T 78) (Plain (Einsum [(n_v'ovov,[0;1;2;3]); (n_t2,[4;5;6;3])] [4;5;0;2;6;1]));
  (*123*) Assign (T 87) (Times (Einsum [(n_t1,[0;1]); (T 40,[2;0;3;4])] [2;3;4;1]) (-1) 1);
  (*124*) Assign (T 76) (Plain (Einsum [(n_v'ovov,[0;1;2;3]); (n_t1,[4;3])] [4;0;2;1]));
  (*125*) Assign (T 66) (Plain (Einsum [(n_t2,[0;1;2;3]); (n_v'ooov,[4;5;1;6])] [0;4;5;2;3;6]));
  (*126*) Assign (T 69) (Times (Einsum [(n_t1,[0;1]); (T 68,[2;3;4;0;5;6])] [2;3;4;5;1;6]) (-1) 1);
  (*127*) Del (T 68);
  (*128*) Assign (T 56) (Times (Einsum [(T 55,[0;1;2;3]); (n_t2,[4;2;5;6])] [4;0;1;3;5;6]) (-1) 1);
  (*129*) Del (T 55);
  (*130*) Assign (T 58) (Times (Einsum [(n_t2,[0;1;2;3]); (T 57,[4;5;6;3])] [4;0;1;2;5;6]) (-1) 1);
  (*131*) Del (T 57);
  (*132*) Assign (T 85) (Times (Einsum [(n_t2,[0;1;2;3]); (T 19,[4;5;6;3])] [4;0;1;5;2;6]) (-1) 1);
  (*133*) Assign (T 72) (Plain (Copy n_f'vv));
  (*134*) AddTo (T 72) (Times (Copy (T 71)) (-1) 1);
  (*135*) Del (T 71);
  (*136*) Assign (T 82) (Times (Einsum [(T 81,[0;1;2;3;4;5]); (n_t1,[2;6])] [0;1;3;4;6;5]) (-1) 1);
  (*137*) Del (T 81);
  (*138*) Assign (T 83) (Times (Einsum [(n_t2,[0;1;2;3]); (T 28,[4;5;1;6])] [5;4;0;2;3;6]) (-1) 1);
  (*139*) Assign (T 41) (Times (Einsum [(T 8,[0;1;2;3]); (T 40,[4;0;1;5])] [4;5;2;3]) (1) 2);
  (*140*) Del (T 40);
  (*141*) Assign (T 35) (Plain (Einsum [(n_t2,[0;1;2;3]); (T 6,[1;4])] [4;0;2;3]));
  (*142*) Assign (T 39) (Plain (Einsum [(T 38,[0;1]); (n_t2,[2;1;3;4])] [2;0;3;4]));
  (*143*) Del (T 38);
  (*144*) Assign (T 36) (Plain (Einsum [(n_v'ovoo,[0;1;2;3]); (n_t3,[4;2;3;5;6;1])] [4;0;5;6]));
  (*145*) Assign (T 37) (Plain (Einsum [(T 1,[0;1;2;3]); (n_t3,[4;2;1;5;6;3])] [0;4;5;6]));
  (*146*) Assign (T 46) (Times (Einsum [(T 7,[0;1]); (n_t2,[2;0;3;4])] [2;1;3;4]) (-1) 1);
  (*147*) Assign (T 45) (Plain (Einsum [(n_v'ovvv,[0;1;2;3]); (n_t1,[4;1])] [4;0;2;3]));
  (*148*) Assign (T 48) (Times (Einsum [(n_t2,[0;1;2;3]); (T 47,[4;1])] [4;0;2;3]) (-1) 1);
  (*149*) Del (T 47);
  (*150*) Assign (T 50) (Plain (Einsum [(n_v'ooov,[0;1;2;3]); (n_t1,[2;4])] [0;1;4;3]));
  (*151*) Assign (T 51) (Plain (Einsum [(n_t2,[0;1;2;3]); (n_f'vv,[4;3])] [0;1;4;2]));
  (*152*) Assign (T 10) (Plain (Einsum [(n_t3,[0;1;2;3;4;5]); (n_v'ovvv,[2;6;4;5])] [0;1;3;6]));
  (*153*) Assign (T 17) (Plain (Einsum [(n_t1,[0;1]); (T 16,[0;2;3;4])] [2;3;4;1]));
  (*154*) Del (T 16);
  (*155*) Assign (T 12) (Plain (Einsum [(T 11,[0;1]); (n_t2,[2;3;4;1])] [2;3;4;0]));
  (*156*) Del (T 11);
  (*157*) Assign (T 22) (Times (Einsum [(n_t2,[0;1;2;3]); (T 21,[4;3])] [0;1;2;4]) (-1) 1);
  (*158*) Del (T 21);
  (*159*) Assign (T 24) (Plain (Einsum [(T 23,[0;1;2;3]); (n_t2,[4;1;5;3])] [0;4;2;5]));
  (*160*) Del (T 23);
  (*161*) Assign (T 26) (Plain (Einsum [(T 25,[0;1;2;3]); (n_t1,[2;4])] [0;1;4;3]));
  (*162*) Del (T 25);
  (*163*) Assign (T 43) (Plain (Einsum [(T 1,[0;1;2;3]); (n_t2,[4;1;5;3])] [0;4;2;5]));
  (*164*) Assign (T 31) (Plain (Einsum [(T 30,[0;1;2;3]); (n_t1,[1;4])] [0;2;4;3]));
  (*165*) Del (T 30);
  (*166*) Assign (T 33) (Plain (Einsum [(T 32,[0;1;2;3]); (n_v'ovov,[4;2;0;5])] [1;4;3;5]));
  (*167*) Del (T 32);
  (*168*) Assign (T 65) (Times (Transpose (T 60) [0;1;2;3;5;4]) (-1) 1);
  (*169*) Del (T 60);
  (*170*) AddTo (T 65) (Times (Transpose (T 64) [0;1;2;3;5;4]) (-1) 1);
  (*171*) Del (T 64);
  (*172*) Assign (T 75) (Plain (Einsum [(T 74,[0;1]); (n_t3,[2;3;0;4;5;6])] [1;2;3;4;5;6]));
  (*173*) Del (T 74);
  (*174*) Assign (T 79) (Plain (Einsum [(n_t1,[0;1]); (T 78,[2;3;0;4;5;6])] [2;3;4;1;5;6]));
  (*175*) Del (T 78);
  (*176*) Assign (T 88) (Times (Einsum [(T 87,[0;1;2;3]); (n_t2,[4;1;5;6])] [0;4;2;3;5;6]) (-1) 1);
  (*177*) Del (T 87);
  (*178*) Assign (T 77) (Plain (Einsum [(T 76,[0;1;2;3]); (n_t2,[4;1;5;6])] [0;4;2;5;6;3]));
  (*179*) Del (T 76);
  (*180*) Assign (T 70) (Plain (Transpose (T 66) [0;2;1;4;3;5]));
  (*181*) Del (T 66);
  (*182*) AddTo (T 70) (Plain (Transpose (T 69) [0;2;1;4;3;5]));
  (*183*) Del (T 69);
  (*184*) Assign (T 59) (Plain (Transpose (T 56) [0;2;1;3;5;4]));
  (*185*) Del (T 56);
  (*186*) AddTo (T 59) (Plain (Transpose (T 58) [0;2;1;3;5;4]));
  (*187*) Del (T 58);
  (*188*) Assign (T 86) (Plain (Einsum [(T 85,[0;1;2;3;4;5]); (n_t1,[3;6])] [0;1;2;6;4;5]));
  (*189*) Del (T 85);
  (*190*) Assign (T 73) (Plain (Einsum [(n_t3,[0;1;2;3;4;5]); (T 72,[5;6])] [0;1;2;6;3;4]));
  (*191*) Del (T 72);
  (*192*) Assign (T 84) (Times (Transpose (T 82) [0;1;2;4;3;5]) (-1) 1);
  (*193*) Del (T 82);
  (*194*) AddTo (T 84) (Times (Transpose (T 83) [0;1;2;4;3;5]) (-1) 1);
  (*195*) Del (T 83);
  (*196*) Assign (T 42) (Plain (Transpose (T 35) [0;1;3;2]));
  (*197*) Del (T 35);
  (*198*) AddTo (T 42) (Times (Transpose (T 36) [0;1;3;2]) (-1) 2);
  (*199*) Del (T 36);
  (*200*) AddTo (T 42) (Times (Transpose (T 37) [0;1;3;2]) (1) 2);
  (*201*) Del (T 37);
  (*202*) AddTo (T 42) (Times (Transpose (T 39) [0;1;3;2]) (-1) 2);
  (*203*) Del (T 39);
  (*204*) AddTo (T 42) (Times (Transpose (T 41) [0;1;3;2]) (-1) 1);
  (*205*) Del (T 41);
  (*206*) Assign (T 49) (Times (Transpose (T 45) [0;1;3;2]) (-1) 1);
  (*207*) Del (T 45);
  (*208*) AddTo (T 49) (Plain (Transpose (T 46) [0;1;3;2]));
  (*209*) Del (T 46);
  (*210*) AddTo (T 49) (Times (Transpose (T 48) [0;1;3;2]) (-1) 1);
  (*211*) Del (T 48);
  (*212*) Assign (T 52) (Times (Transpose (T 50) [1;0;2;3]) (-1) 1);
  (*213*) Del (T 50);
  (*214*) AddTo (T 52) (Times (Transpose (T 51) [1;0;2;3]) (-1) 1);
  (*215*) Del (T 51);
  (*216*) Assign (T 20) (Times (Einsum [(n_t2,[0;1;2;3]); (T 19,[4;1;5;3])] [4;0;2;5]) (-1) 1);
  (*217*) Del (T 19);
  (*218*) Assign (T 18) (Times (Copy (T 10)) (1) 2);
  (*219*) Del (T 10);
  (*220*) AddTo (T 18) (Times (Copy (T 12)) (1) 2);
  (*221*) Del (T 12);
  (*222*) AddTo (T 18) (Times (Transpose (T 17) [1;0;3;2]) (-1) 1);
  (*223*) Del (T 17);
  (*224*) Assign (T 27) (Plain (Copy (T 22)));
  (*225*) Del (T 22);
  (*226*) AddTo (T 27) (Plain (Copy (T 24)));
  (*227*) Del (T 24);
  (*228*) AddTo (T 27) (Times (Copy (T 26)) (-1) 1);
  (*229*) Del (T 26);
  (*230*) Assign (T 3) (Times (Copy n_t2) (1) 2);
  (*231*) AddTo (T 3) (Plain (Einsum [(n_t1,[0;1]); (n_t1,[2;3])] [2;0;3;1]));
  (*232*) Assign (T 44) (Plain (Einsum [(n_t1,[0;1]); (T 43,[2;3;0;4])] [2;3;1;4]));
  (*233*) Del (T 43);
  (*234*) Assign (T 54) (Plain (Copy n_v'oooo));
  (*235*) AddTo (T 54) (Times (Einsum [(T 8,[0;1;2;3]); (n_v'oovv,[4;5;2;3])] [4;5;1;0]) (-1) 2);
  (*236*) Assign (T 34) (Plain (Copy (T 31)));
  (*237*) Del (T 31);
  (*238*) AddTo (T 34) (Times (Copy (T 33)) (-1) 1);
  (*239*) Del (T 33);
  (*240*) Assign (T 29) (Times (Einsum [(T 28,[0;1;2;3]); (n_t1,[2;4])] [1;0;4;3]) (-1) 1);
  (*241*) Del (T 28);
  (*242*) Assign (T 53) (Plain (Einsum [(n_t2,[0;1;2;3]); (n_f'oo,[4;1])] [4;0;2;3]));
  (*243*) Assign (T 5) (Plain (Copy n_f'ov));
  (*244*) AddTo (T 5) (Plain (Copy (T 4)));
  (*245*) Del (T 4);
  (*246*) Assign (T 2) (Times (Transpose n_v'ovoo [0;2;3;1]) (-1) 1);
  (*247*) AddTo (T 2) (Times (Transpose (T 1) [0;2;1;3]) (-1) 1);
  (*248*) Del (T 1);
  (*249*) Assign (T 9) (Plain (Copy n_f'oo));
  (*250*) AddTo (T 9) (Plain (Copy (T 6)));
  (*251*) Del (T 6);
  (*252*) AddTo (T 9) (Plain (Copy (T 7)));
  (*253*) Del (T 7);
  (*254*) AddTo (T 9) (Times (Einsum [(n_v'oovv,[0;1;2;3]); (T 8,[1;4;2;3])] [0;4]) (-1) 2);
  (*255*) Assign n_t3new (Times (Copy (T 59)) (-1) 1);
  (*256*) AddTo n_t3new (Plain (Transpose (T 59) [0;1;2;4;3;5]));
  (*257*) AddTo n_t3new (Times (Transpose (T 59) [0;1;2;4;5;3]) (-1) 1);
  (*258*) AddTo n_t3new (Times (Transpose (T 59) [2;0;1;3;4;5]) (-1) 1);
  (*259*) AddTo n_t3new (Plain (Transpose (T 59) [2;0;1;4;3;5]));
  (*260*) AddTo n_t3new (Times (Transpose (T 59) [2;0;1;4;5;3]) (-1) 1);
  (*261*) AddTo n_t3new (Plain (Transpose (T 59) [2;1;0;3;4;5]));
  (*262*) AddTo n_t3new (Times (Transpose (T 59) [2;1;0;4;3;5]) (-1) 1);
  (*263*) AddTo n_t3new (Plain (Transpose (T 59) [2;1;0;4;5;3]));
  (*264*) Del (T 59);
  (*265*) AddTo n_t3new (Times (Copy (T 65)) (-1) 1);
  (*266*) AddTo n_t3new (Plain (Transpose (T 65) [0;1;2;4;3;5]));
  (*267*) AddTo n_t3new (Times (Transpose (T 65) [0;1;2;4;5;3]) (-1) 1);
  (*268*) AddTo n_t3new (Plain (Transpose (T 65) [0;2;1;3;4;5]));
  (*269*) AddTo n_t3new (Times (Transpose (T 65) [0;2;1;4;3;5]) (-1) 1);
  (*270*) AddTo n_t3new (Plain (Transpose (T 65) [0;2;1;4;5;3]));
  (*271*) AddTo n_t3new (Plain (Transpose (T 65) [2;1;0;3;4;5]));
  (*272*) AddTo n_t3new (Times (Transpose (T 65) [2;1;0;4;3;5]) (-1) 1);
  (*273*) AddTo n_t3new (Plain (Transpose (T 65) [2;1;0;4;5;3]));
  (*274*) Del (T 65);
  (*275*) AddTo n_t3new (Times (Copy (T 70)) (-1) 1);
  (*276*) AddTo n_t3new (Plain (Transpose (T 70) [0;1;2;3;5;4]));
  (*277*) AddTo n_t3new (Times (Transpose (T 70) [0;1;2;5;3;4]) (-1) 1);
  (*278*) AddTo n_t3new (Times (Transpose (T 70) [2;0;1;3;4;5]) (-1) 1);
  (*279*) AddTo n_t3new (Plain (Transpose (T 70) [2;0;1;3;5;4]));
  (*280*) AddTo n_t3new (Times (Transpose (T 70) [2;0;1;5;3;4]) (-1) 1);
  (*281*) AddTo n_t3new (Plain (Transpose (T 70) [2;1;0;3;4;5]));
  (*282*) AddTo n_t3new (Times (Transpose (T 70) [2;1;0;3;5;4]) (-1) 1);
  (*283*) AddTo n_t3new (Plain (Transpose (T 70) [2;1;0;5;3;4]));
  (*284*) Del (T 70);
  (*285*) AddTo n_t3new (Plain (Transpose (T 73) [1;2;0;3;4;5]));
  (*286*) AddTo n_t3new (Times (Transpose (T 73) [1;2;0;4;3;5]) (-1) 1);
  (*287*) AddTo n_t3new (Plain (Transpose (T 73) [1;2;0;4;5;3]));
  (*288*) Del (T 73);
  (*289*) AddTo n_t3new (Times (Copy (T 75)) (-1) 1);
  (*290*) AddTo n_t3new (Times (Transpose (T 75) [2;0;1;3;4;5]) (-1) 1);
  (*291*) AddTo n_t3new (Plain (Transpose (T 75) [2;1;0;3;4;5]));
  (*292*) Del (T 75);
  (*293*) AddTo n_t3new (Plain (Transpose (T 77) [0;1;2;4;3;5]));
  (*294*) AddTo n_t3new (Times (Transpose (T 77) [0;1;2;4;5;3]) (-1) 1);
  (*295*) AddTo n_t3new (Plain (Transpose (T 77) [0;1;2;5;4;3]));
  (*296*) AddTo n_t3new (Times (Transpose (T 77) [0;2;1;4;3;5]) (-1) 1);
  (*297*) AddTo n_t3new (Plain (Transpose (T 77) [0;2;1;4;5;3]));
  (*298*) AddTo n_t3new (Times (Transpose (T 77) [0;2;1;5;4;3]) (-1) 1);
  (*299*) AddTo n_t3new (Times (Transpose (T 77) [1;0;2;4;3;5]) (-1) 1);
  (*300*) AddTo n_t3new (Plain (Transpose (T 77) [1;0;2;4;5;3]));
  (*301*) AddTo n_t3new (Times (Transpose (T 77) [1;0;2;5;4;3]) (-1) 1);
  (*302*) AddTo n_t3new (Plain (Transpose (T 77) [2;0;1;4;3;5]));
  (*303*) AddTo n_t3new (Times (Transpose (T 77) [2;0;1;4;5;3]) (-1) 1);
  (*304*) AddTo n_t3new (Plain (Transpose (T 77) [2;0;1;5;4;3]));
  (*305*) AddTo n_t3new (Plain (Transpose (T 77) [1;2;0;4;3;5]));
  (*306*) AddTo n_t3new (Times (Transpose (T 77) [1;2;0;4;5;3]) (-1) 1);
  (*307*) AddTo n_t3new (Plain (Transpose (T 77) [1;2;0;5;4;3]));
  (*308*) AddTo n_t3new (Times (Transpose (T 77) [2;1;0;4;3;5]) (-1) 1);
  (*309*) AddTo n_t3new (Plain (Transpose (T 77) [2;1;0;4;5;3]));
  (*310*) AddTo n_t3new (Times (Transpose (T 77) [2;1;0;5;4;3]) (-1) 1);
  (*311*) Del (T 77);
  (*312*) AddTo n_t3new (Times (Copy (T 79)) (-1) 1);
  (*313*) AddTo n_t3new (Plain (Transpose (T 79) [0;1;2;3;5;4]));
  (*314*) AddTo n_t3new (Plain (Transpose (T 79) [0;1;2;4;3;5]));
  (*315*) AddTo n_t3new (Times (Transpose (T 79) [0;1;2;5;3;4]) (-1) 1);
  (*316*) AddTo n_t3new (Times (Transpose (T 79) [0;1;2;4;5;3]) (-1) 1);
  (*317*) AddTo n_t3new (Plain (Transpose (T 79) [0;1;2;5;4;3]));
  (*318*) AddTo n_t3new (Plain (Transpose (T 79) [0;2;1;3;4;5]));
  (*319*) AddTo n_t3new (Times (Transpose (T 79) [0;2;1;3;5;4]) (-1) 1);
  (*320*) AddTo n_t3new (Times (Transpose (T 79) [0;2;1;4;3;5]) (-1) 1);
  (*321*) AddTo n_t3new (Plain (Transpose (T 79) [0;2;1;5;3;4]));
  (*322*) AddTo n_t3new (Plain (Transpose (T 79) [0;2;1;4;5;3]));
  (*323*) AddTo n_t3new (Times (Transpose (T 79) [0;2;1;5;4;3]) (-1) 1);
  (*324*) AddTo n_t3new (Plain (Transpose (T 79) [2;1;0;3;4;5]));
  (*325*) AddTo n_t3new (Times (Transpose (T 79) [2;1;0;3;5;4]) (-1) 1);
  (*326*) AddTo n_t3new (Times (Transpose (T 79) [2;1;0;4;3;5]) (-1) 1);
  (*327*) AddTo n_t3new (Plain (Transpose (T 79) [2;1;0;5;3;4]));
  (*328*) AddTo n_t3new (Plain (Transpose (T 79) [2;1;0;4;5;3]));
  (*329*) AddTo n_t3new (Times (Transpose (T 79) [2;1;0;5;4;3]) (-1) 1);
  (*330*) Del (T 79);
  (*331*) AddTo n_t3new (Times (Copy (T 84)) (-1) 1);
  (*332*) AddTo n_t3new (Plain (Transpose (T 84) [0;1;2;3;5;4]));
  (*333*) AddTo n_t3new (Times (Transpose (T 84) [0;1;2;5;3;4]) (-1) 1);
  (*334*) AddTo n_t3new (Plain (Transpose (T 84) [0;2;1;3;4;5]));
  (*335*) AddTo n_t3new (Times (Transpose (T 84) [0;2;1;3;5;4]) (-1) 1);
  (*336*) AddTo n_t3new (Plain (Transpose (T 84) [0;2;1;5;3;4]));
  (*337*) AddTo n_t3new (Plain (Transpose (T 84) [2;1;0;3;4;5]));
  (*338*) AddTo n_t3new (Times (Transpose (T 84) [2;1;0;3;5;4]) (-1) 1);
  (*339*) AddTo n_t3new (Plain (Transpose (T 84) [2;1;0;5;3;4]));
  (*340*) Del (T 84);
  (*341*) AddTo n_t3new (Plain (Transpose (T 86) [0;2;1;3;4;5]));
  (*342*) AddTo n_t3new (Times (Transpose (T 86) [0;2;1;3;5;4]) (-1) 1);
  (*343*) AddTo n_t3new (Times (Transpose (T 86) [0;2;1;4;3;5]) (-1) 1);
  (*344*) AddTo n_t3new (Plain (Transpose (T 86) [0;2;1;5;3;4]));
  (*345*) AddTo n_t3new (Plain (Transpose (T 86) [0;2;1;4;5;3]));
  (*346*) AddTo n_t3new (Times (Transpose (T 86) [0;2;1;5;4;3]) (-1) 1);
  (*347*) AddTo n_t3new (Plain (Transpose (T 86) [1;0;2;3;4;5]));
  (*348*) AddTo n_t3new (Times (Transpose (T 86) [1;0;2;3;5;4]) (-1) 1);
  (*349*) AddTo n_t3new (Times (Transpose (T 86) [1;0;2;4;3;5]) (-1) 1);
  (*350*) AddTo n_t3new (Plain (Transpose (T 86) [1;0;2;5;3;4]));
  (*351*) AddTo n_t3new (Plain (Transpose (T 86) [1;0;2;4;5;3]));
  (*352*) AddTo n_t3new (Times (Transpose (T 86) [1;0;2;5;4;3]) (-1) 1);
  (*353*) AddTo n_t3new (Times (Transpose (T 86) [1;2;0;3;4;5]) (-1) 1);
  (*354*) AddTo n_t3new (Plain (Transpose (T 86) [1;2;0;3;5;4]));
  (*355*) AddTo n_t3new (Plain (Transpose (T 86) [1;2;0;4;3;5]));
  (*356*) AddTo n_t3new (Times (Transpose (T 86) [1;2;0;5;3;4]) (-1) 1);
  (*357*) AddTo n_t3new (Times (Transpose (T 86) [1;2;0;4;5;3]) (-1) 1);
  (*358*) AddTo n_t3new (Plain (Transpose (T 86) [1;2;0;5;4;3]));
  (*359*) Del (T 86);
  (*360*) AddTo n_t3new (Plain (Transpose (T 88) [0;1;2;3;5;4]));
  (*361*) AddTo n_t3new (Times (Transpose (T 88) [0;1;2;5;3;4]) (-1) 1);
  (*362*) AddTo n_t3new (Plain (Transpose (T 88) [0;1;2;5;4;3]));
  (*363*) AddTo n_t3new (Times (Transpose (T 88) [0;2;1;3;5;4]) (-1) 1);
  (*364*) AddTo n_t3new (Plain (Transpose (T 88) [0;2;1;5;3;4]));
  (*365*) AddTo n_t3new (Times (Transpose (T 88) [0;2;1;5;4;3]) (-1) 1);
  (*366*) AddTo n_t3new (Times (Transpose (T 88) [1;0;2;3;5;4]) (-1) 1);
  (*367*) AddTo n_t3new (Plain (Transpose (T 88) [1;0;2;5;3;4]));
  (*368*) AddTo n_t3new (Times (Transpose (T 88) [1;0;2;5;4;3]) (-1) 1);
  (*369*) AddTo n_t3new (Plain (Transpose (T 88) [2;0;1;3;5;4]));
  (*370*) AddTo n_t3new (Times (Transpose (T 88) [2;0;1;5;3;4]) (-1) 1);
  (*371*) AddTo n_t3new (Plain (Transpose (T 88) [2;0;1;5;4;3]));
  (*372*) AddTo n_t3new (Plain (Transpose (T 88) [1;2;0;3;5;4]));
  (*373*) AddTo n_t3new (Times (Transpose (T 88) [1;2;0;5;3;4]) (-1) 1);
  (*374*) AddTo n_t3new (Plain (Transpose (T 88) [1;2;0;5;4;3]));
  (*375*) AddTo n_t3new (Times (Transpose (T 88) [2;1;0;3;5;4]) (-1) 1);
  (*376*) AddTo n_t3new (Plain (Transpose (T 88) [2;1;0;5;3;4]));
  (*377*) AddTo n_t3new (Times (Transpose (T 88) [2;1;0;5;4;3]) (-1) 1);
  (*378*) Del (T 88);
  (*379*) Assign n_t2new (Plain (Copy n_v'oovv));
  (*380*) AddTo n_t2new (Times (Copy (T 18)) (-1) 1);
  (*381*) AddTo n_t2new (Plain (Transpose (T 18) [0;1;3;2]));
  (*382*) Del (T 18);
  (*383*) AddTo n_t2new (Plain (Copy (T 20)));
  (*384*) AddTo n_t2new (Times (Transpose (T 20) [0;1;3;2]) (-1) 1);
  (*385*) AddTo n_t2new (Times (Transpose (T 20) [1;0;2;3]) (-1) 1);
  (*386*) AddTo n_t2new (Plain (Transpose (T 20) [1;0;3;2]));
  (*387*) Del (T 20);
  (*388*) AddTo n_t2new (Plain (Copy (T 27)));
  (*389*) AddTo n_t2new (Times (Transpose (T 27) [0;1;3;2]) (-1) 1);
  (*390*) Del (T 27);
  (*391*) AddTo n_t2new (Times (Copy (T 29)) (-1) 1);
  (*392*) AddTo n_t2new (Plain (Transpose (T 29) [0;1;3;2]));
  (*393*) Del (T 29);
  (*394*) AddTo n_t2new (Plain (Copy (T 34)));
  (*395*) AddTo n_t2new (Times (Transpose (T 34) [0;1;3;2]) (-1) 1);
  (*396*) AddTo n_t2new (Times (Transpose (T 34) [1;0;2;3]) (-1) 1);
  (*397*) AddTo n_t2new (Plain (Transpose (T 34) [1;0;3;2]));
  (*398*) Del (T 34);
  (*399*) AddTo n_t2new (Times (Copy (T 42)) (-1) 1);
  (*400*) AddTo n_t2new (Plain (Transpose (T 42) [1;0;2;3]));
  (*401*) Del (T 42);
  (*402*) AddTo n_t2new (Times (Copy (T 44)) (-1) 1);
  (*403*) AddTo n_t2new (Plain (Transpose (T 44) [0;1;3;2]));
  (*404*) AddTo n_t2new (Plain (Transpose (T 44) [1;0;2;3]));
  (*405*) AddTo n_t2new (Times (Transpose (T 44) [1;0;3;2]) (-1) 1);
  (*406*) Del (T 44);
  (*407*) AddTo n_t2new (Times (Copy (T 49)) (-1) 1);
  (*408*) AddTo n_t2new (Plain (Transpose (T 49) [1;0;2;3]));
  (*409*) Del (T 49);
  (*410*) AddTo n_t2new (Times (Copy (T 52)) (-1) 1);
  (*411*) AddTo n_t2new (Plain (Transpose (T 52) [0;1;3;2]));
  (*412*) Del (T 52);
  (*413*) AddTo n_t2new (Times (Transpose (T 53) [0;1;3;2]) (-1) 1);
  (*414*) AddTo n_t2new (Plain (Transpose (T 53) [1;0;3;2]));
  (*415*) Del (T 53);
  (*416*) AddTo n_t2new (Plain (Einsum [(n_t3,[0;1;2;3;4;5]); (T 5,[2;5])] [0;1;3;4]));
  (*417*) AddTo n_t2new (Times (Einsum [(T 54,[0;1;2;3]); (T 8,[0;1;4;5])] [2;3;5;4]) (-1) 2);
  (*418*) Del (T 8);
  (*418*) Del (T 54);
  (*419*) AddTo n_t2new (Times (Einsum [(T 3,[0;1;2;3]); (n_v'vvvv,[4;5;2;3])] [1;0;4;5]) (-1) 1);
  (*420*) Assign n_t1new (Times (Einsum [(n_t1,[0;1]); (n_v'ovov,[2;1;0;3])] [2;3]) (-1) 1);
  (*421*) AddTo n_t1new (Plain (Copy n_f'ov));
  (*422*) AddTo n_t1new (Plain (Einsum [(n_f'vv,[0;1]); (n_t1,[2;1])] [2;0]));
  (*423*) AddTo n_t1new (Times (Einsum [(n_v'oovv,[0;1;2;3]); (n_t3,[4;0;1;5;2;3])] [4;5]) (1) 4);
  (*424*) AddTo n_t1new (Times (Einsum [(T 2,[0;1;2;3]); (n_t2,[1;2;4;3])] [0;4]) (1) 2);
  (*425*) Del (T 2);
  (*426*) AddTo n_t1new (Plain (Einsum [(n_v'ovvv,[0;1;2;3]); (T 3,[0;4;2;3])] [4;1]));
  (*427*) Del (T 3);
  (*428*) AddTo n_t1new (Plain (Einsum [(T 5,[0;1]); (n_t2,[2;0;3;1])] [2;3]));
  (*429*) Del (T 5);
  (*430*) AddTo n_t1new (Times (Einsum [(n_t1,[0;1]); (T 9,[0;2])] [2;1]) (-1) 1);
  (*431*) Del (T 9)]
 [(n_t1new,[0;1]); (n_t2new,[0;0;1;1]); (n_t3new,[0;0;0;1;1;1])].

