(** Generated by tools/translate_codegen.py from ebcc/codegen/RCC3.py; one statement per source line
    (the number in the comment before it). *)
From Coq Require Import ZArith List.
From Verif Require Import CgModel CgNames.
Import ListNotations.

(** ebcc/codegen/RCC3.py:19-50 [energy] *)
Definition RCC3_energy : prog := mkprog
 [(n_v'ovov,[0;1;0;1]); (n_f'ov,[0;1]); (n_t1,[0;1]); (n_t2,[0;0;1;1])]
 [(*40*) Assign (T 1) (Plain (Transpose n_v'ovov [0;2;3;1]));
  (*41*) AddTo (T 1) (Times (Transpose n_v'ovov [0;2;1;3]) (-1) 2);
  (*42*) Assign (T 2) (Plain (Copy n_f'ov));
  (*43*) AddTo (T 2) (Plain (Einsum [(T 1,[0;1;2;3]); (n_t1,[0;3])] [1;2]));
  (*44*) Del (T 1);
  (*45*) Assign n_e_cc (Times (Einsum [(n_t2,[0;1;2;3]); (n_v'ovov,[0;2;1;3])] []) (2) 1);
  (*46*) AddTo n_e_cc (Times (Einsum [(n_t2,[0;1;2;3]); (n_v'ovov,[0;3;1;2])] []) (-1) 1);
  (*47*) AddTo n_e_cc (Times (Einsum [(n_t1,[0;1]); (T 2,[0;1])] []) (2) 1);
  (*48*) Del (T 2)]
 [(n_e_cc,[])].

(** ebcc/codegen/RCC3.py:52-582 [update_amps] *)
Definition RCC3_update_amps : prog := mkprog
 [(n_t1,[0;1]); (n_v'ovov,[0;1;0;1]); (n_t2,[0;0;1;1]); (n_v'ovvv,[0;1;1;1]); (n_v'ooov,[0;0;0;1]); (n_f'ov,[0;1]); (n_v'ovoo,[0;1;0;0]); (n_v'oovv,[0;0;1;1]); (n_v'vvvv,[1;1;1;1]); (n_v'oooo,[0;0;0;0]); (n_f'oo,[0;0]); (n_t3,[0;0;0;1;1;1]); (n_f'vv,[1;1])]
 [(*79*) Assign (T 3) (Plain (Einsum [(n_t1,[0;1]); (n_v'ovov,[2;3;4;1])] [0;2;4;3]));
  (*80*) Assign (T 5) (Times (Transpose n_v'ovov [0;2;3;1]) (2) 1);
  (*81*) AddTo (T 5) (Times (Transpose n_v'ovov [0;2;1;3]) (-1) 1);
  (*82*) Assign (T 18) (Plain (Einsum [(T 3,[0;1;2;3]); (n_t1,[4;3])] [0;4;2;1]));
  (*83*) Assign (T 71) (Times (Copy (T 3)) (-1) 1);
  (*84*) AddTo (T 71) (Times (Transpose (T 3) [0;2;1;3]) (2) 1);
  (*85*) Assign (T 6) (Plain (Einsum [(T 5,[0;1;2;3]); (n_t1,[0;3])] [1;2]));
  (*86*) Assign (T 52) (Plain (Einsum [(n_t1,[0;1]); (n_t1,[2;3])] [0;2;1;3]));
  (*87*) AddTo (T 52) (Times (Transpose n_t2 [0;1;3;2]) (-2) 1);
  (*88*) AddTo (T 52) (Plain (Copy n_t2));
  (*89*) Assign (T 45) (Plain (Einsum [(n_t1,[0;1]); (n_v'ovvv,[2;3;4;1])] [0;2;3;4]));
  (*90*) Assign (T 95) (Plain (Einsum [(n_t2,[0;1;2;3]); (n_v'ooov,[4;5;6;3])] [0;1;4;5;6;2]));
  (*91*) Assign (T 20) (Plain (Einsum [(n_t1,[0;1]); (n_v'ooov,[2;3;4;1])] [0;2;3;4]));
  (*92*) Assign (T 107) (Plain (Einsum [(T 3,[0;1;2;3]); (n_t2,[4;5;6;3])] [0;4;5;2;1;6]));
  (*93*) Assign (T 79) (Plain (Einsum [(n_t2,[0;1;2;3]); (n_f'ov,[4;3])] [4;0;1;2]));
  (*94*) Assign (T 88) (Plain (Einsum [(n_t1,[0;1]); (T 18,[2;3;0;4])] [3;2;4;1]));
  (*95*) Assign (T 81) (Plain (Einsum [(n_f'ov,[0;1]); (n_t1,[2;1])] [0;2]));
  (*96*) Assign (T 33) (Times (Transpose n_v'ovov [0;2;3;1]) (-1) 2);
  (*97*) AddTo (T 33) (Plain (Transpose n_v'ovov [0;2;1;3]));
  (*98*) Assign (T 72) (Plain (Einsum [(T 71,[0;1;2;3]); (n_t2,[4;2;5;3])] [4;0;1;5]));
  (*99*) Del (T 71);
  (*100*) Assign (T 70) (Plain (Einsum [(n_v'ooov,[0;1;2;3]); (n_t2,[4;1;3;5])] [4;0;2;5]));
  (*101*) Assign (T 67) (Times (Copy n_v'ovvv) (2) 1);
  (*102*) AddTo (T 67) (Times (Transpose n_v'ovvv [0;2;3;1]) (-1) 1);
  (*103*) Assign (T 75) (Times (Copy n_v'ooov) (-1) 1);
  (*104*) AddTo (T 75) (Times (Transpose n_v'ovoo [0;2;3;1]) (2) 1);
  (*105*) Assign (T 61) (Plain (Einsum [(T 5,[0;1;2;3]); (n_t2,[4;0;5;3])] [4;1;5;2]));
  (*106*) Del (T 5);
  (*107*) Assign (T 60) (Plain (Einsum [(n_t1,[0;1]); (T 3,[2;3;0;4])] [2;3;1;4]));
  (*108*) Assign (T 64) (Plain (Einsum [(n_v'ovov,[0;1;2;3]); (n_t1,[2;3])] [0;1]));
  (*109*) Assign (T 50) (Plain (Einsum [(n_t2,[0;1;2;3]); (n_v'ooov,[4;1;5;3])] [0;4;5;2]));
  (*110*) Assign (T 54) (Plain (Einsum [(T 6,[0;1]); (n_t2,[2;3;1;4])] [2;3;0;4]));
  (*111*) Assign (T 49) (Plain (Einsum [(n_t1,[0;1]); (n_v'oovv,[2;3;4;1])] [0;2;3;4]));
  (*112*) Assign (T 53) (Plain (Einsum [(T 52,[0;1;2;3]); (n_v'ooov,[4;5;0;3])] [4;5;1;2]));
  (*113*) Del (T 52);
  (*114*) Assign (T 51) (Plain (Einsum [(T 3,[0;1;2;3]); (n_t2,[4;2;3;5])] [0;4;1;5]));
  (*115*) Assign (T 97) (Plain (Einsum [(T 45,[0;1;2;3]); (n_t2,[4;5;6;2])] [0;4;5;1;6;3]));
  (*116*) Assign (T 96) (Plain (Einsum [(n_t1,[0;1]); (T 95,[2;3;4;5;0;6])] [2;3;4;5;1;6]));
  (*117*) Del (T 95);
  (*118*) Assign (T 94) (Plain (Einsum [(T 20,[0;1;2;3]); (n_t2,[4;3;5;6])] [0;4;2;1;5;6]));
  (*119*) Assign (T 104) (Plain (Einsum [(n_t1,[0;1]); (n_v'vvvv,[2;3;4;1])] [0;2;3;4]));
  (*120*) Assign (T 102) (Plain (Einsum [(n_t1,[0;1]); (n_v'oooo,[2;3;4;0])] [2;3;4;1]));
  (*121*) Assign (T 41) (Plain (Einsum [(n_t1,[0;1]); (n_v'ovvv,[2;1;3;4])] [0;2;3;4]));
  (*122*) Assign (T 108) (Plain (Einsum [(n_t1,[0;1]); (T 107,[2;3;4;5;0;6])] [2;3;4;5;1;6]));
  (*123*) Del (T 107);
  (*124*) Assign (T 110) (Times (Transpose (T 79) [2;1;0;3]) (-1) 1);
  (*125*) AddTo (T 110) (Plain (Copy (T 88)));
  (*126*) Assign (T 124) (Plain (Einsum [(n_v'ovov,[0;1;2;3]); (n_t2,[4;5;6;3])] [4;5;0;2;6;1]));
  (*127*) Assign (T 82) (Plain (Copy n_f'oo));
  (*128*) AddTo (T 82) (Plain (Copy (T 81)));
  (*129*) Assign (T 29) (Times (Einsum [(n_v'ovov,[0;1;2;3]); (n_t3,[4;5;2;3;6;1])] [4;5;0;6]) (-1) 1);
  (*130*) Assign (T 34) (Plain (Einsum [(T 33,[0;1;2;3]); (n_t2,[0;1;2;4])] [4;3]));
  (*131*) Assign (T 38) (Times (Einsum [(n_t2,[0;1;2;3]); (T 33,[1;4;3;2])] [0;4]) (2) 1);
  (*132*) Del (T 33);
  (*133*) Assign (T 36) (Plain (Transpose n_t3 [0;2;1;3;5;4]));
  (*134*) AddTo (T 36) (Times (Einsum [(n_t1,[0;1]); (n_t2,[2;3;4;5])] [0;2;3;4;1;5]) (-1) 1);
  (*135*) Assign (T 31) (Plain (Einsum [(n_t1,[0;1]); (n_v'ovov,[2;1;0;3])] [2;3]));
  (*136*) Assign (T 24) (Plain (Einsum [(n_t3,[0;1;2;3;4;5]); (n_v'ovov,[6;4;2;5])] [0;1;6;3]));
  (*137*) Assign (T 73) (Plain (Copy (T 3)));
  (*138*) AddTo (T 73) (Times (Copy (T 70)) (-1) 1);
  (*139*) Del (T 70);
  (*140*) AddTo (T 73) (Plain (Transpose (T 72) [1;0;2;3]));
  (*141*) Del (T 72);
  (*142*) Assign (T 68) (Plain (Einsum [(n_t1,[0;1]); (T 67,[0;1;2;3])] [2;3]));
  (*143*) Del (T 67);
  (*144*) Assign (T 76) (Plain (Einsum [(T 75,[0;1;2;3]); (n_t1,[0;3])] [1;2]));
  (*145*) Del (T 75);
  (*146*) Assign (T 62) (Plain (Copy (T 60)));
  (*147*) Del (T 60);
  (*148*) AddTo (T 62) (Times (Copy (T 61)) (-1) 1);
  (*149*) Assign (T 65) (Plain (Copy n_f'ov));
  (*150*) AddTo (T 65) (Times (Copy (T 64)) (2) 1);
  (*151*) Del (T 64);
  (*152*) Assign (T 55) (Times (Transpose (T 49) [0;2;1;3]) (-1) 1);
  (*153*) AddTo (T 55) (Plain (Transpose (T 50) [0;2;1;3]));
  (*154*) Del (T 50);
  (*155*) AddTo (T 55) (Plain (Transpose (T 51) [0;2;1;3]));
  (*156*) Del (T 51);
  (*157*) AddTo (T 55) (Plain (Transpose (T 53) [2;1;0;3]));
  (*158*) Del (T 53);
  (*159*) AddTo (T 55) (Times (Transpose (T 54) [1;2;0;3]) (-1) 1);
  (*160*) Del (T 54);
  (*161*) Assign (T 57) (Plain (Einsum [(T 6,[0;1]); (n_t1,[2;1])] [2;0]));
  (*162*) Assign (T 47) (Times (Transpose n_t2 [0;1;3;2]) (-1) 1);
  (*163*) AddTo (T 47) (Times (Copy n_t2) (2) 1);
  (*164*) Assign (T 14) (Plain (Transpose n_v'ovov [0;2;3;1]));
  (*165*) AddTo (T 14) (Times (Transpose n_v'ovov [0;2;1;3]) (-1) 2);
  (*166*) Assign (T 98) (Plain (Transpose (T 94) [0;1;3;2;4;5]));
  (*167*) Del (T 94);
  (*168*) AddTo (T 98) (Plain (Transpose (T 96) [0;1;3;2;4;5]));
  (*169*) Del (T 96);
  (*170*) AddTo (T 98) (Times (Transpose (T 97) [0;1;3;2;4;5]) (-1) 1);
  (*171*) Del (T 97);
  (*172*) Assign (T 105) (Plain (Einsum [(T 104,[0;1;2;3]); (n_t2,[4;5;6;2])] [0;4;5;6;3;1]));
  (*173*) Del (T 104);
  (*174*) Assign (T 103) (Plain (Einsum [(n_t2,[0;1;2;3]); (T 102,[4;1;5;6])] [0;5;4;6;2;3]));
  (*175*) Del (T 102);
  (*176*) Assign (T 92) (Plain (Einsum [(n_t1,[0;1]); (T 45,[2;3;1;4])] [0;2;3;4]));
  (*177*) Assign (T 118) (Plain (Einsum [(n_t1,[0;1]); (T 20,[2;3;4;0])] [2;4;3;1]));
  (*178*) Assign (T 127) (Plain (Einsum [(n_v'oovv,[0;1;2;3]); (n_t2,[4;5;6;3])] [4;5;0;1;6;2]));
  (*179*) Assign (T 100) (Plain (Einsum [(T 41,[0;1;2;3]); (n_t2,[4;5;6;3])] [0;4;5;1;6;2]));
  (*180*) Assign (T 114) (Plain (Copy n_f'oo));
  (*181*) AddTo (T 114) (Plain (Copy (T 81)));
  (*182*) Del (T 81);
  (*183*) Assign (T 120) (Plain (Einsum [(n_f'ov,[0;1]); (n_t3,[2;3;4;5;6;1])] [0;2;4;3;5;6]));
  (*184*) Assign (T 109) (Plain (Einsum [(n_t1,[0;1]); (T 108,[2;3;4;0;5;6])] [2;3;4;1;5;6]));
  (*185*) Del (T 108);
  (*186*) Assign (T 111) (Plain (Einsum [(n_t2,[0;1;2;3]); (T 110,[4;5;1;6])] [0;4;5;3;2;6]));
  (*187*) Del (T 110);
  (*188*) Assign (T 123) (Plain (Einsum [(T 3,[0;1;2;3]); (n_t2,[4;2;5;6])] [0;4;1;5;6;3]));
  (*189*) Assign (T 125) (Plain (Einsum [(n_t1,[0;1]); (T 124,[2;3;4;0;5;6])] [2;3;4;1;5;6]));
  (*190*) Del (T 124);
  (*191*) Assign (T 83) (Plain (Einsum [(n_t2,[0;1;2;3]); (T 82,[1;4])] [0;4;3;2]));
  (*192*) Del (T 82);
  (*193*) Assign (T 80) (Plain (Einsum [(T 79,[0;1;2;3]); (n_t1,[0;4])] [1;2;4;3]));
  (*194*) Del (T 79);
  (*195*) Assign (T 17) (Plain (Einsum [(n_v'ovov,[0;1;2;3]); (n_t2,[4;2;3;5])] [4;0;5;1]));
  (*196*) Assign (T 27) (Plain (Einsum [(n_v'ooov,[0;1;2;3]); (n_t3,[4;1;2;5;6;3])] [4;0;5;6]));
  (*197*) Assign (T 30) (Plain (Einsum [(T 29,[0;1;2;3]); (n_t1,[2;4])] [0;1;4;3]));
  (*198*) Del (T 29);
  (*199*) Assign (T 28) (Times (Einsum [(T 3,[0;1;2;3]); (n_t3,[1;4;2;5;6;3])] [0;4;5;6]) (-1) 1);
  (*200*) Assign (T 35) (Times (Einsum [(T 34,[0;1]); (n_t2,[2;3;1;4])] [2;3;4;0]) (2) 1);
  (*201*) Del (T 34);
  (*202*) Assign (T 39) (Plain (Einsum [(n_t2,[0;1;2;3]); (T 38,[4;1])] [0;4;3;2]));
  (*203*) Del (T 38);
  (*204*) Assign (T 37) (Plain (Einsum [(T 36,[0;1;2;3;4;5]); (n_v'ovvv,[0;3;6;5])] [1;2;6;4]));
  (*205*) Del (T 36);
  (*206*) Assign (T 32) (Plain (Einsum [(n_t3,[0;1;2;3;4;5]); (T 31,[2;5])] [0;1;3;4]));
  (*207*) Del (T 31);
  (*208*) Assign (T 42) (Plain (Copy n_t2));
  (*209*) AddTo (T 42) (Plain (Einsum [(n_t1,[0;1]); (n_t1,[2;3])] [0;2;1;3]));
  (*210*) Assign (T 19) (Times (Einsum [(n_t3,[0;1;2;3;4;5]); (n_v'ooov,[6;2;0;5])] [1;6;3;4]) (-1) 1);
  (*211*) Assign (T 25) (Plain (Einsum [(T 24,[0;1;2;3]); (n_t1,[2;4])] [0;1;4;3]));
  (*212*) Del (T 24);
  (*213*) Assign (T 23) (Plain (Einsum [(T 3,[0;1;2;3]); (n_t3,[4;2;1;5;6;3])] [0;4;5;6]));
  (*214*) Assign (T 21) (Plain (Einsum [(T 20,[0;1;2;3]); (n_t2,[3;2;4;5])] [0;1;5;4]));
  (*215*) Del (T 20);
  (*216*) Assign (T 22) (Times (Einsum [(n_v'ovvv,[0;1;2;3]); (n_t3,[4;5;0;3;6;1])] [4;5;6;2]) (-1) 1);
  (*217*) Assign (T 74) (Plain (Einsum [(n_t1,[0;1]); (T 73,[2;3;0;4])] [2;3;1;4]));
  (*218*) Del (T 73);
  (*219*) Assign (T 69) (Plain (Einsum [(T 68,[0;1]); (n_t2,[2;3;1;4])] [2;3;4;0]));
  (*220*) Del (T 68);
  (*221*) Assign (T 77) (Plain (Einsum [(n_t2,[0;1;2;3]); (T 76,[4;1])] [0;4;3;2]));
  (*222*) Del (T 76);
  (*223*) Assign (T 63) (Plain (Einsum [(T 62,[0;1;2;3]); (n_t2,[4;1;3;5])] [4;0;5;2]));
  (*224*) Del (T 62);
  (*225*) Assign (T 66) (Plain (Einsum [(n_t3,[0;1;2;3;4;5]); (T 65,[2;5])] [0;1;3;4]));
  (*226*) Del (T 65);
  (*227*) Assign (T 46) (Plain (Einsum [(T 41,[0;1;2;3]); (n_t2,[4;1;5;3])] [0;4;5;2]));
  (*228*) Assign (T 56) (Plain (Einsum [(n_t1,[0;1]); (T 55,[2;0;3;4])] [2;3;1;4]));
  (*229*) Del (T 55);
  (*230*) Assign (T 58) (Plain (Einsum [(n_t2,[0;1;2;3]); (T 57,[4;1])] [0;4;3;2]));
  (*231*) Del (T 57);
  (*232*) Assign (T 48) (Plain (Einsum [(T 45,[0;1;2;3]); (T 47,[1;4;2;5])] [4;0;5;3]));
  (*233*) Del (T 47);
  (*234*) Assign (T 44) (Plain (Einsum [(n_f'vv,[0;1]); (n_t2,[2;3;4;1])] [2;3;0;4]));
  (*235*) Assign (T 10) (Plain (Copy n_v'ovvv));
  (*236*) AddTo (T 10) (Times (Transpose n_v'ovvv [0;2;3;1]) (-1) 2);
  (*237*) Assign (T 13) (Times (Copy n_v'ooov) (-1) 2);
  (*238*) AddTo (T 13) (Plain (Transpose n_v'ovoo [0;2;3;1]));
  (*239*) Assign (T 12) (Times (Transpose n_v'ovov [0;2;3;1]) (-1) 1);
  (*240*) AddTo (T 12) (Times (Transpose n_v'ovov [0;2;1;3]) (2) 1);
  (*241*) Assign (T 15) (Times (Copy n_f'ov) (1) 2);
  (*242*) AddTo (T 15) (Plain (Einsum [(T 14,[0;1;2;3]); (n_t1,[0;3])] [1;2]));
  (*243*) Del (T 14);
  (*244*) Assign (T 99) (Plain (Einsum [(T 98,[0;1;2;3;4;5]); (n_t1,[2;6])] [0;1;3;6;4;5]));
  (*245*) Del (T 98);
  (*246*) Assign (T 116) (Plain (Einsum [(n_t3,[0;1;2;3;4;5]); (n_f'vv,[6;5])] [0;2;1;6;3;4]));
  (*247*) Assign (T 106) (Plain (Copy (T 103)));
  (*248*) Del (T 103);
  (*249*) AddTo (T 106) (Plain (Copy (T 105)));
  (*250*) Del (T 105);
  (*251*) Assign (T 93) (Plain (Einsum [(n_t2,[0;1;2;3]); (T 92,[4;5;1;6])] [4;5;0;2;3;6]));
  (*252*) Del (T 92);
  (*253*) Assign (T 113) (Plain (Einsum [(n_t2,[0;1;2;3]); (n_v'ooov,[4;1;5;6])] [0;4;5;2;3;6]));
  (*254*) Assign (T 122) (Plain (Einsum [(T 49,[0;1;2;3]); (n_t2,[4;2;5;6])] [0;4;1;5;6;3]));
  (*255*) Del (T 49);
  (*256*) Assign (T 117) (Plain (Einsum [(n_t2,[0;1;2;3]); (n_v'ovvv,[4;5;6;3])] [0;1;4;2;5;6]));
  (*257*) Assign (T 129) (Plain (Copy n_f'vv));
  (*258*) AddTo (T 129) (Times (Einsum [(n_t1,[0;1]); (n_f'ov,[0;2])] [2;1]) (-1) 1);
  (*259*) Assign (T 119) (Plain (Einsum [(T 118,[0;1;2;3]); (n_t2,[4;1;5;6])] [0;4;2;3;5;6]));
  (*260*) Del (T 118);
  (*261*) Assign (T 128) (Plain (Einsum [(n_t1,[0;1]); (T 127,[2;3;0;4;5;6])] [2;3;4;1;5;6]));
  (*262*) Del (T 127);
  (*263*) Assign (T 101) (Plain (Einsum [(n_t1,[0;1]); (T 100,[2;3;4;0;5;6])] [2;3;4;1;5;6]));
  (*264*) Del (T 100);
  (*265*) Assign (T 115) (Times (Einsum [(n_t3,[0;1;2;3;4;5]); (T 114,[2;6])] [0;1;6;3;5;4]) (-1) 1);
  (*266*) Assign (T 121) (Plain (Einsum [(n_t1,[0;1]); (T 120,[0;2;3;4;5;6])] [2;3;4;1;5;6]));
  (*267*) Del (T 120);
  (*268*) Assign (T 112) (Plain (Copy (T 109)));
  (*269*) Del (T 109);
  (*270*) AddTo (T 112) (Plain (Transpose (T 111) [2;1;0;5;4;3]));
  (*271*) Del (T 111);
  (*272*) Assign (T 126) (Plain (Copy (T 123)));
  (*273*) Del (T 123);
  (*274*) AddTo (T 126) (Plain (Copy (T 125)));
  (*275*) Del (T 125);
  (*276*) Assign (T 84) (Plain (Copy (T 80)));
  (*277*) Del (T 80);
  (*278*) AddTo (T 84) (Plain (Transpose (T 83) [1;0;3;2]));
  (*279*) Del (T 83);
  (*280*) Assign (T 90) (Times (Copy n_v'oovv) (-1) 1);
  (*281*) AddTo (T 90) (Plain (Einsum [(n_v'ovov,[0;1;2;3]); (n_t2,[4;2;1;5])] [4;0;5;3]));
  (*282*) Assign (T 91) (Times (Transpose n_v'ovov [0;2;1;3]) (-1) 1);
  (*283*) AddTo (T 91) (Plain (Copy (T 17)));
  (*284*) Assign (T 85) (Times (Transpose n_v'ovov [0;2;1;3]) (2) 1);
  (*285*) AddTo (T 85) (Times (Copy n_v'oovv) (-1) 1);
  (*286*) AddTo (T 85) (Times (Copy (T 61)) (2) 1);
  (*287*) Del (T 61);
  (*288*) Assign (T 86) (Plain (Copy n_v'oooo));
  (*289*) AddTo (T 86) (Plain (Einsum [(n_t2,[0;1;2;3]); (n_v'ovov,[4;2;5;3])] [4;0;1;5]));
  (*290*) Assign (T 40) (Plain (Copy (T 27)));
  (*291*) Del (T 27);
  (*292*) AddTo (T 40) (Plain (Copy (T 28)));
  (*293*) Del (T 28);
  (*294*) AddTo (T 40) (Plain (Copy (T 30)));
  (*295*) Del (T 30);
  (*296*) AddTo (T 40) (Plain (Copy (T 32)));
  (*297*) Del (T 32);
  (*298*) AddTo (T 40) (Plain (Transpose (T 35) [1;0;2;3]));
  (*299*) Del (T 35);
  (*300*) AddTo (T 40) (Times (Transpose (T 37) [0;1;3;2]) (-1) 1);
  (*301*) Del (T 37);
  (*302*) AddTo (T 40) (Plain (Transpose (T 39) [0;1;3;2]));
  (*303*) Del (T 39);
  (*304*) Assign (T 87) (Plain (Copy n_t2));
  (*305*) AddTo (T 87) (Plain (Einsum [(n_t1,[0;1]); (n_t1,[2;3])] [0;2;1;3]));
  (*306*) Assign (T 43) (Plain (Einsum [(T 41,[0;1;2;3]); (T 42,[1;4;5;2])] [0;4;3;5]));
  (*307*) Del (T 41);
  (*307*) Del (T 42);
  (*308*) Assign (T 26) (Plain (Copy (T 19)));
  (*309*) Del (T 19);
  (*310*) AddTo (T 26) (Times (Copy (T 21)) (-1) 1);
  (*311*) Del (T 21);
  (*312*) AddTo (T 26) (Plain (Copy (T 22)));
  (*313*) Del (T 22);
  (*314*) AddTo (T 26) (Plain (Copy (T 23)));
  (*315*) Del (T 23);
  (*316*) AddTo (T 26) (Plain (Copy (T 25)));
  (*317*) Del (T 25);
  (*318*) Assign (T 78) (Plain (Transpose (T 63) [1;0;3;2]));
  (*319*) Del (T 63);
  (*320*) AddTo (T 78) (Plain (Copy (T 66)));
  (*321*) Del (T 66);
  (*322*) AddTo (T 78) (Plain (Transpose (T 69) [1;0;2;3]));
  (*323*) Del (T 69);
  (*324*) AddTo (T 78) (Times (Copy (T 74)) (-1) 1);
  (*325*) Del (T 74);
  (*326*) AddTo (T 78) (Times (Transpose (T 77) [0;1;3;2]) (-1) 1);
  (*327*) Del (T 77);
  (*328*) Assign (T 89) (Times (Transpose n_v'ooov [0;2;1;3]) (-1) 1);
  (*329*) AddTo (T 89) (Plain (Copy (T 88)));
  (*330*) Del (T 88);
  (*331*) Assign (T 59) (Plain (Copy (T 44)));
  (*332*) Del (T 44);
  (*333*) AddTo (T 59) (Plain (Copy (T 45)));
  (*334*) Del (T 45);
  (*335*) AddTo (T 59) (Times (Copy (T 46)) (-1) 1);
  (*336*) Del (T 46);
  (*337*) AddTo (T 59) (Plain (Transpose (T 48) [1;0;2;3]));
  (*338*) Del (T 48);
  (*339*) AddTo (T 59) (Plain (Copy (T 56)));
  (*340*) Del (T 56);
  (*341*) AddTo (T 59) (Times (Transpose (T 58) [1;0;3;2]) (-1) 1);
  (*342*) Del (T 58);
  (*343*) Assign (T 11) (Times (Copy n_f'vv) (1) 2);
  (*344*) AddTo (T 11) (Plain (Einsum [(n_t1,[0;1]); (T 10,[0;1;2;3])] [3;2]));
  (*345*) Del (T 10);
  (*346*) Assign (T 2) (Plain (Copy n_v'ovvv));
  (*347*) AddTo (T 2) (Times (Transpose n_v'ovvv [0;2;1;3]) (-1) 2);
  (*348*) Assign (T 16) (Plain (Copy n_f'oo));
  (*349*) AddTo (T 16) (Plain (Einsum [(T 12,[0;1;2;3]); (n_t2,[4;0;3;2])] [1;4]));
  (*350*) Del (T 12);
  (*351*) AddTo (T 16) (Times (Einsum [(n_t1,[0;1]); (T 13,[0;2;3;1])] [3;2]) (2) 1);
  (*352*) Del (T 13);
  (*353*) AddTo (T 16) (Times (Einsum [(T 15,[0;1]); (n_t1,[2;1])] [0;2]) (2) 1);
  (*354*) Del (T 15);
  (*355*) Assign (T 9) (Times (Transpose n_v'ovov [0;2;1;3]) (2) 1);
  (*356*) AddTo (T 9) (Times (Copy n_v'oovv) (-1) 1);
  (*357*) Assign (T 7) (Plain (Copy n_f'ov));
  (*358*) AddTo (T 7) (Plain (Copy (T 6)));
  (*359*) Del (T 6);
  (*360*) Assign (T 8) (Times (Transpose n_t2 [0;1;3;2]) (2) 1);
  (*361*) AddTo (T 8) (Times (Copy n_t2) (-1) 1);
  (*362*) Assign (T 4) (Plain (Copy n_v'ooov));
  (*363*) AddTo (T 4) (Times (Transpose n_v'ooov [0;2;1;3]) (-1) 2);
  (*364*) AddTo (T 4) (Times (Copy (T 3)) (-1) 2);
  (*365*) AddTo (T 4) (Plain (Transpose (T 3) [0;2;1;3]));
  (*366*) Del (T 3);
  (*367*) Assign (T 1) (Times (Transpose n_t3 [0;2;1;3;5;4]) (-3) 1);
  (*368*) AddTo (T 1) (Plain (Transpose n_t3 [0;2;1;3;4;5]));
  (*369*) AddTo (T 1) (Times (Copy n_t3) (-1) 1);
  (*370*) Assign n_t3new (Plain (Transpose (T 93) [0;1;2;3;5;4]));
  (*371*) AddTo n_t3new (Times (Transpose (T 93) [0;1;2;4;5;3]) (-1) 1);
  (*372*) AddTo n_t3new (Times (Transpose (T 93) [0;2;1;4;3;5]) (-1) 1);
  (*373*) AddTo n_t3new (Plain (Transpose (T 93) [0;2;1;5;3;4]));
  (*374*) AddTo n_t3new (Plain (Transpose (T 93) [1;0;2;3;4;5]));
  (*375*) AddTo n_t3new (Times (Transpose (T 93) [1;0;2;5;4;3]) (-1) 1);
  (*376*) AddTo n_t3new (Times (Transpose (T 93) [2;0;1;3;4;5]) (-1) 1);
  (*377*) AddTo n_t3new (Plain (Transpose (T 93) [2;0;1;5;4;3]));
  (*378*) AddTo n_t3new (Plain (Transpose (T 93) [1;2;0;4;3;5]));
  (*379*) AddTo n_t3new (Times (Transpose (T 93) [1;2;0;5;3;4]) (-1) 1);
  (*380*) AddTo n_t3new (Times (Transpose (T 93) [2;1;0;3;5;4]) (-1) 1);
  (*381*) AddTo n_t3new (Plain (Transpose (T 93) [2;1;0;4;5;3]));
  (*382*) Del (T 93);
  (*383*) AddTo n_t3new (Times (Copy (T 99)) (-1) 1);
  (*384*) AddTo n_t3new (Plain (Transpose (T 99) [0;1;2;5;4;3]));
  (*385*) AddTo n_t3new (Times (Transpose (T 99) [0;2;1;4;3;5]) (-1) 1);
  (*386*) AddTo n_t3new (Plain (Transpose (T 99) [0;2;1;5;3;4]));
  (*387*) AddTo n_t3new (Times (Transpose (T 99) [1;0;2;3;5;4]) (-1) 1);
  (*388*) AddTo n_t3new (Plain (Transpose (T 99) [1;0;2;4;5;3]));
  (*389*) AddTo n_t3new (Plain (Transpose (T 99) [2;0;1;3;5;4]));
  (*390*) AddTo n_t3new (Times (Transpose (T 99) [2;0;1;4;5;3]) (-1) 1);
  (*391*) AddTo n_t3new (Plain (Transpose (T 99) [1;2;0;4;3;5]));
  (*392*) AddTo n_t3new (Times (Transpose (T 99) [1;2;0;5;3;4]) (-1) 1);
  (*393*) AddTo n_t3new (Plain (Transpose (T 99) [2;1;0;3;4;5]));
  (*394*) AddTo n_t3new (Times (Transpose (T 99) [2;1;0;5;4;3]) (-1) 1);
  (*395*) Del (T 99);
  (*396*) AddTo n_t3new (Times (Copy (T 101)) (-1) 1);
  (*397*) AddTo n_t3new (Plain (Transpose (T 101) [0;1;2;5;4;3]));
  (*398*) AddTo n_t3new (Times (Transpose (T 101) [0;2;1;3;5;4]) (-1) 1);
  (*399*) AddTo n_t3new (Plain (Transpose (T 101) [0;2;1;4;5;3]));
  (*400*) AddTo n_t3new (Times (Transpose (T 101) [1;0;2;4;3;5]) (-1) 1);
  (*401*) AddTo n_t3new (Plain (Transpose (T 101) [1;0;2;5;3;4]));
  (*402*) AddTo n_t3new (Plain (Transpose (T 101) [2;0;1;4;3;5]));
  (*403*) AddTo n_t3new (Times (Transpose (T 101) [2;0;1;5;3;4]) (-1) 1);
  (*404*) AddTo n_t3new (Plain (Transpose (T 101) [1;2;0;3;5;4]));
  (*405*) AddTo n_t3new (Times (Transpose (T 101) [1;2;0;4;5;3]) (-1) 1);
  (*406*) AddTo n_t3new (Plain (Transpose (T 101) [2;1;0;3;4;5]));
  (*407*) AddTo n_t3new (Times (Transpose (T 101) [2;1;0;5;4;3]) (-1) 1);
  (*408*) Del (T 101);
  (*409*) AddTo n_t3new (Plain (Transpose (T 106) [0;1;2;4;3;5]));
  (*410*) AddTo n_t3new (Times (Transpose (T 106) [0;1;2;5;3;4]) (-1) 1);
  (*411*) AddTo n_t3new (Times (Transpose (T 106) [0;2;1;3;5;4]) (-1) 1);
  (*412*) AddTo n_t3new (Plain (Transpose (T 106) [0;2;1;4;5;3]));
  (*413*) AddTo n_t3new (Plain (Transpose (T 106) [1;0;2;3;4;5]));
  (*414*) AddTo n_t3new (Times (Transpose (T 106) [1;0;2;5;4;3]) (-1) 1);
  (*415*) AddTo n_t3new (Times (Transpose (T 106) [2;0;1;3;4;5]) (-1) 1);
  (*416*) AddTo n_t3new (Plain (Transpose (T 106) [2;0;1;5;4;3]));
  (*417*) AddTo n_t3new (Plain (Transpose (T 106) [1;2;0;3;5;4]));
  (*418*) AddTo n_t3new (Times (Transpose (T 106) [1;2;0;4;5;3]) (-1) 1);
  (*419*) AddTo n_t3new (Times (Transpose (T 106) [2;1;0;4;3;5]) (-1) 1);
  (*420*) AddTo n_t3new (Plain (Transpose (T 106) [2;1;0;5;3;4]));
  (*421*) Del (T 106);
  (*422*) AddTo n_t3new (Plain (Transpose (T 112) [0;1;2;3;5;4]));
  (*423*) AddTo n_t3new (Times (Transpose (T 112) [0;1;2;4;5;3]) (-1) 1);
  (*424*) AddTo n_t3new (Plain (Transpose (T 112) [0;2;1;3;4;5]));
  (*425*) AddTo n_t3new (Times (Transpose (T 112) [0;2;1;5;4;3]) (-1) 1);
  (*426*) AddTo n_t3new (Times (Transpose (T 112) [1;0;2;4;3;5]) (-1) 1);
  (*427*) AddTo n_t3new (Plain (Transpose (T 112) [1;0;2;5;3;4]));
  (*428*) AddTo n_t3new (Plain (Transpose (T 112) [2;0;1;4;3;5]));
  (*429*) AddTo n_t3new (Times (Transpose (T 112) [2;0;1;5;3;4]) (-1) 1);
  (*430*) AddTo n_t3new (Times (Transpose (T 112) [1;2;0;3;4;5]) (-1) 1);
  (*431*) AddTo n_t3new (Plain (Transpose (T 112) [1;2;0;5;4;3]));
  (*432*) AddTo n_t3new (Times (Transpose (T 112) [2;1;0;3;5;4]) (-1) 1);
  (*433*) AddTo n_t3new (Plain (Transpose (T 112) [2;1;0;4;5;3]));
  (*434*) Del (T 112);
  (*435*) AddTo n_t3new (Times (Copy (T 113)) (-1) 1);
  (*436*) AddTo n_t3new (Plain (Transpose (T 113) [0;1;2;5;4;3]));
  (*437*) AddTo n_t3new (Times (Transpose (T 113) [0;2;1;3;5;4]) (-1) 1);
  (*438*) AddTo n_t3new (Plain (Transpose (T 113) [0;2;1;4;5;3]));
  (*439*) AddTo n_t3new (Times (Transpose (T 113) [1;0;2;4;3;5]) (-1) 1);
  (*440*) AddTo n_t3new (Plain (Transpose (T 113) [1;0;2;5;3;4]));
  (*441*) AddTo n_t3new (Plain (Transpose (T 113) [2;0;1;4;3;5]));
  (*442*) AddTo n_t3new (Times (Transpose (T 113) [2;0;1;5;3;4]) (-1) 1);
  (*443*) AddTo n_t3new (Plain (Transpose (T 113) [1;2;0;3;5;4]));
  (*444*) AddTo n_t3new (Times (Transpose (T 113) [1;2;0;4;5;3]) (-1) 1);
  (*445*) AddTo n_t3new (Plain (Transpose (T 113) [2;1;0;3;4;5]));
  (*446*) AddTo n_t3new (Times (Transpose (T 113) [2;1;0;5;4;3]) (-1) 1);
  (*447*) Del (T 113);
  (*448*) AddTo n_t3new (Plain (Transpose (T 115) [2;1;0;4;5;3]));
  (*449*) AddTo n_t3new (Times (Transpose (T 115) [0;1;2;4;5;3]) (-1) 1);
  (*450*) Del (T 115);
  (*451*) AddTo n_t3new (Times (Transpose (T 116) [0;2;1;3;5;4]) (-1) 1);
  (*452*) AddTo n_t3new (Plain (Transpose (T 116) [0;2;1;4;5;3]));
  (*453*) Del (T 116);
  (*454*) AddTo n_t3new (Plain (Transpose (T 117) [0;1;2;3;5;4]));
  (*455*) AddTo n_t3new (Times (Transpose (T 117) [0;1;2;4;5;3]) (-1) 1);
  (*456*) AddTo n_t3new (Plain (Transpose (T 117) [0;2;1;3;4;5]));
  (*457*) AddTo n_t3new (Times (Transpose (T 117) [0;2;1;5;4;3]) (-1) 1);
  (*458*) AddTo n_t3new (Times (Transpose (T 117) [1;0;2;4;3;5]) (-1) 1);
  (*459*) AddTo n_t3new (Plain (Transpose (T 117) [1;0;2;5;3;4]));
  (*460*) AddTo n_t3new (Plain (Transpose (T 117) [2;0;1;4;3;5]));
  (*461*) AddTo n_t3new (Times (Transpose (T 117) [2;0;1;5;3;4]) (-1) 1);
  (*462*) AddTo n_t3new (Times (Transpose (T 117) [1;2;0;3;4;5]) (-1) 1);
  (*463*) AddTo n_t3new (Plain (Transpose (T 117) [1;2;0;5;4;3]));
  (*464*) AddTo n_t3new (Times (Transpose (T 117) [2;1;0;3;5;4]) (-1) 1);
  (*465*) AddTo n_t3new (Plain (Transpose (T 117) [2;1;0;4;5;3]));
  (*466*) Del (T 117);
  (*467*) AddTo n_t3new (Plain (Copy (T 119)));
  (*468*) AddTo n_t3new (Times (Transpose (T 119) [0;1;2;5;4;3]) (-1) 1);
  (*469*) AddTo n_t3new (Plain (Transpose (T 119) [0;2;1;3;5;4]));
  (*470*) AddTo n_t3new (Times (Transpose (T 119) [0;2;1;4;5;3]) (-1) 1);
  (*471*) AddTo n_t3new (Plain (Transpose (T 119) [1;0;2;4;3;5]));
  (*472*) AddTo n_t3new (Times (Transpose (T 119) [1;0;2;5;3;4]) (-1) 1);
  (*473*) AddTo n_t3new (Times (Transpose (T 119) [2;0;1;4;3;5]) (-1) 1);
  (*474*) AddTo n_t3new (Plain (Transpose (T 119) [2;0;1;5;3;4]));
  (*475*) AddTo n_t3new (Times (Transpose (T 119) [1;2;0;3;5;4]) (-1) 1);
  (*476*) AddTo n_t3new (Plain (Transpose (T 119) [1;2;0;4;5;3]));
  (*477*) AddTo n_t3new (Times (Transpose (T 119) [2;1;0;3;4;5]) (-1) 1);
  (*478*) AddTo n_t3new (Plain (Transpose (T 119) [2;1;0;5;4;3]));
  (*479*) Del (T 119);
  (*480*) AddTo n_t3new (Plain (Transpose (T 121) [0;2;1;3;5;4]));
  (*481*) AddTo n_t3new (Times (Transpose (T 121) [0;2;1;4;5;3]) (-1) 1);
  (*482*) Del (T 121);
  (*483*) AddTo n_t3new (Plain (Transpose (T 122) [0;1;2;4;3;5]));
  (*484*) AddTo n_t3new (Times (Transpose (T 122) [0;1;2;5;3;4]) (-1) 1);
  (*485*) AddTo n_t3new (Plain (Transpose (T 122) [0;2;1;3;4;5]));
  (*486*) AddTo n_t3new (Times (Transpose (T 122) [0;2;1;5;4;3]) (-1) 1);
  (*487*) AddTo n_t3new (Times (Transpose (T 122) [1;0;2;3;5;4]) (-1) 1);
  (*488*) AddTo n_t3new (Plain (Transpose (T 122) [1;0;2;4;5;3]));
  (*489*) AddTo n_t3new (Plain (Transpose (T 122) [2;0;1;3;5;4]));
  (*490*) AddTo n_t3new (Times (Transpose (T 122) [2;0;1;4;5;3]) (-1) 1);
  (*491*) AddTo n_t3new (Times (Transpose (T 122) [1;2;0;3;4;5]) (-1) 1);
  (*492*) AddTo n_t3new (Plain (Transpose (T 122) [1;2;0;5;4;3]));
  (*493*) AddTo n_t3new (Times (Transpose (T 122) [2;1;0;4;3;5]) (-1) 1);
  (*494*) AddTo n_t3new (Plain (Transpose (T 122) [2;1;0;5;3;4]));
  (*495*) Del (T 122);
  (*496*) AddTo n_t3new (Times (Transpose (T 126) [0;1;2;4;3;5]) (-1) 1);
  (*497*) AddTo n_t3new (Plain (Transpose (T 126) [0;1;2;5;3;4]));
  (*498*) AddTo n_t3new (Plain (Transpose (T 126) [0;2;1;3;5;4]));
  (*499*) AddTo n_t3new (Times (Transpose (T 126) [0;2;1;4;5;3]) (-1) 1);
  (*500*) AddTo n_t3new (Times (Transpose (T 126) [1;0;2;3;4;5]) (-1) 1);
  (*501*) AddTo n_t3new (Plain (Transpose (T 126) [1;0;2;5;4;3]));
  (*502*) AddTo n_t3new (Plain (Transpose (T 126) [2;0;1;3;4;5]));
  (*503*) AddTo n_t3new (Times (Transpose (T 126) [2;0;1;5;4;3]) (-1) 1);
  (*504*) AddTo n_t3new (Times (Transpose (T 126) [1;2;0;3;5;4]) (-1) 1);
  (*505*) AddTo n_t3new (Plain (Transpose (T 126) [1;2;0;4;5;3]));
  (*506*) AddTo n_t3new (Plain (Transpose (T 126) [2;1;0;4;3;5]));
  (*507*) AddTo n_t3new (Times (Transpose (T 126) [2;1;0;5;3;4]) (-1) 1);
  (*508*) Del (T 126);
  (*509*) AddTo n_t3new (Plain (Transpose (T 128) [0;1;2;3;5;4]));
  (*510*) AddTo n_t3new (Times (Transpose (T 128) [0;1;2;4;5;3]) (-1) 1);
  (*511*) AddTo n_t3new (Times (Transpose (T 128) [0;2;1;4;3;5]) (-1) 1);
  (*512*) AddTo n_t3new (Plain (Transpose (T 128) [0;2;1;5;3;4]));
  (*513*) AddTo n_t3new (Plain (Transpose (T 128) [1;0;2;3;4;5]));
  (*514*) AddTo n_t3new (Times (Transpose (T 128) [1;0;2;5;4;3]) (-1) 1);
  (*515*) AddTo n_t3new (Times (Transpose (T 128) [2;0;1;3;4;5]) (-1) 1);
  (*516*) AddTo n_t3new (Plain (Transpose (T 128) [2;0;1;5;4;3]));
  (*517*) AddTo n_t3new (Plain (Transpose (T 128) [1;2;0;4;3;5]));
  (*518*) AddTo n_t3new (Times (Transpose (T 128) [1;2;0;5;3;4]) (-1) 1);
  (*519*) AddTo n_t3new (Times (Transpose (T 128) [2;1;0;3;5;4]) (-1) 1);
  (*520*) AddTo n_t3new (Plain (Transpose (T 128) [2;1;0;4;5;3]));
  (*521*) Del (T 128);
  (*522*) AddTo n_t3new (Plain (Einsum [(n_t3,[0;1;2;3;4;5]); (T 129,[4;6])] [0;1;2;3;6;5]));
  (*523*) Del (T 129);
  (*524*) AddTo n_t3new (Times (Einsum [(n_t3,[0;1;2;3;4;5]); (T 114,[1;6])] [0;6;2;3;4;5]) (-1) 1);
  (*525*) Del (T 114);
  (*526*) Assign n_t2new (Times (Einsum [(n_v'oovv,[0;1;2;3]); (n_t2,[4;1;5;3])] [0;4;2;5]) (-1) 1);
  (*527*) AddTo n_t2new (Times (Copy (T 17)) (-1) 1);
  (*528*) Del (T 17);
  (*529*) AddTo n_t2new (Times (Einsum [(n_v'oovv,[0;1;2;3]); (n_t2,[4;1;3;5])] [4;0;2;5]) (-1) 1);
  (*530*) AddTo n_t2new (Times (Einsum [(n_v'ovov,[0;1;2;3]); (n_t2,[4;2;5;3])] [0;4;1;5]) (2) 1);
  (*531*) AddTo n_t2new (Plain (Transpose n_v'ovov [0;2;1;3]));
  (*532*) AddTo n_t2new (Times (Einsum [(n_v'ovoo,[0;1;2;3]); (n_t1,[3;4])] [0;2;1;4]) (-1) 1);
  (*533*) AddTo n_t2new (Plain (Einsum [(T 18,[0;1;2;3]); (n_t2,[2;3;4;5])] [1;0;5;4]));
  (*534*) Del (T 18);
  (*535*) AddTo n_t2new (Times (Transpose (T 26) [0;1;3;2]) (-1) 1);
  (*536*) AddTo n_t2new (Times (Transpose (T 26) [1;0;2;3]) (-1) 1);
  (*537*) Del (T 26);
  (*538*) AddTo n_t2new (Times (Copy (T 40)) (-1) 1);
  (*539*) AddTo n_t2new (Times (Transpose (T 40) [1;0;3;2]) (-1) 1);
  (*540*) Del (T 40);
  (*541*) AddTo n_t2new (Times (Transpose (T 43) [0;1;3;2]) (-1) 1);
  (*542*) AddTo n_t2new (Times (Transpose (T 43) [1;0;2;3]) (-1) 1);
  (*543*) Del (T 43);
  (*544*) AddTo n_t2new (Plain (Transpose (T 59) [0;1;3;2]));
  (*545*) AddTo n_t2new (Plain (Transpose (T 59) [1;0;2;3]));
  (*546*) Del (T 59);
  (*547*) AddTo n_t2new (Plain (Copy (T 78)));
  (*548*) AddTo n_t2new (Plain (Transpose (T 78) [1;0;3;2]));
  (*549*) Del (T 78);
  (*550*) AddTo n_t2new (Times (Transpose (T 84) [0;1;3;2]) (-1) 1);
  (*551*) AddTo n_t2new (Times (Transpose (T 84) [1;0;2;3]) (-1) 1);
  (*552*) Del (T 84);
  (*553*) AddTo n_t2new (Plain (Einsum [(n_t2,[0;1;2;3]); (T 85,[4;1;5;3])] [0;4;2;5]));
  (*554*) Del (T 85);
  (*555*) AddTo n_t2new (Plain (Einsum [(T 87,[0;1;2;3]); (T 86,[0;4;5;1])] [5;4;3;2]));
  (*556*) Del (T 86);
  (*557*) AddTo n_t2new (Plain (Einsum [(T 87,[0;1;2;3]); (n_v'vvvv,[4;3;5;2])] [1;0;4;5]));
  (*558*) Del (T 87);
  (*559*) AddTo n_t2new (Plain (Einsum [(n_t1,[0;1]); (T 89,[2;3;0;4])] [2;3;1;4]));
  (*560*) Del (T 89);
  (*561*) AddTo n_t2new (Plain (Einsum [(T 90,[0;1;2;3]); (n_t2,[4;1;3;5])] [0;4;5;2]));
  (*562*) Del (T 90);
  (*563*) AddTo n_t2new (Plain (Einsum [(T 91,[0;1;2;3]); (n_t2,[4;1;3;5])] [0;4;2;5]));
  (*564*) Del (T 91);
  (*565*) Assign n_t1new (Plain (Copy n_f'ov));
  (*566*) AddTo n_t1new (Times (Einsum [(n_v'ovov,[0;1;2;3]); (n_t3,[4;2;0;5;1;3])] [4;5]) (-1) 2);
  (*567*) AddTo n_t1new (Times (Einsum [(T 1,[0;1;2;3;4;5]); (n_v'ovov,[0;3;2;5])] [1;4]) (-1) 2);
  (*568*) Del (T 1);
  (*569*) AddTo n_t1new (Times (Einsum [(n_t2,[0;1;2;3]); (T 2,[1;3;2;4])] [0;4]) (2) 1);
  (*570*) Del (T 2);
  (*571*) AddTo n_t1new (Times (Einsum [(T 4,[0;1;2;3]); (n_t2,[2;1;3;4])] [0;4]) (-2) 1);
  (*572*) Del (T 4);
  (*573*) AddTo n_t1new (Plain (Einsum [(T 8,[0;1;2;3]); (T 7,[0;3])] [1;2]));
  (*574*) Del (T 8);
  (*574*) Del (T 7);
  (*575*) AddTo n_t1new (Plain (Einsum [(n_t1,[0;1]); (T 9,[0;2;1;3])] [2;3]));
  (*576*) Del (T 9);
  (*577*) AddTo n_t1new (Times (Einsum [(n_t1,[0;1]); (T 11,[1;2])] [0;2]) (2) 1);
  (*578*) Del (T 11);
  (*579*) AddTo n_t1new (Times (Einsum [(n_t1,[0;1]); (T 16,[0;2])] [2;1]) (-1) 1);
  (*580*) Del (T 16)]
 [(n_t1new,[0;1]); (n_t2new,[0;0;1;1]); (n_t3new,[0;0;0;1;1;1])].

