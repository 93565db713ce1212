(** Generated by tools/translate_codegen.py from ebcc/codegen/RCC2.py; one statement per source line
    (the number in the comment before it). *)
From Coq Require Import ZArith List.
From Verif Require Import CgModel CgNames.
Import ListNotations.

(** ebcc/codegen/RCC2.py:19-50 [energy] *)
Definition RCC2_energy : prog := mkprog
 [(n_v'ovov,[0;1;0;1]); (n_f'ov,[0;1]); (n_t1,[0;1]); (n_t2,[0;0;1;1])]
 [(*40*) Assign (T 1) (Plain (Transpose n_v'ovov [0;2;3;1]));
  (*41*) AddTo (T 1) (Times (Transpose n_v'ovov [0;2;1;3]) (-1) 2);
  (*42*) Assign (T 2) (Plain (Copy n_f'ov));
  (*43*) AddTo (T 2) (Plain (Einsum [(T 1,[0;1;2;3]); (n_t1,[0;3])] [1;2]));
  (*44*) Del (T 1);
  (*45*) Assign n_e_cc (Times (Einsum [(n_v'ovov,[0;1;2;3]); (n_t2,[0;2;1;3])] []) (2) 1);
  (*46*) AddTo n_e_cc (Times (Einsum [(n_t2,[0;1;2;3]); (n_v'ovov,[0;3;1;2])] []) (-1) 1);
  (*47*) AddTo n_e_cc (Times (Einsum [(T 2,[0;1]); (n_t1,[0;1])] []) (2) 1);
  (*48*) Del (T 2)]
 [(n_e_cc,[])].

(** ebcc/codegen/RCC2.py:52-187 [update_amps] *)
Definition RCC2_update_amps : prog := mkprog
 [(n_v'ooov,[0;0;0;1]); (n_t1,[0;1]); (n_f'ov,[0;1]); (n_t2,[0;0;1;1]); (n_v'oovv,[0;0;1;1]); (n_v'ovvv,[0;1;1;1]); (n_v'ovov,[0;1;0;1]); (n_f'vv,[1;1]); (n_v'oooo,[0;0;0;0]); (n_v'ovoo,[0;1;0;0]); (n_v'vvvv,[1;1;1;1]); (n_f'oo,[0;0])]
 [(*75*) Assign (T 18) (Plain (Einsum [(n_v'ooov,[0;1;2;3]); (n_t1,[4;3])] [4;0;1;2]));
  (*76*) Assign (T 27) (Plain (Einsum [(n_f'ov,[0;1]); (n_t2,[2;3;4;1])] [0;2;3;4]));
  (*77*) Assign (T 28) (Plain (Einsum [(n_t1,[0;1]); (n_v'oovv,[2;3;4;1])] [0;2;3;4]));
  (*78*) Assign (T 19) (Plain (Einsum [(T 18,[0;1;2;3]); (n_t1,[3;4])] [0;2;1;4]));
  (*79*) Del (T 18);
  (*80*) Assign (T 17) (Plain (Einsum [(n_t1,[0;1]); (n_v'ovvv,[2;3;4;1])] [0;2;3;4]));
  (*81*) Assign (T 29) (Plain (Copy (T 27)));
  (*82*) Del (T 27);
  (*83*) AddTo (T 29) (Plain (Transpose (T 28) [2;0;1;3]));
  (*84*) Del (T 28);
  (*85*) Assign (T 25) (Plain (Einsum [(n_f'ov,[0;1]); (n_t1,[2;1])] [0;2]));
  (*86*) Assign (T 2) (Plain (Einsum [(n_t1,[0;1]); (n_v'ovov,[2;3;4;1])] [0;2;4;3]));
  (*87*) Assign (T 12) (Plain (Transpose n_v'ovov [0;2;3;1]));
  (*88*) AddTo (T 12) (Times (Transpose n_v'ovov [0;2;1;3]) (-1) 2);
  (*89*) Assign (T 16) (Plain (Einsum [(n_f'vv,[0;1]); (n_t2,[2;3;4;1])] [2;3;0;4]));
  (*90*) Assign (T 20) (Plain (Einsum [(T 19,[0;1;2;3]); (n_t1,[1;4])] [0;2;4;3]));
  (*91*) Del (T 19);
  (*92*) Assign (T 22) (Plain (Einsum [(n_t1,[0;1]); (T 17,[2;3;1;4])] [0;2;3;4]));
  (*93*) Assign (T 30) (Plain (Einsum [(T 29,[0;1;2;3]); (n_t1,[0;4])] [1;2;3;4]));
  (*94*) Del (T 29);
  (*95*) Assign (T 26) (Plain (Einsum [(n_t2,[0;1;2;3]); (T 25,[1;4])] [4;0;2;3]));
  (*96*) Del (T 25);
  (*97*) Assign (T 33) (Plain (Copy n_v'oooo));
  (*98*) AddTo (T 33) (Plain (Einsum [(T 2,[0;1;2;3]); (n_t1,[4;3])] [1;4;2;0]));
  (*99*) Assign (T 4) (Times (Transpose n_v'ovov [0;2;3;1]) (2) 1);
  (*100*) AddTo (T 4) (Times (Transpose n_v'ovov [0;2;1;3]) (-1) 1);
  (*101*) Assign (T 8) (Plain (Copy n_v'ovvv));
  (*102*) AddTo (T 8) (Times (Transpose n_v'ovvv [0;2;3;1]) (-1) 2);
  (*103*) Assign (T 10) (Times (Transpose n_v'ovov [0;2;3;1]) (-1) 1);
  (*104*) AddTo (T 10) (Times (Transpose n_v'ovov [0;2;1;3]) (2) 1);
  (*105*) Assign (T 11) (Times (Copy n_v'ooov) (-1) 2);
  (*106*) AddTo (T 11) (Plain (Transpose n_v'ovoo [0;2;3;1]));
  (*107*) Assign (T 13) (Times (Copy n_f'ov) (1) 2);
  (*108*) AddTo (T 13) (Plain (Einsum [(T 12,[0;1;2;3]); (n_t1,[0;3])] [1;2]));
  (*109*) Del (T 12);
  (*110*) Assign (T 21) (Plain (Copy (T 16)));
  (*111*) Del (T 16);
  (*112*) AddTo (T 21) (Plain (Copy (T 17)));
  (*113*) Del (T 17);
  (*114*) AddTo (T 21) (Plain (Copy (T 20)));
  (*115*) Del (T 20);
  (*116*) Assign (T 23) (Plain (Einsum [(T 22,[0;1;2;3]); (n_t1,[2;4])] [0;1;4;3]));
  (*117*) Del (T 22);
  (*118*) Assign (T 15) (Plain (Einsum [(n_t1,[0;1]); (n_v'vvvv,[2;3;4;1])] [0;2;3;4]));
  (*119*) Assign (T 24) (Plain (Einsum [(n_t2,[0;1;2;3]); (n_f'oo,[4;1])] [4;0;2;3]));
  (*120*) Assign (T 31) (Plain (Copy (T 26)));
  (*121*) Del (T 26);
  (*122*) AddTo (T 31) (Plain (Transpose (T 30) [0;1;3;2]));
  (*123*) Del (T 30);
  (*124*) Assign (T 32) (Plain (Einsum [(T 2,[0;1;2;3]); (n_t1,[2;4])] [0;1;4;3]));
  (*125*) Assign (T 34) (Times (Copy n_v'ooov) (-1) 1);
  (*126*) AddTo (T 34) (Plain (Einsum [(T 33,[0;1;2;3]); (n_t1,[0;4])] [2;3;1;4]));
  (*127*) Del (T 33);
  (*128*) Assign (T 5) (Plain (Copy n_f'ov));
  (*129*) AddTo (T 5) (Plain (Einsum [(n_t1,[0;1]); (T 4,[0;2;3;1])] [2;3]));
  (*130*) Del (T 4);
  (*131*) Assign (T 9) (Times (Copy n_f'vv) (1) 2);
  (*132*) AddTo (T 9) (Plain (Einsum [(n_t1,[0;1]); (T 8,[0;1;2;3])] [3;2]));
  (*133*) Del (T 8);
  (*134*) Assign (T 7) (Times (Transpose n_v'ovov [0;2;1;3]) (2) 1);
  (*135*) AddTo (T 7) (Times (Copy n_v'oovv) (-1) 1);
  (*136*) Assign (T 6) (Times (Transpose n_t2 [0;1;3;2]) (2) 1);
  (*137*) AddTo (T 6) (Times (Copy n_t2) (-1) 1);
  (*138*) Assign (T 14) (Plain (Copy n_f'oo));
  (*139*) AddTo (T 14) (Plain (Einsum [(T 10,[0;1;2;3]); (n_t2,[4;0;3;2])] [1;4]));
  (*140*) Del (T 10);
  (*141*) AddTo (T 14) (Times (Einsum [(T 11,[0;1;2;3]); (n_t1,[0;3])] [2;1]) (2) 1);
  (*142*) Del (T 11);
  (*143*) AddTo (T 14) (Times (Einsum [(n_t1,[0;1]); (T 13,[2;1])] [2;0]) (2) 1);
  (*144*) Del (T 13);
  (*145*) Assign (T 3) (Plain (Copy n_v'ooov));
  (*146*) AddTo (T 3) (Times (Transpose n_v'ooov [0;2;1;3]) (-1) 2);
  (*147*) AddTo (T 3) (Times (Copy (T 2)) (-1) 2);
  (*148*) AddTo (T 3) (Plain (Transpose (T 2) [0;2;1;3]));
  (*149*) Del (T 2);
  (*150*) Assign (T 1) (Times (Copy n_v'ovvv) (-1) 2);
  (*151*) AddTo (T 1) (Plain (Transpose n_v'ovvv [0;2;1;3]));
  (*152*) Assign n_t2new (Plain (Einsum [(T 15,[0;1;2;3]); (n_t1,[4;2])] [4;0;1;3]));
  (*153*) Del (T 15);
  (*154*) AddTo n_t2new (Plain (Transpose n_v'ovov [0;2;1;3]));
  (*155*) AddTo n_t2new (Times (Einsum [(n_v'ooov,[0;1;2;3]); (n_t1,[1;4])] [0;2;4;3]) (-1) 1);
  (*156*) AddTo n_t2new (Plain (Transpose (T 21) [0;1;3;2]));
  (*157*) AddTo n_t2new (Plain (Transpose (T 21) [1;0;2;3]));
  (*158*) Del (T 21);
  (*159*) AddTo n_t2new (Times (Copy (T 23)) (-1) 1);
  (*160*) AddTo n_t2new (Times (Transpose (T 23) [1;0;3;2]) (-1) 1);
  (*161*) Del (T 23);
  (*162*) AddTo n_t2new (Times (Transpose (T 24) [0;1;3;2]) (-1) 1);
  (*163*) AddTo n_t2new (Times (Transpose (T 24) [1;0;2;3]) (-1) 1);
  (*164*) Del (T 24);
  (*165*) AddTo n_t2new (Times (Transpose (T 31) [0;1;3;2]) (-1) 1);
  (*166*) AddTo n_t2new (Times (Transpose (T 31) [1;0;2;3]) (-1) 1);
  (*167*) Del (T 31);
  (*168*) AddTo n_t2new (Times (Copy (T 32)) (-1) 1);
  (*169*) AddTo n_t2new (Times (Transpose (T 32) [1;0;3;2]) (-1) 1);
  (*170*) Del (T 32);
  (*171*) AddTo n_t2new (Plain (Einsum [(T 34,[0;1;2;3]); (n_t1,[0;4])] [2;1;3;4]));
  (*172*) Del (T 34);
  (*173*) Assign n_t1new (Plain (Copy n_f'ov));
  (*174*) AddTo n_t1new (Times (Einsum [(n_t2,[0;1;2;3]); (T 1,[1;2;3;4])] [0;4]) (2) 1);
  (*175*) Del (T 1);
  (*176*) AddTo n_t1new (Times (Einsum [(n_t2,[0;1;2;3]); (T 3,[4;0;1;3])] [4;2]) (-2) 1);
  (*177*) Del (T 3);
  (*178*) AddTo n_t1new (Plain (Einsum [(T 5,[0;1]); (T 6,[0;2;3;1])] [2;3]));
  (*179*) Del (T 5);
  (*179*) Del (T 6);
  (*180*) AddTo n_t1new (Plain (Einsum [(T 7,[0;1;2;3]); (n_t1,[0;2])] [1;3]));
  (*181*) Del (T 7);
  (*182*) AddTo n_t1new (Times (Einsum [(n_t1,[0;1]); (T 9,[1;2])] [0;2]) (2) 1);
  (*183*) Del (T 9);
  (*184*) AddTo n_t1new (Times (Einsum [(T 14,[0;1]); (n_t1,[0;2])] [1;2]) (-1) 1);
  (*185*) Del (T 14)]
 [(n_t1new,[0;1]); (n_t2new,[0;0;1;1])].

(** ebcc/codegen/RCC2.py:189-548 [update_lams] *)
Definition RCC2_update_lams : prog := mkprog
 [(n_v'ovov,[0;1;0;1]); (n_t1,[0;1]); (n_l2,[1;1;0;0]); (n_v'ovvv,[0;1;1;1]); (n_v'ooov,[0;0;0;1]); (n_t2,[0;0;1;1]); (n_l1,[1;0]); (n_v'oovv,[0;0;1;1]); (n_f'ov,[0;1]); (n_f'oo,[0;0]); (n_f'vv,[1;1]); (n_v'ovoo,[0;1;0;0]); (n_v'oooo,[0;0;0;0]); (n_v'vvvv,[1;1;1;1])]
 [(*216*) Assign (T 51) (Times (Transpose n_v'ovov [0;2;3;1]) (2) 1);
  (*217*) AddTo (T 51) (Times (Transpose n_v'ovov [0;2;1;3]) (-1) 1);
  (*218*) Assign (T 87) (Plain (Einsum [(T 51,[0;1;2;3]); (n_t1,[0;3])] [1;2]));
  (*219*) Assign (T 9) (Plain (Einsum [(n_t1,[0;1]); (n_v'ovov,[2;3;4;1])] [0;2;4;3]));
  (*220*) Assign (T 18) (Plain (Einsum [(n_l2,[0;1;2;3]); (n_t1,[4;1])] [2;3;4;0]));
  (*221*) Assign (T 26) (Plain (Einsum [(n_t1,[0;1]); (n_v'ovvv,[2;1;3;4])] [0;2;3;4]));
  (*222*) Assign (T 79) (Plain (Einsum [(n_t1,[0;1]); (n_v'ovvv,[2;3;4;1])] [0;2;3;4]));
  (*223*) Assign (T 86) (Plain (Einsum [(n_v'ooov,[0;1;2;3]); (n_t1,[1;3])] [0;2]));
  (*224*) Assign (T 88) (Plain (Einsum [(T 87,[0;1]); (n_t1,[2;1])] [2;0]));
  (*225*) Assign (T 3) (Plain (Einsum [(n_v'ovov,[0;1;2;3]); (n_t2,[4;5;1;3])] [4;5;0;2]));
  (*226*) Assign (T 6) (Plain (Transpose n_v'ovov [0;2;3;1]));
  (*227*) AddTo (T 6) (Times (Transpose n_v'ovov [0;2;1;3]) (-1) 2);
  (*228*) Assign (T 28) (Plain (Einsum [(T 9,[0;1;2;3]); (n_t1,[4;3])] [4;0;1;2]));
  (*229*) Assign (T 35) (Plain (Einsum [(n_l2,[0;1;2;3]); (n_t2,[4;5;1;0])] [3;2;4;5]));
  (*230*) Assign (T 36) (Plain (Einsum [(T 18,[0;1;2;3]); (n_t1,[4;3])] [1;0;2;4]));
  (*231*) Assign (T 48) (Plain (Einsum [(n_l1,[0;1]); (n_t1,[2;0])] [1;2]));
  (*232*) Assign (T 13) (Plain (Einsum [(n_v'ooov,[0;1;2;3]); (n_t1,[4;3])] [4;0;1;2]));
  (*233*) Assign (T 70) (Plain (Copy n_v'oovv));
  (*234*) AddTo (T 70) (Plain (Transpose (T 26) [0;1;3;2]));
  (*235*) Assign (T 64) (Plain (Einsum [(n_f'ov,[0;1]); (n_t1,[2;1])] [0;2]));
  (*236*) Assign (T 80) (Plain (Transpose n_v'ovov [0;2;3;1]));
  (*237*) AddTo (T 80) (Plain (Copy (T 79)));
  (*238*) Del (T 79);
  (*239*) Assign (T 78) (Times (Transpose n_l2 [3;2;0;1]) (-1) 1);
  (*240*) AddTo (T 78) (Times (Transpose n_l2 [2;3;0;1]) (2) 1);
  (*241*) Assign (T 74) (Plain (Einsum [(n_t1,[0;1]); (n_v'ovvv,[0;1;2;3])] [2;3]));
  (*242*) Assign (T 84) (Times (Copy (T 9)) (-1) 1);
  (*243*) AddTo (T 84) (Times (Transpose (T 9) [0;2;1;3]) (2) 1);
  (*244*) Assign (T 43) (Times (Copy (T 18)) (-1) 1);
  (*245*) AddTo (T 43) (Times (Transpose (T 18) [1;0;2;3]) (2) 1);
  (*246*) Assign (T 89) (Plain (Copy (T 86)));
  (*247*) Del (T 86);
  (*248*) AddTo (T 89) (Times (Copy (T 88)) (-1) 1);
  (*249*) Del (T 88);
  (*250*) Assign (T 94) (Plain (Einsum [(n_v'ooov,[0;1;2;3]); (n_t1,[2;3])] [0;1]));
  (*251*) Assign (T 4) (Plain (Einsum [(T 3,[0;1;2;3]); (n_t1,[3;4])] [0;1;2;4]));
  (*252*) Del (T 3);
  (*253*) Assign (T 2) (Plain (Einsum [(n_v'ovvv,[0;1;2;3]); (n_t2,[4;5;1;3])] [4;5;0;2]));
  (*254*) Assign (T 7) (Times (Einsum [(n_t1,[0;1]); (T 6,[0;2;3;1])] [2;3]) (2) 1);
  (*255*) Assign (T 29) (Plain (Einsum [(T 28,[0;1;2;3]); (n_t1,[3;4])] [0;1;2;4]));
  (*256*) Assign (T 27) (Plain (Einsum [(T 26,[0;1;2;3]); (n_t1,[4;3])] [0;4;1;2]));
  (*257*) Del (T 26);
  (*258*) Assign (T 17) (Times (Transpose n_t2 [0;1;3;2]) (-1) 2);
  (*259*) AddTo (T 17) (Plain (Copy n_t2));
  (*260*) Assign (T 37) (Plain (Transpose (T 35) [1;0;3;2]));
  (*261*) AddTo (T 37) (Plain (Copy (T 36)));
  (*262*) Assign (T 99) (Plain (Einsum [(n_l2,[0;1;2;3]); (n_f'oo,[4;3])] [4;2;0;1]));
  (*263*) Assign (T 101) (Plain (Einsum [(T 48,[0;1]); (n_v'ovov,[2;3;1;4])] [0;2;3;4]));
  (*264*) Assign (T 100) (Plain (Einsum [(T 9,[0;1;2;3]); (n_l1,[4;0])] [1;2;4;3]));
  (*265*) Assign (T 67) (Plain (Einsum [(T 13,[0;1;2;3]); (n_l2,[4;5;0;1])] [2;3;4;5]));
  (*266*) Assign (T 71) (Plain (Einsum [(n_l2,[0;1;2;3]); (T 70,[2;4;1;5])] [3;4;0;5]));
  (*267*) Assign (T 62) (Plain (Einsum [(n_l2,[0;1;2;3]); (n_f'vv,[4;1])] [2;3;4;0]));
  (*268*) Assign (T 66) (Plain (Einsum [(T 18,[0;1;2;3]); (n_f'ov,[2;4])] [0;1;4;3]));
  (*269*) Assign (T 65) (Plain (Einsum [(T 64,[0;1]); (n_l2,[2;3;4;1])] [0;4;2;3]));
  (*270*) Del (T 64);
  (*271*) Assign (T 68) (Plain (Einsum [(n_v'ooov,[0;1;2;3]); (T 18,[1;4;2;5])] [4;0;5;3]));
  (*272*) Assign (T 69) (Plain (Einsum [(T 9,[0;1;2;3]); (T 18,[0;4;1;5])] [4;2;5;3]));
  (*273*) Assign (T 63) (Plain (Einsum [(n_v'ovvv,[0;1;2;3]); (n_l1,[3;4])] [4;0;1;2]));
  (*274*) Assign (T 73) (Plain (Einsum [(T 18,[0;1;2;3]); (n_v'ooov,[4;1;2;5])] [0;4;3;5]));
  (*275*) Assign (T 77) (Plain (Einsum [(T 9,[0;1;2;3]); (T 18,[0;4;2;5])] [4;1;5;3]));
  (*276*) Assign (T 81) (Plain (Einsum [(T 80,[0;1;2;3]); (T 78,[0;4;3;5])] [4;1;5;2]));
  (*277*) Del (T 80);
  (*277*) Del (T 78);
  (*278*) Assign (T 75) (Plain (Einsum [(n_l2,[0;1;2;3]); (T 74,[4;1])] [2;3;0;4]));
  (*279*) Del (T 74);
  (*280*) Assign (T 85) (Plain (Einsum [(T 84,[0;1;2;3]); (T 18,[4;0;1;5])] [4;2;5;3]));
  (*281*) Del (T 84);
  (*282*) Assign (T 76) (Plain (Einsum [(n_v'ovvv,[0;1;2;3]); (T 18,[4;5;0;3])] [5;4;1;2]));
  (*283*) Assign (T 82) (Plain (Einsum [(T 70,[0;1;2;3]); (n_l2,[4;2;5;0])] [5;1;4;3]));
  (*284*) Del (T 70);
  (*285*) Assign (T 83) (Plain (Einsum [(n_v'ovoo,[0;1;2;3]); (T 43,[2;4;3;5])] [0;4;1;5]));
  (*286*) Assign (T 91) (Plain (Einsum [(T 87,[0;1]); (T 18,[2;3;0;4])] [2;3;4;1]));
  (*287*) Assign (T 90) (Plain (Einsum [(n_l2,[0;1;2;3]); (T 89,[2;4])] [3;4;0;1]));
  (*288*) Del (T 89);
  (*289*) Assign (T 97) (Plain (Einsum [(n_v'ovvv,[0;1;2;3]); (n_t1,[0;3])] [1;2]));
  (*290*) Assign (T 95) (Plain (Einsum [(T 94,[0;1]); (n_l2,[2;3;4;1])] [4;0;2;3]));
  (*291*) Del (T 94);
  (*292*) Assign (T 93) (Plain (Einsum [(n_v'ooov,[0;1;2;3]); (n_l1,[4;1])] [0;2;4;3]));
  (*293*) Assign (T 5) (Plain (Copy (T 2)));
  (*294*) Del (T 2);
  (*295*) AddTo (T 5) (Times (Copy (T 4)) (-1) 1);
  (*296*) Del (T 4);
  (*297*) Assign (T 10) (Times (Copy n_v'ooov) (2) 1);
  (*298*) AddTo (T 10) (Times (Transpose n_v'ooov [0;2;1;3]) (-1) 1);
  (*299*) AddTo (T 10) (Times (Copy (T 9)) (-1) 1);
  (*300*) AddTo (T 10) (Times (Transpose (T 9) [0;2;1;3]) (2) 1);
  (*301*) Assign (T 12) (Times (Copy n_v'oovv) (2) 1);
  (*302*) AddTo (T 12) (Times (Transpose n_v'ovov [0;2;1;3]) (-1) 1);
  (*303*) Assign (T 11) (Times (Copy n_v'ooov) (-1) 2);
  (*304*) AddTo (T 11) (Plain (Transpose n_v'ooov [0;2;1;3]));
  (*305*) AddTo (T 11) (Plain (Copy (T 9)));
  (*306*) AddTo (T 11) (Times (Transpose (T 9) [0;2;1;3]) (-1) 2);
  (*307*) Del (T 9);
  (*308*) Assign (T 8) (Times (Einsum [(T 7,[0;1]); (n_t2,[2;3;1;4])] [2;3;0;4]) (2) 1);
  (*309*) Assign (T 14) (Times (Transpose n_v'oooo [0;2;1;3]) (2) 1);
  (*310*) AddTo (T 14) (Times (Copy n_v'oooo) (-1) 1);
  (*311*) AddTo (T 14) (Times (Transpose (T 13) [2;1;0;3]) (-1) 1);
  (*312*) AddTo (T 14) (Times (Transpose (T 13) [3;2;0;1]) (2) 1);
  (*313*) Assign (T 1) (Plain (Einsum [(n_f'ov,[0;1]); (n_t2,[2;3;4;1])] [0;2;3;4]));
  (*314*) Assign (T 56) (Plain (Copy n_v'ovvv));
  (*315*) AddTo (T 56) (Times (Transpose n_v'ovvv [0;2;1;3]) (-1) 2);
  (*316*) Assign (T 16) (Times (Transpose n_t2 [0;1;3;2]) (2) 1);
  (*317*) AddTo (T 16) (Times (Copy n_t2) (-1) 1);
  (*318*) Assign (T 19) (Plain (Copy (T 18)));
  (*319*) AddTo (T 19) (Times (Transpose (T 18) [1;0;2;3]) (-1) 2);
  (*320*) Assign (T 31) (Times (Transpose n_v'ovov [0;2;1;3]) (2) 1);
  (*321*) AddTo (T 31) (Times (Copy n_v'oovv) (-1) 1);
  (*322*) Assign (T 32) (Times (Transpose (T 13) [0;2;1;3]) (2) 1);
  (*323*) AddTo (T 32) (Times (Transpose (T 13) [0;3;2;1]) (-1) 1);
  (*324*) Del (T 13);
  (*325*) Assign (T 30) (Times (Copy (T 27)) (2) 1);
  (*326*) Del (T 27);
  (*327*) AddTo (T 30) (Times (Copy (T 29)) (-2) 1);
  (*328*) Del (T 29);
  (*329*) Assign (T 49) (Times (Copy (T 48)) (1) 2);
  (*330*) AddTo (T 49) (Plain (Einsum [(n_l2,[0;1;2;3]); (T 17,[2;4;0;1])] [3;4]));
  (*331*) Assign (T 23) (Times (Transpose n_l2 [3;2;0;1]) (-1) 1);
  (*332*) AddTo (T 23) (Times (Transpose n_l2 [2;3;0;1]) (2) 1);
  (*333*) Assign (T 24) (Times (Transpose n_t2 [0;1;3;2]) (-1) 1);
  (*334*) AddTo (T 24) (Times (Copy n_t2) (2) 1);
  (*335*) Assign (T 59) (Times (Copy n_v'ooov) (-1) 2);
  (*336*) AddTo (T 59) (Plain (Transpose n_v'ovoo [0;2;3;1]));
  (*337*) Assign (T 60) (Plain (Copy n_f'ov));
  (*338*) AddTo (T 60) (Plain (Copy (T 7)));
  (*339*) Del (T 7);
  (*340*) Assign (T 52) (Times (Einsum [(n_l2,[0;1;2;3]); (T 17,[2;4;0;1])] [3;4]) (2) 1);
  (*341*) Assign (T 39) (Times (Copy (T 18)) (-1) 1);
  (*342*) AddTo (T 39) (Times (Transpose (T 18) [1;0;2;3]) (2) 1);
  (*343*) Assign (T 38) (Plain (Einsum [(T 37,[0;1;2;3]); (n_t1,[0;4])] [1;2;3;4]));
  (*344*) Del (T 37);
  (*345*) Assign (T 41) (Plain (Einsum [(n_l1,[0;1]); (n_t2,[2;3;4;0])] [1;2;3;4]));
  (*346*) Assign (T 103) (Plain (Copy n_v'oooo));
  (*347*) AddTo (T 103) (Plain (Transpose (T 28) [0;2;3;1]));
  (*348*) Del (T 28);
  (*349*) Assign (T 102) (Plain (Copy (T 99)));
  (*350*) Del (T 99);
  (*351*) AddTo (T 102) (Plain (Copy (T 100)));
  (*352*) Del (T 100);
  (*353*) AddTo (T 102) (Plain (Copy (T 101)));
  (*354*) Del (T 101);
  (*355*) Assign (T 72) (Plain (Copy (T 62)));
  (*356*) Del (T 62);
  (*357*) AddTo (T 72) (Plain (Copy (T 63)));
  (*358*) Del (T 63);
  (*359*) AddTo (T 72) (Times (Copy (T 65)) (-1) 1);
  (*360*) Del (T 65);
  (*361*) AddTo (T 72) (Times (Copy (T 66)) (-1) 1);
  (*362*) Del (T 66);
  (*363*) AddTo (T 72) (Plain (Copy (T 67)));
  (*364*) Del (T 67);
  (*365*) AddTo (T 72) (Plain (Copy (T 68)));
  (*366*) Del (T 68);
  (*367*) AddTo (T 72) (Plain (Copy (T 69)));
  (*368*) Del (T 69);
  (*369*) AddTo (T 72) (Times (Copy (T 71)) (-1) 1);
  (*370*) Del (T 71);
  (*371*) Assign (T 92) (Plain (Einsum [(n_l1,[0;1]); (n_f'ov,[2;3])] [2;1;3;0]));
  (*372*) AddTo (T 92) (Plain (Copy (T 73)));
  (*373*) Del (T 73);
  (*374*) AddTo (T 92) (Times (Copy (T 75)) (2) 1);
  (*375*) Del (T 75);
  (*376*) AddTo (T 92) (Times (Copy (T 76)) (-1) 1);
  (*377*) Del (T 76);
  (*378*) AddTo (T 92) (Plain (Copy (T 77)));
  (*379*) Del (T 77);
  (*380*) AddTo (T 92) (Plain (Copy (T 81)));
  (*381*) Del (T 81);
  (*382*) AddTo (T 92) (Times (Copy (T 82)) (-1) 1);
  (*383*) Del (T 82);
  (*384*) AddTo (T 92) (Times (Transpose (T 83) [1;0;3;2]) (-1) 1);
  (*385*) Del (T 83);
  (*386*) AddTo (T 92) (Times (Copy (T 85)) (-1) 1);
  (*387*) Del (T 85);
  (*388*) AddTo (T 92) (Plain (Transpose (T 90) [0;1;3;2]));
  (*389*) Del (T 90);
  (*390*) AddTo (T 92) (Times (Copy (T 91)) (-1) 1);
  (*391*) Del (T 91);
  (*392*) AddTo (T 92) (Plain (Einsum [(n_l1,[0;1]); (T 87,[2;3])] [1;2;0;3]));
  (*393*) Del (T 87);
  (*394*) Assign (T 98) (Plain (Einsum [(n_l2,[0;1;2;3]); (T 97,[4;1])] [2;3;0;4]));
  (*395*) Del (T 97);
  (*396*) Assign (T 96) (Plain (Copy (T 93)));
  (*397*) Del (T 93);
  (*398*) AddTo (T 96) (Times (Copy (T 95)) (2) 1);
  (*399*) Del (T 95);
  (*400*) Assign (T 15) (Plain (Transpose n_v'ooov [0;2;1;3]));
  (*401*) AddTo (T 15) (Times (Transpose n_v'ovoo [0;2;3;1]) (-2) 1);
  (*402*) AddTo (T 15) (Times (Transpose (T 1) [1;2;0;3]) (-2) 1);
  (*403*) AddTo (T 15) (Plain (Transpose (T 1) [2;1;0;3]));
  (*404*) Del (T 1);
  (*405*) AddTo (T 15) (Plain (Copy (T 5)));
  (*406*) AddTo (T 15) (Times (Transpose (T 5) [1;0;2;3]) (-2) 1);
  (*407*) Del (T 5);
  (*408*) AddTo (T 15) (Times (Transpose (T 8) [1;0;2;3]) (-1) 1);
  (*409*) AddTo (T 15) (Times (Copy (T 8)) (1) 2);
  (*410*) Del (T 8);
  (*411*) AddTo (T 15) (Plain (Einsum [(n_t2,[0;1;2;3]); (T 10,[4;5;1;3])] [4;0;5;2]));
  (*412*) Del (T 10);
  (*413*) AddTo (T 15) (Times (Einsum [(n_t2,[0;1;2;3]); (T 11,[4;5;1;2])] [4;0;5;3]) (2) 1);
  (*414*) AddTo (T 15) (Times (Einsum [(n_t1,[0;1]); (T 12,[2;3;1;4])] [0;3;2;4]) (-1) 1);
  (*415*) Del (T 12);
  (*416*) AddTo (T 15) (Plain (Einsum [(T 14,[0;1;2;3]); (n_t1,[0;4])] [2;1;3;4]));
  (*417*) Del (T 14);
  (*418*) Assign (T 58) (Times (Copy n_f'ov) (1) 2);
  (*419*) AddTo (T 58) (Plain (Einsum [(n_t1,[0;1]); (T 6,[0;2;3;1])] [2;3]));
  (*420*) Del (T 6);
  (*421*) Assign (T 45) (Times (Transpose (T 35) [1;0;2;3]) (-1) 1);
  (*422*) AddTo (T 45) (Times (Transpose (T 35) [1;0;3;2]) (2) 1);
  (*423*) Del (T 35);
  (*424*) Assign (T 57) (Plain (Copy n_f'vv));
  (*425*) AddTo (T 57) (Times (Einsum [(n_t1,[0;1]); (T 56,[0;1;2;3])] [3;2]) (2) 1);
  (*426*) Del (T 56);
  (*427*) Assign (T 20) (Plain (Einsum [(n_l2,[0;1;2;3]); (T 16,[2;4;1;5])] [3;4;0;5]));
  (*428*) AddTo (T 20) (Times (Einsum [(n_l2,[0;1;2;3]); (T 17,[3;4;1;5])] [2;4;0;5]) (2) 1);
  (*429*) AddTo (T 20) (Times (Einsum [(T 19,[0;1;2;3]); (n_t1,[0;4])] [1;2;4;3]) (2) 1);
  (*430*) Assign (T 33) (Times (Copy (T 30)) (-1) 1);
  (*431*) AddTo (T 33) (Times (Transpose (T 30) [1;0;2;3]) (1) 2);
  (*432*) Del (T 30);
  (*433*) AddTo (T 33) (Times (Einsum [(T 17,[0;1;2;3]); (T 11,[4;0;5;2])] [4;1;5;3]) (-4) 1);
  (*434*) Del (T 11);
  (*435*) AddTo (T 33) (Times (Einsum [(n_t1,[0;1]); (T 31,[2;3;1;4])] [0;3;2;4]) (-1) 1);
  (*436*) Del (T 31);
  (*437*) AddTo (T 33) (Plain (Einsum [(T 32,[0;1;2;3]); (n_t1,[1;4])] [0;2;3;4]));
  (*438*) Del (T 32);
  (*439*) Assign (T 54) (Times (Copy n_v'ooov) (2) 1);
  (*440*) AddTo (T 54) (Times (Transpose n_v'ovoo [0;2;3;1]) (-1) 1);
  (*441*) Assign (T 21) (Plain (Einsum [(n_t1,[0;1]); (n_l2,[2;3;4;0])] [4;2;3;1]));
  (*442*) Assign (T 55) (Times (Transpose n_v'ovov [0;2;1;3]) (2) 1);
  (*443*) AddTo (T 55) (Times (Copy n_v'oovv) (-1) 1);
  (*444*) Assign (T 50) (Times (Copy n_t1) (-1) 2);
  (*445*) AddTo (T 50) (Plain (Einsum [(T 18,[0;1;2;3]); (T 17,[1;0;4;3])] [2;4]));
  (*446*) AddTo (T 50) (Times (Einsum [(n_l1,[0;1]); (T 16,[1;2;3;0])] [2;3]) (-1) 2);
  (*447*) Del (T 16);
  (*448*) AddTo (T 50) (Plain (Einsum [(T 49,[0;1]); (n_t1,[0;2])] [1;2]));
  (*449*) Del (T 49);
  (*450*) Assign (T 25) (Plain (Transpose n_l2 [3;2;0;1]));
  (*451*) AddTo (T 25) (Times (Einsum [(T 24,[0;1;2;3]); (T 23,[0;4;2;5])] [4;1;5;3]) (-1) 1);
  (*452*) Del (T 23);
  (*453*) Assign (T 61) (Plain (Copy n_f'oo));
  (*454*) AddTo (T 61) (Plain (Einsum [(n_v'ovov,[0;1;2;3]); (T 24,[2;4;3;1])] [4;0]));
  (*455*) AddTo (T 61) (Times (Einsum [(T 59,[0;1;2;3]); (n_t1,[0;3])] [1;2]) (2) 1);
  (*456*) Del (T 59);
  (*457*) AddTo (T 61) (Plain (Einsum [(T 60,[0;1]); (n_t1,[2;1])] [2;0]));
  (*458*) Del (T 60);
  (*459*) Assign (T 47) (Times (Copy n_v'ovvv) (-1) 1);
  (*460*) AddTo (T 47) (Times (Transpose n_v'ovvv [0;2;3;1]) (2) 1);
  (*461*) Assign (T 44) (Times (Copy (T 36)) (-1) 2);
  (*462*) AddTo (T 44) (Plain (Transpose (T 36) [0;1;3;2]));
  (*463*) Assign (T 53) (Plain (Copy (T 48)));
  (*464*) Del (T 48);
  (*465*) AddTo (T 53) (Plain (Copy (T 52)));
  (*466*) Del (T 52);
  (*467*) Assign (T 22) (Times (Transpose n_v'vvvv [0;2;1;3]) (2) 1);
  (*468*) AddTo (T 22) (Times (Copy n_v'vvvv) (-1) 1);
  (*469*) Assign (T 46) (Plain (Einsum [(n_t1,[0;1]); (n_l1,[2;0])] [2;1]));
  (*470*) AddTo (T 46) (Times (Einsum [(n_l2,[0;1;2;3]); (T 17,[3;2;1;4])] [0;4]) (2) 1);
  (*471*) Del (T 17);
  (*472*) Assign (T 34) (Plain (Transpose n_l2 [2;3;0;1]));
  (*473*) AddTo (T 34) (Times (Einsum [(T 19,[0;1;2;3]); (n_t1,[1;4])] [0;2;3;4]) (-1) 1);
  (*474*) Assign (T 40) (Times (Transpose (T 18) [0;2;1;3]) (1) 2);
  (*475*) AddTo (T 40) (Times (Transpose (T 18) [1;2;0;3]) (-1) 1);
  (*476*) Del (T 18);
  (*477*) AddTo (T 40) (Plain (Transpose (T 38) [0;2;1;3]));
  (*478*) AddTo (T 40) (Times (Copy (T 38)) (-1) 2);
  (*479*) Del (T 38);
  (*480*) AddTo (T 40) (Times (Einsum [(T 39,[0;1;2;3]); (T 24,[1;4;3;5])] [0;2;4;5]) (-1) 2);
  (*481*) Del (T 24);
  (*482*) Assign (T 42) (Times (Copy (T 41)) (-2) 1);
  (*483*) AddTo (T 42) (Plain (Transpose (T 41) [0;2;1;3]));
  (*484*) Del (T 41);
  (*485*) AddTo (T 42) (Plain (Einsum [(n_t2,[0;1;2;3]); (T 39,[4;1;5;3])] [4;5;0;2]));
  (*486*) Del (T 39);
  (*487*) AddTo (T 42) (Times (Einsum [(T 19,[0;1;2;3]); (n_t2,[4;1;3;5])] [0;2;4;5]) (2) 1);
  (*488*) Del (T 19);
  (*489*) Assign n_l2new (Plain (Einsum [(n_v'vvvv,[0;1;2;3]); (n_l2,[1;3;4;5])] [0;2;4;5]));
  (*490*) AddTo n_l2new (Plain (Einsum [(n_v'ovov,[0;1;2;3]); (T 36,[4;5;2;0])] [1;3;5;4]));
  (*491*) Del (T 36);
  (*492*) AddTo n_l2new (Plain (Transpose n_v'ovov [1;3;0;2]));
  (*493*) AddTo n_l2new (Plain (Transpose (T 72) [3;2;0;1]));
  (*494*) AddTo n_l2new (Plain (Transpose (T 72) [2;3;1;0]));
  (*495*) Del (T 72);
  (*496*) AddTo n_l2new (Plain (Transpose (T 92) [2;3;0;1]));
  (*497*) AddTo n_l2new (Plain (Transpose (T 92) [3;2;1;0]));
  (*498*) Del (T 92);
  (*499*) AddTo n_l2new (Times (Transpose (T 96) [2;3;0;1]) (-1) 1);
  (*500*) AddTo n_l2new (Times (Transpose (T 96) [3;2;1;0]) (-1) 1);
  (*501*) Del (T 96);
  (*502*) AddTo n_l2new (Times (Transpose (T 98) [2;3;0;1]) (-1) 1);
  (*503*) AddTo n_l2new (Times (Transpose (T 98) [3;2;1;0]) (-1) 1);
  (*504*) Del (T 98);
  (*505*) AddTo n_l2new (Times (Transpose (T 102) [3;2;0;1]) (-1) 1);
  (*506*) AddTo n_l2new (Times (Transpose (T 102) [2;3;1;0]) (-1) 1);
  (*507*) Del (T 102);
  (*508*) AddTo n_l2new (Plain (Einsum [(T 103,[0;1;2;3]); (n_l2,[4;5;3;0])] [4;5;2;1]));
  (*509*) Del (T 103);
  (*510*) Assign n_l1new (Plain (Transpose n_f'ov [1;0]));
  (*511*) AddTo n_l1new (Plain (Einsum [(T 15,[0;1;2;3]); (n_l2,[4;3;1;0])] [4;2]));
  (*512*) Del (T 15);
  (*513*) AddTo n_l1new (Times (Einsum [(T 20,[0;1;2;3]); (n_v'ovvv,[1;4;3;2])] [4;0]) (-1) 1);
  (*514*) Del (T 20);
  (*515*) AddTo n_l1new (Plain (Einsum [(T 22,[0;1;2;3]); (T 21,[4;0;3;1])] [2;4]));
  (*516*) Del (T 22);
  (*516*) Del (T 21);
  (*517*) AddTo n_l1new (Times (Einsum [(n_v'ovvv,[0;1;2;3]); (T 25,[4;0;3;1])] [2;4]) (-1) 1);
  (*518*) Del (T 25);
  (*519*) AddTo n_l1new (Plain (Einsum [(T 33,[0;1;2;3]); (n_l2,[4;3;0;1])] [4;2]));
  (*520*) Del (T 33);
  (*521*) AddTo n_l1new (Times (Einsum [(n_v'ovvv,[0;1;2;3]); (T 34,[4;0;3;1])] [2;4]) (2) 1);
  (*522*) Del (T 34);
  (*523*) AddTo n_l1new (Times (Einsum [(T 40,[0;1;2;3]); (n_v'ovov,[2;3;1;4])] [4;0]) (2) 1);
  (*524*) Del (T 40);
  (*525*) AddTo n_l1new (Plain (Einsum [(T 42,[0;1;2;3]); (n_v'ovov,[2;4;1;3])] [4;0]));
  (*526*) Del (T 42);
  (*527*) AddTo n_l1new (Times (Einsum [(n_v'oovv,[0;1;2;3]); (T 43,[0;4;1;3])] [2;4]) (-1) 1);
  (*528*) Del (T 43);
  (*529*) AddTo n_l1new (Times (Einsum [(n_v'ooov,[0;1;2;3]); (T 44,[4;0;1;2])] [3;4]) (2) 1);
  (*530*) Del (T 44);
  (*531*) AddTo n_l1new (Plain (Einsum [(n_v'ooov,[0;1;2;3]); (T 45,[1;4;0;2])] [3;4]));
  (*532*) Del (T 45);
  (*533*) AddTo n_l1new (Plain (Einsum [(T 46,[0;1]); (T 47,[2;1;0;3])] [3;2]));
  (*534*) Del (T 46);
  (*534*) Del (T 47);
  (*535*) AddTo n_l1new (Times (Einsum [(T 50,[0;1]); (T 51,[0;2;3;1])] [3;2]) (-2) 1);
  (*536*) Del (T 51);
  (*536*) Del (T 50);
  (*537*) AddTo n_l1new (Times (Einsum [(T 54,[0;1;2;3]); (T 53,[1;0])] [3;2]) (-1) 1);
  (*538*) Del (T 54);
  (*539*) AddTo n_l1new (Plain (Einsum [(n_l1,[0;1]); (T 55,[1;2;0;3])] [3;2]));
  (*540*) Del (T 55);
  (*541*) AddTo n_l1new (Plain (Einsum [(n_l1,[0;1]); (T 57,[0;2])] [2;1]));
  (*542*) Del (T 57);
  (*543*) AddTo n_l1new (Times (Einsum [(T 53,[0;1]); (T 58,[1;2])] [2;0]) (-2) 1);
  (*544*) Del (T 53);
  (*544*) Del (T 58);
  (*545*) AddTo n_l1new (Times (Einsum [(T 61,[0;1]); (n_l1,[2;0])] [2;1]) (-1) 1);
  (*546*) Del (T 61)]
 [(n_l1new,[1;0]); (n_l2new,[1;1;0;0])].

(** ebcc/codegen/RCC2.py:550-611 [make_rdm1_f]; assembly (line 609) not translated *)
Definition RCC2_make_rdm1_f : prog := mkprog
 [(n_t2,[0;0;1;1]); (n_l1,[1;0]); (n_t1,[0;1]); (n_l2,[1;1;0;0])]
 [(*572*) Assign n_delta'oo (Plain (Eye 0));
  (*572*) Assign n_delta'vv (Plain (Eye 1));
  (*576*) Assign (T 6) (Times (Transpose n_t2 [0;1;3;2]) (-1) 2);
  (*577*) AddTo (T 6) (Plain (Copy n_t2));
  (*578*) Assign (T 1) (Plain (Einsum [(n_l1,[0;1]); (n_t1,[2;0])] [1;2]));
  (*579*) Assign (T 3) (Plain (Einsum [(n_l2,[0;1;2;3]); (n_t1,[4;1])] [2;3;4;0]));
  (*580*) Assign (T 8) (Times (Transpose n_l2 [3;2;0;1]) (-1) 1);
  (*581*) AddTo (T 8) (Times (Transpose n_l2 [2;3;0;1]) (2) 1);
  (*582*) Assign (T 5) (Times (Transpose n_t2 [0;1;3;2]) (2) 1);
  (*583*) AddTo (T 5) (Times (Copy n_t2) (-1) 1);
  (*584*) Assign (T 7) (Plain (Copy (T 1)));
  (*585*) AddTo (T 7) (Times (Einsum [(n_l2,[0;1;2;3]); (T 6,[2;4;0;1])] [3;4]) (2) 1);
  (*586*) Del (T 6);
  (*587*) Assign (T 4) (Plain (Copy (T 3)));
  (*588*) AddTo (T 4) (Times (Transpose (T 3) [1;0;2;3]) (-1) 2);
  (*589*) Del (T 3);
  (*590*) Assign (T 2) (Plain (Transpose n_t2 [0;1;3;2]));
  (*591*) AddTo (T 2) (Times (Copy n_t2) (-1) 2);
  (*592*) Assign n_rdm1'vv (Times (Einsum [(n_t1,[0;1]); (n_l1,[2;0])] [2;1]) (2) 1);
  (*593*) AddTo n_rdm1'vv (Times (Einsum [(n_t2,[0;1;2;3]); (T 8,[0;1;4;3])] [4;2]) (2) 1);
  (*594*) Del (T 8);
  (*595*) Assign n_rdm1'vo (Times (Copy n_l1) (2) 1);
  (*596*) Assign n_rdm1'ov (Times (Copy n_t1) (2) 1);
  (*597*) AddTo n_rdm1'ov (Times (Einsum [(n_t2,[0;1;2;3]); (T 4,[1;0;4;3])] [4;2]) (-4) 1);
  (*598*) Del (T 4);
  (*599*) AddTo n_rdm1'ov (Times (Einsum [(T 5,[0;1;2;3]); (n_l1,[3;0])] [1;2]) (2) 1);
  (*600*) Del (T 5);
  (*601*) AddTo n_rdm1'ov (Times (Einsum [(n_t1,[0;1]); (T 7,[0;2])] [2;1]) (-2) 1);
  (*602*) Del (T 7);
  (*603*) Assign n_rdm1'oo (Times (Transpose (T 1) [1;0]) (-2) 1);
  (*604*) Del (T 1);
  (*605*) AddTo n_rdm1'oo (Times (Copy n_delta'oo) (2) 1);
  (*606*) Del n_delta'oo;
  (*606*) Del n_delta'vv;
  (*607*) AddTo n_rdm1'oo (Times (Einsum [(n_l2,[0;1;2;3]); (T 2,[2;4;1;0])] [4;3]) (-4) 1);
  (*608*) Del (T 2)]
 [(n_rdm1'oo,[0;0]); (n_rdm1'ov,[0;1]); (n_rdm1'vo,[1;0]); (n_rdm1'vv,[1;1])].

(** ebcc/codegen/RCC2.py:613-1070 [make_rdm2_f]; assembly (line 1067) not translated *)
Definition RCC2_make_rdm2_f : prog := mkprog
 [(n_t2,[0;0;1;1]); (n_l2,[1;1;0;0]); (n_t1,[0;1]); (n_l1,[1;0])]
 [(*635*) Assign n_delta'oo (Plain (Eye 0));
  (*635*) Assign n_delta'vv (Plain (Eye 1));
  (*639*) Assign (T 2) (Plain (Einsum [(n_l2,[0;1;2;3]); (n_t1,[4;1])] [2;3;4;0]));
  (*640*) Assign (T 75) (Times (Transpose n_t2 [0;1;3;2]) (-1) 1);
  (*641*) AddTo (T 75) (Plain (Copy n_t2));
  (*642*) Assign (T 77) (Times (Transpose n_t2 [0;1;3;2]) (-1) 1);
  (*643*) AddTo (T 77) (Times (Copy n_t2) (2) 1);
  (*644*) Assign (T 6) (Times (Transpose n_t2 [0;1;3;2]) (-1) 2);
  (*645*) AddTo (T 6) (Plain (Copy n_t2));
  (*646*) Assign (T 13) (Times (Copy (T 2)) (-1) 1);
  (*647*) AddTo (T 13) (Times (Transpose (T 2) [1;0;2;3]) (2) 1);
  (*648*) Assign (T 11) (Times (Copy (T 2)) (-1) 1);
  (*649*) AddTo (T 11) (Plain (Transpose (T 2) [1;0;2;3]));
  (*650*) Assign (T 58) (Times (Transpose n_l2 [3;2;0;1]) (-1) 1);
  (*651*) AddTo (T 58) (Times (Transpose n_l2 [2;3;0;1]) (2) 1);
  (*652*) Assign (T 76) (Plain (Einsum [(n_l2,[0;1;2;3]); (T 75,[2;4;1;5])] [4;3;5;0]));
  (*653*) Del (T 75);
  (*654*) Assign (T 84) (Plain (Einsum [(T 2,[0;1;2;3]); (n_t1,[1;4])] [0;2;3;4]));
  (*655*) Assign (T 78) (Plain (Einsum [(n_l2,[0;1;2;3]); (T 77,[3;4;1;5])] [4;2;5;0]));
  (*656*) Del (T 77);
  (*657*) Assign (T 43) (Times (Transpose n_l2 [3;2;0;1]) (-1) 1);
  (*658*) AddTo (T 43) (Times (Transpose n_l2 [2;3;0;1]) (2) 1);
  (*659*) Assign (T 3) (Plain (Einsum [(T 2,[0;1;2;3]); (n_t1,[4;3])] [1;0;2;4]));
  (*660*) Assign (T 1) (Plain (Einsum [(n_t2,[0;1;2;3]); (n_l2,[2;3;4;5])] [4;5;0;1]));
  (*661*) Assign (T 27) (Plain (Einsum [(T 2,[0;1;2;3]); (n_t2,[4;1;3;5])] [0;2;4;5]));
  (*662*) Assign (T 9) (Plain (Einsum [(n_l1,[0;1]); (n_t2,[2;3;4;0])] [1;2;3;4]));
  (*663*) Assign (T 7) (Times (Einsum [(n_l2,[0;1;2;3]); (T 6,[2;4;0;1])] [3;4]) (2) 1);
  (*664*) Assign (T 16) (Times (Copy (T 2)) (2) 1);
  (*665*) AddTo (T 16) (Times (Transpose (T 2) [1;0;2;3]) (-1) 1);
  (*666*) Assign (T 26) (Plain (Einsum [(T 2,[0;1;2;3]); (n_t2,[4;0;3;5])] [1;2;4;5]));
  (*667*) Assign (T 14) (Plain (Einsum [(T 13,[0;1;2;3]); (n_t2,[4;1;5;3])] [0;2;4;5]));
  (*668*) Del (T 13);
  (*669*) Assign (T 46) (Times (Transpose n_l2 [3;2;0;1]) (-1) 1);
  (*670*) AddTo (T 46) (Plain (Transpose n_l2 [2;3;0;1]));
  (*671*) Assign (T 21) (Times (Transpose n_t2 [0;1;3;2]) (2) 1);
  (*672*) AddTo (T 21) (Times (Copy n_t2) (-1) 1);
  (*673*) Assign (T 5) (Plain (Einsum [(n_l1,[0;1]); (n_t1,[2;0])] [1;2]));
  (*674*) Assign (T 12) (Plain (Einsum [(n_t2,[0;1;2;3]); (T 11,[4;1;5;2])] [4;5;0;3]));
  (*675*) Assign (T 32) (Plain (Einsum [(n_l2,[0;1;2;3]); (T 6,[2;4;0;1])] [3;4]));
  (*676*) Del (T 6);
  (*677*) Assign (T 107) (Plain (Einsum [(n_t1,[0;1]); (n_l2,[2;3;4;0])] [4;2;3;1]));
  (*678*) Assign (T 80) (Plain (Einsum [(n_t1,[0;1]); (n_l1,[2;0])] [2;1]));
  (*679*) Assign (T 81) (Plain (Einsum [(T 58,[0;1;2;3]); (n_t2,[0;1;4;3])] [2;4]));
  (*680*) Assign (T 101) (Plain (Copy (T 84)));
  (*681*) AddTo (T 101) (Plain (Transpose (T 76) [1;0;3;2]));
  (*682*) AddTo (T 101) (Times (Transpose (T 78) [1;0;3;2]) (-1) 1);
  (*683*) Assign (T 44) (Plain (Einsum [(T 43,[0;1;2;3]); (n_t2,[4;0;5;2])] [1;4;3;5]));
  (*684*) Del (T 43);
  (*685*) Assign (T 63) (Plain (Einsum [(n_l2,[0;1;2;3]); (n_t2,[4;3;1;5])] [2;4;0;5]));
  (*686*) Assign (T 98) (Plain (Einsum [(T 58,[0;1;2;3]); (n_t2,[4;0;5;2])] [1;4;3;5]));
  (*687*) Assign (T 91) (Plain (Transpose (T 78) [1;0;3;2]));
  (*688*) AddTo (T 91) (Times (Transpose (T 76) [1;0;3;2]) (-1) 1);
  (*689*) Assign (T 4) (Plain (Transpose (T 1) [1;0;3;2]));
  (*690*) AddTo (T 4) (Plain (Copy (T 3)));
  (*691*) Assign (T 70) (Plain (Copy (T 9)));
  (*692*) AddTo (T 70) (Times (Copy (T 27)) (-1) 1);
  (*693*) Assign (T 59) (Times (Einsum [(T 58,[0;1;2;3]); (n_t2,[0;1;4;3])] [2;4]) (1) 2);
  (*694*) Del (T 58);
  (*695*) Assign (T 18) (Times (Einsum [(n_t1,[0;1]); (T 7,[0;2])] [2;1]) (1) 2);
  (*696*) Assign (T 17) (Times (Einsum [(T 16,[0;1;2;3]); (n_t2,[0;1;3;4])] [2;4]) (1) 2);
  (*697*) Assign (T 24) (Plain (Einsum [(T 1,[0;1;2;3]); (n_t1,[1;4])] [0;2;3;4]));
  (*698*) Assign (T 67) (Plain (Copy (T 26)));
  (*699*) AddTo (T 67) (Times (Copy (T 14)) (-1) 1);
  (*700*) Assign (T 10) (Plain (Einsum [(T 3,[0;1;2;3]); (n_t1,[0;4])] [1;3;2;4]));
  (*701*) Assign (T 47) (Plain (Einsum [(n_t2,[0;1;2;3]); (T 46,[1;4;2;5])] [4;0;5;3]));
  (*702*) Del (T 46);
  (*703*) Assign (T 22) (Plain (Einsum [(n_l1,[0;1]); (T 21,[1;2;3;0])] [2;3]));
  (*704*) Del (T 21);
  (*705*) Assign (T 20) (Plain (Einsum [(T 5,[0;1]); (n_t1,[0;2])] [1;2]));
  (*706*) Assign (T 52) (Plain (Copy (T 9)));
  (*707*) AddTo (T 52) (Plain (Copy (T 12)));
  (*708*) AddTo (T 52) (Times (Copy (T 14)) (-1) 1);
  (*709*) Assign (T 30) (Times (Transpose n_t2 [0;1;3;2]) (2) 1);
  (*710*) AddTo (T 30) (Times (Copy n_t2) (-1) 1);
  (*711*) Assign (T 33) (Times (Copy (T 5)) (1) 2);
  (*712*) AddTo (T 33) (Plain (Copy (T 32)));
  (*713*) Del (T 32);
  (*714*) Assign (T 109) (Plain (Einsum [(T 107,[0;1;2;3]); (n_t1,[0;4])] [2;1;3;4]));
  (*715*) Assign (T 108) (Plain (Einsum [(n_l2,[0;1;2;3]); (n_t2,[3;2;4;5])] [0;1;5;4]));
  (*716*) Assign (T 82) (Plain (Copy (T 80)));
  (*717*) AddTo (T 82) (Plain (Copy (T 81)));
  (*718*) Del (T 81);
  (*719*) Assign (T 94) (Plain (Einsum [(n_t2,[0;1;2;3]); (T 2,[1;0;4;5])] [4;5;3;2]));
  (*720*) Assign (T 102) (Plain (Einsum [(n_t1,[0;1]); (T 101,[0;2;3;4])] [2;3;4;1]));
  (*721*) Del (T 101);
  (*722*) Assign (T 90) (Plain (Einsum [(n_l1,[0;1]); (n_t2,[2;1;3;4])] [2;0;3;4]));
  (*723*) Assign (T 105) (Plain (Copy (T 63)));
  (*724*) AddTo (T 105) (Plain (Copy (T 84)));
  (*725*) AddTo (T 105) (Times (Copy (T 44)) (-1) 1);
  (*726*) Assign (T 65) (Plain (Einsum [(n_l2,[0;1;2;3]); (n_t2,[4;2;1;5])] [3;4;0;5]));
  (*727*) Assign (T 99) (Plain (Copy (T 63)));
  (*728*) AddTo (T 99) (Plain (Copy (T 84)));
  (*729*) AddTo (T 99) (Times (Copy (T 98)) (-1) 1);
  (*730*) Del (T 98);
  (*731*) Assign (T 92) (Plain (Einsum [(n_t1,[0;1]); (T 91,[0;2;3;4])] [2;3;4;1]));
  (*732*) Del (T 91);
  (*733*) Assign (T 85) (Plain (Copy (T 2)));
  (*734*) AddTo (T 85) (Times (Transpose (T 2) [1;0;2;3]) (-1) 1);
  (*735*) Assign (T 87) (Plain (Transpose n_l2 [3;2;0;1]));
  (*736*) AddTo (T 87) (Times (Transpose n_l2 [2;3;0;1]) (-1) 1);
  (*737*) Assign (T 28) (Plain (Einsum [(T 4,[0;1;2;3]); (n_t1,[0;4])] [1;2;3;4]));
  (*738*) Assign (T 71) (Plain (Einsum [(T 70,[0;1;2;3]); (n_t1,[0;4])] [1;2;3;4]));
  (*739*) Del (T 70);
  (*740*) Assign (T 50) (Plain (Einsum [(T 5,[0;1]); (n_t2,[2;0;3;4])] [1;2;3;4]));
  (*741*) Assign (T 61) (Plain (Einsum [(T 7,[0;1]); (n_t2,[2;0;3;4])] [2;1;4;3]));
  (*742*) Assign (T 60) (Times (Einsum [(n_t2,[0;1;2;3]); (T 59,[2;4])] [0;1;4;3]) (2) 1);
  (*743*) Assign (T 19) (Plain (Copy (T 17)));
  (*744*) Del (T 17);
  (*745*) AddTo (T 19) (Plain (Copy (T 18)));
  (*746*) Del (T 18);
  (*747*) Assign (T 56) (Plain (Einsum [(T 4,[0;1;2;3]); (n_t2,[0;1;4;5])] [2;3;4;5]));
  (*748*) Assign (T 55) (Plain (Einsum [(n_t1,[0;1]); (T 24,[0;2;3;4])] [3;2;4;1]));
  (*749*) Assign (T 51) (Plain (Einsum [(n_t2,[0;1;2;3]); (T 44,[1;4;2;5])] [4;0;5;3]));
  (*750*) Assign (T 68) (Plain (Einsum [(n_t1,[0;1]); (T 67,[0;2;3;4])] [2;3;4;1]));
  (*751*) Del (T 67);
  (*752*) Assign (T 42) (Plain (Einsum [(T 10,[0;1;2;3]); (n_t1,[0;4])] [1;2;4;3]));
  (*753*) Assign (T 45) (Plain (Einsum [(T 44,[0;1;2;3]); (n_t2,[4;0;5;2])] [1;4;3;5]));
  (*754*) Assign (T 48) (Plain (Einsum [(n_t2,[0;1;2;3]); (T 47,[1;4;2;5])] [4;0;5;3]));
  (*755*) Assign (T 23) (Plain (Copy (T 20)));
  (*756*) AddTo (T 23) (Times (Copy (T 22)) (-1) 1);
  (*757*) Assign (T 53) (Plain (Einsum [(T 52,[0;1;2;3]); (n_t1,[0;4])] [1;2;3;4]));
  (*758*) Del (T 52);
  (*759*) Assign (T 31) (Plain (Einsum [(n_l1,[0;1]); (T 30,[1;2;3;0])] [2;3]));
  (*760*) Del (T 30);
  (*761*) Assign (T 34) (Times (Einsum [(T 33,[0;1]); (n_t1,[0;2])] [1;2]) (2) 1);
  (*762*) Del (T 33);
  (*763*) Assign (T 29) (Plain (Einsum [(T 16,[0;1;2;3]); (n_t2,[0;1;3;4])] [2;4]));
  (*764*) Del (T 16);
  (*765*) Assign (T 40) (Times (Copy (T 2)) (2) 1);
  (*766*) AddTo (T 40) (Times (Transpose (T 2) [1;0;2;3]) (-1) 1);
  (*767*) Assign (T 110) (Plain (Transpose (T 108) [1;0;3;2]));
  (*768*) AddTo (T 110) (Plain (Transpose (T 109) [1;0;3;2]));
  (*769*) Assign (T 104) (Plain (Copy (T 94)));
  (*770*) AddTo (T 104) (Plain (Einsum [(n_t1,[0;1]); (T 82,[2;3])] [0;2;1;3]));
  (*771*) Assign (T 103) (Plain (Copy (T 90)));
  (*772*) AddTo (T 103) (Plain (Transpose (T 102) [0;1;3;2]));
  (*773*) Del (T 102);
  (*774*) Assign (T 106) (Plain (Einsum [(n_t1,[0;1]); (T 105,[0;2;3;4])] [2;3;4;1]));
  (*775*) Del (T 105);
  (*776*) Assign (T 89) (Times (Copy (T 80)) (1) 2);
  (*777*) AddTo (T 89) (Plain (Copy (T 59)));
  (*778*) Assign (T 97) (Plain (Einsum [(n_t1,[0;1]); (T 65,[0;2;3;4])] [2;3;1;4]));
  (*779*) Assign (T 100) (Plain (Einsum [(n_t1,[0;1]); (T 99,[0;2;3;4])] [2;3;4;1]));
  (*780*) Del (T 99);
  (*781*) Assign (T 95) (Plain (Copy (T 94)));
  (*782*) AddTo (T 95) (Times (Einsum [(n_t1,[0;1]); (T 59,[2;3])] [0;2;1;3]) (2) 1);
  (*783*) Del (T 59);
  (*784*) Assign (T 93) (Plain (Copy (T 90)));
  (*785*) AddTo (T 93) (Plain (Einsum [(n_t1,[0;1]); (T 80,[2;3])] [0;2;1;3]));
  (*786*) Del (T 80);
  (*787*) AddTo (T 93) (Times (Transpose (T 92) [0;1;3;2]) (-1) 1);
  (*788*) Del (T 92);
  (*789*) Assign (T 96) (Plain (Einsum [(n_t1,[0;1]); (T 84,[0;2;3;4])] [2;3;1;4]));
  (*790*) Assign (T 83) (Plain (Einsum [(n_t1,[0;1]); (T 2,[0;2;3;4])] [2;3;4;1]));
  (*791*) Assign (T 86) (Plain (Einsum [(T 85,[0;1;2;3]); (n_t1,[0;4])] [1;2;3;4]));
  (*792*) Del (T 85);
  (*793*) Assign (T 88) (Plain (Einsum [(n_t2,[0;1;2;3]); (T 87,[1;4;2;5])] [4;0;5;3]));
  (*794*) Del (T 87);
  (*795*) Assign (T 79) (Plain (Einsum [(T 11,[0;1;2;3]); (n_t1,[0;4])] [1;2;3;4]));
  (*796*) Del (T 11);
  (*797*) Assign (T 73) (Plain (Einsum [(T 28,[0;1;2;3]); (n_t1,[0;4])] [2;1;3;4]));
  (*798*) Assign (T 64) (Plain (Einsum [(n_t2,[0;1;2;3]); (T 63,[1;4;2;5])] [0;4;3;5]));
  (*799*) Assign (T 72) (Plain (Copy (T 50)));
  (*800*) AddTo (T 72) (Plain (Transpose (T 71) [0;1;3;2]));
  (*801*) Del (T 71);
  (*802*) Assign (T 62) (Plain (Transpose (T 60) [1;0;3;2]));
  (*803*) Del (T 60);
  (*804*) AddTo (T 62) (Plain (Transpose (T 61) [0;1;3;2]));
  (*805*) Del (T 61);
  (*806*) AddTo (T 62) (Times (Einsum [(T 19,[0;1]); (n_t1,[2;3])] [2;0;3;1]) (2) 1);
  (*807*) Assign (T 57) (Plain (Copy (T 55)));
  (*808*) Del (T 55);
  (*809*) AddTo (T 57) (Plain (Transpose (T 56) [1;0;3;2]));
  (*810*) Assign (T 74) (Plain (Copy n_t1));
  (*811*) AddTo (T 74) (Times (Copy (T 20)) (-1) 1);
  (*812*) Assign (T 66) (Plain (Einsum [(n_t2,[0;1;2;3]); (T 65,[1;4;2;5])] [0;4;3;5]));
  (*813*) Assign (T 69) (Times (Copy (T 51)) (-1) 1);
  (*814*) AddTo (T 69) (Plain (Transpose (T 68) [0;1;3;2]));
  (*815*) Del (T 68);
  (*816*) AddTo (T 69) (Plain (Einsum [(T 22,[0;1]); (n_t1,[2;3])] [2;0;3;1]));
  (*817*) Assign (T 49) (Plain (Copy (T 42)));
  (*818*) Del (T 42);
  (*819*) AddTo (T 49) (Times (Transpose (T 45) [1;0;3;2]) (2) 1);
  (*820*) AddTo (T 49) (Plain (Copy (T 48)));
  (*821*) Del (T 48);
  (*822*) Assign (T 54) (Plain (Copy (T 50)));
  (*823*) Del (T 50);
  (*824*) AddTo (T 54) (Times (Copy (T 51)) (-1) 1);
  (*825*) Del (T 51);
  (*826*) AddTo (T 54) (Plain (Transpose (T 53) [0;1;3;2]));
  (*827*) Del (T 53);
  (*828*) AddTo (T 54) (Times (Einsum [(T 23,[0;1]); (n_t1,[2;3])] [2;0;3;1]) (-1) 1);
  (*829*) Assign (T 38) (Plain (Einsum [(n_t1,[0;1]); (T 5,[2;3])] [2;0;3;1]));
  (*830*) AddTo (T 38) (Plain (Copy (T 12)));
  (*831*) AddTo (T 38) (Times (Copy (T 14)) (-1) 1);
  (*832*) Assign (T 36) (Plain (Copy (T 5)));
  (*833*) AddTo (T 36) (Plain (Copy (T 7)));
  (*834*) Assign (T 35) (Times (Copy n_t1) (-1) 1);
  (*835*) AddTo (T 35) (Plain (Copy (T 29)));
  (*836*) AddTo (T 35) (Times (Copy (T 31)) (-1) 1);
  (*837*) Del (T 31);
  (*838*) AddTo (T 35) (Plain (Copy (T 34)));
  (*839*) Assign (T 41) (Plain (Einsum [(n_t2,[0;1;2;3]); (T 40,[1;4;5;3])] [4;5;0;2]));
  (*840*) Del (T 40);
  (*841*) Assign (T 39) (Plain (Copy (T 29)));
  (*842*) Del (T 29);
  (*843*) AddTo (T 39) (Plain (Copy (T 34)));
  (*844*) Del (T 34);
  (*845*) Assign (T 37) (Plain (Copy (T 9)));
  (*846*) AddTo (T 37) (Plain (Transpose (T 28) [0;2;1;3]));
  (*847*) AddTo (T 37) (Plain (Einsum [(n_t1,[0;1]); (T 7,[2;3])] [2;0;3;1]));
  (*848*) Assign (T 15) (Plain (Copy (T 9)));
  (*849*) AddTo (T 15) (Plain (Copy (T 10)));
  (*850*) Del (T 10);
  (*851*) AddTo (T 15) (Plain (Copy (T 12)));
  (*852*) Del (T 12);
  (*853*) AddTo (T 15) (Times (Copy (T 14)) (-1) 1);
  (*854*) Assign (T 25) (Plain (Copy (T 24)));
  (*855*) Del (T 24);
  (*856*) AddTo (T 25) (Plain (Einsum [(n_t1,[0;1]); (T 7,[2;3])] [2;0;3;1]));
  (*857*) Assign (T 8) (Plain (Copy n_delta'oo));
  (*858*) AddTo (T 8) (Times (Copy (T 5)) (-1) 1);
  (*859*) Assign n_rdm2'vvvv (Times (Transpose (T 110) [0;1;3;2]) (-2) 1);
  (*860*) AddTo n_rdm2'vvvv (Times (Copy (T 110)) (2) 1);
  (*861*) Del (T 110);
  (*862*) AddTo n_rdm2'vvvv (Times (Transpose (T 108) [1;0;3;2]) (2) 1);
  (*863*) Del (T 108);
  (*864*) AddTo n_rdm2'vvvv (Times (Transpose (T 109) [1;0;3;2]) (2) 1);
  (*865*) Del (T 109);
  (*866*) Assign n_rdm2'vvvo (Times (Transpose (T 107) [1;2;3;0]) (-2) 1);
  (*867*) AddTo n_rdm2'vvvo (Times (Transpose (T 107) [2;1;3;0]) (4) 1);
  (*868*) Assign n_rdm2'vvov (Times (Transpose (T 107) [1;2;0;3]) (4) 1);
  (*869*) AddTo n_rdm2'vvov (Times (Transpose (T 107) [2;1;0;3]) (-2) 1);
  (*870*) Del (T 107);
  (*871*) Assign n_rdm2'vovv (Times (Transpose (T 103) [1;0;2;3]) (-2) 1);
  (*872*) AddTo n_rdm2'vovv (Times (Transpose (T 103) [1;0;3;2]) (2) 1);
  (*873*) Del (T 103);
  (*874*) AddTo n_rdm2'vovv (Times (Transpose (T 104) [1;0;2;3]) (-2) 1);
  (*875*) AddTo n_rdm2'vovv (Times (Transpose (T 104) [1;0;3;2]) (2) 1);
  (*876*) Del (T 104);
  (*877*) AddTo n_rdm2'vovv (Times (Transpose (T 90) [1;0;3;2]) (2) 1);
  (*878*) AddTo n_rdm2'vovv (Times (Transpose (T 97) [1;0;3;2]) (-2) 1);
  (*879*) AddTo n_rdm2'vovv (Times (Transpose (T 94) [1;0;2;3]) (-2) 1);
  (*880*) AddTo n_rdm2'vovv (Times (Transpose (T 106) [1;0;3;2]) (-2) 1);
  (*881*) Del (T 106);
  (*882*) AddTo n_rdm2'vovv (Times (Einsum [(n_t1,[0;1]); (T 89,[2;3])] [2;0;3;1]) (4) 1);
  (*883*) Assign n_rdm2'ovvv (Times (Copy (T 93)) (2) 1);
  (*884*) AddTo n_rdm2'ovvv (Times (Transpose (T 93) [0;1;3;2]) (-2) 1);
  (*885*) Del (T 93);
  (*886*) AddTo n_rdm2'ovvv (Times (Copy (T 95)) (2) 1);
  (*887*) AddTo n_rdm2'ovvv (Times (Transpose (T 95) [0;1;3;2]) (-2) 1);
  (*888*) Del (T 95);
  (*889*) AddTo n_rdm2'ovvv (Times (Copy (T 96)) (2) 1);
  (*890*) AddTo n_rdm2'ovvv (Times (Transpose (T 96) [0;1;3;2]) (-2) 1);
  (*891*) Del (T 96);
  (*892*) AddTo n_rdm2'ovvv (Times (Copy (T 90)) (2) 1);
  (*893*) Del (T 90);
  (*894*) AddTo n_rdm2'ovvv (Times (Transpose (T 94) [0;1;3;2]) (-2) 1);
  (*895*) Del (T 94);
  (*896*) AddTo n_rdm2'ovvv (Times (Copy (T 97)) (-2) 1);
  (*897*) Del (T 97);
  (*898*) AddTo n_rdm2'ovvv (Times (Copy (T 100)) (-2) 1);
  (*899*) Del (T 100);
  (*900*) AddTo n_rdm2'ovvv (Times (Einsum [(n_t1,[0;1]); (T 82,[2;3])] [0;2;1;3]) (2) 1);
  (*901*) Assign n_rdm2'vvoo (Times (Transpose n_l2 [0;1;3;2]) (-2) 1);
  (*902*) AddTo n_rdm2'vvoo (Times (Copy n_l2) (4) 1);
  (*903*) Assign n_rdm2'vovo (Times (Einsum [(n_t1,[0;1]); (n_l1,[2;3])] [2;0;1;3]) (-2) 1);
  (*904*) AddTo n_rdm2'vovo (Times (Transpose (T 44) [2;1;3;0]) (-2) 1);
  (*905*) AddTo n_rdm2'vovo (Times (Transpose (T 88) [2;1;3;0]) (-2) 1);
  (*906*) Del (T 88);
  (*907*) AddTo n_rdm2'vovo (Times (Transpose (T 86) [2;1;3;0]) (-2) 1);
  (*908*) AddTo n_rdm2'vovo (Times (Einsum [(n_delta'oo,[0;1]); (T 89,[2;3])] [2;0;3;1]) (8) 1);
  (*909*) Del (T 89);
  (*910*) AddTo n_rdm2'vovo (Times (Transpose (T 65) [2;1;3;0]) (-2) 1);
  (*911*) AddTo n_rdm2'vovo (Times (Transpose (T 83) [2;1;3;0]) (-2) 1);
  (*912*) Assign n_rdm2'voov (Times (Einsum [(n_t1,[0;1]); (n_l1,[2;3])] [2;0;3;1]) (4) 1);
  (*913*) AddTo n_rdm2'voov (Times (Transpose (T 78) [3;0;1;2]) (2) 1);
  (*914*) AddTo n_rdm2'voov (Times (Transpose (T 76) [3;0;1;2]) (-2) 1);
  (*915*) AddTo n_rdm2'voov (Times (Transpose (T 86) [2;1;0;3]) (2) 1);
  (*916*) Del (T 86);
  (*917*) AddTo n_rdm2'voov (Times (Einsum [(n_delta'oo,[0;1]); (T 82,[2;3])] [2;0;1;3]) (-2) 1);
  (*918*) AddTo n_rdm2'voov (Times (Transpose (T 63) [2;1;0;3]) (-2) 1);
  (*919*) AddTo n_rdm2'voov (Times (Transpose (T 84) [2;1;0;3]) (-2) 1);
  (*920*) AddTo n_rdm2'voov (Times (Transpose (T 44) [2;1;0;3]) (2) 1);
  (*921*) Assign n_rdm2'ovvo (Times (Einsum [(n_t1,[0;1]); (n_l1,[2;3])] [0;2;1;3]) (4) 1);
  (*922*) AddTo n_rdm2'ovvo (Times (Transpose (T 44) [1;2;3;0]) (4) 1);
  (*923*) Del (T 44);
  (*924*) AddTo n_rdm2'ovvo (Times (Transpose (T 47) [1;2;3;0]) (-2) 1);
  (*925*) Del (T 47);
  (*926*) AddTo n_rdm2'ovvo (Times (Transpose (T 79) [1;2;3;0]) (-2) 1);
  (*927*) AddTo n_rdm2'ovvo (Times (Einsum [(n_delta'oo,[0;1]); (T 82,[2;3])] [0;2;3;1]) (-2) 1);
  (*928*) AddTo n_rdm2'ovvo (Times (Transpose (T 63) [1;2;3;0]) (-2) 1);
  (*929*) Del (T 63);
  (*930*) AddTo n_rdm2'ovvo (Times (Transpose (T 84) [1;2;3;0]) (-2) 1);
  (*931*) Del (T 84);
  (*932*) Assign n_rdm2'ovov (Times (Einsum [(n_t1,[0;1]); (n_l1,[2;3])] [0;2;3;1]) (-2) 1);
  (*933*) AddTo n_rdm2'ovov (Times (Transpose (T 76) [0;3;1;2]) (2) 1);
  (*934*) Del (T 76);
  (*935*) AddTo n_rdm2'ovov (Times (Transpose (T 78) [0;3;1;2]) (-2) 1);
  (*936*) Del (T 78);
  (*937*) AddTo n_rdm2'ovov (Times (Transpose (T 79) [1;2;0;3]) (2) 1);
  (*938*) Del (T 79);
  (*939*) AddTo n_rdm2'ovov (Times (Einsum [(n_delta'oo,[0;1]); (T 82,[2;3])] [0;2;1;3]) (4) 1);
  (*940*) Del (T 82);
  (*941*) AddTo n_rdm2'ovov (Times (Transpose (T 65) [1;2;0;3]) (-2) 1);
  (*942*) Del (T 65);
  (*943*) AddTo n_rdm2'ovov (Times (Transpose (T 83) [1;2;0;3]) (-2) 1);
  (*944*) Del (T 83);
  (*945*) Assign n_rdm2'oovv (Times (Transpose n_t2 [0;1;3;2]) (-2) 1);
  (*946*) AddTo n_rdm2'oovv (Times (Copy n_t2) (4) 1);
  (*947*) AddTo n_rdm2'oovv (Times (Einsum [(n_t1,[0;1]); (n_t1,[2;3])] [0;2;3;1]) (-2) 1);
  (*948*) AddTo n_rdm2'oovv (Times (Einsum [(n_t1,[0;1]); (n_t1,[2;3])] [2;0;3;1]) (2) 1);
  (*949*) AddTo n_rdm2'oovv (Times (Copy (T 49)) (2) 1);
  (*950*) AddTo n_rdm2'oovv (Times (Transpose (T 49) [0;1;3;2]) (-2) 1);
  (*951*) Del (T 49);
  (*952*) AddTo n_rdm2'oovv (Times (Copy (T 54)) (2) 1);
  (*953*) AddTo n_rdm2'oovv (Times (Transpose (T 54) [0;1;3;2]) (-2) 1);
  (*954*) AddTo n_rdm2'oovv (Times (Transpose (T 54) [1;0;2;3]) (-2) 1);
  (*955*) AddTo n_rdm2'oovv (Times (Transpose (T 54) [1;0;3;2]) (2) 1);
  (*956*) Del (T 54);
  (*957*) AddTo n_rdm2'oovv (Times (Copy (T 57)) (2) 1);
  (*958*) AddTo n_rdm2'oovv (Times (Transpose (T 57) [0;1;3;2]) (-2) 1);
  (*959*) Del (T 57);
  (*960*) AddTo n_rdm2'oovv (Times (Copy (T 62)) (-4) 1);
  (*961*) AddTo n_rdm2'oovv (Times (Transpose (T 62) [0;1;3;2]) (2) 1);
  (*962*) AddTo n_rdm2'oovv (Times (Transpose (T 62) [1;0;2;3]) (2) 1);
  (*963*) AddTo n_rdm2'oovv (Times (Transpose (T 62) [1;0;3;2]) (-4) 1);
  (*964*) Del (T 62);
  (*965*) AddTo n_rdm2'oovv (Times (Copy (T 64)) (2) 1);
  (*966*) Del (T 64);
  (*967*) AddTo n_rdm2'oovv (Times (Transpose (T 66) [0;1;3;2]) (2) 1);
  (*968*) Del (T 66);
  (*969*) AddTo n_rdm2'oovv (Times (Einsum [(T 20,[0;1]); (n_t1,[2;3])] [2;0;3;1]) (-2) 1);
  (*970*) Del (T 20);
  (*971*) AddTo n_rdm2'oovv (Times (Copy (T 69)) (2) 1);
  (*972*) AddTo n_rdm2'oovv (Times (Transpose (T 69) [1;0;3;2]) (2) 1);
  (*973*) Del (T 69);
  (*974*) AddTo n_rdm2'oovv (Times (Transpose (T 72) [0;1;3;2]) (-2) 1);
  (*975*) AddTo n_rdm2'oovv (Times (Transpose (T 72) [1;0;2;3]) (-2) 1);
  (*976*) Del (T 72);
  (*977*) AddTo n_rdm2'oovv (Times (Transpose (T 45) [1;0;3;2]) (4) 1);
  (*978*) Del (T 45);
  (*979*) AddTo n_rdm2'oovv (Times (Transpose (T 56) [1;0;3;2]) (2) 1);
  (*980*) Del (T 56);
  (*981*) AddTo n_rdm2'oovv (Times (Transpose (T 73) [0;1;3;2]) (2) 1);
  (*982*) Del (T 73);
  (*983*) AddTo n_rdm2'oovv (Times (Einsum [(T 74,[0;1]); (n_t1,[2;3])] [0;2;1;3]) (2) 1);
  (*984*) Del (T 74);
  (*985*) Assign n_rdm2'vooo (Times (Transpose (T 2) [3;2;0;1]) (-4) 1);
  (*986*) AddTo n_rdm2'vooo (Times (Transpose (T 2) [3;2;1;0]) (2) 1);
  (*987*) AddTo n_rdm2'vooo (Times (Einsum [(n_l1,[0;1]); (n_delta'oo,[2;3])] [0;2;1;3]) (4) 1);
  (*988*) AddTo n_rdm2'vooo (Times (Einsum [(n_delta'oo,[0;1]); (n_l1,[2;3])] [2;0;1;3]) (-2) 1);
  (*989*) Assign n_rdm2'ovoo (Times (Transpose (T 2) [2;3;0;1]) (2) 1);
  (*990*) AddTo n_rdm2'ovoo (Times (Transpose (T 2) [2;3;1;0]) (-4) 1);
  (*991*) Del (T 2);
  (*992*) AddTo n_rdm2'ovoo (Times (Einsum [(n_l1,[0;1]); (n_delta'oo,[2;3])] [2;0;1;3]) (-2) 1);
  (*993*) AddTo n_rdm2'ovoo (Times (Einsum [(n_delta'oo,[0;1]); (n_l1,[2;3])] [0;2;1;3]) (4) 1);
  (*994*) Assign n_rdm2'oovo (Times (Transpose (T 37) [1;2;3;0]) (-2) 1);
  (*995*) AddTo n_rdm2'oovo (Times (Transpose (T 37) [2;1;3;0]) (2) 1);
  (*996*) Del (T 37);
  (*997*) AddTo n_rdm2'oovo (Times (Transpose (T 38) [1;2;3;0]) (-2) 1);
  (*998*) AddTo n_rdm2'oovo (Times (Transpose (T 38) [2;1;3;0]) (2) 1);
  (*999*) Del (T 38);
  (*1000*) AddTo n_rdm2'oovo (Times (Einsum [(n_delta'oo,[0;1]); (n_t1,[2;3])] [2;0;3;1]) (2) 1);
  (*1001*) AddTo n_rdm2'oovo (Times (Einsum [(n_delta'oo,[0;1]); (n_t1,[2;3])] [0;2;3;1]) (-2) 1);
  (*1002*) AddTo n_rdm2'oovo (Times (Einsum [(n_delta'oo,[0;1]); (T 39,[2;3])] [2;0;3;1]) (-2) 1);
  (*1003*) AddTo n_rdm2'oovo (Times (Einsum [(T 39,[0;1]); (n_delta'oo,[2;3])] [2;0;1;3]) (2) 1);
  (*1004*) Del (T 39);
  (*1005*) AddTo n_rdm2'oovo (Times (Einsum [(T 22,[0;1]); (n_delta'oo,[2;3])] [0;2;1;3]) (2) 1);
  (*1006*) AddTo n_rdm2'oovo (Times (Einsum [(T 22,[0;1]); (n_delta'oo,[2;3])] [2;0;1;3]) (-2) 1);
  (*1007*) Del (T 22);
  (*1008*) AddTo n_rdm2'oovo (Times (Transpose (T 9) [1;2;3;0]) (-2) 1);
  (*1009*) AddTo n_rdm2'oovo (Times (Transpose (T 27) [1;2;3;0]) (2) 1);
  (*1010*) AddTo n_rdm2'oovo (Times (Transpose (T 26) [2;1;3;0]) (2) 1);
  (*1011*) AddTo n_rdm2'oovo (Times (Transpose (T 41) [2;1;3;0]) (-2) 1);
  (*1012*) Del (T 41);
  (*1013*) AddTo n_rdm2'oovo (Times (Transpose (T 28) [1;2;3;0]) (2) 1);
  (*1014*) AddTo n_rdm2'oovo (Times (Einsum [(T 35,[0;1]); (n_delta'oo,[2;3])] [0;2;1;3]) (-2) 1);
  (*1015*) AddTo n_rdm2'oovo (Times (Einsum [(T 36,[0;1]); (n_t1,[2;3])] [2;1;3;0]) (-2) 1);
  (*1016*) Assign n_rdm2'ooov (Times (Transpose (T 15) [1;2;0;3]) (2) 1);
  (*1017*) AddTo n_rdm2'ooov (Times (Transpose (T 15) [2;1;0;3]) (-2) 1);
  (*1018*) Del (T 15);
  (*1019*) AddTo n_rdm2'ooov (Times (Einsum [(T 5,[0;1]); (n_t1,[2;3])] [2;1;0;3]) (2) 1);
  (*1020*) AddTo n_rdm2'ooov (Times (Einsum [(T 5,[0;1]); (n_t1,[2;3])] [1;2;0;3]) (-2) 1);
  (*1021*) AddTo n_rdm2'ooov (Times (Einsum [(n_delta'oo,[0;1]); (n_t1,[2;3])] [2;0;1;3]) (-2) 1);
  (*1022*) AddTo n_rdm2'ooov (Times (Einsum [(n_delta'oo,[0;1]); (n_t1,[2;3])] [0;2;1;3]) (2) 1);
  (*1023*) AddTo n_rdm2'ooov (Times (Einsum [(n_delta'oo,[0;1]); (T 19,[2;3])] [2;0;1;3]) (4) 1);
  (*1024*) AddTo n_rdm2'ooov (Times (Einsum [(T 19,[0;1]); (n_delta'oo,[2;3])] [2;0;3;1]) (-4) 1);
  (*1025*) Del (T 19);
  (*1026*) AddTo n_rdm2'ooov (Times (Einsum [(T 23,[0;1]); (n_delta'oo,[2;3])] [0;2;3;1]) (2) 1);
  (*1027*) AddTo n_rdm2'ooov (Times (Einsum [(T 23,[0;1]); (n_delta'oo,[2;3])] [2;0;3;1]) (-2) 1);
  (*1028*) Del (T 23);
  (*1029*) AddTo n_rdm2'ooov (Times (Transpose (T 25) [1;2;0;3]) (2) 1);
  (*1030*) AddTo n_rdm2'ooov (Times (Transpose (T 25) [2;1;0;3]) (-2) 1);
  (*1031*) Del (T 25);
  (*1032*) AddTo n_rdm2'ooov (Times (Transpose (T 9) [2;1;0;3]) (-2) 1);
  (*1033*) Del (T 9);
  (*1034*) AddTo n_rdm2'ooov (Times (Transpose (T 26) [1;2;0;3]) (2) 1);
  (*1035*) Del (T 26);
  (*1036*) AddTo n_rdm2'ooov (Times (Transpose (T 27) [2;1;0;3]) (2) 1);
  (*1037*) Del (T 27);
  (*1038*) AddTo n_rdm2'ooov (Times (Transpose (T 14) [1;2;0;3]) (-2) 1);
  (*1039*) Del (T 14);
  (*1040*) AddTo n_rdm2'ooov (Times (Transpose (T 28) [2;1;0;3]) (2) 1);
  (*1041*) Del (T 28);
  (*1042*) AddTo n_rdm2'ooov (Times (Einsum [(T 35,[0;1]); (n_delta'oo,[2;3])] [2;0;3;1]) (-2) 1);
  (*1043*) Del (T 35);
  (*1044*) AddTo n_rdm2'ooov (Times (Einsum [(n_t1,[0;1]); (T 36,[2;3])] [3;0;2;1]) (-2) 1);
  (*1045*) Del (T 36);
  (*1046*) Assign n_rdm2'oooo (Times (Transpose (T 4) [3;2;0;1]) (-2) 1);
  (*1047*) AddTo n_rdm2'oooo (Times (Transpose (T 4) [2;3;0;1]) (2) 1);
  (*1048*) Del (T 4);
  (*1049*) AddTo n_rdm2'oooo (Times (Einsum [(T 5,[0;1]); (n_delta'oo,[2;3])] [1;2;0;3]) (-2) 1);
  (*1050*) AddTo n_rdm2'oooo (Times (Einsum [(T 5,[0;1]); (n_delta'oo,[2;3])] [2;1;0;3]) (2) 1);
  (*1051*) AddTo n_rdm2'oooo (Times (Einsum [(T 5,[0;1]); (n_delta'oo,[2;3])] [1;2;3;0]) (2) 1);
  (*1052*) AddTo n_rdm2'oooo (Times (Einsum [(n_delta'oo,[0;1]); (T 5,[2;3])] [0;3;1;2]) (-4) 1);
  (*1053*) Del (T 5);
  (*1054*) AddTo n_rdm2'oooo (Times (Einsum [(n_delta'oo,[0;1]); (n_delta'oo,[2;3])] [0;2;1;3]) (2) 1);
  (*1055*) AddTo n_rdm2'oooo (Times (Einsum [(n_delta'oo,[0;1]); (n_delta'oo,[2;3])] [0;2;3;1]) (-2) 1);
  (*1056*) AddTo n_rdm2'oooo (Times (Einsum [(n_delta'oo,[0;1]); (T 7,[2;3])] [3;0;2;1]) (-4) 1);
  (*1057*) AddTo n_rdm2'oooo (Times (Einsum [(T 7,[0;1]); (n_delta'oo,[2;3])] [2;1;0;3]) (2) 1);
  (*1058*) AddTo n_rdm2'oooo (Times (Einsum [(T 7,[0;1]); (n_delta'oo,[2;3])] [1;2;3;0]) (2) 1);
  (*1059*) AddTo n_rdm2'oooo (Times (Einsum [(T 7,[0;1]); (n_delta'oo,[2;3])] [2;1;3;0]) (-4) 1);
  (*1060*) Del (T 7);
  (*1061*) AddTo n_rdm2'oooo (Times (Transpose (T 1) [3;2;1;0]) (2) 1);
  (*1062*) Del (T 1);
  (*1063*) AddTo n_rdm2'oooo (Times (Transpose (T 3) [3;2;1;0]) (2) 1);
  (*1064*) Del (T 3);
  (*1065*) AddTo n_rdm2'oooo (Times (Einsum [(T 8,[0;1]); (n_delta'oo,[2;3])] [1;2;0;3]) (2) 1);
  (*1066*) Del n_delta'oo;
  (*1066*) Del n_delta'vv;
  (*1066*) Del (T 8)]
 [(n_rdm2'oooo,[0;0;0;0]); (n_rdm2'ooov,[0;0;0;1]); (n_rdm2'oovo,[0;0;1;0]); (n_rdm2'ovoo,[0;1;0;0]); (n_rdm2'vooo,[1;0;0;0]); (n_rdm2'oovv,[0;0;1;1]); (n_rdm2'ovov,[0;1;0;1]); (n_rdm2'ovvo,[0;1;1;0]); (n_rdm2'voov,[1;0;0;1]); (n_rdm2'vovo,[1;0;1;0]); (n_rdm2'vvoo,[1;1;0;0]); (n_rdm2'ovvv,[0;1;1;1]); (n_rdm2'vovv,[1;0;1;1]); (n_rdm2'vvov,[1;1;0;1]); (n_rdm2'vvvo,[1;1;1;0]); (n_rdm2'vvvv,[1;1;1;1])].

(** ebcc/codegen/RCC2.py:1072-1156 [hbar_matvec_ip_intermediates] *)
Definition RCC2_hbar_matvec_ip_intermediates : prog := mkprog
 [(n_f'ov,[0;1]); (n_t1,[0;1]); (n_v'ovov,[0;1;0;1]); (n_t2,[0;0;1;1]); (n_v'ovvv,[0;1;1;1]); (n_f'vv,[1;1]); (n_v'ooov,[0;0;0;1]); (n_f'oo,[0;0])]
 [(*1123*) Assign (T 1) (Plain (Einsum [(n_f'ov,[0;1]); (n_t1,[2;1])] [0;2]));
  (*1124*) Assign (T 7) (Plain (Einsum [(n_t1,[0;1]); (n_v'ovov,[2;3;0;1])] [2;3]));
  (*1125*) Assign (T 6) (Plain (Einsum [(n_v'ovov,[0;1;2;3]); (n_t1,[2;1])] [0;3]));
  (*1126*) Assign (T 55) (Plain (Einsum [(T 1,[0;1]); (n_t1,[0;2])] [1;2]));
  (*1127*) Assign (T 54) (Plain (Einsum [(n_t2,[0;1;2;3]); (n_v'ovvv,[1;2;4;3])] [0;4]));
  (*1128*) Assign (T 53) (Plain (Einsum [(n_t2,[0;1;2;3]); (n_v'ovvv,[1;3;4;2])] [0;4]));
  (*1129*) Assign (T 52) (Plain (Einsum [(n_t1,[0;1]); (n_f'vv,[2;1])] [0;2]));
  (*1130*) Assign (T 46) (Plain (Einsum [(n_v'ovov,[0;1;2;3]); (n_t2,[0;2;4;3])] [4;1]));
  (*1131*) Assign (T 44) (Plain (Einsum [(n_v'ovov,[0;1;2;3]); (n_t2,[0;2;4;1])] [4;3]));
  (*1132*) Assign (T 43) (Plain (Einsum [(n_v'ooov,[0;1;2;3]); (n_t2,[4;1;3;5])] [4;0;2;5]));
  (*1133*) Assign (T 42) (Plain (Einsum [(n_v'ooov,[0;1;2;3]); (n_t2,[1;2;4;3])] [0;4]));
  (*1134*) Assign (T 41) (Plain (Einsum [(n_v'ooov,[0;1;2;3]); (n_t2,[2;1;4;3])] [0;4]));
  (*1135*) Assign (T 40) (Plain (Einsum [(n_f'ov,[0;1]); (n_t2,[2;3;4;1])] [0;2;3;4]));
  (*1136*) Assign (T 38) (Plain (Einsum [(n_f'oo,[0;1]); (n_t1,[1;2])] [0;2]));
  (*1137*) Assign (T 36) (Plain (Einsum [(n_v'ovov,[0;1;2;3]); (n_t2,[4;2;5;3])] [4;0;5;1]));
  (*1138*) Assign (T 35) (Plain (Einsum [(n_t2,[0;1;2;3]); (n_v'ovov,[4;5;1;2])] [0;4;3;5]));
  (*1139*) Assign (T 34) (Plain (Einsum [(n_t2,[0;1;2;3]); (n_v'ovov,[4;3;1;5])] [0;4;2;5]));
  (*1140*) Assign (T 33) (Plain (Einsum [(n_t2,[0;1;2;3]); (n_v'ovov,[4;2;1;5])] [0;4;3;5]));
  (*1141*) Assign (T 32) (Plain (Einsum [(n_v'ooov,[0;1;2;3]); (n_t2,[4;2;3;5])] [4;0;1;5]));
  (*1142*) Assign (T 30) (Plain (Einsum [(n_v'ooov,[0;1;2;3]); (n_t2,[4;2;5;3])] [4;0;1;5]));
  (*1143*) Assign (T 29) (Plain (Einsum [(n_v'ooov,[0;1;2;3]); (n_t2,[4;1;5;3])] [4;0;2;5]));
  (*1144*) Assign (T 27) (Plain (Einsum [(n_t2,[0;1;2;3]); (n_f'ov,[1;3])] [0;2]));
  (*1145*) Assign (T 26) (Plain (Einsum [(n_f'ov,[0;1]); (n_t2,[2;0;1;3])] [2;3]));
  (*1146*) Assign (T 22) (Plain (Einsum [(n_v'ovov,[0;1;2;3]); (n_t2,[4;5;1;3])] [4;5;0;2]));
  (*1147*) Assign (T 20) (Plain (Einsum [(n_t2,[0;1;2;3]); (n_v'ovvv,[4;2;5;3])] [0;1;4;5]));
  (*1148*) Assign (T 18) (Plain (Einsum [(T 7,[0;1]); (n_t1,[2;1])] [2;0]));
  (*1149*) Assign (T 17) (Plain (Einsum [(T 6,[0;1]); (n_t1,[2;1])] [2;0]));
  (*1150*) Assign (T 15) (Plain (Einsum [(n_t2,[0;1;2;3]); (n_v'ovov,[4;2;1;3])] [0;4]));
  (*1151*) Assign (T 13) (Plain (Einsum [(n_t2,[0;1;2;3]); (n_v'ovov,[4;3;1;2])] [0;4]));
  (*1152*) Assign (T 10) (Plain (Einsum [(n_t1,[0;1]); (n_v'ovov,[2;3;4;1])] [0;2;4;3]));
  (*1153*) Assign (T 5) (Plain (Einsum [(n_v'ooov,[0;1;2;3]); (n_t1,[2;3])] [0;1]));
  (*1154*) Assign (T 4) (Plain (Einsum [(n_t1,[0;1]); (n_v'ooov,[2;0;3;1])] [2;3]))]
 [(T 1,[0;0]); (T 13,[0;0]); (T 15,[0;0]); (T 17,[0;0]); (T 18,[0;0]); (T 20,[0;0;0;1]); (T 22,[0;0;0;0]); (T 26,[0;1]); (T 27,[0;1]); (T 29,[0;0;0;1]); (T 30,[0;0;0;1]); (T 4,[0;0]); (T 32,[0;0;0;1]); (T 33,[0;0;1;1]); (T 34,[0;0;1;1]); (T 35,[0;0;1;1]); (T 36,[0;0;1;1]); (T 38,[0;1]); (T 40,[0;0;0;1]); (T 5,[0;0]); (T 41,[0;1]); (T 42,[0;1]); (T 43,[0;0;0;1]); (T 44,[1;1]); (T 46,[1;1]); (T 6,[0;1]); (T 52,[0;1]); (T 53,[0;1]); (T 54,[0;1]); (T 55,[0;1]); (T 7,[0;1]); (T 10,[0;0;0;1])].

(** ebcc/codegen/RCC2.py:1158-1297 [hbar_matvec_ip] *)
Definition RCC2_hbar_matvec_ip : prog := mkprog
 [(n_v'ovov,[0;1;0;1]); (n_r2,[0;0;1]); (n_f'oo,[0;0]); (IT 1,[0;0]); (IT 15,[0;0]); (IT 13,[0;0]); (IT 33,[0;0;1;1]); (n_v'oovv,[0;0;1;1]); (IT 36,[0;0;1;1]); (IT 34,[0;0;1;1]); (IT 35,[0;0;1;1]); (IT 20,[0;0;0;1]); (IT 30,[0;0;0;1]); (IT 40,[0;0;0;1]); (n_v'ooov,[0;0;0;1]); (IT 29,[0;0;0;1]); (IT 32,[0;0;0;1]); (IT 43,[0;0;0;1]); (n_f'ov,[0;1]); (IT 27,[0;1]); (IT 41,[0;1]); (IT 52,[0;1]); (IT 53,[0;1]); (IT 26,[0;1]); (IT 38,[0;1]); (IT 42,[0;1]); (IT 54,[0;1]); (IT 55,[0;1]); (IT 46,[1;1]); (n_f'vv,[1;1]); (IT 44,[1;1]); (n_t1,[0;1]); (IT 7,[0;1]); (IT 6,[0;1]); (IT 18,[0;0]); (IT 5,[0;0]); (IT 17,[0;0]); (IT 4,[0;0]); (IT 10,[0;0;0;1]); (n_v'oooo,[0;0;0;0]); (IT 22,[0;0;0;0]); (n_t2,[0;0;1;1]); (n_r1,[0])]
 [(*1186*) Assign (T 9) (Times (Transpose n_v'ovov [0;2;3;1]) (-1) 2);
  (*1187*) AddTo (T 9) (Plain (Transpose n_v'ovov [0;2;1;3]));
  (*1188*) Assign (T 5) (Times (Copy n_r2) (-1) 2);
  (*1189*) AddTo (T 5) (Plain (Transpose n_r2 [1;0;2]));
  (*1190*) Assign (T 12) (Plain (Copy n_f'oo));
  (*1191*) AddTo (T 12) (Plain (Copy (IT 1)));
  (*1192*) AddTo (T 12) (Times (Transpose (IT 15) [1;0]) (2) 1);
  (*1193*) AddTo (T 12) (Times (Transpose (IT 13) [1;0]) (-1) 1);
  (*1194*) Assign (T 7) (Plain (Copy (IT 33)));
  (*1195*) Del (IT 33);
  (*1196*) AddTo (T 7) (Times (Copy n_v'oovv) (-1) 1);
  (*1197*) Assign (T 6) (Times (Copy (IT 36)) (2) 1);
  (*1198*) Del (IT 36);
  (*1199*) AddTo (T 6) (Plain (Transpose n_v'ovov [0;2;1;3]));
  (*1200*) AddTo (T 6) (Times (Copy (IT 34)) (-1) 1);
  (*1201*) Del (IT 34);
  (*1202*) AddTo (T 6) (Times (Copy (IT 35)) (-1) 1);
  (*1203*) Del (IT 35);
  (*1204*) Assign (T 10) (Plain (Einsum [(n_r2,[0;1;2]); (T 9,[1;0;3;2])] [3]));
  (*1205*) Del (T 9);
  (*1206*) Assign (T 11) (Plain (Copy (IT 20)));
  (*1207*) Del (IT 20);
  (*1208*) AddTo (T 11) (Times (Transpose (IT 30) [1;0;2;3]) (2) 1);
  (*1209*) Del (IT 30);
  (*1210*) AddTo (T 11) (Plain (Transpose (IT 40) [2;1;0;3]));
  (*1211*) Del (IT 40);
  (*1212*) AddTo (T 11) (Plain (Transpose n_v'ooov [0;2;1;3]));
  (*1213*) AddTo (T 11) (Times (Transpose (IT 29) [1;0;2;3]) (-1) 1);
  (*1214*) Del (IT 29);
  (*1215*) AddTo (T 11) (Times (Transpose (IT 32) [1;0;2;3]) (-1) 1);
  (*1216*) Del (IT 32);
  (*1217*) AddTo (T 11) (Times (Copy (IT 43)) (-1) 1);
  (*1218*) Del (IT 43);
  (*1219*) Assign (T 13) (Plain (Copy n_f'ov));
  (*1220*) AddTo (T 13) (Times (Copy (IT 27)) (2) 1);
  (*1221*) Del (IT 27);
  (*1222*) AddTo (T 13) (Plain (Copy (IT 41)));
  (*1223*) Del (IT 41);
  (*1224*) AddTo (T 13) (Plain (Copy (IT 52)));
  (*1225*) Del (IT 52);
  (*1226*) AddTo (T 13) (Times (Copy (IT 53)) (2) 1);
  (*1227*) Del (IT 53);
  (*1228*) AddTo (T 13) (Times (Copy (IT 26)) (-1) 1);
  (*1229*) Del (IT 26);
  (*1230*) AddTo (T 13) (Times (Copy (IT 38)) (-1) 1);
  (*1231*) Del (IT 38);
  (*1232*) AddTo (T 13) (Times (Copy (IT 42)) (-2) 1);
  (*1233*) Del (IT 42);
  (*1234*) AddTo (T 13) (Times (Copy (IT 54)) (-1) 1);
  (*1235*) Del (IT 54);
  (*1236*) AddTo (T 13) (Times (Copy (IT 55)) (-1) 1);
  (*1237*) Del (IT 55);
  (*1238*) Assign (T 8) (Times (Transpose (IT 46) [1;0]) (2) 1);
  (*1239*) Del (IT 46);
  (*1240*) AddTo (T 8) (Times (Copy n_f'vv) (-1) 1);
  (*1241*) AddTo (T 8) (Times (Transpose (IT 44) [1;0]) (-1) 1);
  (*1242*) Del (IT 44);
  (*1243*) AddTo (T 8) (Plain (Einsum [(n_t1,[0;1]); (n_f'ov,[0;2])] [2;1]));
  (*1244*) Assign (T 2) (Times (Copy n_f'ov) (1) 2);
  (*1245*) AddTo (T 2) (Plain (Copy (IT 7)));
  (*1246*) Del (IT 7);
  (*1247*) AddTo (T 2) (Times (Copy (IT 6)) (-1) 2);
  (*1248*) Del (IT 6);
  (*1249*) Assign (T 4) (Plain (Copy n_f'oo));
  (*1250*) AddTo (T 4) (Plain (Copy (IT 1)));
  (*1251*) Del (IT 1);
  (*1252*) AddTo (T 4) (Times (Transpose (IT 15) [1;0]) (2) 1);
  (*1253*) Del (IT 15);
  (*1254*) AddTo (T 4) (Times (Transpose (IT 18) [1;0]) (2) 1);
  (*1255*) Del (IT 18);
  (*1256*) AddTo (T 4) (Times (Transpose (IT 5) [1;0]) (2) 1);
  (*1257*) Del (IT 5);
  (*1258*) AddTo (T 4) (Times (Transpose (IT 13) [1;0]) (-1) 1);
  (*1259*) Del (IT 13);
  (*1260*) AddTo (T 4) (Times (Transpose (IT 17) [1;0]) (-1) 1);
  (*1261*) Del (IT 17);
  (*1262*) AddTo (T 4) (Times (Transpose (IT 4) [1;0]) (-1) 1);
  (*1263*) Del (IT 4);
  (*1264*) Assign (T 1) (Plain (Copy (IT 10)));
  (*1265*) AddTo (T 1) (Times (Copy n_v'ooov) (-1) 2);
  (*1266*) AddTo (T 1) (Plain (Transpose n_v'ooov [0;2;1;3]));
  (*1267*) Assign (T 3) (Times (Copy n_r2) (-1) 1);
  (*1268*) AddTo (T 3) (Times (Transpose n_r2 [1;0;2]) (2) 1);
  (*1269*) Assign n_r2new (Plain (Einsum [(n_r2,[0;1;2]); (n_v'oooo,[3;0;4;1])] [3;4;2]));
  (*1270*) AddTo n_r2new (Plain (Einsum [(IT 22,[0;1;2;3]); (n_r2,[3;2;4])] [1;0;4]));
  (*1271*) Del (IT 22);
  (*1272*) AddTo n_r2new (Times (Einsum [(T 6,[0;1;2;3]); (T 5,[4;1;3])] [0;4;2]) (2) 1);
  (*1273*) Del (T 6);
  (*1273*) Del (T 5);
  (*1274*) AddTo n_r2new (Plain (Einsum [(n_r2,[0;1;2]); (T 7,[3;1;4;2])] [0;3;4]));
  (*1275*) AddTo n_r2new (Plain (Einsum [(n_r2,[0;1;2]); (T 7,[3;0;4;2])] [3;1;4]));
  (*1276*) Del (T 7);
  (*1277*) AddTo n_r2new (Times (Einsum [(T 8,[0;1]); (n_r2,[2;3;0])] [2;3;1]) (-1) 1);
  (*1278*) Del (T 8);
  (*1279*) AddTo n_r2new (Times (Einsum [(T 10,[0]); (n_t2,[1;2;3;0])] [1;2;3]) (-2) 1);
  (*1280*) Del (T 10);
  (*1281*) AddTo n_r2new (Plain (Einsum [(T 11,[0;1;2;3]); (n_r1,[2])] [1;0;3]));
  (*1282*) Del (T 11);
  (*1283*) AddTo n_r2new (Times (Einsum [(T 12,[0;1]); (n_r2,[0;2;3])] [1;2;3]) (-1) 1);
  (*1284*) AddTo n_r2new (Times (Einsum [(n_r2,[0;1;2]); (T 12,[1;3])] [0;3;2]) (-1) 1);
  (*1285*) Del (T 12);
  (*1286*) AddTo n_r2new (Times (Einsum [(n_r1,[0]); (T 13,[1;2])] [1;0;2]) (-1) 1);
  (*1287*) Del (T 13);
  (*1288*) Assign n_r1new (Times (Einsum [(n_r2,[0;1;2]); (IT 10,[3;1;0;2])] [3]) (-1) 1);
  (*1289*) Del (IT 10);
  (*1290*) AddTo n_r1new (Times (Einsum [(n_r2,[0;1;2]); (T 1,[3;0;1;2])] [3]) (2) 1);
  (*1291*) Del (T 1);
  (*1292*) AddTo n_r1new (Times (Einsum [(T 2,[0;1]); (T 3,[2;0;1])] [2]) (-2) 1);
  (*1293*) Del (T 2);
  (*1293*) Del (T 3);
  (*1294*) AddTo n_r1new (Times (Einsum [(T 4,[0;1]); (n_r1,[0])] [1]) (-1) 1);
  (*1295*) Del (T 4)]
 [(n_r1new,[0]); (n_r2new,[0;0;1])].

(** ebcc/codegen/RCC2.py:1299-1373 [hbar_matvec_ea_intermediates] *)
Definition RCC2_hbar_matvec_ea_intermediates : prog := mkprog
 [(n_f'ov,[0;1]); (n_t1,[0;1]); (n_v'ovov,[0;1;0;1]); (n_t2,[0;0;1;1]); (n_v'ovvv,[0;1;1;1]); (n_v'ooov,[0;0;0;1]); (n_f'oo,[0;0]); (n_f'vv,[1;1])]
 [(*1345*) Assign (T 34) (Plain (Einsum [(n_f'ov,[0;1]); (n_t1,[2;1])] [0;2]));
  (*1346*) Assign (T 56) (Plain (Einsum [(n_v'ovov,[0;1;2;3]); (n_t2,[4;2;5;3])] [4;0;5;1]));
  (*1347*) Assign (T 55) (Plain (Einsum [(n_t2,[0;1;2;3]); (n_v'ovov,[4;5;1;2])] [0;4;3;5]));
  (*1348*) Assign (T 54) (Plain (Einsum [(n_t2,[0;1;2;3]); (n_v'ovov,[4;3;1;5])] [0;4;2;5]));
  (*1349*) Assign (T 51) (Plain (Einsum [(n_v'ovvv,[0;1;2;3]); (n_t2,[4;0;1;5])] [4;5;2;3]));
  (*1350*) Assign (T 50) (Plain (Einsum [(n_t2,[0;1;2;3]); (n_v'ovvv,[1;4;5;3])] [0;2;4;5]));
  (*1351*) Assign (T 49) (Plain (Einsum [(n_v'ovvv,[0;1;2;3]); (n_t2,[4;0;5;1])] [4;5;2;3]));
  (*1352*) Assign (T 48) (Plain (Einsum [(n_t2,[0;1;2;3]); (n_f'ov,[1;3])] [0;2]));
  (*1353*) Assign (T 47) (Plain (Einsum [(n_f'ov,[0;1]); (n_t2,[2;0;1;3])] [2;3]));
  (*1354*) Assign (T 45) (Plain (Einsum [(n_v'ooov,[0;1;2;3]); (n_t2,[2;1;3;4])] [0;4]));
  (*1355*) Assign (T 44) (Plain (Einsum [(n_v'ooov,[0;1;2;3]); (n_t2,[1;2;3;4])] [0;4]));
  (*1356*) Assign (T 43) (Plain (Einsum [(n_f'oo,[0;1]); (n_t1,[1;2])] [0;2]));
  (*1357*) Assign (T 42) (Plain (Einsum [(T 34,[0;1]); (n_t1,[0;2])] [1;2]));
  (*1358*) Assign (T 40) (Plain (Einsum [(n_v'ovov,[0;1;2;3]); (n_t2,[4;2;1;3])] [4;0]));
  (*1359*) Assign (T 38) (Plain (Einsum [(n_v'ovov,[0;1;2;3]); (n_t2,[4;2;3;1])] [4;0]));
  (*1360*) Assign (T 37) (Plain (Einsum [(n_v'ovvv,[0;1;2;3]); (n_t2,[4;0;1;3])] [4;2]));
  (*1361*) Assign (T 36) (Plain (Einsum [(n_v'ovvv,[0;1;2;3]); (n_t2,[4;0;3;1])] [4;2]));
  (*1362*) Assign (T 33) (Plain (Einsum [(n_t1,[0;1]); (n_f'vv,[2;1])] [0;2]));
  (*1363*) Assign (T 27) (Plain (Einsum [(n_v'ooov,[0;1;2;3]); (n_t2,[2;1;4;5])] [0;5;4;3]));
  (*1364*) Assign (T 26) (Plain (Einsum [(n_t2,[0;1;2;3]); (n_v'ovov,[4;2;1;5])] [0;4;3;5]));
  (*1365*) Assign (T 23) (Plain (Einsum [(n_t2,[0;1;2;3]); (n_v'ovvv,[1;4;5;2])] [0;3;4;5]));
  (*1366*) Assign (T 17) (Plain (Einsum [(n_v'ovov,[0;1;2;3]); (n_t2,[0;2;4;3])] [4;1]));
  (*1367*) Assign (T 15) (Plain (Einsum [(n_v'ovov,[0;1;2;3]); (n_t2,[0;2;4;1])] [4;3]));
  (*1368*) Assign (T 8) (Plain (Einsum [(n_t1,[0;1]); (n_v'ovov,[2;3;0;1])] [2;3]));
  (*1369*) Assign (T 7) (Plain (Einsum [(n_v'ovov,[0;1;2;3]); (n_t1,[2;1])] [0;3]));
  (*1370*) Assign (T 6) (Plain (Einsum [(n_t1,[0;1]); (n_v'ovvv,[0;2;3;1])] [2;3]));
  (*1371*) Assign (T 4) (Plain (Einsum [(n_t1,[0;1]); (n_v'ovvv,[0;1;2;3])] [2;3]))]
 [(T 15,[1;1]); (T 17,[1;1]); (T 23,[0;1;1;1]); (T 26,[0;0;1;1]); (T 27,[0;1;1;1]); (T 4,[1;1]); (T 33,[0;1]); (T 34,[0;0]); (T 36,[0;1]); (T 37,[0;1]); (T 38,[0;0]); (T 40,[0;0]); (T 42,[0;1]); (T 43,[0;1]); (T 44,[0;1]); (T 45,[0;1]); (T 47,[0;1]); (T 48,[0;1]); (T 49,[0;1;1;1]); (T 50,[0;1;1;1]); (T 6,[1;1]); (T 51,[0;1;1;1]); (T 54,[0;0;1;1]); (T 55,[0;0;1;1]); (T 56,[0;0;1;1]); (T 7,[0;1]); (T 8,[0;1])].

(** ebcc/codegen/RCC2.py:1375-1516 [hbar_matvec_ea] *)
Definition RCC2_hbar_matvec_ea : prog := mkprog
 [(n_t1,[0;1]); (n_f'ov,[0;1]); (n_v'ovov,[0;1;0;1]); (IT 8,[0;1]); (IT 7,[0;1]); (n_f'oo,[0;0]); (IT 34,[0;0]); (IT 40,[0;0]); (IT 38,[0;0]); (n_r2,[1;1;0]); (IT 56,[0;0;1;1]); (IT 54,[0;0;1;1]); (IT 55,[0;0;1;1]); (IT 27,[0;1;1;1]); (IT 49,[0;1;1;1]); (n_v'ovvv,[0;1;1;1]); (IT 23,[0;1;1;1]); (IT 50,[0;1;1;1]); (IT 51,[0;1;1;1]); (IT 26,[0;0;1;1]); (n_v'oovv,[0;0;1;1]); (IT 17,[1;1]); (n_f'vv,[1;1]); (IT 15,[1;1]); (n_r1,[1]); (IT 33,[0;1]); (IT 36,[0;1]); (IT 44,[0;1]); (IT 48,[0;1]); (IT 37,[0;1]); (IT 42,[0;1]); (IT 43,[0;1]); (IT 45,[0;1]); (IT 47,[0;1]); (IT 4,[1;1]); (IT 6,[1;1]); (n_t2,[0;0;1;1]); (n_v'vvvv,[1;1;1;1])]
 [(*1403*) Assign (T 13) (Plain (Einsum [(n_t1,[0;1]); (n_f'ov,[0;2])] [2;1]));
  (*1404*) Assign (T 5) (Times (Transpose n_v'ovov [0;2;3;1]) (-1) 1);
  (*1405*) AddTo (T 5) (Times (Transpose n_v'ovov [0;2;1;3]) (2) 1);
  (*1406*) Assign (T 6) (Plain (Copy n_f'ov));
  (*1407*) AddTo (T 6) (Times (Copy (IT 8)) (2) 1);
  (*1408*) AddTo (T 6) (Times (Copy (IT 7)) (-1) 1);
  (*1409*) Assign (T 15) (Plain (Copy n_f'oo));
  (*1410*) AddTo (T 15) (Plain (Copy (IT 34)));
  (*1411*) Del (IT 34);
  (*1412*) AddTo (T 15) (Times (Transpose (IT 40) [1;0]) (2) 1);
  (*1413*) Del (IT 40);
  (*1414*) AddTo (T 15) (Times (Transpose (IT 38) [1;0]) (-1) 1);
  (*1415*) Del (IT 38);
  (*1416*) Assign (T 9) (Plain (Transpose n_r2 [2;0;1]));
  (*1417*) AddTo (T 9) (Times (Transpose n_r2 [2;1;0]) (-1) 2);
  (*1418*) Assign (T 10) (Times (Copy (IT 56)) (2) 1);
  (*1419*) Del (IT 56);
  (*1420*) AddTo (T 10) (Plain (Transpose n_v'ovov [0;2;1;3]));
  (*1421*) AddTo (T 10) (Times (Copy (IT 54)) (-1) 1);
  (*1422*) Del (IT 54);
  (*1423*) AddTo (T 10) (Times (Copy (IT 55)) (-1) 1);
  (*1424*) Del (IT 55);
  (*1425*) Assign (T 12) (Plain (Transpose (IT 27) [0;2;3;1]));
  (*1426*) Del (IT 27);
  (*1427*) AddTo (T 12) (Times (Transpose (IT 49) [0;2;3;1]) (2) 1);
  (*1428*) Del (IT 49);
  (*1429*) AddTo (T 12) (Plain (Transpose n_v'ovvv [0;2;3;1]));
  (*1430*) AddTo (T 12) (Times (Copy (IT 23)) (-1) 1);
  (*1431*) Del (IT 23);
  (*1432*) AddTo (T 12) (Times (Transpose (IT 50) [0;3;2;1]) (-1) 1);
  (*1433*) Del (IT 50);
  (*1434*) AddTo (T 12) (Times (Transpose (IT 51) [0;2;3;1]) (-1) 1);
  (*1435*) Del (IT 51);
  (*1436*) Assign (T 11) (Plain (Copy (IT 26)));
  (*1437*) Del (IT 26);
  (*1438*) AddTo (T 11) (Times (Copy n_v'oovv) (-1) 1);
  (*1439*) Assign (T 8) (Plain (Einsum [(n_v'ovov,[0;1;2;3]); (n_r2,[1;3;4])] [4;0;2]));
  (*1440*) Assign (T 14) (Times (Transpose (IT 17) [1;0]) (2) 1);
  (*1441*) AddTo (T 14) (Times (Copy n_f'vv) (-1) 1);
  (*1442*) AddTo (T 14) (Times (Transpose (IT 15) [1;0]) (-1) 1);
  (*1443*) AddTo (T 14) (Plain (Copy (T 13)));
  (*1444*) Del (T 13);
  (*1445*) Assign (T 16) (Times (Einsum [(n_f'ov,[0;1]); (n_r1,[1])] [0]) (1) 2);
  (*1446*) AddTo (T 16) (Times (Einsum [(n_r2,[0;1;2]); (T 5,[2;3;0;1])] [3]) (-1) 2);
  (*1447*) Assign (T 17) (Plain (Copy n_f'ov));
  (*1448*) AddTo (T 17) (Plain (Copy (IT 33)));
  (*1449*) Del (IT 33);
  (*1450*) AddTo (T 17) (Times (Copy (IT 36)) (2) 1);
  (*1451*) Del (IT 36);
  (*1452*) AddTo (T 17) (Plain (Copy (IT 44)));
  (*1453*) Del (IT 44);
  (*1454*) AddTo (T 17) (Times (Copy (IT 48)) (2) 1);
  (*1455*) Del (IT 48);
  (*1456*) AddTo (T 17) (Times (Copy (IT 37)) (-1) 1);
  (*1457*) Del (IT 37);
  (*1458*) AddTo (T 17) (Times (Copy (IT 42)) (-1) 1);
  (*1459*) Del (IT 42);
  (*1460*) AddTo (T 17) (Times (Copy (IT 43)) (-1) 1);
  (*1461*) Del (IT 43);
  (*1462*) AddTo (T 17) (Times (Copy (IT 45)) (-2) 1);
  (*1463*) Del (IT 45);
  (*1464*) AddTo (T 17) (Times (Copy (IT 47)) (-1) 1);
  (*1465*) Del (IT 47);
  (*1466*) Assign (T 2) (Times (Copy n_f'ov) (1) 2);
  (*1467*) AddTo (T 2) (Plain (Copy (IT 8)));
  (*1468*) Del (IT 8);
  (*1469*) AddTo (T 2) (Times (Copy (IT 7)) (-1) 2);
  (*1470*) Del (IT 7);
  (*1471*) Assign (T 7) (Times (Einsum [(n_r2,[0;1;2]); (T 5,[2;3;0;1])] [3]) (-1) 1);
  (*1472*) Del (T 5);
  (*1473*) AddTo (T 7) (Plain (Einsum [(T 6,[0;1]); (n_r1,[1])] [0]));
  (*1474*) Del (T 6);
  (*1475*) Assign (T 4) (Plain (Copy n_f'vv));
  (*1476*) AddTo (T 4) (Plain (Transpose (IT 15) [1;0]));
  (*1477*) Del (IT 15);
  (*1478*) AddTo (T 4) (Times (Transpose (IT 4) [1;0]) (2) 1);
  (*1479*) Del (IT 4);
  (*1480*) AddTo (T 4) (Times (Transpose (IT 17) [1;0]) (-2) 1);
  (*1481*) Del (IT 17);
  (*1482*) AddTo (T 4) (Times (Copy (IT 6)) (-1) 1);
  (*1483*) Del (IT 6);
  (*1484*) Assign (T 3) (Times (Transpose n_r2 [2;0;1]) (-1) 1);
  (*1485*) AddTo (T 3) (Times (Transpose n_r2 [2;1;0]) (2) 1);
  (*1486*) Assign (T 1) (Times (Copy n_v'ovvv) (-1) 1);
  (*1487*) AddTo (T 1) (Times (Transpose n_v'ovvv [0;2;1;3]) (2) 1);
  (*1488*) Assign n_r2new (Plain (Einsum [(T 8,[0;1;2]); (n_t2,[2;1;3;4])] [4;3;0]));
  (*1489*) Del (T 8);
  (*1490*) AddTo n_r2new (Plain (Einsum [(n_r2,[0;1;2]); (n_v'vvvv,[3;0;4;1])] [3;4;2]));
  (*1491*) AddTo n_r2new (Times (Einsum [(T 10,[0;1;2;3]); (T 9,[1;3;4])] [2;4;0]) (2) 1);
  (*1492*) Del (T 10);
  (*1492*) Del (T 9);
  (*1493*) AddTo n_r2new (Plain (Einsum [(T 11,[0;1;2;3]); (n_r2,[4;3;1])] [4;2;0]));
  (*1494*) AddTo n_r2new (Plain (Einsum [(n_r2,[0;1;2]); (T 11,[3;2;4;0])] [4;1;3]));
  (*1495*) Del (T 11);
  (*1496*) AddTo n_r2new (Times (Einsum [(n_r1,[0]); (T 12,[1;2;0;3])] [3;2;1]) (-1) 1);
  (*1497*) Del (T 12);
  (*1498*) AddTo n_r2new (Times (Einsum [(T 14,[0;1]); (n_r2,[0;2;3])] [1;2;3]) (-1) 1);
  (*1499*) AddTo n_r2new (Times (Einsum [(T 14,[0;1]); (n_r2,[2;0;3])] [2;1;3]) (-1) 1);
  (*1500*) Del (T 14);
  (*1501*) AddTo n_r2new (Times (Einsum [(n_r2,[0;1;2]); (T 15,[2;3])] [0;1;3]) (-1) 1);
  (*1502*) Del (T 15);
  (*1503*) AddTo n_r2new (Times (Einsum [(T 16,[0]); (n_t2,[1;0;2;3])] [2;3;1]) (2) 1);
  (*1504*) Del (T 16);
  (*1505*) AddTo n_r2new (Times (Einsum [(n_r1,[0]); (T 17,[1;2])] [2;0;1]) (-1) 1);
  (*1506*) Del (T 17);
  (*1507*) Assign n_r1new (Times (Einsum [(n_r2,[0;1;2]); (T 1,[2;1;0;3])] [3]) (-1) 1);
  (*1508*) Del (T 1);
  (*1509*) AddTo n_r1new (Times (Einsum [(T 3,[0;1;2]); (T 2,[0;2])] [1]) (-2) 1);
  (*1510*) Del (T 3);
  (*1510*) Del (T 2);
  (*1511*) AddTo n_r1new (Plain (Einsum [(n_r1,[0]); (T 4,[0;1])] [1]));
  (*1512*) Del (T 4);
  (*1513*) AddTo n_r1new (Times (Einsum [(T 7,[0]); (n_t1,[0;1])] [1]) (-1) 1);
  (*1514*) Del (T 7)]
 [(n_r1new,[1]); (n_r2new,[1;1;0])].

(** ebcc/codegen/RCC2.py:1518-1668 [hbar_lmatvec_ip_intermediates] *)
Definition RCC2_hbar_lmatvec_ip_intermediates : prog := mkprog
 [(n_t1,[0;1]); (n_v'ovov,[0;1;0;1]); (n_v'ovvv,[0;1;1;1]); (n_v'ooov,[0;0;0;1]); (n_t2,[0;0;1;1]); (n_f'ov,[0;1]); (n_v'oovv,[0;0;1;1]); (n_v'oooo,[0;0;0;0]); (n_f'vv,[1;1]); (n_f'oo,[0;0])]
 [(*1596*) Assign (T 21) (Plain (Einsum [(n_t1,[0;1]); (n_v'ovov,[2;3;4;1])] [0;2;4;3]));
  (*1597*) Assign (T 18) (Plain (Einsum [(n_t1,[0;1]); (n_v'ovov,[2;3;0;1])] [2;3]));
  (*1598*) Assign (T 48) (Plain (Einsum [(n_v'ovov,[0;1;2;3]); (n_t1,[2;1])] [0;3]));
  (*1599*) Assign (T 108) (Plain (Einsum [(T 21,[0;1;2;3]); (n_t1,[4;3])] [4;0;1;2]));
  (*1600*) Assign (T 87) (Plain (Einsum [(T 18,[0;1]); (n_t1,[2;1])] [2;0]));
  (*1601*) Assign (T 86) (Plain (Einsum [(T 48,[0;1]); (n_t1,[2;1])] [2;0]));
  (*1602*) Assign (T 100) (Plain (Einsum [(n_t1,[0;1]); (n_v'ovvv,[2;3;4;1])] [0;2;3;4]));
  (*1603*) Assign (T 98) (Plain (Einsum [(n_v'ovvv,[0;1;2;3]); (n_t1,[0;3])] [1;2]));
  (*1604*) Assign (T 94) (Plain (Einsum [(n_t1,[0;1]); (n_v'ovvv,[0;1;2;3])] [2;3]));
  (*1605*) Assign (T 91) (Plain (Einsum [(n_v'ooov,[0;1;2;3]); (n_t1,[4;3])] [4;0;1;2]));
  (*1606*) Assign (T 14) (Plain (Einsum [(n_v'ooov,[0;1;2;3]); (n_t1,[2;3])] [0;1]));
  (*1607*) Assign (T 13) (Plain (Einsum [(n_v'ooov,[0;1;2;3]); (n_t1,[1;3])] [0;2]));
  (*1608*) Assign (T 82) (Plain (Einsum [(n_v'ovov,[0;1;2;3]); (n_t2,[4;5;1;3])] [4;5;0;2]));
  (*1609*) Assign (T 23) (Plain (Einsum [(n_v'ovov,[0;1;2;3]); (n_t2,[4;2;3;1])] [4;0]));
  (*1610*) Assign (T 25) (Plain (Einsum [(n_v'ovov,[0;1;2;3]); (n_t2,[4;2;1;3])] [4;0]));
  (*1611*) Assign (T 1) (Plain (Einsum [(n_f'ov,[0;1]); (n_t1,[2;1])] [0;2]));
  (*1612*) Assign (T 132) (Plain (Einsum [(n_v'ovov,[0;1;2;3]); (n_t2,[0;2;4;3])] [4;1]));
  (*1613*) Assign (T 130) (Plain (Einsum [(n_v'ovov,[0;1;2;3]); (n_t2,[0;2;4;1])] [4;3]));
  (*1614*) Assign (T 116) (Plain (Einsum [(n_v'ovov,[0;1;2;3]); (n_t2,[4;2;5;3])] [4;0;5;1]));
  (*1615*) Assign (T 115) (Plain (Einsum [(n_t2,[0;1;2;3]); (n_v'ovov,[4;5;1;2])] [0;4;3;5]));
  (*1616*) Assign (T 113) (Plain (Einsum [(n_t2,[0;1;2;3]); (n_v'ovov,[4;3;1;5])] [0;4;2;5]));
  (*1617*) Assign (T 112) (Plain (Einsum [(n_t2,[0;1;2;3]); (n_v'ovov,[4;2;1;5])] [0;4;3;5]));
  (*1618*) Assign (T 109) (Plain (Einsum [(T 108,[0;1;2;3]); (n_t1,[3;4])] [0;1;2;4]));
  (*1619*) Del (T 108);
  (*1620*) Assign (T 105) (Plain (Einsum [(T 87,[0;1]); (n_t1,[1;2])] [0;2]));
  (*1621*) Assign (T 104) (Plain (Einsum [(n_t1,[0;1]); (T 86,[2;0])] [2;1]));
  (*1622*) Assign (T 101) (Plain (Einsum [(n_t1,[0;1]); (T 100,[2;3;1;4])] [0;2;3;4]));
  (*1623*) Del (T 100);
  (*1624*) Assign (T 99) (Plain (Einsum [(n_t1,[0;1]); (T 98,[1;2])] [0;2]));
  (*1625*) Del (T 98);
  (*1626*) Assign (T 95) (Plain (Einsum [(n_t1,[0;1]); (T 94,[2;1])] [0;2]));
  (*1627*) Del (T 94);
  (*1628*) Assign (T 93) (Plain (Einsum [(T 91,[0;1;2;3]); (n_t1,[3;4])] [0;1;2;4]));
  (*1629*) Assign (T 92) (Plain (Einsum [(T 91,[0;1;2;3]); (n_t1,[2;4])] [0;1;3;4]));
  (*1630*) Del (T 91);
  (*1631*) Assign (T 89) (Plain (Einsum [(T 14,[0;1]); (n_t1,[1;2])] [0;2]));
  (*1632*) Assign (T 88) (Plain (Einsum [(n_t1,[0;1]); (T 13,[2;0])] [2;1]));
  (*1633*) Assign (T 83) (Plain (Einsum [(T 82,[0;1;2;3]); (n_t1,[3;4])] [0;1;2;4]));
  (*1634*) Assign (T 79) (Plain (Einsum [(n_t1,[0;1]); (T 23,[2;0])] [2;1]));
  (*1635*) Assign (T 76) (Plain (Einsum [(T 25,[0;1]); (n_t1,[1;2])] [0;2]));
  (*1636*) Assign (T 74) (Plain (Einsum [(T 21,[0;1;2;3]); (n_t2,[4;2;5;3])] [0;4;1;5]));
  (*1637*) Assign (T 73) (Plain (Einsum [(n_t2,[0;1;2;3]); (T 21,[4;5;1;2])] [4;0;5;3]));
  (*1638*) Assign (T 71) (Plain (Einsum [(n_t2,[0;1;2;3]); (T 21,[4;1;5;3])] [4;0;5;2]));
  (*1639*) Assign (T 70) (Plain (Einsum [(n_t2,[0;1;2;3]); (T 21,[4;1;5;2])] [4;0;5;3]));
  (*1640*) Assign (T 67) (Plain (Einsum [(T 21,[0;1;2;3]); (n_t2,[1;2;4;3])] [0;4]));
  (*1641*) Assign (T 64) (Plain (Einsum [(T 21,[0;1;2;3]); (n_t2,[2;1;4;3])] [0;4]));
  (*1642*) Assign (T 61) (Plain (Einsum [(n_t2,[0;1;2;3]); (T 18,[4;3])] [0;1;4;2]));
  (*1643*) Assign (T 58) (Plain (Einsum [(n_t2,[0;1;2;3]); (T 48,[4;3])] [0;1;4;2]));
  (*1644*) Assign (T 55) (Plain (Einsum [(T 18,[0;1]); (n_t2,[2;0;3;1])] [2;3]));
  (*1645*) Assign (T 52) (Plain (Einsum [(T 18,[0;1]); (n_t2,[2;0;1;3])] [2;3]));
  (*1646*) Assign (T 50) (Plain (Einsum [(T 48,[0;1]); (n_t2,[2;0;3;1])] [2;3]));
  (*1647*) Assign (T 49) (Plain (Einsum [(T 48,[0;1]); (n_t2,[2;0;1;3])] [2;3]));
  (*1648*) Del (T 48);
  (*1649*) Assign (T 45) (Plain (Einsum [(n_t2,[0;1;2;3]); (n_v'ovvv,[4;2;5;3])] [0;1;4;5]));
  (*1650*) Assign (T 42) (Plain (Einsum [(n_t2,[0;1;2;3]); (n_v'ovvv,[1;2;4;3])] [0;4]));
  (*1651*) Assign (T 39) (Plain (Einsum [(n_v'ovvv,[0;1;2;3]); (n_t2,[4;0;3;1])] [4;2]));
  (*1652*) Assign (T 37) (Plain (Einsum [(n_v'ooov,[0;1;2;3]); (n_t2,[4;2;5;3])] [4;0;1;5]));
  (*1653*) Assign (T 36) (Plain (Einsum [(n_t2,[0;1;2;3]); (n_v'ooov,[4;5;1;2])] [0;4;5;3]));
  (*1654*) Assign (T 34) (Plain (Einsum [(n_v'ooov,[0;1;2;3]); (n_t2,[4;1;5;3])] [4;0;2;5]));
  (*1655*) Assign (T 33) (Plain (Einsum [(n_t2,[0;1;2;3]); (n_v'ooov,[4;1;5;2])] [0;4;5;3]));
  (*1656*) Assign (T 30) (Plain (Einsum [(n_v'ooov,[0;1;2;3]); (n_t2,[1;2;4;3])] [0;4]));
  (*1657*) Assign (T 27) (Plain (Einsum [(n_v'ooov,[0;1;2;3]); (n_t2,[1;2;3;4])] [0;4]));
  (*1658*) Assign (T 22) (Plain (Einsum [(n_t1,[0;1]); (n_v'oovv,[2;3;4;1])] [0;2;3;4]));
  (*1659*) Assign (T 20) (Plain (Einsum [(n_v'oovv,[0;1;2;3]); (n_t1,[1;3])] [0;2]));
  (*1660*) Assign (T 15) (Plain (Einsum [(n_v'oooo,[0;1;2;3]); (n_t1,[3;4])] [0;1;2;4]));
  (*1661*) Assign (T 10) (Plain (Einsum [(T 1,[0;1]); (n_t1,[0;2])] [1;2]));
  (*1662*) Assign (T 7) (Plain (Einsum [(n_f'ov,[0;1]); (n_t2,[2;3;4;1])] [0;2;3;4]));
  (*1663*) Assign (T 5) (Plain (Einsum [(n_t2,[0;1;2;3]); (n_f'ov,[1;3])] [0;2]));
  (*1664*) Assign (T 4) (Plain (Einsum [(n_f'ov,[0;1]); (n_t2,[2;0;1;3])] [2;3]));
  (*1665*) Assign (T 3) (Plain (Einsum [(n_t1,[0;1]); (n_f'vv,[2;1])] [0;2]));
  (*1666*) Assign (T 2) (Plain (Einsum [(n_t1,[0;1]); (n_f'oo,[2;0])] [2;1]))]
 [(T 1,[0;0]); (T 2,[0;1]); (T 101,[0;0;0;1]); (T 104,[0;1]); (T 105,[0;1]); (T 109,[0;0;0;1]); (T 112,[0;0;1;1]); (T 113,[0;0;1;1]); (T 115,[0;0;1;1]); (T 116,[0;0;1;1]); (T 13,[0;0]); (T 130,[1;1]); (T 14,[0;0]); (T 132,[1;1]); (T 15,[0;0;0;1]); (T 18,[0;1]); (T 20,[0;1]); (T 3,[0;1]); (T 21,[0;0;0;1]); (T 22,[0;0;0;1]); (T 23,[0;0]); (T 25,[0;0]); (T 27,[0;1]); (T 30,[0;1]); (T 4,[0;1]); (T 33,[0;0;0;1]); (T 34,[0;0;0;1]); (T 36,[0;0;0;1]); (T 37,[0;0;0;1]); (T 39,[0;1]); (T 5,[0;1]); (T 42,[0;1]); (T 45,[0;0;0;1]); (T 49,[0;1]); (T 50,[0;1]); (T 52,[0;1]); (T 55,[0;1]); (T 58,[0;0;0;1]); (T 7,[0;0;0;1]); (T 61,[0;0;0;1]); (T 64,[0;1]); (T 67,[0;1]); (T 70,[0;0;0;1]); (T 71,[0;0;0;1]); (T 73,[0;0;0;1]); (T 74,[0;0;0;1]); (T 76,[0;1]); (T 79,[0;1]); (T 82,[0;0;0;0]); (T 83,[0;0;0;1]); (T 86,[0;0]); (T 87,[0;0]); (T 88,[0;1]); (T 89,[0;1]); (T 10,[0;1]); (T 92,[0;0;0;1]); (T 93,[0;0;0;1]); (T 95,[0;1]); (T 99,[0;1])].

(** ebcc/codegen/RCC2.py:1670-1866 [hbar_lmatvec_ip] *)
Definition RCC2_hbar_lmatvec_ip : prog := mkprog
 [(n_t2,[0;0;1;1]); (n_f'oo,[0;0]); (IT 1,[0;0]); (IT 25,[0;0]); (IT 23,[0;0]); (IT 116,[0;0;1;1]); (n_v'ovov,[0;1;0;1]); (IT 113,[0;0;1;1]); (IT 115,[0;0;1;1]); (IT 112,[0;0;1;1]); (n_v'oovv,[0;0;1;1]); (IT 132,[1;1]); (n_f'vv,[1;1]); (IT 130,[1;1]); (n_f'ov,[0;1]); (n_t1,[0;1]); (IT 82,[0;0;0;0]); (n_v'oooo,[0;0;0;0]); (n_r2,[0;0;1]); (n_v'ooov,[0;0;0;1]); (n_v'ovoo,[0;1;0;0]); (IT 109,[0;0;0;1]); (IT 15,[0;0;0;1]); (IT 33,[0;0;0;1]); (IT 70,[0;0;0;1]); (IT 74,[0;0;0;1]); (IT 83,[0;0;0;1]); (IT 92,[0;0;0;1]); (IT 101,[0;0;0;1]); (IT 21,[0;0;0;1]); (IT 45,[0;0;0;1]); (IT 71,[0;0;0;1]); (IT 105,[0;1]); (IT 20,[0;1]); (IT 2,[0;1]); (IT 30,[0;1]); (IT 4,[0;1]); (IT 42,[0;1]); (IT 50,[0;1]); (IT 52,[0;1]); (IT 64,[0;1]); (IT 76,[0;1]); (IT 89,[0;1]); (IT 99,[0;1]); (IT 10,[0;1]); (IT 104,[0;1]); (IT 18,[0;1]); (IT 27,[0;1]); (IT 3,[0;1]); (IT 39,[0;1]); (IT 49,[0;1]); (IT 5,[0;1]); (IT 55,[0;1]); (IT 67,[0;1]); (IT 79,[0;1]); (IT 88,[0;1]); (IT 95,[0;1]); (IT 14,[0;0]); (IT 87,[0;0]); (IT 13,[0;0]); (IT 86,[0;0]); (IT 34,[0;0;0;1]); (IT 36,[0;0;0;1]); (IT 58,[0;0;0;1]); (IT 73,[0;0;0;1]); (IT 93,[0;0;0;1]); (IT 22,[0;0;0;1]); (IT 37,[0;0;0;1]); (IT 61,[0;0;0;1]); (IT 7,[0;0;0;1]); (n_r1,[0])]
 [(*1698*) Assign (T 13) (Times (Transpose n_t2 [0;1;3;2]) (-1) 2);
  (*1699*) AddTo (T 13) (Plain (Copy n_t2));
  (*1700*) Assign (T 15) (Plain (Copy n_f'oo));
  (*1701*) AddTo (T 15) (Plain (Transpose (IT 1) [1;0]));
  (*1702*) AddTo (T 15) (Times (Copy (IT 25)) (2) 1);
  (*1703*) AddTo (T 15) (Times (Copy (IT 23)) (-1) 1);
  (*1704*) Assign (T 9) (Times (Copy (IT 116)) (2) 1);
  (*1705*) Del (IT 116);
  (*1706*) AddTo (T 9) (Plain (Transpose n_v'ovov [0;2;1;3]));
  (*1707*) AddTo (T 9) (Times (Copy (IT 113)) (-1) 1);
  (*1708*) Del (IT 113);
  (*1709*) AddTo (T 9) (Times (Copy (IT 115)) (-1) 1);
  (*1710*) Del (IT 115);
  (*1711*) Assign (T 10) (Plain (Copy (IT 112)));
  (*1712*) Del (IT 112);
  (*1713*) AddTo (T 10) (Times (Copy n_v'oovv) (-1) 1);
  (*1714*) Assign (T 12) (Times (Copy (IT 132)) (2) 1);
  (*1715*) Del (IT 132);
  (*1716*) AddTo (T 12) (Times (Copy n_f'vv) (-1) 1);
  (*1717*) AddTo (T 12) (Times (Copy (IT 130)) (-1) 1);
  (*1718*) Del (IT 130);
  (*1719*) AddTo (T 12) (Plain (Einsum [(n_f'ov,[0;1]); (n_t1,[0;2])] [2;1]));
  (*1720*) Assign (T 11) (Plain (Copy (IT 82)));
  (*1721*) Del (IT 82);
  (*1722*) AddTo (T 11) (Plain (Transpose n_v'oooo [0;2;1;3]));
  (*1723*) Assign (T 14) (Plain (Einsum [(T 13,[0;1;2;3]); (n_r2,[1;0;3])] [2]));
  (*1724*) Del (T 13);
  (*1725*) Assign (T 1) (Times (Copy n_r2) (-1) 2);
  (*1726*) AddTo (T 1) (Plain (Transpose n_r2 [1;0;2]));
  (*1727*) Assign (T 5) (Times (Copy n_v'ooov) (-1) 2);
  (*1728*) AddTo (T 5) (Plain (Transpose n_v'ovoo [0;2;3;1]));
  (*1729*) Assign (T 2) (Plain (Copy (IT 109)));
  (*1730*) Del (IT 109);
  (*1731*) AddTo (T 2) (Plain (Transpose (IT 15) [1;2;0;3]));
  (*1732*) Del (IT 15);
  (*1733*) AddTo (T 2) (Plain (Copy (IT 33)));
  (*1734*) Del (IT 33);
  (*1735*) AddTo (T 2) (Plain (Copy (IT 70)));
  (*1736*) Del (IT 70);
  (*1737*) AddTo (T 2) (Plain (Copy (IT 74)));
  (*1738*) Del (IT 74);
  (*1739*) AddTo (T 2) (Plain (Copy (IT 83)));
  (*1740*) Del (IT 83);
  (*1741*) AddTo (T 2) (Plain (Copy (IT 92)));
  (*1742*) Del (IT 92);
  (*1743*) AddTo (T 2) (Times (Copy (IT 101)) (-1) 1);
  (*1744*) Del (IT 101);
  (*1745*) AddTo (T 2) (Times (Copy (IT 21)) (-1) 1);
  (*1746*) Del (IT 21);
  (*1747*) AddTo (T 2) (Times (Copy (IT 45)) (-1) 1);
  (*1748*) Del (IT 45);
  (*1749*) AddTo (T 2) (Times (Copy (IT 71)) (-2) 1);
  (*1750*) Del (IT 71);
  (*1751*) Assign (T 6) (Times (Copy (IT 105)) (2) 1);
  (*1752*) Del (IT 105);
  (*1753*) AddTo (T 6) (Plain (Copy (IT 20)));
  (*1754*) Del (IT 20);
  (*1755*) AddTo (T 6) (Plain (Copy (IT 2)));
  (*1756*) Del (IT 2);
  (*1757*) AddTo (T 6) (Times (Copy (IT 30)) (2) 1);
  (*1758*) Del (IT 30);
  (*1759*) AddTo (T 6) (Plain (Copy (IT 4)));
  (*1760*) Del (IT 4);
  (*1761*) AddTo (T 6) (Plain (Copy (IT 42)));
  (*1762*) Del (IT 42);
  (*1763*) AddTo (T 6) (Times (Copy (IT 50)) (2) 1);
  (*1764*) Del (IT 50);
  (*1765*) AddTo (T 6) (Times (Copy (IT 52)) (2) 1);
  (*1766*) Del (IT 52);
  (*1767*) AddTo (T 6) (Times (Copy (IT 64)) (2) 1);
  (*1768*) Del (IT 64);
  (*1769*) AddTo (T 6) (Times (Copy (IT 76)) (2) 1);
  (*1770*) Del (IT 76);
  (*1771*) AddTo (T 6) (Times (Copy (IT 89)) (2) 1);
  (*1772*) Del (IT 89);
  (*1773*) AddTo (T 6) (Plain (Copy (IT 99)));
  (*1774*) Del (IT 99);
  (*1775*) AddTo (T 6) (Plain (Copy (IT 10)));
  (*1776*) Del (IT 10);
  (*1777*) AddTo (T 6) (Times (Copy n_f'ov) (-1) 1);
  (*1778*) AddTo (T 6) (Times (Copy (IT 104)) (-1) 1);
  (*1779*) Del (IT 104);
  (*1780*) AddTo (T 6) (Times (Copy (IT 18)) (-2) 1);
  (*1781*) Del (IT 18);
  (*1782*) AddTo (T 6) (Times (Copy (IT 27)) (-1) 1);
  (*1783*) Del (IT 27);
  (*1784*) AddTo (T 6) (Times (Copy (IT 3)) (-1) 1);
  (*1785*) Del (IT 3);
  (*1786*) AddTo (T 6) (Times (Copy (IT 39)) (-2) 1);
  (*1787*) Del (IT 39);
  (*1788*) AddTo (T 6) (Times (Copy (IT 49)) (-1) 1);
  (*1789*) Del (IT 49);
  (*1790*) AddTo (T 6) (Times (Copy (IT 5)) (-2) 1);
  (*1791*) Del (IT 5);
  (*1792*) AddTo (T 6) (Times (Copy (IT 55)) (-4) 1);
  (*1793*) Del (IT 55);
  (*1794*) AddTo (T 6) (Times (Copy (IT 67)) (-1) 1);
  (*1795*) Del (IT 67);
  (*1796*) AddTo (T 6) (Times (Copy (IT 79)) (-1) 1);
  (*1797*) Del (IT 79);
  (*1798*) AddTo (T 6) (Times (Copy (IT 88)) (-1) 1);
  (*1799*) Del (IT 88);
  (*1800*) AddTo (T 6) (Times (Copy (IT 95)) (-2) 1);
  (*1801*) Del (IT 95);
  (*1802*) Assign (T 7) (Times (Copy n_r2) (-1) 1);
  (*1803*) AddTo (T 7) (Times (Transpose n_r2 [1;0;2]) (2) 1);
  (*1804*) Assign (T 8) (Plain (Copy n_f'oo));
  (*1805*) AddTo (T 8) (Plain (Transpose (IT 1) [1;0]));
  (*1806*) Del (IT 1);
  (*1807*) AddTo (T 8) (Times (Transpose (IT 14) [1;0]) (2) 1);
  (*1808*) Del (IT 14);
  (*1809*) AddTo (T 8) (Times (Copy (IT 25)) (2) 1);
  (*1810*) Del (IT 25);
  (*1811*) AddTo (T 8) (Times (Copy (IT 87)) (2) 1);
  (*1812*) Del (IT 87);
  (*1813*) AddTo (T 8) (Times (Copy (IT 13)) (-1) 1);
  (*1814*) Del (IT 13);
  (*1815*) AddTo (T 8) (Times (Copy (IT 23)) (-1) 1);
  (*1816*) Del (IT 23);
  (*1817*) AddTo (T 8) (Times (Copy (IT 86)) (-1) 1);
  (*1818*) Del (IT 86);
  (*1819*) Assign (T 4) (Plain (Transpose (IT 34) [0;2;1;3]));
  (*1820*) Del (IT 34);
  (*1821*) AddTo (T 4) (Plain (Copy (IT 36)));
  (*1822*) Del (IT 36);
  (*1823*) AddTo (T 4) (Plain (Transpose (IT 58) [0;2;1;3]));
  (*1824*) Del (IT 58);
  (*1825*) AddTo (T 4) (Plain (Transpose (IT 73) [0;2;1;3]));
  (*1826*) Del (IT 73);
  (*1827*) AddTo (T 4) (Plain (Copy (IT 93)));
  (*1828*) Del (IT 93);
  (*1829*) AddTo (T 4) (Times (Copy (IT 22)) (-1) 1);
  (*1830*) Del (IT 22);
  (*1831*) AddTo (T 4) (Times (Copy (IT 37)) (-2) 1);
  (*1832*) Del (IT 37);
  (*1833*) AddTo (T 4) (Times (Transpose (IT 61) [0;2;1;3]) (-2) 1);
  (*1834*) Del (IT 61);
  (*1835*) AddTo (T 4) (Times (Transpose (IT 7) [1;0;2;3]) (-1) 1);
  (*1836*) Del (IT 7);
  (*1837*) Assign (T 3) (Times (Copy n_r2) (2) 1);
  (*1838*) AddTo (T 3) (Times (Transpose n_r2 [1;0;2]) (-1) 1);
  (*1839*) Assign n_r2new (Times (Einsum [(n_f'ov,[0;1]); (n_r1,[2])] [0;2;1]) (-1) 1);
  (*1840*) AddTo n_r2new (Plain (Einsum [(n_r1,[0]); (n_v'ovoo,[1;2;3;0])] [1;3;2]));
  (*1841*) AddTo n_r2new (Times (Einsum [(T 9,[0;1;2;3]); (T 1,[4;0;2])] [1;4;3]) (2) 1);
  (*1842*) Del (T 9);
  (*1843*) AddTo n_r2new (Plain (Einsum [(n_r2,[0;1;2]); (T 10,[1;3;2;4])] [0;3;4]));
  (*1844*) AddTo n_r2new (Plain (Einsum [(n_r2,[0;1;2]); (T 10,[0;3;2;4])] [3;1;4]));
  (*1845*) Del (T 10);
  (*1846*) AddTo n_r2new (Plain (Einsum [(n_r2,[0;1;2]); (T 11,[0;1;3;4])] [3;4;2]));
  (*1847*) Del (T 11);
  (*1848*) AddTo n_r2new (Times (Einsum [(T 12,[0;1]); (n_r2,[2;3;0])] [2;3;1]) (-1) 1);
  (*1849*) Del (T 12);
  (*1850*) AddTo n_r2new (Times (Einsum [(T 14,[0]); (n_v'ovov,[1;2;3;0])] [1;3;2]) (-2) 1);
  (*1851*) Del (T 14);
  (*1852*) AddTo n_r2new (Times (Einsum [(T 15,[0;1]); (n_r2,[0;2;3])] [1;2;3]) (-1) 1);
  (*1853*) AddTo n_r2new (Times (Einsum [(n_r2,[0;1;2]); (T 15,[1;3])] [0;3;2]) (-1) 1);
  (*1854*) Del (T 15);
  (*1855*) Assign n_r1new (Times (Einsum [(T 2,[0;1;2;3]); (T 1,[0;1;3])] [2]) (-2) 1);
  (*1856*) Del (T 1);
  (*1856*) Del (T 2);
  (*1857*) AddTo n_r1new (Times (Einsum [(T 4,[0;1;2;3]); (T 3,[0;2;3])] [1]) (-1) 1);
  (*1858*) Del (T 4);
  (*1858*) Del (T 3);
  (*1859*) AddTo n_r1new (Times (Einsum [(n_r2,[0;1;2]); (T 5,[0;3;1;2])] [3]) (2) 1);
  (*1860*) Del (T 5);
  (*1861*) AddTo n_r1new (Plain (Einsum [(T 6,[0;1]); (T 7,[2;0;1])] [2]));
  (*1862*) Del (T 6);
  (*1862*) Del (T 7);
  (*1863*) AddTo n_r1new (Times (Einsum [(T 8,[0;1]); (n_r1,[0])] [1]) (-1) 1);
  (*1864*) Del (T 8)]
 [(n_r1new,[0]); (n_r2new,[0;0;1])].

(** ebcc/codegen/RCC2.py:1868-1990 [hbar_lmatvec_ea_intermediates] *)
Definition RCC2_hbar_lmatvec_ea_intermediates : prog := mkprog
 [(n_t1,[0;1]); (n_v'ovov,[0;1;0;1]); (n_v'ovvv,[0;1;1;1]); (n_v'ooov,[0;0;0;1]); (n_t2,[0;0;1;1]); (n_f'ov,[0;1]); (n_v'vvvv,[1;1;1;1]); (n_v'oovv,[0;0;1;1]); (n_f'vv,[1;1]); (n_f'oo,[0;0])]
 [(*1934*) Assign (T 18) (Plain (Einsum [(n_t1,[0;1]); (n_v'ovov,[2;3;0;1])] [2;3]));
  (*1935*) Assign (T 56) (Plain (Einsum [(n_v'ovov,[0;1;2;3]); (n_t1,[2;1])] [0;3]));
  (*1936*) Assign (T 113) (Plain (Einsum [(T 18,[0;1]); (n_t1,[2;1])] [2;0]));
  (*1937*) Assign (T 111) (Plain (Einsum [(T 56,[0;1]); (n_t1,[2;1])] [2;0]));
  (*1938*) Assign (T 17) (Plain (Einsum [(n_v'ovvv,[0;1;2;3]); (n_t1,[0;3])] [1;2]));
  (*1939*) Assign (T 15) (Plain (Einsum [(n_t1,[0;1]); (n_v'ovvv,[0;1;2;3])] [2;3]));
  (*1940*) Assign (T 98) (Plain (Einsum [(n_v'ooov,[0;1;2;3]); (n_t1,[2;3])] [0;1]));
  (*1941*) Assign (T 96) (Plain (Einsum [(n_v'ooov,[0;1;2;3]); (n_t1,[1;3])] [0;2]));
  (*1942*) Assign (T 84) (Plain (Einsum [(n_v'ovov,[0;1;2;3]); (n_t2,[4;2;3;1])] [4;0]));
  (*1943*) Assign (T 80) (Plain (Einsum [(n_v'ovov,[0;1;2;3]); (n_t2,[4;2;1;3])] [4;0]));
  (*1944*) Assign (T 70) (Plain (Einsum [(n_t1,[0;1]); (n_v'ovov,[2;3;4;1])] [0;2;4;3]));
  (*1945*) Assign (T 11) (Plain (Einsum [(n_f'ov,[0;1]); (n_t1,[2;1])] [0;2]));
  (*1946*) Assign (T 114) (Plain (Einsum [(n_t1,[0;1]); (T 113,[2;0])] [2;1]));
  (*1947*) Del (T 113);
  (*1948*) Assign (T 112) (Plain (Einsum [(T 111,[0;1]); (n_t1,[1;2])] [0;2]));
  (*1949*) Del (T 111);
  (*1950*) Assign (T 110) (Plain (Einsum [(n_t1,[0;1]); (n_v'ovvv,[2;3;4;1])] [0;2;3;4]));
  (*1951*) Assign (T 108) (Plain (Einsum [(n_t1,[0;1]); (n_v'ovvv,[2;1;3;4])] [0;2;3;4]));
  (*1952*) Assign (T 107) (Plain (Einsum [(n_t1,[0;1]); (T 17,[1;2])] [0;2]));
  (*1953*) Assign (T 104) (Plain (Einsum [(n_t1,[0;1]); (T 15,[2;1])] [0;2]));
  (*1954*) Assign (T 99) (Plain (Einsum [(T 98,[0;1]); (n_t1,[1;2])] [0;2]));
  (*1955*) Del (T 98);
  (*1956*) Assign (T 97) (Plain (Einsum [(n_t1,[0;1]); (T 96,[2;0])] [2;1]));
  (*1957*) Del (T 96);
  (*1958*) Assign (T 93) (Plain (Einsum [(n_t2,[0;1;2;3]); (n_v'ovov,[4;3;1;5])] [0;4;2;5]));
  (*1959*) Assign (T 91) (Plain (Einsum [(n_t2,[0;1;2;3]); (n_v'ovov,[4;2;1;5])] [0;4;3;5]));
  (*1960*) Assign (T 89) (Plain (Einsum [(n_v'ovov,[0;1;2;3]); (n_t2,[4;2;5;3])] [4;0;5;1]));
  (*1961*) Assign (T 88) (Plain (Einsum [(n_t2,[0;1;2;3]); (n_v'ovov,[4;5;1;2])] [0;4;3;5]));
  (*1962*) Assign (T 85) (Plain (Einsum [(n_t1,[0;1]); (T 84,[2;0])] [2;1]));
  (*1963*) Assign (T 81) (Plain (Einsum [(T 80,[0;1]); (n_t1,[1;2])] [0;2]));
  (*1964*) Assign (T 77) (Plain (Einsum [(T 70,[0;1;2;3]); (n_t2,[2;1;4;5])] [0;5;4;3]));
  (*1965*) Assign (T 74) (Plain (Einsum [(T 70,[0;1;2;3]); (n_t2,[2;1;3;4])] [0;4]));
  (*1966*) Assign (T 71) (Plain (Einsum [(T 70,[0;1;2;3]); (n_t2,[1;2;3;4])] [0;4]));
  (*1967*) Assign (T 63) (Plain (Einsum [(T 18,[0;1]); (n_t2,[2;0;3;1])] [2;3]));
  (*1968*) Assign (T 60) (Plain (Einsum [(T 18,[0;1]); (n_t2,[2;0;1;3])] [2;3]));
  (*1969*) Assign (T 58) (Plain (Einsum [(n_t2,[0;1;2;3]); (T 56,[1;3])] [0;2]));
  (*1970*) Assign (T 57) (Plain (Einsum [(n_t2,[0;1;2;3]); (T 56,[1;2])] [0;3]));
  (*1971*) Assign (T 54) (Plain (Einsum [(n_t2,[0;1;2;3]); (n_v'ovvv,[1;4;5;3])] [0;2;4;5]));
  (*1972*) Assign (T 52) (Plain (Einsum [(n_t2,[0;1;2;3]); (n_v'ovvv,[1;4;5;2])] [0;3;4;5]));
  (*1973*) Assign (T 49) (Plain (Einsum [(n_t2,[0;1;2;3]); (n_v'ovvv,[1;3;4;5])] [0;2;4;5]));
  (*1974*) Assign (T 47) (Plain (Einsum [(n_t2,[0;1;2;3]); (n_v'ovvv,[1;2;4;5])] [0;3;4;5]));
  (*1975*) Assign (T 44) (Plain (Einsum [(n_v'ovvv,[0;1;2;3]); (n_t2,[4;0;1;3])] [4;2]));
  (*1976*) Assign (T 41) (Plain (Einsum [(n_t2,[0;1;2;3]); (n_v'ovvv,[1;3;4;2])] [0;4]));
  (*1977*) Assign (T 38) (Plain (Einsum [(n_t2,[0;1;2;3]); (n_v'ooov,[4;1;0;5])] [4;3;2;5]));
  (*1978*) Assign (T 35) (Plain (Einsum [(n_v'ooov,[0;1;2;3]); (n_t2,[2;1;3;4])] [0;4]));
  (*1979*) Assign (T 32) (Plain (Einsum [(n_v'ooov,[0;1;2;3]); (n_t2,[2;1;4;3])] [0;4]));
  (*1980*) Assign (T 30) (Plain (Einsum [(n_v'ovov,[0;1;2;3]); (n_t2,[0;2;4;3])] [4;1]));
  (*1981*) Assign (T 28) (Plain (Einsum [(n_t2,[0;1;2;3]); (n_v'ovov,[0;4;1;2])] [3;4]));
  (*1982*) Assign (T 25) (Plain (Einsum [(n_t1,[0;1]); (n_v'vvvv,[2;3;4;1])] [0;2;3;4]));
  (*1983*) Assign (T 20) (Plain (Einsum [(n_v'oovv,[0;1;2;3]); (n_t1,[1;3])] [0;2]));
  (*1984*) Assign (T 12) (Plain (Einsum [(T 11,[0;1]); (n_t1,[0;2])] [1;2]));
  (*1985*) Assign (T 5) (Plain (Einsum [(n_t2,[0;1;2;3]); (n_f'ov,[1;3])] [0;2]));
  (*1986*) Assign (T 4) (Plain (Einsum [(n_f'ov,[0;1]); (n_t2,[2;0;1;3])] [2;3]));
  (*1987*) Assign (T 3) (Plain (Einsum [(n_t1,[0;1]); (n_f'vv,[2;1])] [0;2]));
  (*1988*) Assign (T 2) (Plain (Einsum [(n_f'oo,[0;1]); (n_t1,[1;2])] [0;2]))]
 [(T 2,[0;1]); (T 11,[0;0]); (T 104,[0;1]); (T 107,[0;1]); (T 108,[0;0;1;1]); (T 110,[0;0;1;1]); (T 12,[0;1]); (T 112,[0;1]); (T 114,[0;1]); (T 15,[1;1]); (T 17,[1;1]); (T 18,[0;1]); (T 20,[0;1]); (T 3,[0;1]); (T 25,[0;1;1;1]); (T 28,[1;1]); (T 30,[1;1]); (T 4,[0;1]); (T 32,[0;1]); (T 35,[0;1]); (T 38,[0;1;1;1]); (T 5,[0;1]); (T 41,[0;1]); (T 44,[0;1]); (T 47,[0;1;1;1]); (T 49,[0;1;1;1]); (T 52,[0;1;1;1]); (T 54,[0;1;1;1]); (T 56,[0;1]); (T 57,[0;1]); (T 58,[0;1]); (T 60,[0;1]); (T 63,[0;1]); (T 70,[0;0;0;1]); (T 71,[0;1]); (T 74,[0;1]); (T 77,[0;1;1;1]); (T 80,[0;0]); (T 81,[0;1]); (T 84,[0;0]); (T 85,[0;1]); (T 88,[0;0;1;1]); (T 89,[0;0;1;1]); (T 91,[0;0;1;1]); (T 93,[0;0;1;1]); (T 97,[0;1]); (T 99,[0;1])].

(** ebcc/codegen/RCC2.py:1992-2200 [hbar_lmatvec_ea] *)
Definition RCC2_hbar_lmatvec_ea : prog := mkprog
 [(n_r2,[1;1;0]); (n_t1,[0;1]); (n_t2,[0;0;1;1]); (n_f'ov,[0;1]); (n_f'oo,[0;0]); (IT 11,[0;0]); (IT 80,[0;0]); (IT 84,[0;0]); (IT 30,[1;1]); (n_f'vv,[1;1]); (IT 28,[1;1]); (IT 91,[0;0;1;1]); (n_v'oovv,[0;0;1;1]); (IT 89,[0;0;1;1]); (n_v'ovov,[0;1;0;1]); (IT 88,[0;0;1;1]); (IT 93,[0;0;1;1]); (IT 108,[0;0;1;1]); (IT 25,[0;1;1;1]); (IT 47,[0;1;1;1]); (IT 54,[0;1;1;1]); (IT 77,[0;1;1;1]); (IT 38,[0;1;1;1]); (IT 49,[0;1;1;1]); (IT 52,[0;1;1;1]); (IT 110,[0;0;1;1]); (IT 107,[0;1]); (IT 114,[0;1]); (IT 12,[0;1]); (IT 20,[0;1]); (IT 2,[0;1]); (IT 35,[0;1]); (IT 4,[0;1]); (IT 44,[0;1]); (IT 58,[0;1]); (IT 60,[0;1]); (IT 71,[0;1]); (IT 81,[0;1]); (IT 99,[0;1]); (IT 104,[0;1]); (IT 112,[0;1]); (IT 18,[0;1]); (IT 3,[0;1]); (IT 32,[0;1]); (IT 41,[0;1]); (IT 5,[0;1]); (IT 57,[0;1]); (IT 63,[0;1]); (IT 74,[0;1]); (IT 85,[0;1]); (IT 97,[0;1]); (IT 15,[1;1]); (IT 17,[1;1]); (n_r1,[1]); (n_v'ovvv,[0;1;1;1]); (IT 56,[0;1]); (n_v'vvvv,[1;1;1;1]); (IT 70,[0;0;0;1]); (n_v'ooov,[0;0;0;1])]
 [(*2020*) Assign (T 10) (Plain (Einsum [(n_r2,[0;1;2]); (n_t1,[3;1])] [2;3;0]));
  (*2021*) Assign (T 24) (Times (Transpose n_t2 [0;1;3;2]) (-1) 2);
  (*2022*) AddTo (T 24) (Plain (Copy n_t2));
  (*2023*) Assign (T 21) (Plain (Einsum [(n_t1,[0;1]); (n_f'ov,[0;2])] [2;1]));
  (*2024*) Assign (T 3) (Plain (Transpose n_r2 [2;0;1]));
  (*2025*) AddTo (T 3) (Times (Transpose n_r2 [2;1;0]) (-1) 2);
  (*2026*) Assign (T 11) (Plain (Einsum [(n_t1,[0;1]); (T 10,[2;3;1])] [2;0;3]));
  (*2027*) Del (T 10);
  (*2028*) Assign (T 15) (Times (Transpose n_t2 [0;1;3;2]) (-1) 1);
  (*2029*) AddTo (T 15) (Times (Copy n_t2) (2) 1);
  (*2030*) Assign (T 23) (Plain (Copy n_f'oo));
  (*2031*) AddTo (T 23) (Plain (Transpose (IT 11) [1;0]));
  (*2032*) Del (IT 11);
  (*2033*) AddTo (T 23) (Times (Copy (IT 80)) (2) 1);
  (*2034*) Del (IT 80);
  (*2035*) AddTo (T 23) (Times (Copy (IT 84)) (-1) 1);
  (*2036*) Del (IT 84);
  (*2037*) Assign (T 18) (Plain (Einsum [(n_t2,[0;1;2;3]); (n_r2,[2;3;4])] [4;0;1]));
  (*2038*) Assign (T 25) (Plain (Einsum [(n_r2,[0;1;2]); (T 24,[2;3;0;1])] [3]));
  (*2039*) Del (T 24);
  (*2040*) Assign (T 22) (Times (Copy (IT 30)) (2) 1);
  (*2041*) AddTo (T 22) (Times (Copy n_f'vv) (-1) 1);
  (*2042*) AddTo (T 22) (Times (Copy (IT 28)) (-1) 1);
  (*2043*) AddTo (T 22) (Plain (Transpose (T 21) [1;0]));
  (*2044*) Del (T 21);
  (*2045*) Assign (T 20) (Plain (Copy (IT 91)));
  (*2046*) AddTo (T 20) (Times (Copy n_v'oovv) (-1) 1);
  (*2047*) Assign (T 19) (Times (Copy (IT 89)) (2) 1);
  (*2048*) AddTo (T 19) (Plain (Transpose n_v'ovov [0;2;1;3]));
  (*2049*) AddTo (T 19) (Times (Copy (IT 88)) (-1) 1);
  (*2050*) AddTo (T 19) (Times (Copy (IT 93)) (-1) 1);
  (*2051*) Assign (T 5) (Plain (Copy (IT 108)));
  (*2052*) Del (IT 108);
  (*2053*) AddTo (T 5) (Plain (Copy n_v'oovv));
  (*2054*) AddTo (T 5) (Times (Transpose (IT 91) [0;1;3;2]) (-1) 1);
  (*2055*) Del (IT 91);
  (*2056*) Assign (T 9) (Times (Transpose n_r2 [2;0;1]) (-1) 1);
  (*2057*) AddTo (T 9) (Times (Transpose n_r2 [2;1;0]) (2) 1);
  (*2058*) Assign (T 2) (Plain (Copy (IT 25)));
  (*2059*) AddTo (T 2) (Times (Transpose (IT 47) [0;2;1;3]) (1) 2);
  (*2060*) AddTo (T 2) (Times (Transpose (IT 54) [0;2;1;3]) (1) 2);
  (*2061*) AddTo (T 2) (Plain (Transpose (IT 77) [0;3;1;2]));
  (*2062*) AddTo (T 2) (Times (Transpose (IT 38) [0;3;1;2]) (-1) 2);
  (*2063*) AddTo (T 2) (Times (Transpose (IT 49) [0;2;1;3]) (-1) 1);
  (*2064*) AddTo (T 2) (Times (Transpose (IT 52) [0;2;1;3]) (-1) 1);
  (*2065*) Assign (T 4) (Plain (Einsum [(T 3,[0;1;2]); (n_t1,[3;1])] [0;3;2]));
  (*2066*) Assign (T 6) (Times (Einsum [(T 3,[0;1;2]); (n_t1,[3;2])] [0;3;1]) (2) 1);
  (*2067*) Assign (T 12) (Plain (Copy (T 11)));
  (*2068*) AddTo (T 12) (Times (Transpose (T 11) [0;2;1]) (-1) 2);
  (*2069*) Assign (T 7) (Plain (Copy (IT 110)));
  (*2070*) Del (IT 110);
  (*2071*) AddTo (T 7) (Times (Transpose (IT 89) [0;1;3;2]) (2) 1);
  (*2072*) Del (IT 89);
  (*2073*) AddTo (T 7) (Plain (Transpose n_v'ovov [0;2;3;1]));
  (*2074*) AddTo (T 7) (Times (Transpose (IT 88) [0;1;3;2]) (-1) 1);
  (*2075*) Del (IT 88);
  (*2076*) AddTo (T 7) (Times (Transpose (IT 93) [0;1;3;2]) (-1) 1);
  (*2077*) Del (IT 93);
  (*2078*) Assign (T 13) (Times (Copy (T 11)) (-1) 1);
  (*2079*) AddTo (T 13) (Times (Transpose (T 11) [0;2;1]) (2) 1);
  (*2080*) Del (T 11);
  (*2081*) Assign (T 8) (Plain (Copy (IT 107)));
  (*2082*) Del (IT 107);
  (*2083*) AddTo (T 8) (Times (Copy (IT 114)) (2) 1);
  (*2084*) Del (IT 114);
  (*2085*) AddTo (T 8) (Plain (Copy (IT 12)));
  (*2086*) Del (IT 12);
  (*2087*) AddTo (T 8) (Plain (Copy (IT 20)));
  (*2088*) Del (IT 20);
  (*2089*) AddTo (T 8) (Plain (Copy (IT 2)));
  (*2090*) Del (IT 2);
  (*2091*) AddTo (T 8) (Times (Copy (IT 35)) (2) 1);
  (*2092*) Del (IT 35);
  (*2093*) AddTo (T 8) (Plain (Copy (IT 4)));
  (*2094*) Del (IT 4);
  (*2095*) AddTo (T 8) (Plain (Copy (IT 44)));
  (*2096*) Del (IT 44);
  (*2097*) AddTo (T 8) (Times (Copy (IT 58)) (2) 1);
  (*2098*) Del (IT 58);
  (*2099*) AddTo (T 8) (Times (Copy (IT 60)) (2) 1);
  (*2100*) Del (IT 60);
  (*2101*) AddTo (T 8) (Times (Copy (IT 71)) (2) 1);
  (*2102*) Del (IT 71);
  (*2103*) AddTo (T 8) (Times (Copy (IT 81)) (2) 1);
  (*2104*) Del (IT 81);
  (*2105*) AddTo (T 8) (Times (Copy (IT 99)) (2) 1);
  (*2106*) Del (IT 99);
  (*2107*) AddTo (T 8) (Times (Copy n_f'ov) (-1) 1);
  (*2108*) AddTo (T 8) (Times (Copy (IT 104)) (-2) 1);
  (*2109*) Del (IT 104);
  (*2110*) AddTo (T 8) (Times (Copy (IT 112)) (-1) 1);
  (*2111*) Del (IT 112);
  (*2112*) AddTo (T 8) (Times (Copy (IT 18)) (-2) 1);
  (*2113*) AddTo (T 8) (Times (Copy (IT 3)) (-1) 1);
  (*2114*) Del (IT 3);
  (*2115*) AddTo (T 8) (Times (Copy (IT 32)) (-1) 1);
  (*2116*) Del (IT 32);
  (*2117*) AddTo (T 8) (Times (Copy (IT 41)) (-2) 1);
  (*2118*) Del (IT 41);
  (*2119*) AddTo (T 8) (Times (Copy (IT 5)) (-2) 1);
  (*2120*) Del (IT 5);
  (*2121*) AddTo (T 8) (Times (Copy (IT 57)) (-1) 1);
  (*2122*) Del (IT 57);
  (*2123*) AddTo (T 8) (Times (Copy (IT 63)) (-4) 1);
  (*2124*) Del (IT 63);
  (*2125*) AddTo (T 8) (Times (Copy (IT 74)) (-1) 1);
  (*2126*) Del (IT 74);
  (*2127*) AddTo (T 8) (Times (Copy (IT 85)) (-1) 1);
  (*2128*) Del (IT 85);
  (*2129*) AddTo (T 8) (Times (Copy (IT 97)) (-1) 1);
  (*2130*) Del (IT 97);
  (*2131*) Assign (T 14) (Plain (Copy n_f'vv));
  (*2132*) AddTo (T 14) (Times (Transpose (IT 15) [1;0]) (2) 1);
  (*2133*) Del (IT 15);
  (*2134*) AddTo (T 14) (Plain (Copy (IT 28)));
  (*2135*) Del (IT 28);
  (*2136*) AddTo (T 14) (Times (Transpose (IT 17) [1;0]) (-1) 1);
  (*2137*) Del (IT 17);
  (*2138*) AddTo (T 14) (Times (Copy (IT 30)) (-2) 1);
  (*2139*) Del (IT 30);
  (*2140*) Assign (T 16) (Times (Einsum [(n_t1,[0;1]); (n_r1,[1])] [0]) (1) 2);
  (*2141*) AddTo (T 16) (Times (Einsum [(n_r2,[0;1;2]); (T 15,[2;3;0;1])] [3]) (-1) 2);
  (*2142*) Del (T 15);
  (*2143*) Assign (T 1) (Plain (Copy (IT 25)));
  (*2144*) Del (IT 25);
  (*2145*) AddTo (T 1) (Times (Transpose (IT 47) [0;2;1;3]) (2) 1);
  (*2146*) Del (IT 47);
  (*2147*) AddTo (T 1) (Times (Transpose (IT 54) [0;2;1;3]) (2) 1);
  (*2148*) Del (IT 54);
  (*2149*) AddTo (T 1) (Plain (Transpose (IT 77) [0;3;1;2]));
  (*2150*) Del (IT 77);
  (*2151*) AddTo (T 1) (Times (Transpose (IT 38) [0;3;1;2]) (-2) 1);
  (*2152*) Del (IT 38);
  (*2153*) AddTo (T 1) (Times (Transpose (IT 49) [0;2;1;3]) (-4) 1);
  (*2154*) Del (IT 49);
  (*2155*) AddTo (T 1) (Times (Transpose (IT 52) [0;2;1;3]) (-1) 1);
  (*2156*) Del (IT 52);
  (*2157*) AddTo (T 1) (Times (Transpose n_v'ovvv [0;2;1;3]) (-2) 1);
  (*2158*) AddTo (T 1) (Plain (Transpose n_v'ovvv [0;2;3;1]));
  (*2159*) Assign (T 17) (Plain (Copy n_f'ov));
  (*2160*) AddTo (T 17) (Times (Copy (IT 18)) (2) 1);
  (*2161*) Del (IT 18);
  (*2162*) AddTo (T 17) (Times (Copy (IT 56)) (-1) 1);
  (*2163*) Del (IT 56);
  (*2164*) Assign n_r2new (Plain (Einsum [(T 18,[0;1;2]); (n_v'ovov,[2;3;1;4])] [4;3;0]));
  (*2165*) Del (T 18);
  (*2166*) AddTo n_r2new (Times (Einsum [(n_r1,[0]); (n_v'ovvv,[1;2;3;0])] [2;3;1]) (-1) 1);
  (*2167*) AddTo n_r2new (Plain (Einsum [(n_r2,[0;1;2]); (n_v'vvvv,[3;0;4;1])] [3;4;2]));
  (*2168*) AddTo n_r2new (Times (Einsum [(n_r1,[0]); (n_f'ov,[1;2])] [2;0;1]) (-1) 1);
  (*2169*) AddTo n_r2new (Times (Einsum [(T 19,[0;1;2;3]); (T 3,[0;2;4])] [3;4;1]) (2) 1);
  (*2170*) Del (T 3);
  (*2170*) Del (T 19);
  (*2171*) AddTo n_r2new (Plain (Einsum [(T 20,[0;1;2;3]); (n_r2,[4;2;0])] [4;3;1]));
  (*2172*) AddTo n_r2new (Plain (Einsum [(T 20,[0;1;2;3]); (n_r2,[2;4;0])] [3;4;1]));
  (*2173*) Del (T 20);
  (*2174*) AddTo n_r2new (Times (Einsum [(T 22,[0;1]); (n_r2,[0;2;3])] [1;2;3]) (-1) 1);
  (*2175*) AddTo n_r2new (Times (Einsum [(n_r2,[0;1;2]); (T 22,[1;3])] [0;3;2]) (-1) 1);
  (*2176*) Del (T 22);
  (*2177*) AddTo n_r2new (Times (Einsum [(n_r2,[0;1;2]); (T 23,[2;3])] [0;1;3]) (-1) 1);
  (*2178*) Del (T 23);
  (*2179*) AddTo n_r2new (Times (Einsum [(T 25,[0]); (n_v'ovov,[1;2;0;3])] [2;3;1]) (-2) 1);
  (*2180*) Del (T 25);
  (*2181*) Assign n_r1new (Plain (Einsum [(T 1,[0;1;2;3]); (n_r2,[2;3;0])] [1]));
  (*2182*) Del (T 1);
  (*2183*) AddTo n_r1new (Times (Einsum [(n_r2,[0;1;2]); (T 2,[2;3;1;0])] [3]) (-2) 1);
  (*2184*) Del (T 2);
  (*2185*) AddTo n_r1new (Times (Einsum [(T 5,[0;1;2;3]); (T 4,[0;1;3])] [2]) (2) 1);
  (*2186*) Del (T 5);
  (*2186*) Del (T 4);
  (*2187*) AddTo n_r1new (Plain (Einsum [(T 6,[0;1;2]); (T 7,[0;1;3;2])] [3]));
  (*2188*) Del (T 6);
  (*2188*) Del (T 7);
  (*2189*) AddTo n_r1new (Plain (Einsum [(T 9,[0;1;2]); (T 8,[0;2])] [1]));
  (*2190*) Del (T 9);
  (*2190*) Del (T 8);
  (*2191*) AddTo n_r1new (Times (Einsum [(IT 70,[0;1;2;3]); (T 12,[0;2;1])] [3]) (-2) 1);
  (*2192*) Del (IT 70);
  (*2192*) Del (T 12);
  (*2193*) AddTo n_r1new (Times (Einsum [(n_v'ooov,[0;1;2;3]); (T 13,[0;2;1])] [3]) (-1) 1);
  (*2194*) Del (T 13);
  (*2195*) AddTo n_r1new (Plain (Einsum [(n_r1,[0]); (T 14,[0;1])] [1]));
  (*2196*) Del (T 14);
  (*2197*) AddTo n_r1new (Times (Einsum [(T 16,[0]); (T 17,[0;1])] [1]) (-2) 1);
  (*2198*) Del (T 16);
  (*2198*) Del (T 17)]
 [(n_r1new,[1]); (n_r2new,[1;1;0])].

