(** Generated by tools/translate_codegen.py from ebcc/codegen/RDFCC2.py; one statement per source line
    (the number in the comment before it). *)
From Coq Require Import ZArith List.
From Verif Require Import CgModel CgNames.
Import ListNotations.

(** ebcc/codegen/RDFCC2.py:19-56 [energy] *)
Definition RDFCC2_energy : prog := mkprog
 [(n_t1,[0;1]); (n_v'xov,[2;0;1]); (n_t2,[0;0;1;1]); (n_f'ov,[0;1])]
 [(*40*) Assign (T 4) (Plain (Einsum [(n_t1,[0;1]); (n_v'xov,[2;3;1])] [0;3;2]));
  (*41*) Assign (T 2) (Times (Transpose n_t2 [0;1;3;2]) (2) 1);
  (*42*) AddTo (T 2) (Times (Copy n_t2) (-1) 1);
  (*43*) Assign (T 1) (Plain (Einsum [(n_v'xov,[0;1;2]); (n_t1,[1;2])] [0]));
  (*44*) Assign (T 5) (Times (Copy n_f'ov) (2) 1);
  (*45*) AddTo (T 5) (Times (Einsum [(T 4,[0;1;2]); (n_v'xov,[2;0;3])] [1;3]) (-1) 1);
  (*46*) Del (T 4);
  (*47*) Assign (T 3) (Plain (Einsum [(n_t1,[0;1]); (T 1,[2])] [0;1;2]));
  (*48*) Del (T 1);
  (*49*) AddTo (T 3) (Times (Einsum [(n_v'xov,[0;1;2]); (T 2,[1;3;4;2])] [3;4;0]) (1) 2);
  (*50*) Del (T 2);
  (*51*) Assign n_e_cc (Times (Einsum [(n_v'xov,[0;1;2]); (T 3,[1;2;0])] []) (2) 1);
  (*52*) Del (T 3);
  (*53*) AddTo n_e_cc (Plain (Einsum [(T 5,[0;1]); (n_t1,[0;1])] []));
  (*54*) Del (T 5)]
 [(n_e_cc,[])].

(** ebcc/codegen/RDFCC2.py:58-193 [update_amps] *)
Definition RDFCC2_update_amps : prog := mkprog
 [(n_t1,[0;1]); (n_v'xov,[2;0;1]); (n_v'xoo,[2;0;0]); (n_v'xvv,[2;1;1]); (n_t2,[0;0;1;1]); (n_f'ov,[0;1]); (n_f'vv,[1;1]); (n_f'oo,[0;0])]
 [(*81*) Assign (T 3) (Plain (Einsum [(n_t1,[0;1]); (n_v'xov,[2;3;1])] [0;3;2]));
  (*82*) Assign (T 19) (Plain (Einsum [(n_v'xoo,[0;1;2]); (T 3,[3;4;0])] [3;1;2;4]));
  (*83*) Assign (T 7) (Plain (Einsum [(n_v'xoo,[0;1;2]); (n_t1,[2;3])] [1;3;0]));
  (*84*) Assign (T 16) (Plain (Einsum [(n_v'xvv,[0;1;2]); (n_t1,[3;2])] [3;1;0]));
  (*85*) Assign (T 29) (Plain (Einsum [(n_t2,[0;1;2;3]); (n_f'ov,[4;3])] [4;0;1;2]));
  (*86*) Assign (T 27) (Plain (Einsum [(n_f'ov,[0;1]); (n_t1,[2;1])] [0;2]));
  (*87*) Assign (T 32) (Plain (Transpose n_v'xoo [1;2;0]));
  (*88*) AddTo (T 32) (Plain (Transpose (T 3) [1;0;2]));
  (*89*) Assign (T 20) (Plain (Einsum [(T 19,[0;1;2;3]); (n_t1,[3;4])] [0;1;2;4]));
  (*90*) Del (T 19);
  (*91*) Assign (T 22) (Times (Transpose n_v'xov [1;2;0]) (-1) 1);
  (*92*) AddTo (T 22) (Plain (Copy (T 7)));
  (*93*) Assign (T 10) (Plain (Einsum [(T 3,[0;1;2]); (n_v'xov,[2;0;3])] [1;3]));
  (*94*) Assign (T 1) (Plain (Einsum [(n_v'xov,[0;1;2]); (n_t1,[1;2])] [0]));
  (*95*) Assign (T 6) (Times (Transpose n_t2 [0;1;3;2]) (2) 1);
  (*96*) AddTo (T 6) (Times (Copy n_t2) (-1) 1);
  (*97*) Assign (T 25) (Plain (Einsum [(T 3,[0;1;2]); (T 16,[3;4;2])] [0;3;1;4]));
  (*98*) Assign (T 30) (Plain (Einsum [(n_t1,[0;1]); (T 29,[0;2;3;4])] [2;3;1;4]));
  (*99*) Del (T 29);
  (*100*) Assign (T 28) (Plain (Einsum [(n_t2,[0;1;2;3]); (T 27,[1;4])] [4;0;2;3]));
  (*101*) Del (T 27);
  (*102*) Assign (T 35) (Plain (Einsum [(n_v'xoo,[0;1;2]); (n_v'xoo,[0;3;4])] [3;1;2;4]));
  (*103*) AddTo (T 35) (Plain (Einsum [(T 3,[0;1;2]); (T 3,[3;4;2])] [4;0;1;3]));
  (*104*) Assign (T 33) (Plain (Einsum [(T 32,[0;1;2]); (n_v'xov,[2;3;4])] [0;1;3;4]));
  (*105*) Del (T 32);
  (*106*) Assign (T 21) (Plain (Einsum [(n_t1,[0;1]); (T 20,[2;0;3;4])] [2;3;1;4]));
  (*107*) Del (T 20);
  (*108*) Assign (T 23) (Plain (Einsum [(T 22,[0;1;2]); (T 16,[3;4;2])] [0;3;1;4]));
  (*109*) Del (T 22);
  (*110*) Assign (T 18) (Plain (Einsum [(n_t2,[0;1;2;3]); (n_f'vv,[4;3])] [0;1;4;2]));
  (*111*) Assign (T 8) (Times (Einsum [(n_t1,[0;1]); (n_t1,[2;3])] [2;0;3;1]) (1) 2);
  (*112*) AddTo (T 8) (Times (Transpose n_t2 [0;1;3;2]) (-1) 1);
  (*113*) AddTo (T 8) (Times (Copy n_t2) (1) 2);
  (*114*) Assign (T 4) (Plain (Transpose n_v'xoo [1;2;0]));
  (*115*) AddTo (T 4) (Plain (Transpose (T 3) [1;0;2]));
  (*116*) Del (T 3);
  (*117*) Assign (T 14) (Plain (Copy n_f'ov));
  (*118*) AddTo (T 14) (Times (Copy (T 10)) (-1) 1);
  (*119*) Assign (T 13) (Times (Copy (T 7)) (-1) 1);
  (*120*) AddTo (T 13) (Times (Einsum [(n_t1,[0;1]); (T 1,[2])] [0;1;2]) (2) 1);
  (*121*) AddTo (T 13) (Plain (Einsum [(n_v'xov,[0;1;2]); (T 6,[1;3;4;2])] [3;4;0]));
  (*122*) Assign (T 2) (Plain (Einsum [(n_v'xov,[0;1;2]); (T 1,[0])] [1;2]));
  (*123*) Assign (T 26) (Plain (Einsum [(n_t1,[0;1]); (T 25,[2;3;0;4])] [2;3;1;4]));
  (*124*) Del (T 25);
  (*125*) Assign (T 31) (Plain (Copy (T 28)));
  (*126*) Del (T 28);
  (*127*) AddTo (T 31) (Plain (Copy (T 30)));
  (*128*) Del (T 30);
  (*129*) Assign (T 17) (Plain (Einsum [(n_t2,[0;1;2;3]); (n_f'oo,[4;1])] [4;0;2;3]));
  (*130*) Assign (T 36) (Plain (Einsum [(n_t1,[0;1]); (T 35,[0;2;3;4])] [2;4;3;1]));
  (*131*) Del (T 35);
  (*132*) Assign (T 34) (Plain (Einsum [(T 33,[0;1;2;3]); (n_t1,[0;4])] [1;2;3;4]));
  (*133*) Del (T 33);
  (*134*) Assign (T 24) (Plain (Copy (T 18)));
  (*135*) Del (T 18);
  (*136*) AddTo (T 24) (Plain (Copy (T 21)));
  (*137*) Del (T 21);
  (*138*) AddTo (T 24) (Times (Transpose (T 23) [1;0;2;3]) (-1) 1);
  (*139*) Del (T 23);
  (*140*) Assign (T 9) (Times (Copy (T 7)) (1) 2);
  (*141*) Del (T 7);
  (*142*) AddTo (T 9) (Times (Einsum [(n_t1,[0;1]); (T 1,[2])] [0;1;2]) (-1) 1);
  (*143*) AddTo (T 9) (Plain (Einsum [(n_v'xov,[0;1;2]); (T 8,[1;3;4;2])] [3;4;0]));
  (*144*) Del (T 8);
  (*145*) Assign (T 5) (Plain (Einsum [(T 4,[0;1;2]); (n_v'xov,[2;3;4])] [1;3;0;4]));
  (*146*) Del (T 4);
  (*147*) Assign (T 12) (Times (Transpose n_t2 [0;1;3;2]) (2) 1);
  (*148*) AddTo (T 12) (Times (Copy n_t2) (-1) 1);
  (*149*) Assign (T 15) (Times (Copy n_f'oo) (1) 2);
  (*150*) AddTo (T 15) (Plain (Einsum [(n_v'xoo,[0;1;2]); (T 1,[0])] [1;2]));
  (*151*) Del (T 1);
  (*152*) AddTo (T 15) (Times (Einsum [(n_v'xov,[0;1;2]); (T 13,[3;2;0])] [1;3]) (1) 2);
  (*153*) Del (T 13);
  (*154*) AddTo (T 15) (Times (Einsum [(T 14,[0;1]); (n_t1,[2;1])] [0;2]) (1) 2);
  (*155*) Del (T 14);
  (*156*) Assign (T 11) (Plain (Copy n_f'ov));
  (*157*) AddTo (T 11) (Times (Copy (T 2)) (2) 1);
  (*158*) AddTo (T 11) (Times (Copy (T 10)) (-1) 1);
  (*159*) Del (T 10);
  (*160*) Assign n_t2new (Plain (Einsum [(T 16,[0;1;2]); (T 16,[3;4;2])] [3;0;4;1]));
  (*161*) Del (T 16);
  (*162*) AddTo n_t2new (Plain (Einsum [(n_v'xov,[0;1;2]); (n_v'xov,[0;3;4])] [1;3;2;4]));
  (*163*) AddTo n_t2new (Times (Transpose (T 17) [0;1;3;2]) (-1) 1);
  (*164*) AddTo n_t2new (Times (Transpose (T 17) [1;0;2;3]) (-1) 1);
  (*165*) Del (T 17);
  (*166*) AddTo n_t2new (Plain (Transpose (T 24) [0;1;3;2]));
  (*167*) AddTo n_t2new (Plain (Transpose (T 24) [1;0;2;3]));
  (*168*) Del (T 24);
  (*169*) AddTo n_t2new (Times (Copy (T 26)) (-1) 1);
  (*170*) AddTo n_t2new (Times (Transpose (T 26) [1;0;3;2]) (-1) 1);
  (*171*) Del (T 26);
  (*172*) AddTo n_t2new (Times (Transpose (T 31) [0;1;3;2]) (-1) 1);
  (*173*) AddTo n_t2new (Times (Transpose (T 31) [1;0;2;3]) (-1) 1);
  (*174*) Del (T 31);
  (*175*) AddTo n_t2new (Times (Transpose (T 34) [0;1;3;2]) (-1) 1);
  (*176*) AddTo n_t2new (Times (Transpose (T 34) [1;0;2;3]) (-1) 1);
  (*177*) Del (T 34);
  (*178*) AddTo n_t2new (Plain (Einsum [(n_t1,[0;1]); (T 36,[2;3;0;4])] [2;3;1;4]));
  (*179*) Del (T 36);
  (*180*) Assign n_t1new (Plain (Copy n_f'ov));
  (*181*) AddTo n_t1new (Times (Copy (T 2)) (2) 1);
  (*182*) Del (T 2);
  (*183*) AddTo n_t1new (Plain (Einsum [(n_f'vv,[0;1]); (n_t1,[2;1])] [2;0]));
  (*184*) AddTo n_t1new (Times (Einsum [(T 6,[0;1;2;3]); (T 5,[4;0;1;3])] [4;2]) (-1) 1);
  (*185*) Del (T 6);
  (*185*) Del (T 5);
  (*186*) AddTo n_t1new (Times (Einsum [(T 9,[0;1;2]); (n_v'xvv,[2;3;1])] [0;3]) (-2) 1);
  (*187*) Del (T 9);
  (*188*) AddTo n_t1new (Plain (Einsum [(T 11,[0;1]); (T 12,[0;2;3;1])] [2;3]));
  (*189*) Del (T 11);
  (*189*) Del (T 12);
  (*190*) AddTo n_t1new (Times (Einsum [(T 15,[0;1]); (n_t1,[0;2])] [1;2]) (-2) 1);
  (*191*) Del (T 15)]
 [(n_t1new,[0;1]); (n_t2new,[0;0;1;1])].

(** ebcc/codegen/RDFCC2.py:195-567 [update_lams] *)
Definition RDFCC2_update_lams : prog := mkprog
 [(n_v'xov,[2;0;1]); (n_t1,[0;1]); (n_l2,[1;1;0;0]); (n_v'xvv,[2;1;1]); (n_t2,[0;0;1;1]); (n_v'xoo,[2;0;0]); (n_l1,[1;0]); (n_f'ov,[0;1]); (n_f'vv,[1;1]); (n_f'oo,[0;0])]
 [(*222*) Assign (T 14) (Plain (Einsum [(n_v'xov,[0;1;2]); (n_t1,[1;2])] [0]));
  (*223*) Assign (T 6) (Plain (Einsum [(n_t1,[0;1]); (n_v'xov,[2;3;1])] [0;3;2]));
  (*224*) Assign (T 15) (Plain (Einsum [(T 14,[0]); (n_v'xov,[0;1;2])] [1;2]));
  (*225*) Assign (T 16) (Plain (Einsum [(T 6,[0;1;2]); (n_v'xov,[2;0;3])] [1;3]));
  (*226*) Assign (T 34) (Plain (Einsum [(n_l2,[0;1;2;3]); (n_t1,[4;1])] [2;3;4;0]));
  (*227*) Assign (T 1) (Plain (Einsum [(n_t1,[0;1]); (n_v'xvv,[2;3;1])] [0;3;2]));
  (*228*) Assign (T 8) (Plain (Einsum [(n_v'xov,[0;1;2]); (n_v'xov,[0;3;4])] [1;3;2;4]));
  (*229*) Assign (T 98) (Times (Copy (T 15)) (2) 1);
  (*230*) AddTo (T 98) (Times (Copy (T 16)) (-1) 1);
  (*231*) Assign (T 93) (Times (Copy (T 34)) (-1) 1);
  (*232*) AddTo (T 93) (Times (Transpose (T 34) [1;0;2;3]) (2) 1);
  (*233*) Assign (T 90) (Plain (Transpose n_v'xov [1;2;0]));
  (*234*) AddTo (T 90) (Plain (Copy (T 1)));
  (*235*) Assign (T 91) (Times (Transpose n_l2 [3;2;0;1]) (2) 1);
  (*236*) AddTo (T 91) (Times (Transpose n_l2 [2;3;0;1]) (-1) 1);
  (*237*) Assign (T 9) (Plain (Einsum [(T 8,[0;1;2;3]); (n_t2,[4;5;3;2])] [4;5;1;0]));
  (*238*) Assign (T 10) (Plain (Einsum [(T 6,[0;1;2]); (T 6,[3;4;2])] [3;0;4;1]));
  (*239*) Assign (T 29) (Times (Transpose n_t2 [0;1;3;2]) (-1) 2);
  (*240*) AddTo (T 29) (Plain (Copy n_t2));
  (*241*) Assign (T 64) (Plain (Einsum [(n_v'xoo,[0;1;2]); (T 6,[2;3;0])] [1;3]));
  (*242*) Assign (T 99) (Plain (Einsum [(T 98,[0;1]); (n_t1,[2;1])] [2;0]));
  (*243*) Assign (T 94) (Plain (Einsum [(n_v'xoo,[0;1;2]); (T 93,[1;3;2;4])] [3;4;0]));
  (*244*) Assign (T 95) (Plain (Einsum [(T 93,[0;1;2;3]); (T 6,[0;2;4])] [1;3;4]));
  (*245*) Del (T 93);
  (*246*) Assign (T 92) (Plain (Einsum [(T 91,[0;1;2;3]); (T 90,[0;3;4])] [1;2;4]));
  (*247*) Del (T 91);
  (*247*) Del (T 90);
  (*248*) Assign (T 81) (Plain (Transpose n_v'xoo [1;2;0]));
  (*249*) AddTo (T 81) (Plain (Transpose (T 6) [1;0;2]));
  (*250*) Assign (T 50) (Plain (Einsum [(n_l1,[0;1]); (n_t1,[2;0])] [1;2]));
  (*251*) Assign (T 22) (Times (Transpose n_t2 [0;1;3;2]) (2) 1);
  (*252*) AddTo (T 22) (Times (Copy n_t2) (-1) 1);
  (*253*) Assign (T 4) (Plain (Einsum [(n_v'xvv,[0;1;2]); (n_v'xov,[0;3;4])] [3;1;2;4]));
  (*254*) Assign (T 11) (Plain (Copy (T 9)));
  (*255*) Del (T 9);
  (*256*) AddTo (T 11) (Plain (Copy (T 10)));
  (*257*) Assign (T 51) (Plain (Einsum [(T 29,[0;1;2;3]); (n_l2,[2;3;0;4])] [4;1]));
  (*258*) Assign (T 56) (Times (Einsum [(T 29,[0;1;2;3]); (n_l2,[2;3;0;4])] [4;1]) (2) 1);
  (*259*) Assign (T 79) (Plain (Einsum [(T 6,[0;1;2]); (n_v'xov,[2;3;4])] [0;3;1;4]));
  (*260*) Assign (T 77) (Plain (Einsum [(n_v'xov,[0;1;2]); (n_v'xoo,[0;3;4])] [3;4;1;2]));
  (*261*) Assign (T 100) (Plain (Copy (T 64)));
  (*262*) AddTo (T 100) (Times (Copy (T 99)) (-1) 1);
  (*263*) Del (T 99);
  (*264*) Assign (T 66) (Plain (Einsum [(T 14,[0]); (n_v'xvv,[0;1;2])] [1;2]));
  (*265*) Assign (T 96) (Plain (Copy (T 92)));
  (*266*) Del (T 92);
  (*267*) AddTo (T 96) (Times (Copy (T 94)) (-1) 1);
  (*268*) Del (T 94);
  (*269*) AddTo (T 96) (Times (Copy (T 95)) (-1) 1);
  (*270*) Del (T 95);
  (*271*) Assign (T 82) (Plain (Einsum [(n_v'xvv,[0;1;2]); (T 81,[3;4;0])] [3;4;1;2]));
  (*272*) Del (T 81);
  (*273*) Assign (T 110) (Plain (Einsum [(n_v'xov,[0;1;2]); (T 50,[3;1])] [3;2;0]));
  (*274*) Assign (T 74) (Plain (Einsum [(n_v'xvv,[0;1;2]); (n_l1,[2;3])] [3;1;0]));
  (*275*) Assign (T 26) (Plain (Einsum [(n_v'xoo,[0;1;2]); (T 6,[3;4;0])] [3;1;2;4]));
  (*276*) Assign (T 71) (Plain (Einsum [(n_f'ov,[0;1]); (n_t1,[2;1])] [0;2]));
  (*277*) Assign (T 105) (Plain (Einsum [(n_v'xov,[0;1;2]); (T 1,[1;3;0])] [2;3]));
  (*278*) Assign (T 19) (Plain (Transpose n_v'xoo [1;2;0]));
  (*279*) AddTo (T 19) (Plain (Transpose (T 6) [1;0;2]));
  (*280*) Assign (T 17) (Times (Copy (T 15)) (2) 1);
  (*281*) AddTo (T 17) (Times (Copy (T 16)) (-1) 1);
  (*282*) Assign (T 25) (Plain (Einsum [(n_v'xoo,[0;1;2]); (n_v'xoo,[0;3;4])] [1;3;4;2]));
  (*283*) Assign (T 23) (Plain (Einsum [(n_v'xov,[0;1;2]); (T 22,[1;3;4;2])] [3;4;0]));
  (*284*) Assign (T 7) (Plain (Einsum [(T 1,[0;1;2]); (T 6,[3;4;2])] [3;0;4;1]));
  (*285*) Assign (T 5) (Plain (Einsum [(n_t2,[0;1;2;3]); (T 4,[4;3;5;2])] [0;1;4;5]));
  (*286*) Assign (T 12) (Times (Einsum [(T 11,[0;1;2;3]); (n_t1,[3;4])] [0;1;2;4]) (2) 1);
  (*287*) Del (T 11);
  (*288*) Assign (T 21) (Plain (Transpose n_t2 [0;1;3;2]));
  (*289*) AddTo (T 21) (Times (Copy n_t2) (-1) 2);
  (*290*) Assign (T 47) (Plain (Einsum [(T 34,[0;1;2;3]); (n_t1,[4;3])] [1;0;2;4]));
  (*291*) Assign (T 36) (Times (Copy (T 34)) (-1) 2);
  (*292*) AddTo (T 36) (Plain (Transpose (T 34) [1;0;2;3]));
  (*293*) Assign (T 42) (Plain (Einsum [(n_t2,[0;1;2;3]); (n_l1,[3;4])] [4;0;1;2]));
  (*294*) Assign (T 43) (Times (Copy (T 34)) (2) 1);
  (*295*) AddTo (T 43) (Times (Transpose (T 34) [1;0;2;3]) (-1) 1);
  (*296*) Assign (T 52) (Times (Copy (T 50)) (1) 2);
  (*297*) AddTo (T 52) (Plain (Copy (T 51)));
  (*298*) Del (T 51);
  (*299*) Assign (T 45) (Plain (Einsum [(n_t2,[0;1;2;3]); (n_l2,[2;3;4;5])] [4;5;0;1]));
  (*300*) Assign (T 59) (Times (Transpose n_t2 [0;1;3;2]) (-1) 1);
  (*301*) AddTo (T 59) (Times (Copy n_t2) (2) 1);
  (*302*) Assign (T 57) (Plain (Copy (T 50)));
  (*303*) AddTo (T 57) (Plain (Copy (T 56)));
  (*304*) Del (T 56);
  (*305*) Assign (T 88) (Plain (Einsum [(T 34,[0;1;2;3]); (T 79,[1;2;4;5])] [0;4;3;5]));
  (*306*) Assign (T 85) (Plain (Einsum [(T 34,[0;1;2;3]); (T 77,[4;1;2;5])] [0;4;3;5]));
  (*307*) Assign (T 101) (Plain (Einsum [(T 100,[0;1]); (n_l2,[2;3;0;4])] [4;1;2;3]));
  (*308*) Del (T 100);
  (*309*) Assign (T 102) (Plain (Einsum [(T 34,[0;1;2;3]); (T 98,[2;4])] [0;1;3;4]));
  (*310*) Assign (T 86) (Plain (Einsum [(n_l2,[0;1;2;3]); (T 66,[4;1])] [2;3;0;4]));
  (*311*) Assign (T 97) (Plain (Einsum [(n_v'xov,[0;1;2]); (T 96,[3;4;0])] [1;3;2;4]));
  (*312*) Del (T 96);
  (*313*) Assign (T 89) (Plain (Einsum [(T 82,[0;1;2;3]); (n_l2,[4;3;5;1])] [5;0;4;2]));
  (*314*) Assign (T 87) (Plain (Einsum [(T 34,[0;1;2;3]); (T 4,[2;4;3;5])] [1;0;5;4]));
  (*315*) Del (T 4);
  (*316*) Assign (T 111) (Plain (Einsum [(T 110,[0;1;2]); (n_v'xov,[2;3;4])] [0;3;4;1]));
  (*317*) Del (T 110);
  (*318*) Assign (T 109) (Plain (Einsum [(n_l1,[0;1]); (T 79,[1;2;3;4])] [2;3;0;4]));
  (*319*) Assign (T 63) (Plain (Einsum [(T 14,[0]); (n_v'xoo,[0;1;2])] [1;2]));
  (*320*) Del (T 14);
  (*321*) Assign (T 80) (Plain (Einsum [(T 79,[0;1;2;3]); (T 34,[0;4;1;5])] [4;2;5;3]));
  (*322*) Del (T 79);
  (*323*) Assign (T 78) (Plain (Einsum [(T 77,[0;1;2;3]); (T 34,[1;4;2;5])] [4;0;5;3]));
  (*324*) Assign (T 75) (Plain (Einsum [(n_v'xov,[0;1;2]); (T 74,[3;4;0])] [3;1;2;4]));
  (*325*) Del (T 74);
  (*326*) Assign (T 76) (Plain (Einsum [(n_l2,[0;1;2;3]); (T 26,[2;3;4;5])] [4;5;0;1]));
  (*327*) Assign (T 70) (Plain (Einsum [(n_l2,[0;1;2;3]); (n_f'vv,[4;1])] [2;3;4;0]));
  (*328*) Assign (T 73) (Plain (Einsum [(T 34,[0;1;2;3]); (n_f'ov,[2;4])] [0;1;4;3]));
  (*329*) Assign (T 83) (Plain (Einsum [(n_l2,[0;1;2;3]); (T 82,[4;2;5;1])] [3;4;0;5]));
  (*330*) Del (T 82);
  (*331*) Assign (T 72) (Plain (Einsum [(T 71,[0;1]); (n_l2,[2;3;4;1])] [0;4;2;3]));
  (*332*) Del (T 71);
  (*333*) Assign (T 106) (Plain (Einsum [(T 105,[0;1]); (n_l2,[2;1;3;4])] [3;4;2;0]));
  (*334*) Del (T 105);
  (*335*) Assign (T 104) (Plain (Einsum [(n_l1,[0;1]); (T 77,[2;1;3;4])] [2;3;0;4]));
  (*336*) Del (T 77);
  (*337*) Assign (T 20) (Plain (Einsum [(n_v'xov,[0;1;2]); (T 19,[3;4;0])] [1;3;4;2]));
  (*338*) Assign (T 18) (Plain (Einsum [(T 17,[0;1]); (n_t2,[2;3;1;4])] [2;3;0;4]));
  (*339*) Del (T 17);
  (*340*) Assign (T 3) (Plain (Einsum [(n_t2,[0;1;2;3]); (n_f'ov,[4;3])] [4;0;1;2]));
  (*341*) Assign (T 2) (Plain (Einsum [(n_v'xoo,[0;1;2]); (T 1,[3;4;0])] [3;1;2;4]));
  (*342*) Assign (T 27) (Plain (Transpose (T 25) [3;2;1;0]));
  (*343*) AddTo (T 27) (Plain (Transpose (T 26) [1;0;3;2]));
  (*344*) AddTo (T 27) (Times (Transpose (T 26) [3;0;2;1]) (-1) 2);
  (*345*) Assign (T 24) (Plain (Transpose n_v'xov [1;2;0]));
  (*346*) AddTo (T 24) (Plain (Copy (T 23)));
  (*347*) Assign (T 13) (Times (Copy (T 5)) (2) 1);
  (*348*) Del (T 5);
  (*349*) AddTo (T 13) (Times (Copy (T 7)) (2) 1);
  (*350*) Del (T 7);
  (*351*) AddTo (T 13) (Times (Copy (T 12)) (-1) 1);
  (*352*) Del (T 12);
  (*353*) Assign (T 30) (Times (Transpose (T 25) [3;2;1;0]) (1) 2);
  (*354*) AddTo (T 30) (Times (Transpose (T 26) [1;0;3;2]) (1) 2);
  (*355*) AddTo (T 30) (Times (Transpose (T 26) [3;0;2;1]) (-1) 1);
  (*356*) Del (T 26);
  (*357*) Assign (T 62) (Plain (Copy n_f'ov));
  (*358*) AddTo (T 62) (Times (Copy (T 15)) (2) 1);
  (*359*) Del (T 15);
  (*360*) AddTo (T 62) (Times (Copy (T 16)) (-1) 1);
  (*361*) Del (T 16);
  (*362*) Assign (T 35) (Times (Copy (T 34)) (-1) 1);
  (*363*) AddTo (T 35) (Times (Transpose (T 34) [1;0;2;3]) (2) 1);
  (*364*) Assign (T 38) (Plain (Transpose n_v'xoo [1;2;0]));
  (*365*) AddTo (T 38) (Plain (Copy (T 6)));
  (*366*) Assign (T 33) (Plain (Transpose n_l2 [3;2;0;1]));
  (*367*) AddTo (T 33) (Times (Transpose n_l2 [2;3;0;1]) (-1) 2);
  (*368*) Assign (T 37) (Times (Einsum [(n_l2,[0;1;2;3]); (T 21,[2;3;1;4])] [0;4]) (2) 1);
  (*369*) Assign (T 32) (Plain (Transpose n_v'xov [1;2;0]));
  (*370*) AddTo (T 32) (Plain (Copy (T 1)));
  (*371*) AddTo (T 32) (Plain (Copy (T 23)));
  (*372*) Assign (T 49) (Times (Copy (T 47)) (-1) 2);
  (*373*) AddTo (T 49) (Plain (Transpose (T 47) [0;1;3;2]));
  (*374*) Assign (T 44) (Times (Copy (T 42)) (-1) 1);
  (*375*) AddTo (T 44) (Times (Transpose (T 42) [0;2;1;3]) (1) 2);
  (*376*) Del (T 42);
  (*377*) AddTo (T 44) (Times (Einsum [(n_t2,[0;1;2;3]); (T 43,[1;4;5;3])] [4;5;0;2]) (1) 2);
  (*378*) Del (T 43);
  (*379*) AddTo (T 44) (Plain (Einsum [(T 36,[0;1;2;3]); (n_t2,[4;0;3;5])] [1;2;4;5]));
  (*380*) Assign (T 40) (Plain (Einsum [(n_l2,[0;1;2;3]); (T 22,[2;4;1;5])] [3;4;0;5]));
  (*381*) AddTo (T 40) (Times (Einsum [(T 29,[0;1;2;3]); (n_l2,[4;2;5;0])] [5;1;4;3]) (2) 1);
  (*382*) Assign (T 53) (Times (Copy n_t1) (-1) 2);
  (*383*) AddTo (T 53) (Plain (Einsum [(T 34,[0;1;2;3]); (T 21,[0;1;4;3])] [2;4]));
  (*384*) AddTo (T 53) (Times (Einsum [(n_l1,[0;1]); (T 22,[1;2;3;0])] [2;3]) (-1) 2);
  (*385*) AddTo (T 53) (Plain (Einsum [(T 52,[0;1]); (n_t1,[0;2])] [1;2]));
  (*386*) Assign (T 48) (Times (Copy (T 47)) (2) 1);
  (*387*) AddTo (T 48) (Times (Transpose (T 47) [0;1;3;2]) (-1) 1);
  (*388*) Assign (T 46) (Times (Transpose (T 45) [1;0;2;3]) (-1) 2);
  (*389*) AddTo (T 46) (Plain (Transpose (T 45) [1;0;3;2]));
  (*390*) Del (T 45);
  (*391*) Assign (T 41) (Plain (Copy (T 34)));
  (*392*) AddTo (T 41) (Times (Transpose (T 34) [1;0;2;3]) (-1) 2);
  (*393*) Assign (T 55) (Times (Einsum [(n_l1,[0;1]); (n_t1,[1;2])] [0;2]) (1) 2);
  (*394*) AddTo (T 55) (Plain (Einsum [(n_l2,[0;1;2;3]); (T 21,[2;3;1;4])] [0;4]));
  (*395*) Assign (T 60) (Plain (Copy (T 50)));
  (*396*) Del (T 50);
  (*397*) AddTo (T 60) (Plain (Einsum [(n_l2,[0;1;2;3]); (T 59,[2;4;0;1])] [4;3]));
  (*398*) Del (T 59);
  (*399*) Assign (T 58) (Plain (Transpose n_l1 [1;0]));
  (*400*) AddTo (T 58) (Plain (Copy n_t1));
  (*401*) AddTo (T 58) (Times (Einsum [(T 34,[0;1;2;3]); (T 22,[0;1;4;3])] [2;4]) (-1) 1);
  (*402*) Del (T 34);
  (*402*) Del (T 22);
  (*403*) AddTo (T 58) (Times (Einsum [(n_l1,[0;1]); (T 21,[1;2;3;0])] [2;3]) (2) 1);
  (*404*) AddTo (T 58) (Times (Einsum [(T 57,[0;1]); (n_t1,[0;2])] [1;2]) (-1) 1);
  (*405*) Assign (T 69) (Plain (Einsum [(n_l2,[0;1;2;3]); (n_f'oo,[4;3])] [4;2;0;1]));
  (*406*) Assign (T 113) (Plain (Transpose (T 25) [3;2;1;0]));
  (*407*) Del (T 25);
  (*408*) AddTo (T 113) (Plain (Transpose (T 10) [0;3;1;2]));
  (*409*) Del (T 10);
  (*410*) Assign (T 103) (Plain (Einsum [(n_l1,[0;1]); (n_f'ov,[2;3])] [2;1;3;0]));
  (*411*) AddTo (T 103) (Plain (Copy (T 85)));
  (*412*) Del (T 85);
  (*413*) AddTo (T 103) (Times (Copy (T 86)) (2) 1);
  (*414*) Del (T 86);
  (*415*) AddTo (T 103) (Times (Copy (T 87)) (-1) 1);
  (*416*) Del (T 87);
  (*417*) AddTo (T 103) (Plain (Copy (T 88)));
  (*418*) Del (T 88);
  (*419*) AddTo (T 103) (Times (Copy (T 89)) (-1) 1);
  (*420*) Del (T 89);
  (*421*) AddTo (T 103) (Plain (Transpose (T 97) [1;0;3;2]));
  (*422*) Del (T 97);
  (*423*) AddTo (T 103) (Plain (Transpose (T 101) [0;1;3;2]));
  (*424*) Del (T 101);
  (*425*) AddTo (T 103) (Times (Copy (T 102)) (-1) 1);
  (*426*) Del (T 102);
  (*427*) AddTo (T 103) (Plain (Einsum [(n_l1,[0;1]); (T 98,[2;3])] [1;2;0;3]));
  (*428*) Del (T 98);
  (*429*) Assign (T 68) (Plain (Einsum [(n_v'xvv,[0;1;2]); (n_v'xvv,[0;3;4])] [1;3;4;2]));
  (*430*) Assign (T 112) (Plain (Copy (T 109)));
  (*431*) Del (T 109);
  (*432*) AddTo (T 112) (Plain (Copy (T 111)));
  (*433*) Del (T 111);
  (*434*) Assign (T 108) (Plain (Einsum [(n_l2,[0;1;2;3]); (T 63,[4;3])] [2;4;0;1]));
  (*435*) Assign (T 84) (Plain (Copy (T 70)));
  (*436*) Del (T 70);
  (*437*) AddTo (T 84) (Times (Copy (T 72)) (-1) 1);
  (*438*) Del (T 72);
  (*439*) AddTo (T 84) (Times (Copy (T 73)) (-1) 1);
  (*440*) Del (T 73);
  (*441*) AddTo (T 84) (Plain (Copy (T 75)));
  (*442*) Del (T 75);
  (*443*) AddTo (T 84) (Plain (Copy (T 76)));
  (*444*) Del (T 76);
  (*445*) AddTo (T 84) (Plain (Copy (T 78)));
  (*446*) Del (T 78);
  (*447*) AddTo (T 84) (Plain (Copy (T 80)));
  (*448*) Del (T 80);
  (*449*) AddTo (T 84) (Times (Copy (T 83)) (-1) 1);
  (*450*) Del (T 83);
  (*451*) Assign (T 107) (Plain (Copy (T 104)));
  (*452*) Del (T 104);
  (*453*) AddTo (T 107) (Plain (Copy (T 106)));
  (*454*) Del (T 106);
  (*455*) Assign (T 67) (Plain (Copy n_f'vv));
  (*456*) AddTo (T 67) (Times (Transpose (T 66) [1;0]) (2) 1);
  (*457*) Del (T 66);
  (*458*) Assign (T 28) (Plain (Transpose (T 2) [0;2;1;3]));
  (*459*) AddTo (T 28) (Plain (Transpose (T 3) [1;0;2;3]));
  (*460*) AddTo (T 28) (Times (Transpose (T 3) [2;0;1;3]) (-2) 1);
  (*461*) Del (T 3);
  (*462*) AddTo (T 28) (Times (Transpose (T 13) [0;2;1;3]) (-1) 1);
  (*463*) AddTo (T 28) (Times (Transpose (T 13) [1;2;0;3]) (1) 2);
  (*464*) Del (T 13);
  (*465*) AddTo (T 28) (Plain (Transpose (T 18) [1;2;0;3]));
  (*466*) AddTo (T 28) (Times (Transpose (T 18) [0;2;1;3]) (-2) 1);
  (*467*) Del (T 18);
  (*468*) AddTo (T 28) (Times (Einsum [(T 20,[0;1;2;3]); (T 21,[1;4;5;3])] [2;0;4;5]) (2) 1);
  (*469*) Del (T 21);
  (*470*) AddTo (T 28) (Times (Einsum [(T 19,[0;1;2]); (T 24,[3;4;2])] [1;0;3;4]) (-2) 1);
  (*471*) AddTo (T 28) (Times (Einsum [(T 27,[0;1;2;3]); (n_t1,[0;4])] [1;2;3;4]) (2) 1);
  (*472*) Del (T 27);
  (*473*) Assign (T 31) (Times (Transpose (T 2) [0;2;1;3]) (-1) 1);
  (*474*) Del (T 2);
  (*475*) AddTo (T 31) (Plain (Einsum [(T 20,[0;1;2;3]); (T 29,[1;4;5;3])] [2;0;4;5]));
  (*476*) Del (T 29);
  (*476*) Del (T 20);
  (*477*) AddTo (T 31) (Times (Einsum [(T 19,[0;1;2]); (T 24,[3;4;2])] [1;0;3;4]) (1) 2);
  (*478*) Del (T 24);
  (*479*) AddTo (T 31) (Times (Einsum [(n_t1,[0;1]); (T 30,[0;2;3;4])] [2;3;4;1]) (-1) 1);
  (*480*) Del (T 30);
  (*481*) Assign (T 65) (Plain (Copy n_f'oo));
  (*482*) AddTo (T 65) (Times (Transpose (T 63) [1;0]) (2) 1);
  (*483*) Del (T 63);
  (*484*) AddTo (T 65) (Times (Copy (T 64)) (-1) 1);
  (*485*) Del (T 64);
  (*486*) AddTo (T 65) (Plain (Einsum [(T 23,[0;1;2]); (n_v'xov,[2;3;1])] [0;3]));
  (*487*) Del (T 23);
  (*488*) AddTo (T 65) (Plain (Einsum [(n_t1,[0;1]); (T 62,[2;1])] [0;2]));
  (*489*) Assign (T 39) (Times (Einsum [(T 33,[0;1;2;3]); (T 32,[0;3;4])] [1;2;4]) (-1) 1);
  (*490*) Del (T 33);
  (*491*) AddTo (T 39) (Times (Einsum [(T 35,[0;1;2;3]); (n_v'xoo,[4;0;2])] [1;3;4]) (1) 2);
  (*492*) Del (T 35);
  (*493*) AddTo (T 39) (Plain (Einsum [(T 6,[0;1;2]); (T 36,[0;3;1;4])] [3;4;2]));
  (*494*) Del (T 36);
  (*495*) AddTo (T 39) (Times (Einsum [(n_v'xov,[0;1;2]); (T 37,[3;2])] [1;3;0]) (1) 2);
  (*496*) Del (T 37);
  (*497*) AddTo (T 39) (Times (Einsum [(n_l1,[0;1]); (T 38,[1;2;3])] [2;0;3]) (1) 2);
  (*498*) Del (T 38);
  (*499*) Assign (T 54) (Times (Einsum [(n_l1,[0;1]); (T 1,[2;0;3])] [2;1;3]) (-1) 2);
  (*500*) Del (T 1);
  (*501*) AddTo (T 54) (Times (Einsum [(n_v'xvv,[0;1;2]); (T 40,[3;4;2;1])] [4;3;0]) (-1) 2);
  (*502*) Del (T 40);
  (*503*) AddTo (T 54) (Times (Einsum [(T 32,[0;1;2]); (T 41,[0;3;4;1])] [4;3;2]) (-1) 1);
  (*504*) Del (T 32);
  (*504*) Del (T 41);
  (*505*) AddTo (T 54) (Plain (Einsum [(n_v'xov,[0;1;2]); (T 44,[3;1;4;2])] [4;3;0]));
  (*506*) Del (T 44);
  (*507*) AddTo (T 54) (Plain (Einsum [(T 19,[0;1;2]); (T 46,[1;3;0;4])] [4;3;2]));
  (*508*) Del (T 19);
  (*508*) Del (T 46);
  (*509*) AddTo (T 54) (Times (Einsum [(T 48,[0;1;2;3]); (T 6,[0;2;4])] [3;1;4]) (1) 2);
  (*510*) Del (T 6);
  (*510*) Del (T 48);
  (*511*) AddTo (T 54) (Plain (Einsum [(T 49,[0;1;2;3]); (n_v'xoo,[4;0;3])] [2;1;4]));
  (*512*) Del (T 49);
  (*513*) AddTo (T 54) (Plain (Einsum [(T 53,[0;1]); (n_v'xov,[2;3;1])] [0;3;2]));
  (*514*) Del (T 53);
  (*515*) AddTo (T 54) (Plain (Einsum [(T 52,[0;1]); (n_v'xoo,[2;3;0])] [1;3;2]));
  (*516*) Del (T 52);
  (*517*) Assign (T 61) (Times (Einsum [(T 55,[0;1]); (n_v'xvv,[2;1;0])] [2]) (2) 1);
  (*518*) Del (T 55);
  (*519*) AddTo (T 61) (Plain (Einsum [(n_v'xov,[0;1;2]); (T 58,[1;2])] [0]));
  (*520*) Del (T 58);
  (*521*) AddTo (T 61) (Times (Einsum [(T 60,[0;1]); (n_v'xoo,[2;1;0])] [2]) (-1) 1);
  (*522*) Del (T 60);
  (*523*) Assign n_l2new (Plain (Einsum [(T 68,[0;1;2;3]); (n_l2,[3;2;4;5])] [0;1;4;5]));
  (*524*) Del (T 68);
  (*525*) AddTo n_l2new (Plain (Einsum [(T 47,[0;1;2;3]); (T 8,[2;3;4;5])] [5;4;1;0]));
  (*526*) Del (T 47);
  (*527*) AddTo n_l2new (Plain (Transpose (T 8) [3;2;1;0]));
  (*528*) Del (T 8);
  (*529*) AddTo n_l2new (Times (Transpose (T 69) [3;2;0;1]) (-1) 1);
  (*530*) AddTo n_l2new (Times (Transpose (T 69) [2;3;1;0]) (-1) 1);
  (*531*) Del (T 69);
  (*532*) AddTo n_l2new (Plain (Transpose (T 84) [3;2;0;1]));
  (*533*) AddTo n_l2new (Plain (Transpose (T 84) [2;3;1;0]));
  (*534*) Del (T 84);
  (*535*) AddTo n_l2new (Plain (Transpose (T 103) [2;3;0;1]));
  (*536*) AddTo n_l2new (Plain (Transpose (T 103) [3;2;1;0]));
  (*537*) Del (T 103);
  (*538*) AddTo n_l2new (Times (Transpose (T 107) [2;3;0;1]) (-1) 1);
  (*539*) AddTo n_l2new (Times (Transpose (T 107) [3;2;1;0]) (-1) 1);
  (*540*) Del (T 107);
  (*541*) AddTo n_l2new (Times (Transpose (T 108) [2;3;0;1]) (-2) 1);
  (*542*) AddTo n_l2new (Times (Transpose (T 108) [3;2;1;0]) (-2) 1);
  (*543*) Del (T 108);
  (*544*) AddTo n_l2new (Times (Transpose (T 112) [3;2;0;1]) (-1) 1);
  (*545*) AddTo n_l2new (Times (Transpose (T 112) [2;3;1;0]) (-1) 1);
  (*546*) Del (T 112);
  (*547*) AddTo n_l2new (Plain (Einsum [(T 113,[0;1;2;3]); (n_l2,[4;5;2;0])] [4;5;1;3]));
  (*548*) Del (T 113);
  (*549*) Assign n_l1new (Plain (Transpose n_f'ov [1;0]));
  (*550*) AddTo n_l1new (Plain (Einsum [(T 28,[0;1;2;3]); (n_l2,[4;3;0;2])] [4;1]));
  (*551*) Del (T 28);
  (*552*) AddTo n_l1new (Times (Einsum [(n_l2,[0;1;2;3]); (T 31,[3;4;2;1])] [0;4]) (2) 1);
  (*553*) Del (T 31);
  (*554*) AddTo n_l1new (Times (Einsum [(T 39,[0;1;2]); (n_v'xvv,[2;3;1])] [3;0]) (-2) 1);
  (*555*) Del (T 39);
  (*556*) AddTo n_l1new (Times (Einsum [(T 54,[0;1;2]); (n_v'xov,[2;0;3])] [3;1]) (2) 1);
  (*557*) Del (T 54);
  (*558*) AddTo n_l1new (Times (Einsum [(n_v'xov,[0;1;2]); (T 61,[0])] [2;1]) (2) 1);
  (*559*) Del (T 61);
  (*560*) AddTo n_l1new (Times (Einsum [(T 57,[0;1]); (T 62,[1;2])] [2;0]) (-1) 1);
  (*561*) Del (T 57);
  (*561*) Del (T 62);
  (*562*) AddTo n_l1new (Times (Einsum [(T 65,[0;1]); (n_l1,[2;0])] [2;1]) (-1) 1);
  (*563*) Del (T 65);
  (*564*) AddTo n_l1new (Plain (Einsum [(n_l1,[0;1]); (T 67,[0;2])] [2;1]));
  (*565*) Del (T 67)]
 [(n_l1new,[1;0]); (n_l2new,[1;1;0;0])].

(** ebcc/codegen/RDFCC2.py:569-627 [make_rdm1_f]; assembly (line 625) not translated *)
Definition RDFCC2_make_rdm1_f : prog := mkprog
 [(n_t2,[0;0;1;1]); (n_l2,[1;1;0;0]); (n_t1,[0;1]); (n_l1,[1;0])]
 [(*591*) Assign n_delta'oo (Plain (Eye 0));
  (*591*) Assign n_delta'vv (Plain (Eye 1));
  (*595*) Assign (T 3) (Plain (Einsum [(n_l2,[0;1;2;3]); (n_t1,[4;1])] [2;3;4;0]));
  (*596*) Assign (T 2) (Times (Transpose n_t2 [0;1;3;2]) (-1) 2);
  (*597*) AddTo (T 2) (Plain (Copy n_t2));
  (*598*) Assign (T 1) (Plain (Einsum [(n_l1,[0;1]); (n_t1,[2;0])] [1;2]));
  (*599*) Assign (T 7) (Times (Transpose n_l2 [3;2;0;1]) (-1) 1);
  (*600*) AddTo (T 7) (Times (Transpose n_l2 [2;3;0;1]) (2) 1);
  (*601*) Assign (T 5) (Times (Transpose n_t2 [0;1;3;2]) (2) 1);
  (*602*) AddTo (T 5) (Times (Copy n_t2) (-1) 1);
  (*603*) Assign (T 4) (Times (Copy (T 3)) (-1) 2);
  (*604*) AddTo (T 4) (Plain (Transpose (T 3) [1;0;2;3]));
  (*605*) Del (T 3);
  (*606*) Assign (T 6) (Plain (Copy (T 1)));
  (*607*) AddTo (T 6) (Times (Einsum [(n_l2,[0;1;2;3]); (T 2,[2;4;0;1])] [3;4]) (2) 1);
  (*608*) Assign n_rdm1'vv (Times (Einsum [(n_l1,[0;1]); (n_t1,[1;2])] [0;2]) (2) 1);
  (*609*) AddTo n_rdm1'vv (Times (Einsum [(T 7,[0;1;2;3]); (n_t2,[0;1;2;4])] [3;4]) (2) 1);
  (*610*) Del (T 7);
  (*611*) Assign n_rdm1'vo (Times (Copy n_l1) (2) 1);
  (*612*) Assign n_rdm1'ov (Times (Copy n_t1) (2) 1);
  (*613*) AddTo n_rdm1'ov (Times (Einsum [(T 4,[0;1;2;3]); (n_t2,[1;0;3;4])] [2;4]) (-4) 1);
  (*614*) Del (T 4);
  (*615*) AddTo n_rdm1'ov (Times (Einsum [(n_l1,[0;1]); (T 5,[1;2;3;0])] [2;3]) (2) 1);
  (*616*) Del (T 5);
  (*617*) AddTo n_rdm1'ov (Times (Einsum [(T 6,[0;1]); (n_t1,[0;2])] [1;2]) (-2) 1);
  (*618*) Del (T 6);
  (*619*) Assign n_rdm1'oo (Times (Transpose (T 1) [1;0]) (-2) 1);
  (*620*) Del (T 1);
  (*621*) AddTo n_rdm1'oo (Times (Copy n_delta'oo) (2) 1);
  (*622*) Del n_delta'oo;
  (*622*) Del n_delta'vv;
  (*623*) AddTo n_rdm1'oo (Times (Einsum [(n_l2,[0;1;2;3]); (T 2,[2;4;0;1])] [4;3]) (-4) 1);
  (*624*) Del (T 2)]
 [(n_rdm1'oo,[0;0]); (n_rdm1'ov,[0;1]); (n_rdm1'vo,[1;0]); (n_rdm1'vv,[1;1])].

(** ebcc/codegen/RDFCC2.py:629-1100 [make_rdm2_f]; assembly (line 1097) not translated *)
Definition RDFCC2_make_rdm2_f : prog := mkprog
 [(n_t2,[0;0;1;1]); (n_l2,[1;1;0;0]); (n_t1,[0;1]); (n_l1,[1;0])]
 [(*651*) Assign n_delta'oo (Plain (Eye 0));
  (*651*) Assign n_delta'vv (Plain (Eye 1));
  (*655*) Assign (T 5) (Plain (Einsum [(n_l2,[0;1;2;3]); (n_t1,[4;1])] [2;3;4;0]));
  (*656*) Assign (T 81) (Times (Transpose n_t2 [0;1;3;2]) (-1) 1);
  (*657*) AddTo (T 81) (Times (Copy n_t2) (2) 1);
  (*658*) Assign (T 79) (Times (Transpose n_t2 [0;1;3;2]) (-1) 1);
  (*659*) AddTo (T 79) (Plain (Copy n_t2));
  (*660*) Assign (T 15) (Plain (Copy (T 5)));
  (*661*) AddTo (T 15) (Times (Transpose (T 5) [1;0;2;3]) (-1) 1);
  (*662*) Assign (T 17) (Times (Copy (T 5)) (2) 1);
  (*663*) AddTo (T 17) (Times (Transpose (T 5) [1;0;2;3]) (-1) 1);
  (*664*) Assign (T 1) (Times (Transpose n_t2 [0;1;3;2]) (-1) 2);
  (*665*) AddTo (T 1) (Plain (Copy n_t2));
  (*666*) Assign (T 46) (Times (Transpose n_l2 [3;2;0;1]) (2) 1);
  (*667*) AddTo (T 46) (Times (Transpose n_l2 [2;3;0;1]) (-1) 1);
  (*668*) Assign (T 82) (Plain (Einsum [(n_l2,[0;1;2;3]); (T 81,[3;4;1;5])] [4;2;5;0]));
  (*669*) Del (T 81);
  (*670*) Assign (T 88) (Plain (Einsum [(T 5,[0;1;2;3]); (n_t1,[1;4])] [0;2;3;4]));
  (*671*) Assign (T 80) (Plain (Einsum [(n_l2,[0;1;2;3]); (T 79,[2;4;1;5])] [4;3;5;0]));
  (*672*) Del (T 79);
  (*673*) Assign (T 62) (Times (Transpose n_l2 [3;2;0;1]) (-1) 1);
  (*674*) AddTo (T 62) (Times (Transpose n_l2 [2;3;0;1]) (2) 1);
  (*675*) Assign (T 102) (Times (Transpose n_l2 [3;2;0;1]) (2) 1);
  (*676*) AddTo (T 102) (Times (Transpose n_l2 [2;3;0;1]) (-1) 1);
  (*677*) Assign (T 16) (Plain (Einsum [(T 15,[0;1;2;3]); (n_t2,[4;0;3;5])] [1;2;4;5]));
  (*678*) Assign (T 18) (Plain (Einsum [(T 17,[0;1;2;3]); (n_t2,[4;0;5;3])] [1;2;4;5]));
  (*679*) Del (T 17);
  (*680*) Assign (T 13) (Plain (Einsum [(n_t2,[0;1;2;3]); (n_l1,[3;4])] [4;0;1;2]));
  (*681*) Assign (T 3) (Plain (Einsum [(n_l1,[0;1]); (n_t1,[2;0])] [1;2]));
  (*682*) Assign (T 23) (Times (Transpose n_t2 [0;1;3;2]) (2) 1);
  (*683*) AddTo (T 23) (Times (Copy n_t2) (-1) 1);
  (*684*) Assign (T 27) (Plain (Einsum [(T 5,[0;1;2;3]); (n_t2,[4;1;3;5])] [0;2;4;5]));
  (*685*) Assign (T 4) (Plain (Einsum [(n_l2,[0;1;2;3]); (n_t2,[4;5;0;1])] [2;3;4;5]));
  (*686*) Assign (T 6) (Plain (Einsum [(n_t1,[0;1]); (T 5,[2;3;4;1])] [3;2;4;0]));
  (*687*) Assign (T 9) (Times (Copy (T 5)) (-1) 1);
  (*688*) AddTo (T 9) (Times (Transpose (T 5) [1;0;2;3]) (2) 1);
  (*689*) Assign (T 2) (Times (Einsum [(n_l2,[0;1;2;3]); (T 1,[2;4;0;1])] [3;4]) (2) 1);
  (*690*) Assign (T 55) (Plain (Transpose n_l2 [3;2;0;1]));
  (*691*) AddTo (T 55) (Times (Transpose n_l2 [2;3;0;1]) (-1) 1);
  (*692*) Assign (T 26) (Plain (Einsum [(T 5,[0;1;2;3]); (n_t2,[4;0;3;5])] [1;2;4;5]));
  (*693*) Assign (T 34) (Plain (Einsum [(n_l2,[0;1;2;3]); (T 1,[2;4;0;1])] [3;4]));
  (*694*) Del (T 1);
  (*695*) Assign (T 112) (Plain (Einsum [(n_l2,[0;1;2;3]); (n_t1,[3;4])] [2;0;1;4]));
  (*696*) Assign (T 67) (Plain (Einsum [(n_l2,[0;1;2;3]); (n_t2,[4;3;1;5])] [2;4;0;5]));
  (*697*) Assign (T 53) (Plain (Einsum [(T 46,[0;1;2;3]); (n_t2,[4;0;5;3])] [1;4;2;5]));
  (*698*) Assign (T 106) (Plain (Copy (T 88)));
  (*699*) AddTo (T 106) (Plain (Transpose (T 80) [1;0;3;2]));
  (*700*) AddTo (T 106) (Times (Transpose (T 82) [1;0;3;2]) (-1) 1);
  (*701*) Assign (T 90) (Plain (Einsum [(T 62,[0;1;2;3]); (n_t2,[0;1;2;4])] [3;4]));
  (*702*) Assign (T 85) (Plain (Einsum [(n_l1,[0;1]); (n_t1,[1;2])] [0;2]));
  (*703*) Assign (T 95) (Plain (Transpose (T 82) [1;0;3;2]));
  (*704*) AddTo (T 95) (Times (Transpose (T 80) [1;0;3;2]) (-1) 1);
  (*705*) Assign (T 103) (Plain (Einsum [(T 102,[0;1;2;3]); (n_t2,[4;0;5;3])] [1;4;2;5]));
  (*706*) Del (T 102);
  (*707*) Assign (T 49) (Plain (Copy (T 13)));
  (*708*) AddTo (T 49) (Plain (Copy (T 16)));
  (*709*) AddTo (T 49) (Times (Copy (T 18)) (-1) 1);
  (*710*) Assign (T 22) (Plain (Einsum [(T 3,[0;1]); (n_t1,[0;2])] [1;2]));
  (*711*) Assign (T 24) (Plain (Einsum [(n_l1,[0;1]); (T 23,[1;2;3;0])] [2;3]));
  (*712*) Del (T 23);
  (*713*) Assign (T 47) (Plain (Einsum [(T 46,[0;1;2;3]); (n_t2,[4;0;3;5])] [1;4;2;5]));
  (*714*) Del (T 46);
  (*715*) Assign (T 74) (Plain (Copy (T 13)));
  (*716*) AddTo (T 74) (Times (Copy (T 27)) (-1) 1);
  (*717*) Assign (T 7) (Plain (Transpose (T 4) [1;0;3;2]));
  (*718*) AddTo (T 7) (Plain (Copy (T 6)));
  (*719*) Assign (T 10) (Times (Einsum [(T 9,[0;1;2;3]); (n_t2,[0;1;4;3])] [2;4]) (1) 2);
  (*720*) Assign (T 11) (Times (Einsum [(T 2,[0;1]); (n_t1,[0;2])] [1;2]) (1) 2);
  (*721*) Assign (T 63) (Times (Einsum [(T 62,[0;1;2;3]); (n_t2,[0;1;2;4])] [3;4]) (1) 2);
  (*722*) Del (T 62);
  (*723*) Assign (T 20) (Plain (Einsum [(n_t1,[0;1]); (T 4,[2;0;3;4])] [2;3;4;1]));
  (*724*) Assign (T 14) (Plain (Einsum [(n_t1,[0;1]); (T 6,[0;2;3;4])] [2;4;3;1]));
  (*725*) Assign (T 56) (Plain (Einsum [(T 55,[0;1;2;3]); (n_t2,[4;0;3;5])] [1;4;2;5]));
  (*726*) Del (T 55);
  (*727*) Assign (T 71) (Plain (Copy (T 26)));
  (*728*) AddTo (T 71) (Times (Copy (T 18)) (-1) 1);
  (*729*) Assign (T 35) (Times (Copy (T 3)) (1) 2);
  (*730*) AddTo (T 35) (Plain (Copy (T 34)));
  (*731*) Del (T 34);
  (*732*) Assign (T 32) (Times (Transpose n_t2 [0;1;3;2]) (2) 1);
  (*733*) AddTo (T 32) (Times (Copy n_t2) (-1) 1);
  (*734*) Assign (T 113) (Plain (Einsum [(n_l2,[0;1;2;3]); (n_t2,[3;2;4;5])] [0;1;5;4]));
  (*735*) Assign (T 114) (Plain (Einsum [(n_t1,[0;1]); (T 112,[0;2;3;4])] [3;2;4;1]));
  (*736*) Assign (T 110) (Plain (Copy (T 67)));
  (*737*) AddTo (T 110) (Plain (Copy (T 88)));
  (*738*) AddTo (T 110) (Times (Copy (T 53)) (-1) 1);
  (*739*) Assign (T 69) (Plain (Einsum [(n_l2,[0;1;2;3]); (n_t2,[4;2;1;5])] [3;4;0;5]));
  (*740*) Assign (T 94) (Plain (Einsum [(n_t2,[0;1;2;3]); (n_l1,[4;1])] [0;4;2;3]));
  (*741*) Assign (T 107) (Plain (Einsum [(T 106,[0;1;2;3]); (n_t1,[0;4])] [1;2;3;4]));
  (*742*) Del (T 106);
  (*743*) Assign (T 91) (Plain (Copy (T 85)));
  (*744*) AddTo (T 91) (Plain (Copy (T 90)));
  (*745*) Del (T 90);
  (*746*) Assign (T 98) (Plain (Einsum [(T 5,[0;1;2;3]); (n_t2,[0;1;4;5])] [2;3;4;5]));
  (*747*) Assign (T 96) (Plain (Einsum [(T 95,[0;1;2;3]); (n_t1,[0;4])] [1;2;3;4]));
  (*748*) Del (T 95);
  (*749*) Assign (T 104) (Plain (Copy (T 67)));
  (*750*) AddTo (T 104) (Plain (Copy (T 88)));
  (*751*) AddTo (T 104) (Times (Copy (T 103)) (-1) 1);
  (*752*) Del (T 103);
  (*753*) Assign (T 92) (Times (Transpose n_l2 [3;2;0;1]) (-1) 1);
  (*754*) AddTo (T 92) (Plain (Transpose n_l2 [2;3;0;1]));
  (*755*) Assign (T 83) (Times (Copy (T 5)) (-1) 1);
  (*756*) AddTo (T 83) (Plain (Transpose (T 5) [1;0;2;3]));
  (*757*) Assign (T 50) (Plain (Einsum [(T 49,[0;1;2;3]); (n_t1,[0;4])] [1;2;3;4]));
  (*758*) Del (T 49);
  (*759*) Assign (T 25) (Plain (Copy (T 22)));
  (*760*) AddTo (T 25) (Times (Copy (T 24)) (-1) 1);
  (*761*) Assign (T 45) (Plain (Einsum [(n_t2,[0;1;2;3]); (T 3,[1;4])] [4;0;2;3]));
  (*762*) Assign (T 48) (Plain (Einsum [(T 47,[0;1;2;3]); (n_t2,[4;0;5;2])] [1;4;3;5]));
  (*763*) Del (T 47);
  (*764*) Assign (T 75) (Plain (Einsum [(T 74,[0;1;2;3]); (n_t1,[0;4])] [1;2;3;4]));
  (*765*) Del (T 74);
  (*766*) Assign (T 30) (Plain (Einsum [(n_t1,[0;1]); (T 7,[0;2;3;4])] [2;3;4;1]));
  (*767*) Assign (T 12) (Plain (Copy (T 10)));
  (*768*) AddTo (T 12) (Plain (Copy (T 11)));
  (*769*) Del (T 11);
  (*770*) Assign (T 64) (Times (Einsum [(T 63,[0;1]); (n_t2,[2;3;0;4])] [2;3;1;4]) (2) 1);
  (*771*) Assign (T 65) (Plain (Einsum [(n_t2,[0;1;2;3]); (T 2,[1;4])] [0;4;3;2]));
  (*772*) Assign (T 59) (Plain (Einsum [(n_t1,[0;1]); (T 20,[0;2;3;4])] [3;2;4;1]));
  (*773*) Assign (T 60) (Plain (Einsum [(n_t2,[0;1;2;3]); (T 7,[0;1;4;5])] [4;5;2;3]));
  (*774*) Assign (T 54) (Plain (Einsum [(T 53,[0;1;2;3]); (n_t2,[4;0;5;2])] [1;4;3;5]));
  (*775*) Assign (T 52) (Plain (Einsum [(n_t1,[0;1]); (T 14,[0;2;3;4])] [2;3;1;4]));
  (*776*) Assign (T 57) (Plain (Einsum [(T 56,[0;1;2;3]); (n_t2,[4;0;2;5])] [1;4;3;5]));
  (*777*) Assign (T 72) (Plain (Einsum [(n_t1,[0;1]); (T 71,[0;2;3;4])] [2;3;4;1]));
  (*778*) Del (T 71);
  (*779*) Assign (T 36) (Times (Einsum [(T 35,[0;1]); (n_t1,[0;2])] [1;2]) (2) 1);
  (*780*) Assign (T 31) (Plain (Einsum [(T 9,[0;1;2;3]); (n_t2,[0;1;4;3])] [2;4]));
  (*781*) Del (T 9);
  (*782*) Assign (T 42) (Plain (Einsum [(T 35,[0;1]); (n_t1,[0;2])] [1;2]));
  (*783*) Assign (T 41) (Times (Einsum [(n_l1,[0;1]); (T 32,[1;2;3;0])] [2;3]) (1) 2);
  (*784*) Assign (T 33) (Plain (Einsum [(n_l1,[0;1]); (T 32,[1;2;3;0])] [2;3]));
  (*785*) Del (T 32);
  (*786*) Assign (T 28) (Times (Copy (T 5)) (-1) 1);
  (*787*) AddTo (T 28) (Times (Transpose (T 5) [1;0;2;3]) (2) 1);
  (*788*) Assign (T 115) (Plain (Transpose (T 113) [1;0;3;2]));
  (*789*) AddTo (T 115) (Plain (Transpose (T 114) [1;0;3;2]));
  (*790*) Assign (T 111) (Plain (Einsum [(T 110,[0;1;2;3]); (n_t1,[0;4])] [1;2;3;4]));
  (*791*) Del (T 110);
  (*792*) Assign (T 101) (Plain (Einsum [(n_t1,[0;1]); (T 69,[0;2;3;4])] [2;3;1;4]));
  (*793*) Assign (T 108) (Plain (Copy (T 94)));
  (*794*) AddTo (T 108) (Plain (Transpose (T 107) [0;1;3;2]));
  (*795*) Del (T 107);
  (*796*) Assign (T 109) (Plain (Copy (T 98)));
  (*797*) AddTo (T 109) (Plain (Einsum [(T 91,[0;1]); (n_t1,[2;3])] [2;0;3;1]));
  (*798*) Assign (T 99) (Plain (Copy (T 98)));
  (*799*) AddTo (T 99) (Times (Einsum [(T 63,[0;1]); (n_t1,[2;3])] [2;0;3;1]) (2) 1);
  (*800*) Assign (T 86) (Times (Copy (T 85)) (1) 2);
  (*801*) AddTo (T 86) (Plain (Copy (T 63)));
  (*802*) Del (T 63);
  (*803*) Assign (T 100) (Plain (Einsum [(n_t1,[0;1]); (T 88,[0;2;3;4])] [2;3;1;4]));
  (*804*) Assign (T 97) (Plain (Copy (T 94)));
  (*805*) AddTo (T 97) (Plain (Einsum [(n_t1,[0;1]); (T 85,[2;3])] [0;2;1;3]));
  (*806*) Del (T 85);
  (*807*) AddTo (T 97) (Times (Transpose (T 96) [0;1;3;2]) (-1) 1);
  (*808*) Del (T 96);
  (*809*) Assign (T 105) (Plain (Einsum [(T 104,[0;1;2;3]); (n_t1,[0;4])] [1;2;3;4]));
  (*810*) Del (T 104);
  (*811*) Assign (T 93) (Plain (Einsum [(T 92,[0;1;2;3]); (n_t2,[4;0;3;5])] [1;4;2;5]));
  (*812*) Del (T 92);
  (*813*) Assign (T 89) (Plain (Einsum [(T 15,[0;1;2;3]); (n_t1,[0;4])] [1;2;3;4]));
  (*814*) Del (T 15);
  (*815*) Assign (T 87) (Plain (Einsum [(T 5,[0;1;2;3]); (n_t1,[0;4])] [1;2;3;4]));
  (*816*) Assign (T 84) (Plain (Einsum [(n_t1,[0;1]); (T 83,[0;2;3;4])] [2;3;4;1]));
  (*817*) Del (T 83);
  (*818*) Assign (T 51) (Plain (Copy (T 45)));
  (*819*) AddTo (T 51) (Times (Transpose (T 48) [1;0;3;2]) (-1) 1);
  (*820*) AddTo (T 51) (Plain (Transpose (T 50) [0;1;3;2]));
  (*821*) Del (T 50);
  (*822*) AddTo (T 51) (Times (Einsum [(T 25,[0;1]); (n_t1,[2;3])] [2;0;3;1]) (-1) 1);
  (*823*) Assign (T 78) (Plain (Copy n_t1));
  (*824*) AddTo (T 78) (Times (Copy (T 22)) (-1) 1);
  (*825*) Assign (T 68) (Plain (Einsum [(T 67,[0;1;2;3]); (n_t2,[4;0;2;5])] [1;4;3;5]));
  (*826*) Assign (T 76) (Plain (Copy (T 45)));
  (*827*) Del (T 45);
  (*828*) AddTo (T 76) (Plain (Transpose (T 75) [0;1;3;2]));
  (*829*) Del (T 75);
  (*830*) Assign (T 77) (Plain (Einsum [(T 30,[0;1;2;3]); (n_t1,[0;4])] [2;1;3;4]));
  (*831*) Assign (T 66) (Plain (Transpose (T 64) [1;0;3;2]));
  (*832*) Del (T 64);
  (*833*) AddTo (T 66) (Plain (Transpose (T 65) [0;1;3;2]));
  (*834*) Del (T 65);
  (*835*) AddTo (T 66) (Times (Einsum [(n_t1,[0;1]); (T 12,[2;3])] [0;2;1;3]) (2) 1);
  (*836*) Assign (T 70) (Plain (Einsum [(T 69,[0;1;2;3]); (n_t2,[4;0;2;5])] [1;4;3;5]));
  (*837*) Assign (T 61) (Plain (Copy (T 59)));
  (*838*) Del (T 59);
  (*839*) AddTo (T 61) (Plain (Copy (T 60)));
  (*840*) Assign (T 58) (Plain (Copy (T 52)));
  (*841*) Del (T 52);
  (*842*) AddTo (T 58) (Times (Copy (T 54)) (2) 1);
  (*843*) AddTo (T 58) (Plain (Transpose (T 57) [1;0;3;2]));
  (*844*) Del (T 57);
  (*845*) Assign (T 73) (Times (Transpose (T 48) [1;0;3;2]) (-1) 1);
  (*846*) Del (T 48);
  (*847*) AddTo (T 73) (Plain (Transpose (T 72) [0;1;3;2]));
  (*848*) Del (T 72);
  (*849*) AddTo (T 73) (Plain (Einsum [(T 24,[0;1]); (n_t1,[2;3])] [2;0;3;1]));
  (*850*) Assign (T 44) (Plain (Copy (T 3)));
  (*851*) AddTo (T 44) (Plain (Copy (T 2)));
  (*852*) Assign (T 38) (Plain (Copy (T 31)));
  (*853*) AddTo (T 38) (Plain (Copy (T 36)));
  (*854*) Assign (T 40) (Plain (Copy (T 13)));
  (*855*) AddTo (T 40) (Plain (Transpose (T 30) [0;2;1;3]));
  (*856*) AddTo (T 40) (Plain (Einsum [(T 2,[0;1]); (n_t1,[2;3])] [0;2;1;3]));
  (*857*) Assign (T 39) (Plain (Einsum [(T 3,[0;1]); (n_t1,[2;3])] [0;2;1;3]));
  (*858*) AddTo (T 39) (Plain (Copy (T 16)));
  (*859*) AddTo (T 39) (Times (Copy (T 18)) (-1) 1);
  (*860*) Assign (T 43) (Times (Copy n_t1) (-1) 2);
  (*861*) AddTo (T 43) (Plain (Copy (T 10)));
  (*862*) Del (T 10);
  (*863*) AddTo (T 43) (Times (Copy (T 41)) (-1) 1);
  (*864*) Del (T 41);
  (*865*) AddTo (T 43) (Plain (Copy (T 42)));
  (*866*) Del (T 42);
  (*867*) Assign (T 19) (Plain (Copy (T 13)));
  (*868*) AddTo (T 19) (Plain (Copy (T 14)));
  (*869*) Del (T 14);
  (*870*) AddTo (T 19) (Plain (Copy (T 16)));
  (*871*) Del (T 16);
  (*872*) AddTo (T 19) (Times (Copy (T 18)) (-1) 1);
  (*873*) Assign (T 21) (Plain (Copy (T 20)));
  (*874*) Del (T 20);
  (*875*) AddTo (T 21) (Plain (Einsum [(T 2,[0;1]); (n_t1,[2;3])] [0;2;1;3]));
  (*876*) Assign (T 37) (Times (Copy n_t1) (-1) 1);
  (*877*) AddTo (T 37) (Plain (Copy (T 31)));
  (*878*) Del (T 31);
  (*879*) AddTo (T 37) (Times (Copy (T 33)) (-1) 1);
  (*880*) Del (T 33);
  (*881*) AddTo (T 37) (Plain (Copy (T 36)));
  (*882*) Del (T 36);
  (*883*) Assign (T 29) (Plain (Einsum [(T 28,[0;1;2;3]); (n_t2,[4;1;5;3])] [0;2;4;5]));
  (*884*) Del (T 28);
  (*885*) Assign (T 8) (Plain (Copy n_delta'oo));
  (*886*) AddTo (T 8) (Times (Copy (T 3)) (-1) 1);
  (*887*) Assign n_rdm2'vvvv (Times (Transpose (T 115) [0;1;3;2]) (-2) 1);
  (*888*) AddTo n_rdm2'vvvv (Times (Copy (T 115)) (2) 1);
  (*889*) Del (T 115);
  (*890*) AddTo n_rdm2'vvvv (Times (Transpose (T 113) [1;0;3;2]) (2) 1);
  (*891*) Del (T 113);
  (*892*) AddTo n_rdm2'vvvv (Times (Transpose (T 114) [1;0;3;2]) (2) 1);
  (*893*) Del (T 114);
  (*894*) Assign n_rdm2'vvvo (Times (Transpose (T 112) [1;2;3;0]) (-2) 1);
  (*895*) AddTo n_rdm2'vvvo (Times (Transpose (T 112) [2;1;3;0]) (4) 1);
  (*896*) Assign n_rdm2'vvov (Times (Transpose (T 112) [1;2;0;3]) (4) 1);
  (*897*) AddTo n_rdm2'vvov (Times (Transpose (T 112) [2;1;0;3]) (-2) 1);
  (*898*) Del (T 112);
  (*899*) Assign n_rdm2'vovv (Times (Transpose (T 108) [1;0;2;3]) (-2) 1);
  (*900*) AddTo n_rdm2'vovv (Times (Transpose (T 108) [1;0;3;2]) (2) 1);
  (*901*) Del (T 108);
  (*902*) AddTo n_rdm2'vovv (Times (Transpose (T 109) [1;0;2;3]) (-2) 1);
  (*903*) AddTo n_rdm2'vovv (Times (Transpose (T 109) [1;0;3;2]) (2) 1);
  (*904*) Del (T 109);
  (*905*) AddTo n_rdm2'vovv (Times (Transpose (T 101) [1;0;3;2]) (-2) 1);
  (*906*) AddTo n_rdm2'vovv (Times (Transpose (T 98) [1;0;2;3]) (-2) 1);
  (*907*) AddTo n_rdm2'vovv (Times (Transpose (T 94) [1;0;3;2]) (2) 1);
  (*908*) AddTo n_rdm2'vovv (Times (Transpose (T 111) [1;0;3;2]) (-2) 1);
  (*909*) Del (T 111);
  (*910*) AddTo n_rdm2'vovv (Times (Einsum [(n_t1,[0;1]); (T 91,[2;3])] [2;0;3;1]) (2) 1);
  (*911*) Assign n_rdm2'ovvv (Times (Copy (T 97)) (2) 1);
  (*912*) AddTo n_rdm2'ovvv (Times (Transpose (T 97) [0;1;3;2]) (-2) 1);
  (*913*) Del (T 97);
  (*914*) AddTo n_rdm2'ovvv (Times (Copy (T 99)) (2) 1);
  (*915*) AddTo n_rdm2'ovvv (Times (Transpose (T 99) [0;1;3;2]) (-2) 1);
  (*916*) Del (T 99);
  (*917*) AddTo n_rdm2'ovvv (Times (Copy (T 100)) (2) 1);
  (*918*) AddTo n_rdm2'ovvv (Times (Transpose (T 100) [0;1;3;2]) (-2) 1);
  (*919*) Del (T 100);
  (*920*) AddTo n_rdm2'ovvv (Times (Transpose (T 98) [0;1;3;2]) (-2) 1);
  (*921*) Del (T 98);
  (*922*) AddTo n_rdm2'ovvv (Times (Copy (T 101)) (-2) 1);
  (*923*) Del (T 101);
  (*924*) AddTo n_rdm2'ovvv (Times (Copy (T 94)) (2) 1);
  (*925*) Del (T 94);
  (*926*) AddTo n_rdm2'ovvv (Times (Copy (T 105)) (-2) 1);
  (*927*) Del (T 105);
  (*928*) AddTo n_rdm2'ovvv (Times (Einsum [(T 86,[0;1]); (n_t1,[2;3])] [2;0;3;1]) (4) 1);
  (*929*) Assign n_rdm2'vvoo (Times (Transpose n_l2 [0;1;3;2]) (-2) 1);
  (*930*) AddTo n_rdm2'vvoo (Times (Copy n_l2) (4) 1);
  (*931*) Assign n_rdm2'vovo (Times (Einsum [(n_l1,[0;1]); (n_t1,[2;3])] [0;2;3;1]) (-2) 1);
  (*932*) AddTo n_rdm2'vovo (Times (Transpose (T 53) [2;1;3;0]) (-2) 1);
  (*933*) AddTo n_rdm2'vovo (Times (Transpose (T 93) [2;1;3;0]) (-2) 1);
  (*934*) Del (T 93);
  (*935*) AddTo n_rdm2'vovo (Times (Transpose (T 89) [2;1;3;0]) (-2) 1);
  (*936*) AddTo n_rdm2'vovo (Times (Einsum [(T 91,[0;1]); (n_delta'oo,[2;3])] [0;2;1;3]) (4) 1);
  (*937*) AddTo n_rdm2'vovo (Times (Transpose (T 69) [2;1;3;0]) (-2) 1);
  (*938*) AddTo n_rdm2'vovo (Times (Transpose (T 87) [2;1;3;0]) (-2) 1);
  (*939*) Assign n_rdm2'voov (Times (Einsum [(n_l1,[0;1]); (n_t1,[2;3])] [0;2;1;3]) (4) 1);
  (*940*) AddTo n_rdm2'voov (Times (Transpose (T 82) [3;0;1;2]) (2) 1);
  (*941*) AddTo n_rdm2'voov (Times (Transpose (T 80) [3;0;1;2]) (-2) 1);
  (*942*) AddTo n_rdm2'voov (Times (Transpose (T 89) [2;1;0;3]) (2) 1);
  (*943*) Del (T 89);
  (*944*) AddTo n_rdm2'voov (Times (Einsum [(T 91,[0;1]); (n_delta'oo,[2;3])] [0;2;3;1]) (-2) 1);
  (*945*) Del (T 91);
  (*946*) AddTo n_rdm2'voov (Times (Transpose (T 67) [2;1;0;3]) (-2) 1);
  (*947*) AddTo n_rdm2'voov (Times (Transpose (T 88) [2;1;0;3]) (-2) 1);
  (*948*) AddTo n_rdm2'voov (Times (Transpose (T 53) [2;1;0;3]) (2) 1);
  (*949*) Assign n_rdm2'ovvo (Times (Einsum [(n_l1,[0;1]); (n_t1,[2;3])] [2;0;3;1]) (4) 1);
  (*950*) AddTo n_rdm2'ovvo (Times (Transpose (T 53) [1;2;3;0]) (4) 1);
  (*951*) Del (T 53);
  (*952*) AddTo n_rdm2'ovvo (Times (Transpose (T 56) [1;2;3;0]) (-2) 1);
  (*953*) Del (T 56);
  (*954*) AddTo n_rdm2'ovvo (Times (Transpose (T 84) [1;2;3;0]) (-2) 1);
  (*955*) AddTo n_rdm2'ovvo (Times (Einsum [(n_delta'oo,[0;1]); (T 86,[2;3])] [0;2;3;1]) (-4) 1);
  (*956*) AddTo n_rdm2'ovvo (Times (Transpose (T 67) [1;2;3;0]) (-2) 1);
  (*957*) Del (T 67);
  (*958*) AddTo n_rdm2'ovvo (Times (Transpose (T 88) [1;2;3;0]) (-2) 1);
  (*959*) Del (T 88);
  (*960*) Assign n_rdm2'ovov (Times (Einsum [(n_l1,[0;1]); (n_t1,[2;3])] [2;0;1;3]) (-2) 1);
  (*961*) AddTo n_rdm2'ovov (Times (Transpose (T 80) [0;3;1;2]) (2) 1);
  (*962*) Del (T 80);
  (*963*) AddTo n_rdm2'ovov (Times (Transpose (T 82) [0;3;1;2]) (-2) 1);
  (*964*) Del (T 82);
  (*965*) AddTo n_rdm2'ovov (Times (Transpose (T 84) [1;2;0;3]) (2) 1);
  (*966*) Del (T 84);
  (*967*) AddTo n_rdm2'ovov (Times (Einsum [(n_delta'oo,[0;1]); (T 86,[2;3])] [0;2;1;3]) (8) 1);
  (*968*) Del (T 86);
  (*969*) AddTo n_rdm2'ovov (Times (Transpose (T 69) [1;2;0;3]) (-2) 1);
  (*970*) Del (T 69);
  (*971*) AddTo n_rdm2'ovov (Times (Transpose (T 87) [1;2;0;3]) (-2) 1);
  (*972*) Del (T 87);
  (*973*) Assign n_rdm2'oovv (Times (Copy (T 51)) (2) 1);
  (*974*) AddTo n_rdm2'oovv (Times (Transpose (T 51) [0;1;3;2]) (-2) 1);
  (*975*) AddTo n_rdm2'oovv (Times (Transpose (T 51) [1;0;2;3]) (-2) 1);
  (*976*) AddTo n_rdm2'oovv (Times (Transpose (T 51) [1;0;3;2]) (2) 1);
  (*977*) Del (T 51);
  (*978*) AddTo n_rdm2'oovv (Times (Transpose n_t2 [0;1;3;2]) (-2) 1);
  (*979*) AddTo n_rdm2'oovv (Times (Copy n_t2) (4) 1);
  (*980*) AddTo n_rdm2'oovv (Times (Einsum [(n_t1,[0;1]); (n_t1,[2;3])] [0;2;3;1]) (-2) 1);
  (*981*) AddTo n_rdm2'oovv (Times (Einsum [(n_t1,[0;1]); (n_t1,[2;3])] [2;0;3;1]) (2) 1);
  (*982*) AddTo n_rdm2'oovv (Times (Copy (T 58)) (2) 1);
  (*983*) AddTo n_rdm2'oovv (Times (Transpose (T 58) [0;1;3;2]) (-2) 1);
  (*984*) Del (T 58);
  (*985*) AddTo n_rdm2'oovv (Times (Copy (T 61)) (2) 1);
  (*986*) AddTo n_rdm2'oovv (Times (Transpose (T 61) [0;1;3;2]) (-2) 1);
  (*987*) Del (T 61);
  (*988*) AddTo n_rdm2'oovv (Times (Copy (T 66)) (-4) 1);
  (*989*) AddTo n_rdm2'oovv (Times (Transpose (T 66) [0;1;3;2]) (2) 1);
  (*990*) AddTo n_rdm2'oovv (Times (Transpose (T 66) [1;0;2;3]) (2) 1);
  (*991*) AddTo n_rdm2'oovv (Times (Transpose (T 66) [1;0;3;2]) (-4) 1);
  (*992*) Del (T 66);
  (*993*) AddTo n_rdm2'oovv (Times (Einsum [(T 22,[0;1]); (n_t1,[2;3])] [2;0;3;1]) (-2) 1);
  (*994*) Del (T 22);
  (*995*) AddTo n_rdm2'oovv (Times (Copy (T 68)) (2) 1);
  (*996*) Del (T 68);
  (*997*) AddTo n_rdm2'oovv (Times (Transpose (T 70) [0;1;3;2]) (2) 1);
  (*998*) Del (T 70);
  (*999*) AddTo n_rdm2'oovv (Times (Copy (T 73)) (2) 1);
  (*1000*) AddTo n_rdm2'oovv (Times (Transpose (T 73) [1;0;3;2]) (2) 1);
  (*1001*) Del (T 73);
  (*1002*) AddTo n_rdm2'oovv (Times (Transpose (T 76) [0;1;3;2]) (-2) 1);
  (*1003*) AddTo n_rdm2'oovv (Times (Transpose (T 76) [1;0;2;3]) (-2) 1);
  (*1004*) Del (T 76);
  (*1005*) AddTo n_rdm2'oovv (Times (Copy (T 54)) (4) 1);
  (*1006*) Del (T 54);
  (*1007*) AddTo n_rdm2'oovv (Times (Copy (T 60)) (2) 1);
  (*1008*) Del (T 60);
  (*1009*) AddTo n_rdm2'oovv (Times (Transpose (T 77) [0;1;3;2]) (2) 1);
  (*1010*) Del (T 77);
  (*1011*) AddTo n_rdm2'oovv (Times (Einsum [(n_t1,[0;1]); (T 78,[2;3])] [2;0;3;1]) (2) 1);
  (*1012*) Del (T 78);
  (*1013*) Assign n_rdm2'vooo (Times (Transpose (T 5) [3;2;0;1]) (-4) 1);
  (*1014*) AddTo n_rdm2'vooo (Times (Transpose (T 5) [3;2;1;0]) (2) 1);
  (*1015*) AddTo n_rdm2'vooo (Times (Einsum [(n_l1,[0;1]); (n_delta'oo,[2;3])] [0;2;1;3]) (4) 1);
  (*1016*) AddTo n_rdm2'vooo (Times (Einsum [(n_l1,[0;1]); (n_delta'oo,[2;3])] [0;2;3;1]) (-2) 1);
  (*1017*) Assign n_rdm2'ovoo (Times (Transpose (T 5) [2;3;0;1]) (2) 1);
  (*1018*) AddTo n_rdm2'ovoo (Times (Transpose (T 5) [2;3;1;0]) (-4) 1);
  (*1019*) Del (T 5);
  (*1020*) AddTo n_rdm2'ovoo (Times (Einsum [(n_l1,[0;1]); (n_delta'oo,[2;3])] [2;0;1;3]) (-2) 1);
  (*1021*) AddTo n_rdm2'ovoo (Times (Einsum [(n_l1,[0;1]); (n_delta'oo,[2;3])] [2;0;3;1]) (4) 1);
  (*1022*) Assign n_rdm2'oovo (Times (Einsum [(T 38,[0;1]); (n_delta'oo,[2;3])] [0;2;1;3]) (-2) 1);
  (*1023*) AddTo n_rdm2'oovo (Times (Einsum [(n_delta'oo,[0;1]); (T 38,[2;3])] [0;2;3;1]) (2) 1);
  (*1024*) Del (T 38);
  (*1025*) AddTo n_rdm2'oovo (Times (Transpose (T 39) [1;2;3;0]) (-2) 1);
  (*1026*) AddTo n_rdm2'oovo (Times (Transpose (T 39) [2;1;3;0]) (2) 1);
  (*1027*) Del (T 39);
  (*1028*) AddTo n_rdm2'oovo (Times (Transpose (T 40) [1;2;3;0]) (-2) 1);
  (*1029*) AddTo n_rdm2'oovo (Times (Transpose (T 40) [2;1;3;0]) (2) 1);
  (*1030*) Del (T 40);
  (*1031*) AddTo n_rdm2'oovo (Times (Einsum [(T 24,[0;1]); (n_delta'oo,[2;3])] [0;2;1;3]) (2) 1);
  (*1032*) AddTo n_rdm2'oovo (Times (Einsum [(n_delta'oo,[0;1]); (T 24,[2;3])] [0;2;3;1]) (-2) 1);
  (*1033*) Del (T 24);
  (*1034*) AddTo n_rdm2'oovo (Times (Einsum [(n_t1,[0;1]); (n_delta'oo,[2;3])] [0;2;1;3]) (2) 1);
  (*1035*) AddTo n_rdm2'oovo (Times (Einsum [(n_delta'oo,[0;1]); (n_t1,[2;3])] [0;2;3;1]) (-2) 1);
  (*1036*) AddTo n_rdm2'oovo (Times (Transpose (T 27) [1;2;3;0]) (2) 1);
  (*1037*) AddTo n_rdm2'oovo (Times (Transpose (T 26) [2;1;3;0]) (2) 1);
  (*1038*) AddTo n_rdm2'oovo (Times (Transpose (T 13) [1;2;3;0]) (-2) 1);
  (*1039*) AddTo n_rdm2'oovo (Times (Transpose (T 18) [2;1;3;0]) (-2) 1);
  (*1040*) Del (T 18);
  (*1041*) AddTo n_rdm2'oovo (Times (Transpose (T 30) [1;2;3;0]) (2) 1);
  (*1042*) AddTo n_rdm2'oovo (Times (Einsum [(n_delta'oo,[0;1]); (T 43,[2;3])] [2;0;3;1]) (-4) 1);
  (*1043*) Del (T 43);
  (*1044*) AddTo n_rdm2'oovo (Times (Einsum [(T 44,[0;1]); (n_t1,[2;3])] [2;1;3;0]) (-2) 1);
  (*1045*) Del (T 44);
  (*1046*) Assign n_rdm2'ooov (Times (Einsum [(T 12,[0;1]); (n_delta'oo,[2;3])] [0;2;3;1]) (4) 1);
  (*1047*) AddTo n_rdm2'ooov (Times (Einsum [(n_delta'oo,[0;1]); (T 12,[2;3])] [0;2;1;3]) (-4) 1);
  (*1048*) Del (T 12);
  (*1049*) AddTo n_rdm2'ooov (Times (Transpose (T 19) [1;2;0;3]) (2) 1);
  (*1050*) AddTo n_rdm2'ooov (Times (Transpose (T 19) [2;1;0;3]) (-2) 1);
  (*1051*) Del (T 19);
  (*1052*) AddTo n_rdm2'ooov (Times (Transpose (T 21) [1;2;0;3]) (2) 1);
  (*1053*) AddTo n_rdm2'ooov (Times (Transpose (T 21) [2;1;0;3]) (-2) 1);
  (*1054*) Del (T 21);
  (*1055*) AddTo n_rdm2'ooov (Times (Einsum [(T 25,[0;1]); (n_delta'oo,[2;3])] [0;2;3;1]) (2) 1);
  (*1056*) AddTo n_rdm2'ooov (Times (Einsum [(T 25,[0;1]); (n_delta'oo,[2;3])] [2;0;3;1]) (-2) 1);
  (*1057*) Del (T 25);
  (*1058*) AddTo n_rdm2'ooov (Times (Einsum [(n_t1,[0;1]); (n_delta'oo,[2;3])] [0;2;3;1]) (-2) 1);
  (*1059*) AddTo n_rdm2'ooov (Times (Einsum [(n_delta'oo,[0;1]); (n_t1,[2;3])] [0;2;1;3]) (2) 1);
  (*1060*) AddTo n_rdm2'ooov (Times (Einsum [(n_t1,[0;1]); (T 3,[2;3])] [0;3;2;1]) (2) 1);
  (*1061*) AddTo n_rdm2'ooov (Times (Einsum [(T 3,[0;1]); (n_t1,[2;3])] [1;2;0;3]) (-2) 1);
  (*1062*) AddTo n_rdm2'ooov (Times (Transpose (T 26) [1;2;0;3]) (2) 1);
  (*1063*) Del (T 26);
  (*1064*) AddTo n_rdm2'ooov (Times (Transpose (T 27) [2;1;0;3]) (2) 1);
  (*1065*) Del (T 27);
  (*1066*) AddTo n_rdm2'ooov (Times (Transpose (T 13) [2;1;0;3]) (-2) 1);
  (*1067*) Del (T 13);
  (*1068*) AddTo n_rdm2'ooov (Times (Transpose (T 29) [1;2;0;3]) (-2) 1);
  (*1069*) Del (T 29);
  (*1070*) AddTo n_rdm2'ooov (Times (Transpose (T 30) [2;1;0;3]) (2) 1);
  (*1071*) Del (T 30);
  (*1072*) AddTo n_rdm2'ooov (Times (Einsum [(T 37,[0;1]); (n_delta'oo,[2;3])] [2;0;3;1]) (-2) 1);
  (*1073*) Del (T 37);
  (*1074*) AddTo n_rdm2'ooov (Times (Einsum [(T 35,[0;1]); (n_t1,[2;3])] [1;2;0;3]) (-4) 1);
  (*1075*) Del (T 35);
  (*1076*) Assign n_rdm2'oooo (Times (Einsum [(T 2,[0;1]); (n_delta'oo,[2;3])] [1;2;0;3]) (-4) 1);
  (*1077*) AddTo n_rdm2'oooo (Times (Einsum [(n_delta'oo,[0;1]); (T 2,[2;3])] [0;3;2;1]) (2) 1);
  (*1078*) AddTo n_rdm2'oooo (Times (Einsum [(T 2,[0;1]); (n_delta'oo,[2;3])] [1;2;3;0]) (2) 1);
  (*1079*) AddTo n_rdm2'oooo (Times (Einsum [(T 2,[0;1]); (n_delta'oo,[2;3])] [2;1;3;0]) (-4) 1);
  (*1080*) Del (T 2);
  (*1081*) AddTo n_rdm2'oooo (Times (Einsum [(T 3,[0;1]); (n_delta'oo,[2;3])] [1;2;0;3]) (-2) 1);
  (*1082*) AddTo n_rdm2'oooo (Times (Einsum [(n_delta'oo,[0;1]); (T 3,[2;3])] [0;3;2;1]) (2) 1);
  (*1083*) AddTo n_rdm2'oooo (Times (Einsum [(T 3,[0;1]); (n_delta'oo,[2;3])] [1;2;3;0]) (2) 1);
  (*1084*) AddTo n_rdm2'oooo (Times (Einsum [(n_delta'oo,[0;1]); (T 3,[2;3])] [0;3;1;2]) (-4) 1);
  (*1085*) Del (T 3);
  (*1086*) AddTo n_rdm2'oooo (Times (Einsum [(n_delta'oo,[0;1]); (n_delta'oo,[2;3])] [2;0;3;1]) (2) 1);
  (*1087*) AddTo n_rdm2'oooo (Times (Einsum [(n_delta'oo,[0;1]); (n_delta'oo,[2;3])] [2;0;1;3]) (-2) 1);
  (*1088*) AddTo n_rdm2'oooo (Times (Transpose (T 7) [3;2;0;1]) (-2) 1);
  (*1089*) AddTo n_rdm2'oooo (Times (Transpose (T 7) [2;3;0;1]) (2) 1);
  (*1090*) Del (T 7);
  (*1091*) AddTo n_rdm2'oooo (Times (Transpose (T 4) [3;2;1;0]) (2) 1);
  (*1092*) Del (T 4);
  (*1093*) AddTo n_rdm2'oooo (Times (Transpose (T 6) [3;2;1;0]) (2) 1);
  (*1094*) Del (T 6);
  (*1095*) AddTo n_rdm2'oooo (Times (Einsum [(T 8,[0;1]); (n_delta'oo,[2;3])] [1;2;0;3]) (2) 1);
  (*1096*) Del n_delta'oo;
  (*1096*) Del n_delta'vv;
  (*1096*) Del (T 8)]
 [(n_rdm2'oooo,[0;0;0;0]); (n_rdm2'ooov,[0;0;0;1]); (n_rdm2'oovo,[0;0;1;0]); (n_rdm2'ovoo,[0;1;0;0]); (n_rdm2'vooo,[1;0;0;0]); (n_rdm2'oovv,[0;0;1;1]); (n_rdm2'ovov,[0;1;0;1]); (n_rdm2'ovvo,[0;1;1;0]); (n_rdm2'voov,[1;0;0;1]); (n_rdm2'vovo,[1;0;1;0]); (n_rdm2'vvoo,[1;1;0;0]); (n_rdm2'ovvv,[0;1;1;1]); (n_rdm2'vovv,[1;0;1;1]); (n_rdm2'vvov,[1;1;0;1]); (n_rdm2'vvvo,[1;1;1;0]); (n_rdm2'vvvv,[1;1;1;1])].

(** ebcc/codegen/RDFCC2.py:1102-1200 [hbar_matvec_ip_intermediates] *)
Definition RDFCC2_hbar_matvec_ip_intermediates : prog := mkprog
 [(n_v'xov,[2;0;1]); (n_t1,[0;1]); (n_f'ov,[0;1]); (n_t2,[0;0;1;1]); (n_v'xoo,[2;0;0]); (n_v'xvv,[2;1;1]); (n_f'vv,[1;1]); (n_f'oo,[0;0])]
 [(*1157*) Assign (T 7) (Plain (Einsum [(n_v'xov,[0;1;2]); (n_t1,[1;2])] [0]));
  (*1158*) Assign (T 5) (Plain (Einsum [(n_t1,[0;1]); (n_v'xov,[2;3;1])] [0;3;2]));
  (*1159*) Assign (T 1) (Plain (Einsum [(n_f'ov,[0;1]); (n_t1,[2;1])] [0;2]));
  (*1160*) Assign (T 18) (Plain (Einsum [(n_v'xov,[0;1;2]); (n_t2,[3;1;2;4])] [3;4;0]));
  (*1161*) Assign (T 21) (Plain (Einsum [(n_v'xov,[0;1;2]); (n_t2,[3;1;4;2])] [3;4;0]));
  (*1162*) Assign (T 2) (Plain (Einsum [(n_v'xov,[0;1;2]); (n_v'xoo,[0;3;4])] [3;4;1;2]));
  (*1163*) Assign (T 33) (Plain (Einsum [(n_v'xov,[0;1;2]); (n_v'xov,[0;3;4])] [1;3;2;4]));
  (*1164*) Assign (T 30) (Plain (Einsum [(n_v'xvv,[0;1;2]); (n_v'xov,[0;3;4])] [3;1;2;4]));
  (*1165*) Assign (T 12) (Plain (Einsum [(T 7,[0]); (n_v'xov,[0;1;2])] [1;2]));
  (*1166*) Assign (T 10) (Plain (Einsum [(T 5,[0;1;2]); (n_v'xov,[2;0;3])] [1;3]));
  (*1167*) Assign (T 70) (Plain (Einsum [(T 1,[0;1]); (n_t1,[0;2])] [1;2]));
  (*1168*) Assign (T 69) (Plain (Einsum [(n_v'xvv,[0;1;2]); (T 18,[3;2;0])] [3;1]));
  (*1169*) Assign (T 68) (Plain (Einsum [(T 21,[0;1;2]); (n_v'xvv,[2;3;1])] [0;3]));
  (*1170*) Assign (T 67) (Plain (Einsum [(n_f'vv,[0;1]); (n_t1,[2;1])] [2;0]));
  (*1171*) Assign (T 61) (Plain (Einsum [(n_v'xov,[0;1;2]); (T 21,[1;3;0])] [3;2]));
  (*1172*) Assign (T 59) (Plain (Einsum [(n_v'xov,[0;1;2]); (T 18,[1;3;0])] [3;2]));
  (*1173*) Assign (T 58) (Plain (Einsum [(T 2,[0;1;2;3]); (n_t2,[4;1;3;5])] [4;0;2;5]));
  (*1174*) Assign (T 57) (Plain (Einsum [(T 2,[0;1;2;3]); (n_t2,[1;2;4;3])] [0;4]));
  (*1175*) Assign (T 56) (Plain (Einsum [(n_t2,[0;1;2;3]); (T 2,[4;0;1;2])] [4;3]));
  (*1176*) Assign (T 55) (Plain (Einsum [(n_t2,[0;1;2;3]); (n_f'ov,[4;3])] [4;0;1;2]));
  (*1177*) Assign (T 53) (Plain (Einsum [(n_f'oo,[0;1]); (n_t1,[1;2])] [0;2]));
  (*1178*) Assign (T 48) (Plain (Einsum [(T 33,[0;1;2;3]); (n_t2,[4;0;5;3])] [4;1;5;2]));
  (*1179*) Assign (T 47) (Plain (Einsum [(n_t2,[0;1;2;3]); (T 33,[1;4;5;2])] [0;4;3;5]));
  (*1180*) Assign (T 46) (Plain (Einsum [(T 18,[0;1;2]); (n_v'xoo,[2;3;4])] [0;3;4;1]));
  (*1181*) Assign (T 44) (Plain (Einsum [(n_v'xoo,[0;1;2]); (T 21,[3;4;0])] [3;1;2;4]));
  (*1182*) Assign (T 43) (Plain (Einsum [(T 2,[0;1;2;3]); (n_t2,[4;1;5;3])] [4;0;2;5]));
  (*1183*) Assign (T 41) (Plain (Einsum [(n_v'xoo,[0;1;2]); (n_v'xoo,[0;3;4])] [1;3;4;2]));
  (*1184*) Assign (T 40) (Plain (Einsum [(n_f'ov,[0;1]); (n_t2,[2;0;3;1])] [2;3]));
  (*1185*) Assign (T 39) (Plain (Einsum [(n_f'ov,[0;1]); (n_t2,[2;0;1;3])] [2;3]));
  (*1186*) Assign (T 36) (Plain (Einsum [(n_v'xvv,[0;1;2]); (n_v'xoo,[0;3;4])] [3;4;1;2]));
  (*1187*) Assign (T 34) (Plain (Einsum [(T 33,[0;1;2;3]); (n_t2,[4;5;2;3])] [4;5;0;1]));
  (*1188*) Assign (T 31) (Plain (Einsum [(T 30,[0;1;2;3]); (n_t2,[4;5;3;2])] [4;5;0;1]));
  (*1189*) Del (T 30);
  (*1190*) Assign (T 25) (Plain (Einsum [(n_t1,[0;1]); (T 12,[2;1])] [0;2]));
  (*1191*) Assign (T 24) (Plain (Einsum [(n_t1,[0;1]); (T 10,[2;1])] [0;2]));
  (*1192*) Assign (T 22) (Plain (Einsum [(n_v'xov,[0;1;2]); (T 21,[3;2;0])] [3;1]));
  (*1193*) Assign (T 19) (Plain (Einsum [(T 18,[0;1;2]); (n_v'xov,[2;3;1])] [0;3]));
  (*1194*) Assign (T 15) (Plain (Einsum [(n_v'xov,[0;1;2]); (T 5,[3;4;0])] [3;1;4;2]));
  (*1195*) Assign (T 8) (Plain (Einsum [(T 7,[0]); (n_v'xoo,[0;1;2])] [1;2]));
  (*1196*) Del (T 7);
  (*1197*) Assign (T 6) (Plain (Einsum [(T 5,[0;1;2]); (n_v'xoo,[2;3;0])] [3;1]));
  (*1198*) Del (T 5)]
 [(T 1,[0;0]); (T 2,[0;0;0;1]); (T 12,[0;1]); (T 15,[0;0;0;1]); (T 18,[0;1;2]); (T 19,[0;0]); (T 21,[0;1;2]); (T 22,[0;0]); (T 24,[0;0]); (T 25,[0;0]); (T 31,[0;0;0;1]); (T 33,[0;0;1;1]); (T 34,[0;0;0;0]); (T 36,[0;0;1;1]); (T 39,[0;1]); (T 40,[0;1]); (T 41,[0;0;0;0]); (T 43,[0;0;0;1]); (T 44,[0;0;0;1]); (T 46,[0;0;0;1]); (T 47,[0;0;1;1]); (T 48,[0;0;1;1]); (T 6,[0;0]); (T 53,[0;1]); (T 55,[0;0;0;1]); (T 56,[0;1]); (T 57,[0;1]); (T 58,[0;0;0;1]); (T 59,[1;1]); (T 61,[1;1]); (T 67,[0;1]); (T 68,[0;1]); (T 69,[0;1]); (T 70,[0;1]); (T 8,[0;0]); (T 10,[0;1])].

(** ebcc/codegen/RDFCC2.py:1202-1345 [hbar_matvec_ip] *)
Definition RDFCC2_hbar_matvec_ip : prog := mkprog
 [(n_r2,[0;0;1]); (IT 61,[1;1]); (n_f'vv,[1;1]); (IT 59,[1;1]); (n_f'ov,[0;1]); (n_t1,[0;1]); (IT 40,[0;1]); (IT 56,[0;1]); (IT 67,[0;1]); (IT 68,[0;1]); (IT 39,[0;1]); (IT 53,[0;1]); (IT 57,[0;1]); (IT 69,[0;1]); (IT 70,[0;1]); (IT 36,[0;0;1;1]); (IT 47,[0;0;1;1]); (IT 21,[0;1;2]); (n_v'xov,[2;0;1]); (IT 18,[0;1;2]); (IT 2,[0;0;0;1]); (IT 31,[0;0;0;1]); (IT 44,[0;0;0;1]); (IT 55,[0;0;0;1]); (IT 43,[0;0;0;1]); (IT 46,[0;0;0;1]); (IT 58,[0;0;0;1]); (IT 48,[0;0;1;1]); (n_f'oo,[0;0]); (IT 1,[0;0]); (IT 22,[0;0]); (IT 19,[0;0]); (IT 33,[0;0;1;1]); (IT 25,[0;0]); (IT 8,[0;0]); (IT 24,[0;0]); (IT 6,[0;0]); (IT 12,[0;1]); (IT 10,[0;1]); (IT 41,[0;0;0;0]); (IT 34,[0;0;0;0]); (n_t2,[0;0;1;1]); (n_r1,[0]); (IT 15,[0;0;0;1])]
 [(*1230*) Assign (T 4) (Times (Copy n_r2) (2) 1);
  (*1231*) AddTo (T 4) (Times (Transpose n_r2 [1;0;2]) (-1) 1);
  (*1232*) Assign (T 10) (Times (Transpose (IT 61) [1;0]) (2) 1);
  (*1233*) Del (IT 61);
  (*1234*) AddTo (T 10) (Times (Copy n_f'vv) (-1) 1);
  (*1235*) AddTo (T 10) (Times (Transpose (IT 59) [1;0]) (-1) 1);
  (*1236*) Del (IT 59);
  (*1237*) AddTo (T 10) (Plain (Einsum [(n_f'ov,[0;1]); (n_t1,[0;2])] [1;2]));
  (*1238*) Assign (T 14) (Plain (Copy n_f'ov));
  (*1239*) AddTo (T 14) (Times (Copy (IT 40)) (2) 1);
  (*1240*) Del (IT 40);
  (*1241*) AddTo (T 14) (Plain (Copy (IT 56)));
  (*1242*) Del (IT 56);
  (*1243*) AddTo (T 14) (Plain (Copy (IT 67)));
  (*1244*) Del (IT 67);
  (*1245*) AddTo (T 14) (Times (Copy (IT 68)) (2) 1);
  (*1246*) Del (IT 68);
  (*1247*) AddTo (T 14) (Times (Copy (IT 39)) (-1) 1);
  (*1248*) Del (IT 39);
  (*1249*) AddTo (T 14) (Times (Copy (IT 53)) (-1) 1);
  (*1250*) Del (IT 53);
  (*1251*) AddTo (T 14) (Times (Copy (IT 57)) (-2) 1);
  (*1252*) Del (IT 57);
  (*1253*) AddTo (T 14) (Times (Copy (IT 69)) (-1) 1);
  (*1254*) Del (IT 69);
  (*1255*) AddTo (T 14) (Times (Copy (IT 70)) (-1) 1);
  (*1256*) Del (IT 70);
  (*1257*) Assign (T 7) (Plain (Copy (IT 36)));
  (*1258*) AddTo (T 7) (Times (Copy (IT 47)) (-1) 1);
  (*1259*) Assign (T 9) (Times (Copy (IT 21)) (2) 1);
  (*1260*) Del (IT 21);
  (*1261*) AddTo (T 9) (Plain (Transpose n_v'xov [1;2;0]));
  (*1262*) AddTo (T 9) (Times (Copy (IT 18)) (-1) 1);
  (*1263*) Del (IT 18);
  (*1264*) Assign (T 12) (Plain (Copy (IT 2)));
  (*1265*) AddTo (T 12) (Plain (Transpose (IT 31) [0;2;1;3]));
  (*1266*) Del (IT 31);
  (*1267*) AddTo (T 12) (Times (Transpose (IT 44) [2;1;0;3]) (2) 1);
  (*1268*) Del (IT 44);
  (*1269*) AddTo (T 12) (Plain (Transpose (IT 55) [2;0;1;3]));
  (*1270*) Del (IT 55);
  (*1271*) AddTo (T 12) (Times (Transpose (IT 43) [1;2;0;3]) (-1) 1);
  (*1272*) Del (IT 43);
  (*1273*) AddTo (T 12) (Times (Transpose (IT 46) [2;1;0;3]) (-1) 1);
  (*1274*) Del (IT 46);
  (*1275*) AddTo (T 12) (Times (Transpose (IT 58) [0;2;1;3]) (-1) 1);
  (*1276*) Del (IT 58);
  (*1277*) Assign (T 8) (Times (Einsum [(T 4,[0;1;2]); (n_v'xov,[3;0;2])] [1;3]) (1) 2);
  (*1278*) Assign (T 6) (Times (Copy (IT 36)) (1) 2);
  (*1279*) Del (IT 36);
  (*1280*) AddTo (T 6) (Plain (Copy (IT 48)));
  (*1281*) AddTo (T 6) (Times (Copy (IT 47)) (-1) 2);
  (*1282*) Del (IT 47);
  (*1283*) Assign (T 13) (Plain (Copy n_f'oo));
  (*1284*) AddTo (T 13) (Plain (Copy (IT 1)));
  (*1285*) AddTo (T 13) (Times (Transpose (IT 22) [1;0]) (2) 1);
  (*1286*) AddTo (T 13) (Times (Transpose (IT 19) [1;0]) (-1) 1);
  (*1287*) Assign (T 11) (Times (Einsum [(IT 33,[0;1;2;3]); (T 4,[0;1;2])] [3]) (1) 2);
  (*1288*) Del (IT 33);
  (*1289*) Assign (T 5) (Plain (Copy n_f'oo));
  (*1290*) AddTo (T 5) (Plain (Copy (IT 1)));
  (*1291*) Del (IT 1);
  (*1292*) AddTo (T 5) (Times (Transpose (IT 22) [1;0]) (2) 1);
  (*1293*) Del (IT 22);
  (*1294*) AddTo (T 5) (Times (Transpose (IT 25) [1;0]) (2) 1);
  (*1295*) Del (IT 25);
  (*1296*) AddTo (T 5) (Times (Transpose (IT 8) [1;0]) (2) 1);
  (*1297*) Del (IT 8);
  (*1298*) AddTo (T 5) (Times (Transpose (IT 19) [1;0]) (-1) 1);
  (*1299*) Del (IT 19);
  (*1300*) AddTo (T 5) (Times (Transpose (IT 24) [1;0]) (-1) 1);
  (*1301*) Del (IT 24);
  (*1302*) AddTo (T 5) (Times (Transpose (IT 6) [1;0]) (-1) 1);
  (*1303*) Del (IT 6);
  (*1304*) Assign (T 3) (Times (Copy n_f'ov) (1) 2);
  (*1305*) AddTo (T 3) (Plain (Copy (IT 12)));
  (*1306*) Del (IT 12);
  (*1307*) AddTo (T 3) (Times (Copy (IT 10)) (-1) 2);
  (*1308*) Del (IT 10);
  (*1309*) Assign (T 1) (Times (Copy n_r2) (-1) 1);
  (*1310*) AddTo (T 1) (Times (Transpose n_r2 [1;0;2]) (2) 1);
  (*1311*) Assign (T 2) (Plain (Copy n_r2));
  (*1312*) AddTo (T 2) (Times (Transpose n_r2 [1;0;2]) (-1) 2);
  (*1313*) Assign n_r2new (Plain (Einsum [(IT 41,[0;1;2;3]); (n_r2,[1;3;4])] [2;0;4]));
  (*1314*) Del (IT 41);
  (*1315*) AddTo n_r2new (Plain (Einsum [(IT 34,[0;1;2;3]); (n_r2,[3;2;4])] [1;0;4]));
  (*1316*) Del (IT 34);
  (*1317*) AddTo n_r2new (Plain (Einsum [(n_r2,[0;1;2]); (IT 48,[3;1;4;2])] [3;0;4]));
  (*1318*) Del (IT 48);
  (*1319*) AddTo n_r2new (Times (Einsum [(n_r2,[0;1;2]); (T 6,[3;0;4;2])] [3;1;4]) (-2) 1);
  (*1320*) Del (T 6);
  (*1321*) AddTo n_r2new (Times (Einsum [(n_r2,[0;1;2]); (T 7,[3;1;4;2])] [0;3;4]) (-1) 1);
  (*1322*) Del (T 7);
  (*1323*) AddTo n_r2new (Times (Einsum [(T 9,[0;1;2]); (T 8,[3;2])] [0;3;1]) (2) 1);
  (*1324*) Del (T 9);
  (*1324*) Del (T 8);
  (*1325*) AddTo n_r2new (Times (Einsum [(T 10,[0;1]); (n_r2,[2;3;0])] [2;3;1]) (-1) 1);
  (*1326*) Del (T 10);
  (*1327*) AddTo n_r2new (Times (Einsum [(T 11,[0]); (n_t2,[1;2;3;0])] [1;2;3]) (-2) 1);
  (*1328*) Del (T 11);
  (*1329*) AddTo n_r2new (Plain (Einsum [(n_r1,[0]); (T 12,[1;0;2;3])] [2;1;3]));
  (*1330*) Del (T 12);
  (*1331*) AddTo n_r2new (Times (Einsum [(n_r2,[0;1;2]); (T 13,[0;3])] [3;1;2]) (-1) 1);
  (*1332*) AddTo n_r2new (Times (Einsum [(T 13,[0;1]); (n_r2,[2;0;3])] [2;1;3]) (-1) 1);
  (*1333*) Del (T 13);
  (*1334*) AddTo n_r2new (Times (Einsum [(n_r1,[0]); (T 14,[1;2])] [1;0;2]) (-1) 1);
  (*1335*) Del (T 14);
  (*1336*) Assign n_r1new (Plain (Einsum [(IT 15,[0;1;2;3]); (T 1,[2;1;3])] [0]));
  (*1337*) Del (IT 15);
  (*1337*) Del (T 1);
  (*1338*) AddTo n_r1new (Times (Einsum [(T 2,[0;1;2]); (IT 2,[3;1;0;2])] [3]) (2) 1);
  (*1339*) Del (IT 2);
  (*1339*) Del (T 2);
  (*1340*) AddTo n_r1new (Times (Einsum [(T 4,[0;1;2]); (T 3,[0;2])] [1]) (-2) 1);
  (*1341*) Del (T 4);
  (*1341*) Del (T 3);
  (*1342*) AddTo n_r1new (Times (Einsum [(n_r1,[0]); (T 5,[0;1])] [1]) (-1) 1);
  (*1343*) Del (T 5)]
 [(n_r1new,[0]); (n_r2new,[0;0;1])].

(** ebcc/codegen/RDFCC2.py:1347-1437 [hbar_matvec_ea_intermediates] *)
Definition RDFCC2_hbar_matvec_ea_intermediates : prog := mkprog
 [(n_v'xov,[2;0;1]); (n_t2,[0;0;1;1]); (n_v'xvv,[2;1;1]); (n_v'xoo,[2;0;0]); (n_f'ov,[0;1]); (n_t1,[0;1]); (n_f'oo,[0;0]); (n_f'vv,[1;1])]
 [(*1397*) Assign (T 16) (Plain (Einsum [(n_v'xov,[0;1;2]); (n_v'xov,[0;3;4])] [1;3;2;4]));
  (*1398*) Assign (T 21) (Plain (Einsum [(n_v'xov,[0;1;2]); (n_t2,[3;1;2;4])] [3;4;0]));
  (*1399*) Assign (T 2) (Plain (Einsum [(n_v'xvv,[0;1;2]); (n_v'xov,[0;3;4])] [3;1;2;4]));
  (*1400*) Assign (T 24) (Plain (Einsum [(n_v'xov,[0;1;2]); (n_t2,[3;1;4;2])] [3;4;0]));
  (*1401*) Assign (T 39) (Plain (Einsum [(n_v'xov,[0;1;2]); (n_v'xoo,[0;3;4])] [3;4;1;2]));
  (*1402*) Assign (T 47) (Plain (Einsum [(n_f'ov,[0;1]); (n_t1,[2;1])] [0;2]));
  (*1403*) Assign (T 5) (Plain (Einsum [(n_v'xov,[0;1;2]); (n_t1,[1;2])] [0]));
  (*1404*) Assign (T 10) (Plain (Einsum [(n_t1,[0;1]); (n_v'xov,[2;3;1])] [0;3;2]));
  (*1405*) Assign (T 8) (Plain (Einsum [(n_v'xvv,[0;1;2]); (n_t1,[3;2])] [3;1;0]));
  (*1406*) Assign (T 69) (Plain (Einsum [(T 16,[0;1;2;3]); (n_t2,[4;0;5;3])] [4;1;5;2]));
  (*1407*) Assign (T 66) (Plain (Einsum [(n_v'xvv,[0;1;2]); (T 21,[3;4;0])] [3;4;1;2]));
  (*1408*) Assign (T 65) (Plain (Einsum [(n_t2,[0;1;2;3]); (T 2,[1;4;3;5])] [0;2;5;4]));
  (*1409*) Assign (T 63) (Plain (Einsum [(T 24,[0;1;2]); (n_v'xvv,[2;3;4])] [0;1;3;4]));
  (*1410*) Assign (T 62) (Plain (Einsum [(n_f'ov,[0;1]); (n_t2,[2;0;3;1])] [2;3]));
  (*1411*) Assign (T 61) (Plain (Einsum [(n_f'ov,[0;1]); (n_t2,[2;0;1;3])] [2;3]));
  (*1412*) Assign (T 59) (Plain (Einsum [(T 39,[0;1;2;3]); (n_t2,[1;2;4;3])] [0;4]));
  (*1413*) Assign (T 58) (Plain (Einsum [(n_t2,[0;1;2;3]); (T 39,[4;0;1;2])] [4;3]));
  (*1414*) Assign (T 57) (Plain (Einsum [(n_f'oo,[0;1]); (n_t1,[1;2])] [0;2]));
  (*1415*) Assign (T 56) (Plain (Einsum [(T 47,[0;1]); (n_t1,[0;2])] [1;2]));
  (*1416*) Assign (T 54) (Plain (Einsum [(T 24,[0;1;2]); (n_v'xov,[2;3;1])] [0;3]));
  (*1417*) Assign (T 52) (Plain (Einsum [(n_v'xov,[0;1;2]); (T 21,[3;2;0])] [3;1]));
  (*1418*) Assign (T 51) (Plain (Einsum [(T 21,[0;1;2]); (n_v'xvv,[2;3;1])] [0;3]));
  (*1419*) Assign (T 50) (Plain (Einsum [(n_v'xvv,[0;1;2]); (T 24,[3;2;0])] [3;1]));
  (*1420*) Assign (T 48) (Plain (Einsum [(n_v'xvv,[0;1;2]); (n_v'xvv,[0;3;4])] [1;3;4;2]));
  (*1421*) Assign (T 46) (Plain (Einsum [(n_f'vv,[0;1]); (n_t1,[2;1])] [2;0]));
  (*1422*) Assign (T 40) (Plain (Einsum [(n_t2,[0;1;2;3]); (T 39,[4;0;1;5])] [4;2;3;5]));
  (*1423*) Del (T 39);
  (*1424*) Assign (T 38) (Plain (Einsum [(n_v'xvv,[0;1;2]); (n_v'xoo,[0;3;4])] [3;4;1;2]));
  (*1425*) Assign (T 37) (Plain (Einsum [(T 16,[0;1;2;3]); (n_t2,[4;0;3;5])] [4;1;5;2]));
  (*1426*) Assign (T 34) (Plain (Einsum [(n_t2,[0;1;2;3]); (T 2,[1;4;2;5])] [0;3;5;4]));
  (*1427*) Assign (T 25) (Plain (Einsum [(n_v'xov,[0;1;2]); (T 24,[1;3;0])] [3;2]));
  (*1428*) Assign (T 22) (Plain (Einsum [(n_v'xov,[0;1;2]); (T 21,[1;3;0])] [3;2]));
  (*1429*) Assign (T 13) (Plain (Einsum [(n_v'xov,[0;1;2]); (T 5,[0])] [1;2]));
  (*1430*) Assign (T 11) (Plain (Einsum [(T 10,[0;1;2]); (n_v'xov,[2;0;3])] [1;3]));
  (*1431*) Del (T 10);
  (*1432*) Assign (T 9) (Plain (Einsum [(n_v'xov,[0;1;2]); (T 8,[1;3;0])] [2;3]));
  (*1433*) Del (T 8);
  (*1434*) Assign (T 6) (Plain (Einsum [(n_v'xvv,[0;1;2]); (T 5,[0])] [1;2]));
  (*1435*) Del (T 5)]
 [(T 2,[0;1;1;1]); (T 11,[0;1]); (T 13,[0;1]); (T 16,[0;0;1;1]); (T 21,[0;1;2]); (T 22,[1;1]); (T 24,[0;1;2]); (T 25,[1;1]); (T 34,[0;1;1;1]); (T 37,[0;0;1;1]); (T 38,[0;0;1;1]); (T 40,[0;1;1;1]); (T 46,[0;1]); (T 47,[0;0]); (T 48,[1;1;1;1]); (T 50,[0;1]); (T 6,[1;1]); (T 51,[0;1]); (T 52,[0;0]); (T 54,[0;0]); (T 56,[0;1]); (T 57,[0;1]); (T 58,[0;1]); (T 59,[0;1]); (T 61,[0;1]); (T 62,[0;1]); (T 63,[0;1;1;1]); (T 65,[0;1;1;1]); (T 66,[0;1;1;1]); (T 69,[0;0;1;1]); (T 9,[1;1])].

(** ebcc/codegen/RDFCC2.py:1439-1581 [hbar_matvec_ea] *)
Definition RDFCC2_hbar_matvec_ea : prog := mkprog
 [(n_r2,[1;1;0]); (n_f'ov,[0;1]); (n_t1,[0;1]); (IT 16,[0;0;1;1]); (IT 13,[0;1]); (IT 11,[0;1]); (n_v'xov,[2;0;1]); (IT 25,[1;1]); (n_f'vv,[1;1]); (IT 22,[1;1]); (n_r1,[1]); (IT 37,[0;0;1;1]); (IT 38,[0;0;1;1]); (IT 46,[0;1]); (IT 50,[0;1]); (IT 58,[0;1]); (IT 62,[0;1]); (IT 51,[0;1]); (IT 56,[0;1]); (IT 57,[0;1]); (IT 59,[0;1]); (IT 61,[0;1]); (IT 2,[0;1;1;1]); (IT 40,[0;1;1;1]); (IT 63,[0;1;1;1]); (IT 34,[0;1;1;1]); (IT 65,[0;1;1;1]); (IT 66,[0;1;1;1]); (IT 69,[0;0;1;1]); (n_f'oo,[0;0]); (IT 47,[0;0]); (IT 54,[0;0]); (IT 52,[0;0]); (IT 24,[0;1;2]); (IT 21,[0;1;2]); (IT 6,[1;1]); (IT 9,[1;1]); (IT 48,[1;1;1;1]); (n_t2,[0;0;1;1])]
 [(*1467*) Assign (T 1) (Plain (Transpose n_r2 [2;0;1]));
  (*1468*) AddTo (T 1) (Times (Transpose n_r2 [2;1;0]) (-1) 2);
  (*1469*) Assign (T 3) (Times (Transpose n_r2 [2;0;1]) (-1) 1);
  (*1470*) AddTo (T 3) (Times (Transpose n_r2 [2;1;0]) (2) 1);
  (*1471*) Assign (T 13) (Plain (Einsum [(n_f'ov,[0;1]); (n_t1,[0;2])] [1;2]));
  (*1472*) Assign (T 5) (Times (Einsum [(T 1,[0;1;2]); (IT 16,[0;3;1;2])] [3]) (2) 1);
  (*1473*) Assign (T 2) (Plain (Copy n_f'ov));
  (*1474*) AddTo (T 2) (Times (Copy (IT 13)) (2) 1);
  (*1475*) Del (IT 13);
  (*1476*) AddTo (T 2) (Times (Copy (IT 11)) (-1) 1);
  (*1477*) Del (IT 11);
  (*1478*) Assign (T 10) (Times (Einsum [(n_v'xov,[0;1;2]); (T 3,[1;3;2])] [3;0]) (1) 2);
  (*1479*) Assign (T 14) (Times (Transpose (IT 25) [1;0]) (2) 1);
  (*1480*) AddTo (T 14) (Times (Copy n_f'vv) (-1) 1);
  (*1481*) AddTo (T 14) (Times (Transpose (IT 22) [1;0]) (-1) 1);
  (*1482*) AddTo (T 14) (Plain (Copy (T 13)));
  (*1483*) Del (T 13);
  (*1484*) Assign (T 16) (Plain (Einsum [(n_f'ov,[0;1]); (n_r1,[1])] [0]));
  (*1485*) AddTo (T 16) (Times (Copy (T 5)) (-1) 1);
  (*1486*) Assign (T 7) (Plain (Einsum [(n_r2,[0;1;2]); (IT 16,[3;4;1;0])] [3;4;2]));
  (*1487*) Del (IT 16);
  (*1488*) Assign (T 9) (Plain (Copy (IT 37)));
  (*1489*) AddTo (T 9) (Times (Copy (IT 38)) (-1) 1);
  (*1490*) Assign (T 17) (Plain (Copy n_f'ov));
  (*1491*) AddTo (T 17) (Plain (Copy (IT 46)));
  (*1492*) Del (IT 46);
  (*1493*) AddTo (T 17) (Times (Copy (IT 50)) (2) 1);
  (*1494*) Del (IT 50);
  (*1495*) AddTo (T 17) (Plain (Copy (IT 58)));
  (*1496*) Del (IT 58);
  (*1497*) AddTo (T 17) (Times (Copy (IT 62)) (2) 1);
  (*1498*) Del (IT 62);
  (*1499*) AddTo (T 17) (Times (Copy (IT 51)) (-1) 1);
  (*1500*) Del (IT 51);
  (*1501*) AddTo (T 17) (Times (Copy (IT 56)) (-1) 1);
  (*1502*) Del (IT 56);
  (*1503*) AddTo (T 17) (Times (Copy (IT 57)) (-1) 1);
  (*1504*) Del (IT 57);
  (*1505*) AddTo (T 17) (Times (Copy (IT 59)) (-2) 1);
  (*1506*) Del (IT 59);
  (*1507*) AddTo (T 17) (Times (Copy (IT 61)) (-1) 1);
  (*1508*) Del (IT 61);
  (*1509*) Assign (T 12) (Plain (Copy (IT 2)));
  (*1510*) AddTo (T 12) (Plain (Transpose (IT 40) [0;2;3;1]));
  (*1511*) Del (IT 40);
  (*1512*) AddTo (T 12) (Times (Transpose (IT 63) [0;3;2;1]) (2) 1);
  (*1513*) Del (IT 63);
  (*1514*) AddTo (T 12) (Times (Copy (IT 34)) (-1) 1);
  (*1515*) Del (IT 34);
  (*1516*) AddTo (T 12) (Times (Transpose (IT 65) [0;3;2;1]) (-1) 1);
  (*1517*) Del (IT 65);
  (*1518*) AddTo (T 12) (Times (Transpose (IT 66) [0;3;2;1]) (-1) 1);
  (*1519*) Del (IT 66);
  (*1520*) Assign (T 8) (Times (Copy (IT 38)) (1) 2);
  (*1521*) Del (IT 38);
  (*1522*) AddTo (T 8) (Plain (Copy (IT 69)));
  (*1523*) AddTo (T 8) (Times (Copy (IT 37)) (-1) 2);
  (*1524*) Del (IT 37);
  (*1525*) Assign (T 15) (Plain (Copy n_f'oo));
  (*1526*) AddTo (T 15) (Plain (Copy (IT 47)));
  (*1527*) Del (IT 47);
  (*1528*) AddTo (T 15) (Times (Transpose (IT 54) [1;0]) (2) 1);
  (*1529*) Del (IT 54);
  (*1530*) AddTo (T 15) (Times (Transpose (IT 52) [1;0]) (-1) 1);
  (*1531*) Del (IT 52);
  (*1532*) Assign (T 11) (Times (Copy (IT 24)) (2) 1);
  (*1533*) Del (IT 24);
  (*1534*) AddTo (T 11) (Plain (Transpose n_v'xov [1;2;0]));
  (*1535*) AddTo (T 11) (Times (Copy (IT 21)) (-1) 1);
  (*1536*) Del (IT 21);
  (*1537*) Assign (T 4) (Plain (Copy n_f'vv));
  (*1538*) AddTo (T 4) (Plain (Transpose (IT 22) [1;0]));
  (*1539*) Del (IT 22);
  (*1540*) AddTo (T 4) (Times (Transpose (IT 6) [1;0]) (2) 1);
  (*1541*) Del (IT 6);
  (*1542*) AddTo (T 4) (Times (Transpose (IT 25) [1;0]) (-2) 1);
  (*1543*) Del (IT 25);
  (*1544*) AddTo (T 4) (Times (Copy (IT 9)) (-1) 1);
  (*1545*) Del (IT 9);
  (*1546*) Assign (T 6) (Times (Copy (T 5)) (-1) 1);
  (*1547*) Del (T 5);
  (*1548*) AddTo (T 6) (Plain (Einsum [(T 2,[0;1]); (n_r1,[1])] [0]));
  (*1549*) Assign n_r2new (Plain (Einsum [(IT 69,[0;1;2;3]); (n_r2,[4;3;1])] [2;4;0]));
  (*1550*) Del (IT 69);
  (*1551*) AddTo n_r2new (Plain (Einsum [(n_r2,[0;1;2]); (IT 48,[3;0;4;1])] [4;3;2]));
  (*1552*) Del (IT 48);
  (*1553*) AddTo n_r2new (Plain (Einsum [(n_t2,[0;1;2;3]); (T 7,[0;1;4])] [3;2;4]));
  (*1554*) Del (T 7);
  (*1555*) AddTo n_r2new (Times (Einsum [(T 8,[0;1;2;3]); (n_r2,[3;4;1])] [2;4;0]) (-2) 1);
  (*1556*) Del (T 8);
  (*1557*) AddTo n_r2new (Plain (Einsum [(n_r2,[0;1;2]); (T 9,[3;2;4;1])] [0;4;3]));
  (*1558*) Del (T 9);
  (*1559*) AddTo n_r2new (Times (Einsum [(T 11,[0;1;2]); (T 10,[3;2])] [1;3;0]) (2) 1);
  (*1560*) Del (T 11);
  (*1560*) Del (T 10);
  (*1561*) AddTo n_r2new (Times (Einsum [(n_r1,[0]); (T 12,[1;2;0;3])] [3;2;1]) (-1) 1);
  (*1562*) Del (T 12);
  (*1563*) AddTo n_r2new (Times (Einsum [(n_r2,[0;1;2]); (T 14,[0;3])] [3;1;2]) (-1) 1);
  (*1564*) AddTo n_r2new (Times (Einsum [(n_r2,[0;1;2]); (T 14,[1;3])] [0;3;2]) (-1) 1);
  (*1565*) Del (T 14);
  (*1566*) AddTo n_r2new (Times (Einsum [(n_r2,[0;1;2]); (T 15,[2;3])] [0;1;3]) (-1) 1);
  (*1567*) Del (T 15);
  (*1568*) AddTo n_r2new (Plain (Einsum [(n_t2,[0;1;2;3]); (T 16,[1])] [2;3;0]));
  (*1569*) Del (T 16);
  (*1570*) AddTo n_r2new (Times (Einsum [(n_r1,[0]); (T 17,[1;2])] [2;0;1]) (-1) 1);
  (*1571*) Del (T 17);
  (*1572*) Assign n_r1new (Times (Einsum [(IT 2,[0;1;2;3]); (T 1,[0;3;2])] [1]) (-2) 1);
  (*1573*) Del (T 1);
  (*1573*) Del (IT 2);
  (*1574*) AddTo n_r1new (Times (Einsum [(T 3,[0;1;2]); (T 2,[0;2])] [1]) (-1) 1);
  (*1575*) Del (T 3);
  (*1575*) Del (T 2);
  (*1576*) AddTo n_r1new (Plain (Einsum [(n_r1,[0]); (T 4,[0;1])] [1]));
  (*1577*) Del (T 4);
  (*1578*) AddTo n_r1new (Times (Einsum [(T 6,[0]); (n_t1,[0;1])] [1]) (-1) 1);
  (*1579*) Del (T 6)]
 [(n_r1new,[1]); (n_r2new,[1;1;0])].

(** ebcc/codegen/RDFCC2.py:1583-1745 [hbar_lmatvec_ip_intermediates] *)
Definition RDFCC2_hbar_lmatvec_ip_intermediates : prog := mkprog
 [(n_v'xov,[2;0;1]); (n_t1,[0;1]); (n_t2,[0;0;1;1]); (n_v'xvv,[2;1;1]); (n_v'xoo,[2;0;0]); (n_f'ov,[0;1]); (n_f'vv,[1;1]); (n_f'oo,[0;0])]
 [(*1665*) Assign (T 16) (Plain (Einsum [(n_v'xov,[0;1;2]); (n_t1,[1;2])] [0]));
  (*1666*) Assign (T 14) (Plain (Einsum [(n_t1,[0;1]); (n_v'xov,[2;3;1])] [0;3;2]));
  (*1667*) Assign (T 23) (Plain (Einsum [(n_v'xov,[0;1;2]); (T 16,[0])] [1;2]));
  (*1668*) Assign (T 63) (Plain (Einsum [(n_v'xov,[0;1;2]); (T 14,[1;3;0])] [3;2]));
  (*1669*) Assign (T 102) (Plain (Einsum [(n_v'xov,[0;1;2]); (n_v'xov,[0;3;4])] [1;3;2;4]));
  (*1670*) Assign (T 33) (Plain (Einsum [(n_v'xov,[0;1;2]); (n_t2,[3;1;2;4])] [3;4;0]));
  (*1671*) Assign (T 36) (Plain (Einsum [(n_v'xov,[0;1;2]); (n_t2,[3;1;4;2])] [3;4;0]));
  (*1672*) Assign (T 134) (Plain (Einsum [(T 14,[0;1;2]); (T 14,[3;4;2])] [0;3;1;4]));
  (*1673*) Assign (T 108) (Plain (Einsum [(n_t1,[0;1]); (T 23,[2;1])] [0;2]));
  (*1674*) Assign (T 107) (Plain (Einsum [(T 63,[0;1]); (n_t1,[2;1])] [2;0]));
  (*1675*) Assign (T 26) (Plain (Einsum [(n_v'xvv,[0;1;2]); (n_t1,[3;2])] [3;1;0]));
  (*1676*) Assign (T 120) (Plain (Einsum [(n_v'xvv,[0;1;2]); (T 16,[0])] [1;2]));
  (*1677*) Assign (T 115) (Plain (Einsum [(n_v'xoo,[0;1;2]); (T 14,[3;4;0])] [3;1;2;4]));
  (*1678*) Assign (T 17) (Plain (Einsum [(n_v'xoo,[0;1;2]); (T 16,[0])] [1;2]));
  (*1679*) Del (T 16);
  (*1680*) Assign (T 15) (Plain (Einsum [(n_v'xoo,[0;1;2]); (T 14,[2;3;0])] [1;3]));
  (*1681*) Assign (T 103) (Plain (Einsum [(n_t2,[0;1;2;3]); (T 102,[4;5;3;2])] [0;1;5;4]));
  (*1682*) Assign (T 34) (Plain (Einsum [(T 33,[0;1;2]); (n_v'xov,[2;3;1])] [0;3]));
  (*1683*) Assign (T 37) (Plain (Einsum [(T 36,[0;1;2]); (n_v'xov,[2;3;1])] [0;3]));
  (*1684*) Assign (T 29) (Plain (Einsum [(T 14,[0;1;2]); (n_v'xov,[2;3;4])] [0;3;1;4]));
  (*1685*) Assign (T 59) (Plain (Einsum [(n_v'xvv,[0;1;2]); (n_v'xov,[0;3;4])] [3;1;2;4]));
  (*1686*) Assign (T 11) (Plain (Einsum [(n_v'xov,[0;1;2]); (n_v'xoo,[0;3;4])] [3;4;1;2]));
  (*1687*) Assign (T 19) (Plain (Einsum [(n_v'xoo,[0;1;2]); (n_v'xoo,[0;3;4])] [1;3;4;2]));
  (*1688*) Assign (T 1) (Plain (Einsum [(n_f'ov,[0;1]); (n_t1,[2;1])] [0;2]));
  (*1689*) Assign (T 164) (Plain (Einsum [(T 36,[0;1;2]); (n_v'xov,[2;0;3])] [1;3]));
  (*1690*) Assign (T 162) (Plain (Einsum [(n_v'xov,[0;1;2]); (T 33,[1;3;0])] [3;2]));
  (*1691*) Assign (T 143) (Plain (Einsum [(T 102,[0;1;2;3]); (n_t2,[4;0;5;3])] [4;1;5;2]));
  (*1692*) Assign (T 142) (Plain (Einsum [(T 102,[0;1;2;3]); (n_t2,[4;0;3;5])] [4;1;5;2]));
  (*1693*) Assign (T 140) (Plain (Einsum [(n_v'xvv,[0;1;2]); (n_v'xoo,[0;3;4])] [3;4;1;2]));
  (*1694*) Assign (T 135) (Plain (Einsum [(T 134,[0;1;2;3]); (n_t1,[3;4])] [0;1;2;4]));
  (*1695*) Del (T 134);
  (*1696*) Assign (T 131) (Plain (Einsum [(T 108,[0;1]); (n_t1,[1;2])] [0;2]));
  (*1697*) Assign (T 129) (Plain (Einsum [(T 107,[0;1]); (n_t1,[1;2])] [0;2]));
  (*1698*) Assign (T 126) (Plain (Einsum [(T 26,[0;1;2]); (T 14,[3;4;2])] [3;0;4;1]));
  (*1699*) Assign (T 124) (Plain (Einsum [(T 14,[0;1;2]); (T 26,[1;3;2])] [0;3]));
  (*1700*) Assign (T 121) (Plain (Einsum [(T 120,[0;1]); (n_t1,[2;1])] [2;0]));
  (*1701*) Del (T 120);
  (*1702*) Assign (T 118) (Plain (Einsum [(n_t1,[0;1]); (T 115,[2;3;4;0])] [2;3;4;1]));
  (*1703*) Assign (T 116) (Plain (Einsum [(n_t1,[0;1]); (T 115,[2;3;0;4])] [2;3;4;1]));
  (*1704*) Del (T 115);
  (*1705*) Assign (T 112) (Plain (Einsum [(T 17,[0;1]); (n_t1,[1;2])] [0;2]));
  (*1706*) Assign (T 110) (Plain (Einsum [(T 15,[0;1]); (n_t1,[1;2])] [0;2]));
  (*1707*) Assign (T 104) (Plain (Einsum [(T 103,[0;1;2;3]); (n_t1,[2;4])] [1;0;3;4]));
  (*1708*) Assign (T 99) (Plain (Einsum [(T 34,[0;1]); (n_t1,[1;2])] [0;2]));
  (*1709*) Assign (T 96) (Plain (Einsum [(T 37,[0;1]); (n_t1,[1;2])] [0;2]));
  (*1710*) Assign (T 94) (Plain (Einsum [(T 29,[0;1;2;3]); (n_t2,[4;2;5;3])] [0;4;1;5]));
  (*1711*) Assign (T 92) (Plain (Einsum [(T 29,[0;1;2;3]); (n_t2,[4;2;3;5])] [0;4;1;5]));
  (*1712*) Assign (T 89) (Plain (Einsum [(T 36,[0;1;2]); (T 14,[3;4;2])] [3;0;4;1]));
  (*1713*) Assign (T 87) (Plain (Einsum [(T 14,[0;1;2]); (T 33,[3;4;2])] [0;3;1;4]));
  (*1714*) Del (T 14);
  (*1715*) Assign (T 84) (Plain (Einsum [(n_t2,[0;1;2;3]); (T 29,[4;1;0;2])] [4;3]));
  (*1716*) Assign (T 81) (Plain (Einsum [(n_t2,[0;1;2;3]); (T 29,[4;1;0;3])] [4;2]));
  (*1717*) Assign (T 78) (Plain (Einsum [(T 23,[0;1]); (n_t2,[2;3;4;1])] [2;3;0;4]));
  (*1718*) Assign (T 75) (Plain (Einsum [(n_t2,[0;1;2;3]); (T 63,[4;3])] [0;1;4;2]));
  (*1719*) Assign (T 72) (Plain (Einsum [(n_t2,[0;1;2;3]); (T 23,[1;3])] [0;2]));
  (*1720*) Assign (T 69) (Plain (Einsum [(n_t2,[0;1;2;3]); (T 23,[1;2])] [0;3]));
  (*1721*) Assign (T 66) (Plain (Einsum [(T 63,[0;1]); (n_t2,[2;0;3;1])] [2;3]));
  (*1722*) Assign (T 64) (Plain (Einsum [(n_t2,[0;1;2;3]); (T 63,[1;2])] [0;3]));
  (*1723*) Del (T 63);
  (*1724*) Assign (T 60) (Plain (Einsum [(n_t2,[0;1;2;3]); (T 59,[4;5;3;2])] [0;1;4;5]));
  (*1725*) Del (T 59);
  (*1726*) Assign (T 56) (Plain (Einsum [(n_v'xvv,[0;1;2]); (T 33,[3;2;0])] [3;1]));
  (*1727*) Assign (T 53) (Plain (Einsum [(T 36,[0;1;2]); (n_v'xvv,[2;3;1])] [0;3]));
  (*1728*) Assign (T 51) (Plain (Einsum [(T 36,[0;1;2]); (n_v'xoo,[2;3;4])] [0;3;4;1]));
  (*1729*) Assign (T 49) (Plain (Einsum [(T 33,[0;1;2]); (n_v'xoo,[2;3;4])] [0;3;4;1]));
  (*1730*) Assign (T 47) (Plain (Einsum [(T 11,[0;1;2;3]); (n_t2,[4;0;5;3])] [4;1;2;5]));
  (*1731*) Assign (T 45) (Plain (Einsum [(T 11,[0;1;2;3]); (n_t2,[4;0;3;5])] [4;1;2;5]));
  (*1732*) Assign (T 42) (Plain (Einsum [(n_t2,[0;1;2;3]); (T 11,[0;4;1;3])] [4;2]));
  (*1733*) Assign (T 39) (Plain (Einsum [(n_t2,[0;1;2;3]); (T 11,[0;4;1;2])] [4;3]));
  (*1734*) Assign (T 31) (Plain (Einsum [(T 26,[0;1;2]); (n_v'xoo,[2;3;4])] [0;3;4;1]));
  (*1735*) Assign (T 27) (Plain (Einsum [(T 26,[0;1;2]); (n_v'xoo,[2;3;0])] [3;1]));
  (*1736*) Del (T 26);
  (*1737*) Assign (T 20) (Plain (Einsum [(n_t1,[0;1]); (T 19,[2;0;3;4])] [4;2;3;1]));
  (*1738*) Assign (T 10) (Plain (Einsum [(T 1,[0;1]); (n_t1,[0;2])] [1;2]));
  (*1739*) Assign (T 7) (Plain (Einsum [(n_t2,[0;1;2;3]); (n_f'ov,[4;3])] [4;0;1;2]));
  (*1740*) Assign (T 5) (Plain (Einsum [(n_f'ov,[0;1]); (n_t2,[2;0;3;1])] [2;3]));
  (*1741*) Assign (T 4) (Plain (Einsum [(n_f'ov,[0;1]); (n_t2,[2;0;1;3])] [2;3]));
  (*1742*) Assign (T 3) (Plain (Einsum [(n_f'vv,[0;1]); (n_t1,[2;1])] [2;0]));
  (*1743*) Assign (T 2) (Plain (Einsum [(n_f'oo,[0;1]); (n_t1,[1;2])] [0;2]))]
 [(T 1,[0;0]); (T 2,[0;1]); (T 11,[0;0;0;1]); (T 102,[0;0;1;1]); (T 103,[0;0;0;0]); (T 104,[0;0;0;1]); (T 107,[0;0]); (T 108,[0;0]); (T 110,[0;1]); (T 112,[0;1]); (T 116,[0;0;0;1]); (T 118,[0;0;0;1]); (T 121,[0;1]); (T 124,[0;1]); (T 126,[0;0;0;1]); (T 129,[0;1]); (T 131,[0;1]); (T 135,[0;0;0;1]); (T 140,[0;0;1;1]); (T 15,[0;0]); (T 142,[0;0;1;1]); (T 143,[0;0;1;1]); (T 17,[0;0]); (T 162,[1;1]); (T 164,[1;1]); (T 19,[0;0;0;0]); (T 20,[0;0;0;1]); (T 3,[0;1]); (T 23,[0;1]); (T 27,[0;1]); (T 29,[0;0;0;1]); (T 4,[0;1]); (T 31,[0;0;0;1]); (T 33,[0;1;2]); (T 34,[0;0]); (T 36,[0;1;2]); (T 37,[0;0]); (T 39,[0;1]); (T 5,[0;1]); (T 42,[0;1]); (T 45,[0;0;0;1]); (T 47,[0;0;0;1]); (T 49,[0;0;0;1]); (T 51,[0;0;0;1]); (T 53,[0;1]); (T 56,[0;1]); (T 60,[0;0;0;1]); (T 7,[0;0;0;1]); (T 64,[0;1]); (T 66,[0;1]); (T 69,[0;1]); (T 72,[0;1]); (T 75,[0;0;0;1]); (T 78,[0;0;0;1]); (T 81,[0;1]); (T 84,[0;1]); (T 87,[0;0;0;1]); (T 89,[0;0;0;1]); (T 10,[0;1]); (T 92,[0;0;0;1]); (T 94,[0;0;0;1]); (T 96,[0;1]); (T 99,[0;1])].

(** ebcc/codegen/RDFCC2.py:1747-1947 [hbar_lmatvec_ip] *)
Definition RDFCC2_hbar_lmatvec_ip : prog := mkprog
 [(n_t2,[0;0;1;1]); (IT 36,[0;1;2]); (n_v'xov,[2;0;1]); (IT 33,[0;1;2]); (n_r2,[0;0;1]); (IT 140,[0;0;1;1]); (IT 142,[0;0;1;1]); (IT 164,[1;1]); (n_f'vv,[1;1]); (IT 162,[1;1]); (n_t1,[0;1]); (n_f'ov,[0;1]); (IT 143,[0;0;1;1]); (n_f'oo,[0;0]); (IT 1,[0;0]); (IT 37,[0;0]); (IT 34,[0;0]); (IT 108,[0;0]); (IT 17,[0;0]); (IT 107,[0;0]); (IT 15,[0;0]); (IT 112,[0;1]); (IT 124,[0;1]); (IT 131,[0;1]); (IT 2,[0;1]); (IT 27,[0;1]); (IT 4,[0;1]); (IT 42,[0;1]); (IT 56,[0;1]); (IT 66,[0;1]); (IT 69,[0;1]); (IT 81,[0;1]); (IT 96,[0;1]); (IT 10,[0;1]); (IT 110,[0;1]); (IT 121,[0;1]); (IT 129,[0;1]); (IT 23,[0;1]); (IT 3,[0;1]); (IT 39,[0;1]); (IT 5,[0;1]); (IT 53,[0;1]); (IT 64,[0;1]); (IT 72,[0;1]); (IT 84,[0;1]); (IT 99,[0;1]); (IT 104,[0;0;0;1]); (IT 116,[0;0;0;1]); (IT 135,[0;0;0;1]); (IT 20,[0;0;0;1]); (IT 45,[0;0;0;1]); (IT 87,[0;0;0;1]); (IT 94,[0;0;0;1]); (IT 11,[0;0;0;1]); (IT 126,[0;0;0;1]); (IT 29,[0;0;0;1]); (IT 60,[0;0;0;1]); (IT 89,[0;0;0;1]); (IT 118,[0;0;0;1]); (IT 47,[0;0;0;1]); (IT 49,[0;0;0;1]); (IT 75,[0;0;0;1]); (IT 92,[0;0;0;1]); (IT 31,[0;0;0;1]); (IT 51,[0;0;0;1]); (IT 7,[0;0;0;1]); (IT 78,[0;0;0;1]); (n_r1,[0]); (IT 19,[0;0;0;0]); (IT 103,[0;0;0;0]); (IT 102,[0;0;1;1])]
 [(*1775*) Assign (T 13) (Plain (Transpose n_t2 [0;1;3;2]));
  (*1776*) AddTo (T 13) (Times (Copy n_t2) (-1) 2);
  (*1777*) Assign (T 10) (Times (Copy (IT 36)) (2) 1);
  (*1778*) Del (IT 36);
  (*1779*) AddTo (T 10) (Plain (Transpose n_v'xov [1;2;0]));
  (*1780*) AddTo (T 10) (Times (Copy (IT 33)) (-1) 1);
  (*1781*) Del (IT 33);
  (*1782*) Assign (T 1) (Plain (Copy n_r2));
  (*1783*) AddTo (T 1) (Times (Transpose n_r2 [1;0;2]) (-1) 2);
  (*1784*) Assign (T 14) (Plain (Einsum [(n_r2,[0;1;2]); (T 13,[0;1;3;2])] [3]));
  (*1785*) Del (T 13);
  (*1786*) Assign (T 9) (Plain (Copy (IT 140)));
  (*1787*) AddTo (T 9) (Times (Copy (IT 142)) (-1) 1);
  (*1788*) Assign (T 12) (Times (Copy (IT 164)) (2) 1);
  (*1789*) Del (IT 164);
  (*1790*) AddTo (T 12) (Times (Copy n_f'vv) (-1) 1);
  (*1791*) AddTo (T 12) (Times (Copy (IT 162)) (-1) 1);
  (*1792*) Del (IT 162);
  (*1793*) AddTo (T 12) (Plain (Einsum [(n_t1,[0;1]); (n_f'ov,[0;2])] [1;2]));
  (*1794*) Assign (T 8) (Times (Copy (IT 140)) (1) 2);
  (*1795*) Del (IT 140);
  (*1796*) AddTo (T 8) (Plain (Copy (IT 143)));
  (*1797*) AddTo (T 8) (Times (Copy (IT 142)) (-1) 2);
  (*1798*) Del (IT 142);
  (*1799*) Assign (T 15) (Plain (Copy n_f'oo));
  (*1800*) AddTo (T 15) (Plain (Transpose (IT 1) [1;0]));
  (*1801*) AddTo (T 15) (Times (Copy (IT 37)) (2) 1);
  (*1802*) AddTo (T 15) (Times (Copy (IT 34)) (-1) 1);
  (*1803*) Assign (T 11) (Times (Einsum [(T 10,[0;1;2]); (T 1,[0;3;1])] [3;2]) (2) 1);
  (*1804*) Del (T 10);
  (*1805*) Assign (T 7) (Plain (Copy n_f'oo));
  (*1806*) AddTo (T 7) (Plain (Transpose (IT 1) [1;0]));
  (*1807*) Del (IT 1);
  (*1808*) AddTo (T 7) (Times (Copy (IT 108)) (2) 1);
  (*1809*) Del (IT 108);
  (*1810*) AddTo (T 7) (Times (Transpose (IT 17) [1;0]) (2) 1);
  (*1811*) Del (IT 17);
  (*1812*) AddTo (T 7) (Times (Copy (IT 37)) (2) 1);
  (*1813*) Del (IT 37);
  (*1814*) AddTo (T 7) (Times (Copy (IT 107)) (-1) 1);
  (*1815*) Del (IT 107);
  (*1816*) AddTo (T 7) (Times (Copy (IT 15)) (-1) 1);
  (*1817*) Del (IT 15);
  (*1818*) AddTo (T 7) (Times (Copy (IT 34)) (-1) 1);
  (*1819*) Del (IT 34);
  (*1820*) Assign (T 5) (Times (Copy (IT 112)) (2) 1);
  (*1821*) Del (IT 112);
  (*1822*) AddTo (T 5) (Plain (Copy (IT 124)));
  (*1823*) Del (IT 124);
  (*1824*) AddTo (T 5) (Times (Copy (IT 131)) (2) 1);
  (*1825*) Del (IT 131);
  (*1826*) AddTo (T 5) (Plain (Copy (IT 2)));
  (*1827*) Del (IT 2);
  (*1828*) AddTo (T 5) (Plain (Copy (IT 27)));
  (*1829*) Del (IT 27);
  (*1830*) AddTo (T 5) (Plain (Copy (IT 4)));
  (*1831*) Del (IT 4);
  (*1832*) AddTo (T 5) (Times (Copy (IT 42)) (2) 1);
  (*1833*) Del (IT 42);
  (*1834*) AddTo (T 5) (Plain (Copy (IT 56)));
  (*1835*) Del (IT 56);
  (*1836*) AddTo (T 5) (Times (Copy (IT 66)) (2) 1);
  (*1837*) Del (IT 66);
  (*1838*) AddTo (T 5) (Times (Copy (IT 69)) (2) 1);
  (*1839*) Del (IT 69);
  (*1840*) AddTo (T 5) (Times (Copy (IT 81)) (2) 1);
  (*1841*) Del (IT 81);
  (*1842*) AddTo (T 5) (Times (Copy (IT 96)) (2) 1);
  (*1843*) Del (IT 96);
  (*1844*) AddTo (T 5) (Plain (Copy (IT 10)));
  (*1845*) Del (IT 10);
  (*1846*) AddTo (T 5) (Times (Copy n_f'ov) (-1) 1);
  (*1847*) AddTo (T 5) (Times (Copy (IT 110)) (-1) 1);
  (*1848*) Del (IT 110);
  (*1849*) AddTo (T 5) (Times (Copy (IT 121)) (-2) 1);
  (*1850*) Del (IT 121);
  (*1851*) AddTo (T 5) (Times (Copy (IT 129)) (-1) 1);
  (*1852*) Del (IT 129);
  (*1853*) AddTo (T 5) (Times (Copy (IT 23)) (-2) 1);
  (*1854*) Del (IT 23);
  (*1855*) AddTo (T 5) (Times (Copy (IT 3)) (-1) 1);
  (*1856*) Del (IT 3);
  (*1857*) AddTo (T 5) (Times (Copy (IT 39)) (-1) 1);
  (*1858*) Del (IT 39);
  (*1859*) AddTo (T 5) (Times (Copy (IT 5)) (-2) 1);
  (*1860*) Del (IT 5);
  (*1861*) AddTo (T 5) (Times (Copy (IT 53)) (-2) 1);
  (*1862*) Del (IT 53);
  (*1863*) AddTo (T 5) (Times (Copy (IT 64)) (-1) 1);
  (*1864*) Del (IT 64);
  (*1865*) AddTo (T 5) (Times (Copy (IT 72)) (-4) 1);
  (*1866*) Del (IT 72);
  (*1867*) AddTo (T 5) (Times (Copy (IT 84)) (-1) 1);
  (*1868*) Del (IT 84);
  (*1869*) AddTo (T 5) (Times (Copy (IT 99)) (-1) 1);
  (*1870*) Del (IT 99);
  (*1871*) Assign (T 3) (Times (Copy n_r2) (-1) 1);
  (*1872*) AddTo (T 3) (Times (Transpose n_r2 [1;0;2]) (2) 1);
  (*1873*) Assign (T 2) (Plain (Copy (IT 104)));
  (*1874*) Del (IT 104);
  (*1875*) AddTo (T 2) (Plain (Copy (IT 116)));
  (*1876*) Del (IT 116);
  (*1877*) AddTo (T 2) (Plain (Copy (IT 135)));
  (*1878*) Del (IT 135);
  (*1879*) AddTo (T 2) (Plain (Transpose (IT 20) [0;2;1;3]));
  (*1880*) Del (IT 20);
  (*1881*) AddTo (T 2) (Plain (Copy (IT 45)));
  (*1882*) Del (IT 45);
  (*1883*) AddTo (T 2) (Plain (Copy (IT 87)));
  (*1884*) Del (IT 87);
  (*1885*) AddTo (T 2) (Plain (Copy (IT 94)));
  (*1886*) Del (IT 94);
  (*1887*) AddTo (T 2) (Times (Transpose (IT 11) [1;2;0;3]) (-1) 1);
  (*1888*) AddTo (T 2) (Times (Copy (IT 126)) (-1) 1);
  (*1889*) Del (IT 126);
  (*1890*) AddTo (T 2) (Times (Copy (IT 29)) (-1) 1);
  (*1891*) Del (IT 29);
  (*1892*) AddTo (T 2) (Times (Copy (IT 60)) (-1) 1);
  (*1893*) Del (IT 60);
  (*1894*) AddTo (T 2) (Times (Copy (IT 89)) (-2) 1);
  (*1895*) Del (IT 89);
  (*1896*) Assign (T 4) (Plain (Copy (IT 118)));
  (*1897*) Del (IT 118);
  (*1898*) AddTo (T 4) (Plain (Transpose (IT 47) [0;2;1;3]));
  (*1899*) Del (IT 47);
  (*1900*) AddTo (T 4) (Plain (Transpose (IT 49) [0;2;1;3]));
  (*1901*) Del (IT 49);
  (*1902*) AddTo (T 4) (Plain (Transpose (IT 75) [0;2;1;3]));
  (*1903*) Del (IT 75);
  (*1904*) AddTo (T 4) (Plain (Transpose (IT 92) [0;2;1;3]));
  (*1905*) Del (IT 92);
  (*1906*) AddTo (T 4) (Times (Copy (IT 31)) (-1) 1);
  (*1907*) Del (IT 31);
  (*1908*) AddTo (T 4) (Times (Transpose (IT 51) [0;2;1;3]) (-2) 1);
  (*1909*) Del (IT 51);
  (*1910*) AddTo (T 4) (Times (Transpose (IT 7) [1;0;2;3]) (-1) 1);
  (*1911*) Del (IT 7);
  (*1912*) AddTo (T 4) (Times (Transpose (IT 78) [0;2;1;3]) (-2) 1);
  (*1913*) Del (IT 78);
  (*1914*) Assign (T 6) (Times (Copy n_r2) (2) 1);
  (*1915*) AddTo (T 6) (Times (Transpose n_r2 [1;0;2]) (-1) 1);
  (*1916*) Assign n_r2new (Plain (Einsum [(n_r1,[0]); (IT 11,[1;0;2;3])] [2;1;3]));
  (*1917*) Del (IT 11);
  (*1918*) AddTo n_r2new (Plain (Einsum [(IT 19,[0;1;2;3]); (n_r2,[2;3;4])] [1;0;4]));
  (*1919*) Del (IT 19);
  (*1920*) AddTo n_r2new (Plain (Einsum [(IT 103,[0;1;2;3]); (n_r2,[1;0;4])] [3;2;4]));
  (*1921*) Del (IT 103);
  (*1922*) AddTo n_r2new (Times (Einsum [(n_f'ov,[0;1]); (n_r1,[2])] [0;2;1]) (-1) 1);
  (*1923*) AddTo n_r2new (Plain (Einsum [(n_r2,[0;1;2]); (IT 143,[1;3;2;4])] [3;0;4]));
  (*1924*) Del (IT 143);
  (*1925*) AddTo n_r2new (Times (Einsum [(n_r2,[0;1;2]); (T 8,[0;3;2;4])] [3;1;4]) (-2) 1);
  (*1926*) Del (T 8);
  (*1927*) AddTo n_r2new (Times (Einsum [(T 9,[0;1;2;3]); (n_r2,[4;0;2])] [4;1;3]) (-1) 1);
  (*1928*) Del (T 9);
  (*1929*) AddTo n_r2new (Plain (Einsum [(n_v'xov,[0;1;2]); (T 11,[3;0])] [1;3;2]));
  (*1930*) Del (T 11);
  (*1931*) AddTo n_r2new (Times (Einsum [(n_r2,[0;1;2]); (T 12,[2;3])] [0;1;3]) (-1) 1);
  (*1932*) Del (T 12);
  (*1933*) AddTo n_r2new (Times (Einsum [(IT 102,[0;1;2;3]); (T 14,[3])] [0;1;2]) (-2) 1);
  (*1934*) Del (IT 102);
  (*1934*) Del (T 14);
  (*1935*) AddTo n_r2new (Times (Einsum [(n_r2,[0;1;2]); (T 15,[0;3])] [3;1;2]) (-1) 1);
  (*1936*) AddTo n_r2new (Times (Einsum [(n_r2,[0;1;2]); (T 15,[1;3])] [0;3;2]) (-1) 1);
  (*1937*) Del (T 15);
  (*1938*) Assign n_r1new (Times (Einsum [(T 1,[0;1;2]); (T 2,[1;0;3;2])] [3]) (-2) 1);
  (*1939*) Del (T 1);
  (*1939*) Del (T 2);
  (*1940*) AddTo n_r1new (Times (Einsum [(T 4,[0;1;2;3]); (T 3,[2;0;3])] [1]) (-1) 1);
  (*1941*) Del (T 4);
  (*1941*) Del (T 3);
  (*1942*) AddTo n_r1new (Plain (Einsum [(T 6,[0;1;2]); (T 5,[0;2])] [1]));
  (*1943*) Del (T 6);
  (*1943*) Del (T 5);
  (*1944*) AddTo n_r1new (Times (Einsum [(T 7,[0;1]); (n_r1,[0])] [1]) (-1) 1);
  (*1945*) Del (T 7)]
 [(n_r1new,[0]); (n_r2new,[0;0;1])].

(** ebcc/codegen/RDFCC2.py:1949-2091 [hbar_lmatvec_ea_intermediates] *)
Definition RDFCC2_hbar_lmatvec_ea_intermediates : prog := mkprog
 [(n_v'xov,[2;0;1]); (n_t1,[0;1]); (n_t2,[0;0;1;1]); (n_v'xvv,[2;1;1]); (n_v'xoo,[2;0;0]); (n_f'ov,[0;1]); (n_f'vv,[1;1]); (n_f'oo,[0;0])]
 [(*2022*) Assign (T 16) (Plain (Einsum [(n_v'xov,[0;1;2]); (n_t1,[1;2])] [0]));
  (*2023*) Assign (T 66) (Plain (Einsum [(n_t1,[0;1]); (n_v'xov,[2;3;1])] [0;3;2]));
  (*2024*) Assign (T 21) (Plain (Einsum [(n_v'xov,[0;1;2]); (T 16,[0])] [1;2]));
  (*2025*) Assign (T 67) (Plain (Einsum [(T 66,[0;1;2]); (n_v'xov,[2;0;3])] [1;3]));
  (*2026*) Assign (T 35) (Plain (Einsum [(n_v'xov,[0;1;2]); (n_t2,[3;1;2;4])] [3;4;0]));
  (*2027*) Assign (T 38) (Plain (Einsum [(n_v'xov,[0;1;2]); (n_t2,[3;1;4;2])] [3;4;0]));
  (*2028*) Assign (T 133) (Plain (Einsum [(T 21,[0;1]); (n_t1,[2;1])] [2;0]));
  (*2029*) Assign (T 130) (Plain (Einsum [(T 67,[0;1]); (n_t1,[2;1])] [2;0]));
  (*2030*) Assign (T 19) (Plain (Einsum [(n_t1,[0;1]); (n_v'xvv,[2;3;1])] [0;3;2]));
  (*2031*) Assign (T 17) (Plain (Einsum [(n_v'xvv,[0;1;2]); (T 16,[0])] [1;2]));
  (*2032*) Assign (T 114) (Plain (Einsum [(n_v'xoo,[0;1;2]); (T 16,[0])] [1;2]));
  (*2033*) Del (T 16);
  (*2034*) Assign (T 111) (Plain (Einsum [(T 66,[0;1;2]); (n_v'xoo,[2;3;0])] [3;1]));
  (*2035*) Assign (T 26) (Plain (Einsum [(n_v'xov,[0;1;2]); (n_v'xov,[0;3;4])] [1;3;2;4]));
  (*2036*) Assign (T 97) (Plain (Einsum [(T 35,[0;1;2]); (n_v'xov,[2;3;1])] [0;3]));
  (*2037*) Assign (T 93) (Plain (Einsum [(T 38,[0;1;2]); (n_v'xov,[2;3;1])] [0;3]));
  (*2038*) Assign (T 83) (Plain (Einsum [(T 66,[0;1;2]); (n_v'xov,[2;3;4])] [0;3;1;4]));
  (*2039*) Assign (T 13) (Plain (Einsum [(n_v'xvv,[0;1;2]); (n_v'xov,[0;3;4])] [3;1;2;4]));
  (*2040*) Assign (T 41) (Plain (Einsum [(n_v'xov,[0;1;2]); (n_v'xoo,[0;3;4])] [3;4;1;2]));
  (*2041*) Assign (T 11) (Plain (Einsum [(n_f'ov,[0;1]); (n_t1,[2;1])] [0;2]));
  (*2042*) Assign (T 153) (Plain (Einsum [(n_v'xvv,[0;1;2]); (n_v'xvv,[0;3;4])] [1;3;4;2]));
  (*2043*) Assign (T 134) (Plain (Einsum [(T 133,[0;1]); (n_t1,[1;2])] [0;2]));
  (*2044*) Del (T 133);
  (*2045*) Assign (T 131) (Plain (Einsum [(T 130,[0;1]); (n_t1,[1;2])] [0;2]));
  (*2046*) Del (T 130);
  (*2047*) Assign (T 128) (Plain (Einsum [(T 19,[0;1;2]); (n_v'xov,[2;3;4])] [0;3;4;1]));
  (*2048*) Assign (T 126) (Plain (Einsum [(n_v'xvv,[0;1;2]); (T 66,[3;4;0])] [3;4;1;2]));
  (*2049*) Assign (T 124) (Plain (Einsum [(T 19,[0;1;2]); (T 66,[3;0;2])] [3;1]));
  (*2050*) Del (T 66);
  (*2051*) Assign (T 121) (Plain (Einsum [(T 17,[0;1]); (n_t1,[2;1])] [2;0]));
  (*2052*) Assign (T 115) (Plain (Einsum [(T 114,[0;1]); (n_t1,[1;2])] [0;2]));
  (*2053*) Del (T 114);
  (*2054*) Assign (T 112) (Plain (Einsum [(T 111,[0;1]); (n_t1,[1;2])] [0;2]));
  (*2055*) Del (T 111);
  (*2056*) Assign (T 108) (Plain (Einsum [(n_t2,[0;1;2;3]); (T 26,[1;4;5;3])] [0;4;2;5]));
  (*2057*) Assign (T 106) (Plain (Einsum [(n_t2,[0;1;2;3]); (T 26,[1;4;5;2])] [0;4;3;5]));
  (*2058*) Assign (T 103) (Plain (Einsum [(n_v'xov,[0;1;2]); (T 38,[3;4;0])] [3;1;4;2]));
  (*2059*) Assign (T 101) (Plain (Einsum [(n_v'xov,[0;1;2]); (T 35,[3;4;0])] [3;1;4;2]));
  (*2060*) Assign (T 98) (Plain (Einsum [(T 97,[0;1]); (n_t1,[1;2])] [0;2]));
  (*2061*) Assign (T 94) (Plain (Einsum [(T 93,[0;1]); (n_t1,[1;2])] [0;2]));
  (*2062*) Assign (T 90) (Plain (Einsum [(T 83,[0;1;2;3]); (n_t2,[1;2;4;5])] [0;4;5;3]));
  (*2063*) Assign (T 87) (Plain (Einsum [(n_t2,[0;1;2;3]); (T 83,[4;1;0;2])] [4;3]));
  (*2064*) Assign (T 84) (Plain (Einsum [(T 83,[0;1;2;3]); (n_t2,[2;1;4;3])] [0;4]));
  (*2065*) Assign (T 76) (Plain (Einsum [(T 21,[0;1]); (n_t2,[2;0;3;1])] [2;3]));
  (*2066*) Assign (T 73) (Plain (Einsum [(n_t2,[0;1;2;3]); (T 21,[1;2])] [0;3]));
  (*2067*) Assign (T 70) (Plain (Einsum [(T 67,[0;1]); (n_t2,[2;0;3;1])] [2;3]));
  (*2068*) Assign (T 68) (Plain (Einsum [(T 67,[0;1]); (n_t2,[2;0;1;3])] [2;3]));
  (*2069*) Assign (T 64) (Plain (Einsum [(n_t2,[0;1;2;3]); (T 13,[1;3;4;5])] [0;2;5;4]));
  (*2070*) Assign (T 62) (Plain (Einsum [(n_t2,[0;1;2;3]); (T 13,[1;2;4;5])] [0;3;5;4]));
  (*2071*) Assign (T 59) (Plain (Einsum [(T 38,[0;1;2]); (n_v'xvv,[2;3;4])] [0;1;3;4]));
  (*2072*) Assign (T 57) (Plain (Einsum [(T 35,[0;1;2]); (n_v'xvv,[2;3;4])] [0;1;3;4]));
  (*2073*) Assign (T 54) (Plain (Einsum [(T 35,[0;1;2]); (n_v'xvv,[2;3;1])] [0;3]));
  (*2074*) Assign (T 51) (Plain (Einsum [(T 38,[0;1;2]); (n_v'xvv,[2;3;1])] [0;3]));
  (*2075*) Assign (T 48) (Plain (Einsum [(T 41,[0;1;2;3]); (n_t2,[0;2;4;5])] [1;4;5;3]));
  (*2076*) Assign (T 45) (Plain (Einsum [(T 41,[0;1;2;3]); (n_t2,[0;2;4;3])] [1;4]));
  (*2077*) Assign (T 42) (Plain (Einsum [(n_t2,[0;1;2;3]); (T 41,[0;4;1;2])] [4;3]));
  (*2078*) Assign (T 39) (Plain (Einsum [(n_v'xov,[0;1;2]); (T 38,[1;3;0])] [3;2]));
  (*2079*) Assign (T 36) (Plain (Einsum [(n_v'xov,[0;1;2]); (T 35,[1;3;0])] [3;2]));
  (*2080*) Assign (T 32) (Plain (Einsum [(T 19,[0;1;2]); (n_v'xvv,[2;3;4])] [0;3;4;1]));
  (*2081*) Assign (T 30) (Plain (Einsum [(n_v'xvv,[0;1;2]); (n_v'xoo,[0;3;4])] [3;4;1;2]));
  (*2082*) Assign (T 24) (Plain (Einsum [(T 19,[0;1;2]); (n_v'xoo,[2;3;0])] [3;1]));
  (*2083*) Assign (T 20) (Plain (Einsum [(n_v'xov,[0;1;2]); (T 19,[1;3;0])] [2;3]));
  (*2084*) Del (T 19);
  (*2085*) Assign (T 12) (Plain (Einsum [(T 11,[0;1]); (n_t1,[0;2])] [1;2]));
  (*2086*) Assign (T 5) (Plain (Einsum [(n_f'ov,[0;1]); (n_t2,[2;0;3;1])] [2;3]));
  (*2087*) Assign (T 4) (Plain (Einsum [(n_f'ov,[0;1]); (n_t2,[2;0;1;3])] [2;3]));
  (*2088*) Assign (T 3) (Plain (Einsum [(n_f'vv,[0;1]); (n_t1,[2;1])] [2;0]));
  (*2089*) Assign (T 2) (Plain (Einsum [(n_f'oo,[0;1]); (n_t1,[1;2])] [0;2]))]
 [(T 2,[0;1]); (T 11,[0;0]); (T 101,[0;0;1;1]); (T 103,[0;0;1;1]); (T 106,[0;0;1;1]); (T 108,[0;0;1;1]); (T 12,[0;1]); (T 112,[0;1]); (T 115,[0;1]); (T 13,[0;1;1;1]); (T 121,[0;1]); (T 124,[0;1]); (T 126,[0;0;1;1]); (T 128,[0;0;1;1]); (T 131,[0;1]); (T 134,[0;1]); (T 153,[1;1;1;1]); (T 17,[1;1]); (T 20,[1;1]); (T 3,[0;1]); (T 21,[0;1]); (T 24,[0;1]); (T 26,[0;0;1;1]); (T 30,[0;0;1;1]); (T 4,[0;1]); (T 32,[0;1;1;1]); (T 35,[0;1;2]); (T 36,[1;1]); (T 38,[0;1;2]); (T 39,[1;1]); (T 5,[0;1]); (T 41,[0;0;0;1]); (T 42,[0;1]); (T 45,[0;1]); (T 48,[0;1;1;1]); (T 51,[0;1]); (T 54,[0;1]); (T 57,[0;1;1;1]); (T 59,[0;1;1;1]); (T 62,[0;1;1;1]); (T 64,[0;1;1;1]); (T 67,[0;1]); (T 68,[0;1]); (T 70,[0;1]); (T 73,[0;1]); (T 76,[0;1]); (T 83,[0;0;0;1]); (T 84,[0;1]); (T 87,[0;1]); (T 90,[0;1;1;1]); (T 93,[0;0]); (T 94,[0;1]); (T 97,[0;0]); (T 98,[0;1])].

(** ebcc/codegen/RDFCC2.py:2093-2307 [hbar_lmatvec_ea] *)
Definition RDFCC2_hbar_lmatvec_ea : prog := mkprog
 [(n_t1,[0;1]); (n_r2,[1;1;0]); (IT 38,[0;1;2]); (n_v'xov,[2;0;1]); (IT 35,[0;1;2]); (n_t2,[0;0;1;1]); (n_f'ov,[0;1]); (IT 108,[0;0;1;1]); (IT 30,[0;0;1;1]); (IT 106,[0;0;1;1]); (IT 39,[1;1]); (n_f'vv,[1;1]); (IT 36,[1;1]); (n_f'oo,[0;0]); (IT 11,[0;0]); (IT 93,[0;0]); (IT 97,[0;0]); (IT 115,[0;1]); (IT 12,[0;1]); (IT 124,[0;1]); (IT 134,[0;1]); (IT 2,[0;1]); (IT 24,[0;1]); (IT 4,[0;1]); (IT 45,[0;1]); (IT 54,[0;1]); (IT 70,[0;1]); (IT 73,[0;1]); (IT 84,[0;1]); (IT 94,[0;1]); (IT 112,[0;1]); (IT 121,[0;1]); (IT 131,[0;1]); (IT 21,[0;1]); (IT 3,[0;1]); (IT 42,[0;1]); (IT 5,[0;1]); (IT 51,[0;1]); (IT 68,[0;1]); (IT 76,[0;1]); (IT 87,[0;1]); (IT 98,[0;1]); (IT 67,[0;1]); (IT 126,[0;0;1;1]); (IT 103,[0;0;1;1]); (IT 128,[0;0;1;1]); (IT 26,[0;0;1;1]); (IT 101,[0;0;1;1]); (n_r1,[1]); (IT 13,[0;1;1;1]); (IT 32,[0;1;1;1]); (IT 90,[0;1;1;1]); (IT 62,[0;1;1;1]); (IT 48,[0;1;1;1]); (IT 59,[0;1;1;1]); (IT 57,[0;1;1;1]); (IT 64,[0;1;1;1]); (IT 17,[1;1]); (IT 20,[1;1]); (IT 153,[1;1;1;1]); (IT 83,[0;0;0;1]); (IT 41,[0;0;0;1])]
 [(*2121*) Assign (T 11) (Plain (Einsum [(n_t1,[0;1]); (n_r2,[2;1;3])] [3;0;2]));
  (*2122*) Assign (T 5) (Times (Transpose n_r2 [2;0;1]) (-1) 2);
  (*2123*) AddTo (T 5) (Plain (Transpose n_r2 [2;1;0]));
  (*2124*) Assign (T 22) (Times (Copy (IT 38)) (2) 1);
  (*2125*) Del (IT 38);
  (*2126*) AddTo (T 22) (Plain (Transpose n_v'xov [1;2;0]));
  (*2127*) AddTo (T 22) (Times (Copy (IT 35)) (-1) 1);
  (*2128*) Del (IT 35);
  (*2129*) Assign (T 27) (Times (Transpose n_t2 [0;1;3;2]) (-1) 2);
  (*2130*) AddTo (T 27) (Plain (Copy n_t2));
  (*2131*) Assign (T 24) (Plain (Einsum [(n_f'ov,[0;1]); (n_t1,[0;2])] [1;2]));
  (*2132*) Assign (T 12) (Plain (Einsum [(T 11,[0;1;2]); (n_t1,[3;2])] [0;3;1]));
  (*2133*) Del (T 11);
  (*2134*) Assign (T 16) (Times (Transpose n_t2 [0;1;3;2]) (-1) 1);
  (*2135*) AddTo (T 16) (Times (Copy n_t2) (2) 1);
  (*2136*) Assign (T 1) (Plain (Transpose n_r2 [2;0;1]));
  (*2137*) AddTo (T 1) (Times (Transpose n_r2 [2;1;0]) (-1) 2);
  (*2138*) Assign (T 23) (Times (Einsum [(T 5,[0;1;2]); (T 22,[0;2;3])] [1;3]) (2) 1);
  (*2139*) Del (T 22);
  (*2140*) Assign (T 20) (Plain (Copy (IT 108)));
  (*2141*) AddTo (T 20) (Times (Copy (IT 30)) (1) 2);
  (*2142*) AddTo (T 20) (Times (Copy (IT 106)) (-1) 2);
  (*2143*) Assign (T 28) (Plain (Einsum [(n_r2,[0;1;2]); (T 27,[2;3;0;1])] [3]));
  (*2144*) Del (T 27);
  (*2145*) Assign (T 25) (Times (Copy (IT 39)) (2) 1);
  (*2146*) AddTo (T 25) (Times (Copy n_f'vv) (-1) 1);
  (*2147*) AddTo (T 25) (Times (Copy (IT 36)) (-1) 1);
  (*2148*) AddTo (T 25) (Plain (Transpose (T 24) [1;0]));
  (*2149*) Del (T 24);
  (*2150*) Assign (T 19) (Plain (Einsum [(n_t2,[0;1;2;3]); (n_r2,[2;3;4])] [4;0;1]));
  (*2151*) Assign (T 21) (Plain (Copy (IT 106)));
  (*2152*) AddTo (T 21) (Times (Copy (IT 30)) (-1) 1);
  (*2153*) Assign (T 26) (Plain (Copy n_f'oo));
  (*2154*) AddTo (T 26) (Plain (Transpose (IT 11) [1;0]));
  (*2155*) Del (IT 11);
  (*2156*) AddTo (T 26) (Times (Copy (IT 93)) (2) 1);
  (*2157*) Del (IT 93);
  (*2158*) AddTo (T 26) (Times (Copy (IT 97)) (-1) 1);
  (*2159*) Del (IT 97);
  (*2160*) Assign (T 10) (Times (Copy (IT 115)) (2) 1);
  (*2161*) Del (IT 115);
  (*2162*) AddTo (T 10) (Plain (Copy (IT 12)));
  (*2163*) Del (IT 12);
  (*2164*) AddTo (T 10) (Plain (Copy (IT 124)));
  (*2165*) Del (IT 124);
  (*2166*) AddTo (T 10) (Times (Copy (IT 134)) (2) 1);
  (*2167*) Del (IT 134);
  (*2168*) AddTo (T 10) (Plain (Copy (IT 2)));
  (*2169*) Del (IT 2);
  (*2170*) AddTo (T 10) (Plain (Copy (IT 24)));
  (*2171*) Del (IT 24);
  (*2172*) AddTo (T 10) (Plain (Copy (IT 4)));
  (*2173*) Del (IT 4);
  (*2174*) AddTo (T 10) (Times (Copy (IT 45)) (2) 1);
  (*2175*) Del (IT 45);
  (*2176*) AddTo (T 10) (Plain (Copy (IT 54)));
  (*2177*) Del (IT 54);
  (*2178*) AddTo (T 10) (Times (Copy (IT 70)) (2) 1);
  (*2179*) Del (IT 70);
  (*2180*) AddTo (T 10) (Times (Copy (IT 73)) (2) 1);
  (*2181*) Del (IT 73);
  (*2182*) AddTo (T 10) (Times (Copy (IT 84)) (2) 1);
  (*2183*) Del (IT 84);
  (*2184*) AddTo (T 10) (Times (Copy (IT 94)) (2) 1);
  (*2185*) Del (IT 94);
  (*2186*) AddTo (T 10) (Times (Copy n_f'ov) (-1) 1);
  (*2187*) AddTo (T 10) (Times (Copy (IT 112)) (-1) 1);
  (*2188*) Del (IT 112);
  (*2189*) AddTo (T 10) (Times (Copy (IT 121)) (-2) 1);
  (*2190*) Del (IT 121);
  (*2191*) AddTo (T 10) (Times (Copy (IT 131)) (-1) 1);
  (*2192*) Del (IT 131);
  (*2193*) AddTo (T 10) (Times (Copy (IT 21)) (-2) 1);
  (*2194*) AddTo (T 10) (Times (Copy (IT 3)) (-1) 1);
  (*2195*) Del (IT 3);
  (*2196*) AddTo (T 10) (Times (Copy (IT 42)) (-1) 1);
  (*2197*) Del (IT 42);
  (*2198*) AddTo (T 10) (Times (Copy (IT 5)) (-2) 1);
  (*2199*) Del (IT 5);
  (*2200*) AddTo (T 10) (Times (Copy (IT 51)) (-2) 1);
  (*2201*) Del (IT 51);
  (*2202*) AddTo (T 10) (Times (Copy (IT 68)) (-1) 1);
  (*2203*) Del (IT 68);
  (*2204*) AddTo (T 10) (Times (Copy (IT 76)) (-4) 1);
  (*2205*) Del (IT 76);
  (*2206*) AddTo (T 10) (Times (Copy (IT 87)) (-1) 1);
  (*2207*) Del (IT 87);
  (*2208*) AddTo (T 10) (Times (Copy (IT 98)) (-1) 1);
  (*2209*) Del (IT 98);
  (*2210*) Assign (T 14) (Times (Copy (T 12)) (-1) 1);
  (*2211*) AddTo (T 14) (Times (Transpose (T 12) [0;2;1]) (2) 1);
  (*2212*) Assign (T 18) (Plain (Copy n_f'ov));
  (*2213*) AddTo (T 18) (Times (Copy (IT 21)) (2) 1);
  (*2214*) Del (IT 21);
  (*2215*) AddTo (T 18) (Times (Copy (IT 67)) (-1) 1);
  (*2216*) Del (IT 67);
  (*2217*) Assign (T 7) (Plain (Transpose (IT 126) [0;1;3;2]));
  (*2218*) Del (IT 126);
  (*2219*) AddTo (T 7) (Plain (Transpose (IT 30) [0;1;3;2]));
  (*2220*) Del (IT 30);
  (*2221*) AddTo (T 7) (Times (Copy (IT 106)) (-1) 1);
  (*2222*) Del (IT 106);
  (*2223*) Assign (T 9) (Times (Copy (IT 103)) (2) 1);
  (*2224*) Del (IT 103);
  (*2225*) AddTo (T 9) (Plain (Transpose (IT 128) [0;1;3;2]));
  (*2226*) Del (IT 128);
  (*2227*) AddTo (T 9) (Plain (Copy (IT 26)));
  (*2228*) AddTo (T 9) (Times (Copy (IT 101)) (-1) 1);
  (*2229*) Del (IT 101);
  (*2230*) AddTo (T 9) (Times (Copy (IT 108)) (-1) 1);
  (*2231*) Assign (T 17) (Plain (Einsum [(n_r1,[0]); (n_t1,[1;0])] [1]));
  (*2232*) AddTo (T 17) (Times (Einsum [(T 16,[0;1;2;3]); (n_r2,[2;3;0])] [1]) (-1) 1);
  (*2233*) Del (T 16);
  (*2234*) Assign (T 3) (Times (Transpose n_r2 [2;0;1]) (-1) 1);
  (*2235*) AddTo (T 3) (Times (Transpose n_r2 [2;1;0]) (2) 1);
  (*2236*) Assign (T 2) (Plain (Copy (IT 13)));
  (*2237*) AddTo (T 2) (Plain (Copy (IT 32)));
  (*2238*) Del (IT 32);
  (*2239*) AddTo (T 2) (Plain (Transpose (IT 90) [0;3;1;2]));
  (*2240*) Del (IT 90);
  (*2241*) AddTo (T 2) (Times (Transpose (IT 62) [0;2;1;3]) (-1) 1);
  (*2242*) Del (IT 62);
  (*2243*) Assign (T 8) (Times (Einsum [(n_t1,[0;1]); (T 1,[2;3;1])] [2;0;3]) (2) 1);
  (*2244*) Assign (T 4) (Plain (Copy (IT 48)));
  (*2245*) Del (IT 48);
  (*2246*) AddTo (T 4) (Times (Copy (IT 59)) (2) 1);
  (*2247*) Del (IT 59);
  (*2248*) AddTo (T 4) (Times (Copy (IT 57)) (-1) 1);
  (*2249*) Del (IT 57);
  (*2250*) AddTo (T 4) (Times (Transpose (IT 64) [0;1;3;2]) (-1) 1);
  (*2251*) Del (IT 64);
  (*2252*) Assign (T 6) (Plain (Einsum [(n_t1,[0;1]); (T 5,[2;3;1])] [2;0;3]));
  (*2253*) Del (T 5);
  (*2254*) Assign (T 15) (Plain (Copy n_f'vv));
  (*2255*) AddTo (T 15) (Times (Transpose (IT 17) [1;0]) (2) 1);
  (*2256*) Del (IT 17);
  (*2257*) AddTo (T 15) (Plain (Copy (IT 36)));
  (*2258*) Del (IT 36);
  (*2259*) AddTo (T 15) (Times (Transpose (IT 20) [1;0]) (-1) 1);
  (*2260*) Del (IT 20);
  (*2261*) AddTo (T 15) (Times (Copy (IT 39)) (-2) 1);
  (*2262*) Del (IT 39);
  (*2263*) Assign (T 13) (Plain (Copy (T 12)));
  (*2264*) AddTo (T 13) (Times (Transpose (T 12) [0;2;1]) (-1) 2);
  (*2265*) Del (T 12);
  (*2266*) Assign n_r2new (Plain (Einsum [(IT 108,[0;1;2;3]); (n_r2,[4;2;0])] [3;4;1]));
  (*2267*) Del (IT 108);
  (*2268*) AddTo n_r2new (Times (Einsum [(n_f'ov,[0;1]); (n_r1,[2])] [1;2;0]) (-1) 1);
  (*2269*) AddTo n_r2new (Times (Einsum [(IT 13,[0;1;2;3]); (n_r1,[2])] [3;1;0]) (-1) 1);
  (*2270*) Del (IT 13);
  (*2271*) AddTo n_r2new (Plain (Einsum [(n_r2,[0;1;2]); (IT 153,[3;4;0;1])] [4;3;2]));
  (*2272*) Del (IT 153);
  (*2273*) AddTo n_r2new (Plain (Einsum [(IT 26,[0;1;2;3]); (T 19,[4;1;0])] [3;2;4]));
  (*2274*) Del (T 19);
  (*2275*) AddTo n_r2new (Times (Einsum [(T 20,[0;1;2;3]); (n_r2,[2;4;0])] [3;4;1]) (-2) 1);
  (*2276*) Del (T 20);
  (*2277*) AddTo n_r2new (Plain (Einsum [(n_r2,[0;1;2]); (T 21,[2;3;1;4])] [0;4;3]));
  (*2278*) Del (T 21);
  (*2279*) AddTo n_r2new (Plain (Einsum [(n_v'xov,[0;1;2]); (T 23,[3;0])] [2;3;1]));
  (*2280*) Del (T 23);
  (*2281*) AddTo n_r2new (Times (Einsum [(n_r2,[0;1;2]); (T 25,[0;3])] [3;1;2]) (-1) 1);
  (*2282*) AddTo n_r2new (Times (Einsum [(T 25,[0;1]); (n_r2,[2;0;3])] [2;1;3]) (-1) 1);
  (*2283*) Del (T 25);
  (*2284*) AddTo n_r2new (Times (Einsum [(n_r2,[0;1;2]); (T 26,[2;3])] [0;1;3]) (-1) 1);
  (*2285*) Del (T 26);
  (*2286*) AddTo n_r2new (Times (Einsum [(T 28,[0]); (IT 26,[0;1;2;3])] [3;2;1]) (-2) 1);
  (*2287*) Del (IT 26);
  (*2287*) Del (T 28);
  (*2288*) Assign n_r1new (Times (Einsum [(T 1,[0;1;2]); (T 2,[0;3;2;1])] [3]) (-2) 1);
  (*2289*) Del (T 1);
  (*2289*) Del (T 2);
  (*2290*) AddTo n_r1new (Times (Einsum [(T 3,[0;1;2]); (T 4,[0;2;1;3])] [3]) (-1) 1);
  (*2291*) Del (T 4);
  (*2292*) AddTo n_r1new (Times (Einsum [(T 7,[0;1;2;3]); (T 6,[0;1;2])] [3]) (2) 1);
  (*2293*) Del (T 7);
  (*2293*) Del (T 6);
  (*2294*) AddTo n_r1new (Plain (Einsum [(T 8,[0;1;2]); (T 9,[0;1;2;3])] [3]));
  (*2295*) Del (T 8);
  (*2295*) Del (T 9);
  (*2296*) AddTo n_r1new (Plain (Einsum [(T 3,[0;1;2]); (T 10,[0;2])] [1]));
  (*2297*) Del (T 3);
  (*2297*) Del (T 10);
  (*2298*) AddTo n_r1new (Times (Einsum [(IT 83,[0;1;2;3]); (T 13,[0;2;1])] [3]) (-2) 1);
  (*2299*) Del (IT 83);
  (*2299*) Del (T 13);
  (*2300*) AddTo n_r1new (Times (Einsum [(IT 41,[0;1;2;3]); (T 14,[0;2;1])] [3]) (-1) 1);
  (*2301*) Del (IT 41);
  (*2301*) Del (T 14);
  (*2302*) AddTo n_r1new (Plain (Einsum [(T 15,[0;1]); (n_r1,[0])] [1]));
  (*2303*) Del (T 15);
  (*2304*) AddTo n_r1new (Times (Einsum [(T 17,[0]); (T 18,[0;1])] [1]) (-1) 1);
  (*2305*) Del (T 17);
  (*2305*) Del (T 18)]
 [(n_r1new,[1]); (n_r2new,[1;1;0])].

