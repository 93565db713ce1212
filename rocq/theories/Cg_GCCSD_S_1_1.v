(** Generated by tools/translate_codegen.py from ebcc/codegen/GCCSD_S_1_1.py; one statement per source line
    (the number in the comment before it). *)
From Coq Require Import ZArith List.
From Verif Require Import CgModel CgNames.
Import ListNotations.

(** ebcc/codegen/GCCSD_S_1_1.py:7-23 [energy] *)
Definition GCCSD_S_1_1_energy : prog := mkprog
 [(n_t2,[0;0;1;1]); (n_t1,[0;1]); (n_v'oovv,[0;0;1;1]); (n_u11,[3;0;1]); (n_s1,[3]); (n_g'bov,[3;0;1]); (n_f'ov,[0;1]); (n_G,[3])]
 [(*9*) Assign (T 1) (Plain (Zeros [0;0;1;1]));
  (*10*) AddTo (T 1) (Plain (Einsum [(n_t2,[0;1;2;3])] [1;0;3;2]));
  (*11*) AddTo (T 1) (Times (Einsum [(n_t1,[0;1]); (n_t1,[2;3])] [0;2;1;3]) (2) 1);
  (*12*) Assign n_e_cc (Plain (Zeros []));
  (*13*) AddTo n_e_cc (Times (Einsum [(n_v'oovv,[0;1;2;3]); (T 1,[0;1;2;3])] []) (1) 4);
  (*14*) Del (T 1);
  (*15*) Assign (T 2) (Plain (Zeros [3;0;1]));
  (*16*) AddTo (T 2) (Plain (Einsum [(n_u11,[0;1;2])] [0;1;2]));
  (*17*) AddTo (T 2) (Plain (Einsum [(n_s1,[0]); (n_t1,[1;2])] [0;1;2]));
  (*18*) AddTo n_e_cc (Plain (Einsum [(n_g'bov,[0;1;2]); (T 2,[0;1;2])] []));
  (*19*) Del (T 2);
  (*20*) AddTo n_e_cc (Plain (Einsum [(n_f'ov,[0;1]); (n_t1,[0;1])] []));
  (*21*) AddTo n_e_cc (Plain (Einsum [(n_G,[0]); (n_s1,[0])] []))]
 [(n_e_cc,[])].

(** ebcc/codegen/GCCSD_S_1_1.py:25-360 [update_amps] *)
Definition GCCSD_S_1_1_update_amps : prog := mkprog
 [(n_g'boo,[3;0;0]); (n_g'bvo,[3;1;0]); (n_g'bov,[3;0;1]); (n_g'bvv,[3;1;1]); (n_t1,[0;1]); (n_v'oovv,[0;0;1;1]); (n_t2,[0;0;1;1]); (n_v'ooov,[0;0;0;1]); (n_s1,[3]); (n_f'ov,[0;1]); (n_u11,[3;0;1]); (n_f'oo,[0;0]); (n_v'ovvv,[0;1;1;1]); (n_f'vv,[1;1]); (n_G,[3]); (n_v'vvvv,[1;1;1;1]); (n_v'ovov,[0;1;0;1]); (n_v'vvov,[1;1;0;1]); (n_v'oooo,[0;0;0;0]); (n_v'ovoo,[0;1;0;0]); (n_w,[3;3]); (n_f'vo,[1;0]); (n_v'vvoo,[1;1;0;0])]
 [(*27*) Assign n_gc'boo (Plain (Transpose n_g'boo [0;2;1]));
  (*27*) Assign n_gc'bov (Plain (Transpose n_g'bvo [0;2;1]));
  (*27*) Assign n_gc'bvo (Plain (Transpose n_g'bov [0;2;1]));
  (*27*) Assign n_gc'bvv (Plain (Transpose n_g'bvv [0;2;1]));
  (*35*) Assign (T 1) (Plain (Zeros [0;0;0;1]));
  (*36*) AddTo (T 1) (Plain (Einsum [(n_t1,[0;1]); (n_v'oovv,[2;3;4;1])] [0;2;3;4]));
  (*37*) Assign (T 2) (Plain (Zeros [0;0;0;1]));
  (*38*) AddTo (T 2) (Times (Einsum [(T 1,[0;1;2;3])] [0;2;1;3]) (-1) 1);
  (*39*) Assign (T 30) (Plain (Zeros [0;0;0;1]));
  (*40*) AddTo (T 30) (Plain (Einsum [(n_t2,[0;1;2;3]); (T 1,[4;1;5;3])] [4;0;5;2]));
  (*41*) Assign (T 31) (Plain (Zeros [0;0;0;1]));
  (*42*) SubFrom (T 31) (Plain (Einsum [(T 30,[0;1;2;3])] [0;2;1;3]));
  (*43*) Del (T 30);
  (*44*) Assign (T 65) (Plain (Zeros [0;0;0;0]));
  (*45*) AddTo (T 65) (Plain (Einsum [(n_t1,[0;1]); (T 1,[2;3;4;1])] [2;0;4;3]));
  (*46*) Del (T 1);
  (*47*) Assign (T 66) (Plain (Zeros [0;0;0;0]));
  (*48*) AddTo (T 66) (Times (Einsum [(T 65,[0;1;2;3])] [2;3;1;0]) (-1) 1);
  (*49*) Assign (T 67) (Plain (Zeros [0;0;0;0]));
  (*50*) AddTo (T 67) (Times (Einsum [(T 65,[0;1;2;3])] [2;3;1;0]) (-1) 1);
  (*51*) Del (T 65);
  (*52*) AddTo (T 2) (Plain (Einsum [(n_v'ooov,[0;1;2;3])] [2;1;0;3]));
  (*53*) Assign n_t1new (Plain (Zeros [0;1]));
  (*54*) AddTo n_t1new (Times (Einsum [(n_t2,[0;1;2;3]); (T 2,[4;0;1;2])] [4;3]) (-1) 2);
  (*55*) Del (T 2);
  (*56*) Assign (T 3) (Plain (Zeros [0;1]));
  (*57*) AddTo (T 3) (Plain (Einsum [(n_s1,[0]); (n_g'bov,[0;1;2])] [1;2]));
  (*58*) Assign (T 5) (Plain (Zeros [0;1]));
  (*59*) AddTo (T 5) (Plain (Einsum [(T 3,[0;1])] [0;1]));
  (*60*) Assign (T 12) (Plain (Zeros [0;1]));
  (*61*) AddTo (T 12) (Plain (Einsum [(T 3,[0;1])] [0;1]));
  (*62*) Assign (T 72) (Plain (Zeros [0;1]));
  (*63*) AddTo (T 72) (Plain (Einsum [(T 3,[0;1])] [0;1]));
  (*64*) Del (T 3);
  (*65*) Assign (T 4) (Plain (Zeros [0;1]));
  (*66*) AddTo (T 4) (Plain (Einsum [(n_t1,[0;1]); (n_v'oovv,[2;0;3;1])] [2;3]));
  (*67*) AddTo (T 5) (Plain (Einsum [(T 4,[0;1])] [0;1]));
  (*68*) AddTo (T 12) (Plain (Einsum [(T 4,[0;1])] [0;1]));
  (*69*) Assign (T 71) (Plain (Zeros [1;1]));
  (*70*) AddTo (T 71) (Plain (Einsum [(n_t1,[0;1]); (T 4,[0;2])] [1;2]));
  (*71*) Del (T 4);
  (*72*) AddTo (T 5) (Plain (Einsum [(n_f'ov,[0;1])] [0;1]));
  (*73*) Assign (T 38) (Plain (Zeros [0;0]));
  (*74*) AddTo (T 38) (Plain (Einsum [(n_t1,[0;1]); (T 5,[2;1])] [0;2]));
  (*75*) Assign (T 39) (Plain (Zeros [0;0]));
  (*76*) AddTo (T 39) (Plain (Einsum [(T 38,[0;1])] [0;1]));
  (*77*) Del (T 38);
  (*78*) Assign (T 52) (Plain (Zeros [0;0;0;1]));
  (*79*) AddTo (T 52) (Plain (Einsum [(T 5,[0;1]); (n_t2,[2;3;1;4])] [2;3;0;4]));
  (*80*) Assign (T 53) (Plain (Zeros [0;0;0;1]));
  (*81*) AddTo (T 53) (Plain (Einsum [(T 52,[0;1;2;3])] [2;1;0;3]));
  (*82*) Del (T 52);
  (*83*) AddTo n_t1new (Plain (Einsum [(T 5,[0;1]); (n_t2,[0;2;1;3])] [2;3]));
  (*84*) Assign n_s1new (Plain (Zeros [3]));
  (*85*) AddTo n_s1new (Plain (Einsum [(T 5,[0;1]); (n_u11,[2;0;1])] [2]));
  (*86*) Del (T 5);
  (*87*) Assign (T 6) (Plain (Zeros [3;0;0]));
  (*88*) AddTo (T 6) (Plain (Einsum [(n_t1,[0;1]); (n_g'bov,[2;3;1])] [2;3;0]));
  (*89*) Assign (T 7) (Plain (Zeros [3;0;0]));
  (*90*) AddTo (T 7) (Plain (Einsum [(T 6,[0;1;2])] [0;1;2]));
  (*91*) Del (T 6);
  (*92*) AddTo (T 7) (Plain (Einsum [(n_g'boo,[0;1;2])] [0;1;2]));
  (*93*) Assign (T 25) (Plain (Zeros [3;0;1]));
  (*94*) AddTo (T 25) (Plain (Einsum [(n_t1,[0;1]); (T 7,[2;0;3])] [2;3;1]));
  (*95*) Assign (T 26) (Plain (Zeros [3;0;1]));
  (*96*) SubFrom (T 26) (Plain (Einsum [(T 25,[0;1;2])] [0;1;2]));
  (*97*) Del (T 25);
  (*98*) SubFrom n_t1new (Plain (Einsum [(n_u11,[0;1;2]); (T 7,[0;1;3])] [3;2]));
  (*99*) Del (T 7);
  (*100*) Assign (T 8) (Plain (Zeros [0;0]));
  (*101*) AddTo (T 8) (Plain (Einsum [(n_s1,[0]); (n_g'boo,[0;1;2])] [1;2]));
  (*102*) Assign (T 14) (Plain (Zeros [0;0]));
  (*103*) AddTo (T 14) (Plain (Einsum [(T 8,[0;1])] [0;1]));
  (*104*) AddTo (T 39) (Plain (Einsum [(T 8,[0;1])] [1;0]));
  (*105*) Del (T 8);
  (*106*) Assign (T 9) (Plain (Zeros [0;0]));
  (*107*) AddTo (T 9) (Plain (Einsum [(n_g'bov,[0;1;2]); (n_u11,[0;3;2])] [1;3]));
  (*108*) AddTo (T 14) (Plain (Einsum [(T 9,[0;1])] [0;1]));
  (*109*) Assign (T 41) (Plain (Zeros [0;0]));
  (*110*) AddTo (T 41) (Plain (Einsum [(T 9,[0;1])] [0;1]));
  (*111*) Del (T 9);
  (*112*) Assign (T 10) (Plain (Zeros [0;0]));
  (*113*) SubFrom (T 10) (Plain (Einsum [(n_t1,[0;1]); (n_v'ooov,[0;2;3;1])] [2;3]));
  (*114*) AddTo (T 14) (Plain (Einsum [(T 10,[0;1])] [0;1]));
  (*115*) AddTo (T 41) (Plain (Einsum [(T 10,[0;1])] [0;1]));
  (*116*) Del (T 10);
  (*117*) Assign (T 42) (Plain (Zeros [0;0;1;1]));
  (*118*) AddTo (T 42) (Plain (Einsum [(T 41,[0;1]); (n_t2,[0;2;3;4])] [2;1;3;4]));
  (*119*) Del (T 41);
  (*120*) Assign (T 43) (Plain (Zeros [0;0;1;1]));
  (*121*) SubFrom (T 43) (Plain (Einsum [(T 42,[0;1;2;3])] [0;1;3;2]));
  (*122*) Del (T 42);
  (*123*) Assign (T 11) (Plain (Zeros [0;0]));
  (*124*) SubFrom (T 11) (Plain (Einsum [(n_t2,[0;1;2;3]); (n_v'oovv,[1;4;2;3])] [0;4]));
  (*125*) AddTo (T 14) (Times (Einsum [(T 11,[0;1])] [1;0]) (1) 2);
  (*126*) Assign (T 45) (Plain (Zeros [0;0;1;1]));
  (*127*) AddTo (T 45) (Plain (Einsum [(T 11,[0;1]); (n_t2,[2;1;3;4])] [2;0;3;4]));
  (*128*) Del (T 11);
  (*129*) Assign (T 46) (Plain (Zeros [0;0;1;1]));
  (*130*) AddTo (T 46) (Times (Einsum [(T 45,[0;1;2;3])] [0;1;3;2]) (-1) 2);
  (*131*) Del (T 45);
  (*132*) AddTo (T 12) (Plain (Einsum [(n_f'ov,[0;1])] [0;1]));
  (*133*) Assign (T 13) (Plain (Zeros [0;0]));
  (*134*) AddTo (T 13) (Plain (Einsum [(n_t1,[0;1]); (T 12,[2;1])] [0;2]));
  (*135*) Del (T 12);
  (*136*) AddTo (T 14) (Plain (Einsum [(T 13,[0;1])] [1;0]));
  (*137*) Del (T 13);
  (*138*) AddTo (T 14) (Plain (Einsum [(n_f'oo,[0;1])] [0;1]));
  (*139*) AddTo n_t1new (Times (Einsum [(n_t1,[0;1]); (T 14,[0;2])] [2;1]) (-1) 1);
  (*140*) Assign n_u11new (Plain (Zeros [3;0;1]));
  (*141*) AddTo n_u11new (Times (Einsum [(T 14,[0;1]); (n_u11,[2;0;3])] [2;1;3]) (-1) 1);
  (*142*) Del (T 14);
  (*143*) Assign (T 15) (Plain (Zeros [1;1]));
  (*144*) AddTo (T 15) (Plain (Einsum [(n_s1,[0]); (n_g'bvv,[0;1;2])] [1;2]));
  (*145*) Assign (T 17) (Plain (Zeros [1;1]));
  (*146*) AddTo (T 17) (Plain (Einsum [(T 15,[0;1])] [0;1]));
  (*147*) Assign (T 48) (Plain (Zeros [0;0;1;1]));
  (*148*) AddTo (T 48) (Plain (Einsum [(T 15,[0;1]); (n_t2,[2;3;4;1])] [2;3;0;4]));
  (*149*) Assign (T 58) (Plain (Zeros [0;0;1;1]));
  (*150*) AddTo (T 58) (Plain (Einsum [(T 48,[0;1;2;3])] [0;1;2;3]));
  (*151*) Del (T 48);
  (*152*) AddTo (T 71) (Times (Einsum [(T 15,[0;1])] [0;1]) (-1) 1);
  (*153*) Del (T 15);
  (*154*) Assign (T 16) (Plain (Zeros [1;1]));
  (*155*) SubFrom (T 16) (Plain (Einsum [(n_t1,[0;1]); (n_v'ovvv,[0;2;1;3])] [2;3]));
  (*156*) SubFrom (T 17) (Plain (Einsum [(T 16,[0;1])] [0;1]));
  (*157*) Assign (T 56) (Plain (Zeros [1;1]));
  (*158*) AddTo (T 56) (Plain (Einsum [(T 16,[0;1])] [0;1]));
  (*159*) AddTo (T 71) (Plain (Einsum [(T 16,[0;1])] [0;1]));
  (*160*) Del (T 16);
  (*161*) AddTo (T 17) (Plain (Einsum [(n_f'vv,[0;1])] [0;1]));
  (*162*) AddTo n_t1new (Plain (Einsum [(n_t1,[0;1]); (T 17,[2;1])] [0;2]));
  (*163*) Del (T 17);
  (*164*) Assign (T 18) (Plain (Zeros [3]));
  (*165*) AddTo (T 18) (Plain (Einsum [(n_G,[0])] [0]));
  (*166*) AddTo (T 18) (Plain (Einsum [(n_t1,[0;1]); (n_g'bov,[2;0;1])] [2]));
  (*167*) AddTo n_t1new (Plain (Einsum [(T 18,[0]); (n_u11,[0;1;2])] [1;2]));
  (*168*) Del (T 18);
  (*169*) Assign (T 19) (Plain (Zeros [0;1;1;1]));
  (*170*) AddTo (T 19) (Plain (Einsum [(n_t1,[0;1]); (n_v'vvvv,[2;3;4;1])] [0;2;3;4]));
  (*171*) Assign n_t2new (Plain (Zeros [0;0;1;1]));
  (*172*) SubFrom n_t2new (Plain (Einsum [(n_t1,[0;1]); (T 19,[2;3;4;1])] [0;2;4;3]));
  (*173*) Del (T 19);
  (*174*) Assign (T 20) (Plain (Zeros [0;0;1;1]));
  (*175*) AddTo (T 20) (Plain (Einsum [(n_t2,[0;1;2;3]); (n_v'ovov,[1;4;5;3])] [0;5;2;4]));
  (*176*) Assign (T 33) (Plain (Zeros [0;0;1;1]));
  (*177*) SubFrom (T 33) (Plain (Einsum [(T 20,[0;1;2;3])] [0;1;2;3]));
  (*178*) Del (T 20);
  (*179*) Assign (T 21) (Plain (Zeros [0;0;1;1]));
  (*180*) AddTo (T 21) (Plain (Einsum [(n_t1,[0;1]); (n_v'ovvv,[2;3;4;1])] [0;2;3;4]));
  (*181*) Assign (T 22) (Plain (Zeros [0;0;1;1]));
  (*182*) SubFrom (T 22) (Plain (Einsum [(n_t2,[0;1;2;3]); (T 21,[4;1;5;3])] [4;0;2;5]));
  (*183*) AddTo (T 33) (Plain (Einsum [(T 22,[0;1;2;3])] [0;1;2;3]));
  (*184*) Del (T 22);
  (*185*) Assign (T 51) (Plain (Zeros [0;0;0;1]));
  (*186*) SubFrom (T 51) (Plain (Einsum [(n_t1,[0;1]); (T 21,[2;3;4;1])] [2;0;3;4]));
  (*187*) Del (T 21);
  (*188*) AddTo (T 53) (Plain (Einsum [(T 51,[0;1;2;3])] [2;1;0;3]));
  (*189*) Del (T 51);
  (*190*) Assign (T 54) (Plain (Zeros [0;0;1;1]));
  (*191*) AddTo (T 54) (Plain (Einsum [(n_t1,[0;1]); (T 53,[0;2;3;4])] [2;3;1;4]));
  (*192*) Del (T 53);
  (*193*) AddTo (T 58) (Plain (Einsum [(T 54,[0;1;2;3])] [1;0;2;3]));
  (*194*) Del (T 54);
  (*195*) Assign (T 23) (Plain (Zeros [3;0;1]));
  (*196*) AddTo (T 23) (Plain (Einsum [(n_t1,[0;1]); (n_g'bvv,[2;3;1])] [2;0;3]));
  (*197*) AddTo (T 26) (Plain (Einsum [(T 23,[0;1;2])] [0;1;2]));
  (*198*) Del (T 23);
  (*199*) Assign (T 24) (Plain (Zeros [3;0;1]));
  (*200*) AddTo (T 24) (Plain (Einsum [(n_g'bov,[0;1;2]); (n_t2,[3;1;4;2])] [0;3;4]));
  (*201*) AddTo (T 26) (Plain (Einsum [(T 24,[0;1;2])] [0;1;2]));
  (*202*) Del (T 24);
  (*203*) AddTo (T 26) (Plain (Einsum [(n_g'bvo,[0;1;2])] [0;2;1]));
  (*204*) Assign (T 27) (Plain (Zeros [0;0;1;1]));
  (*205*) AddTo (T 27) (Plain (Einsum [(n_u11,[0;1;2]); (T 26,[0;3;4])] [1;3;2;4]));
  (*206*) Del (T 26);
  (*207*) AddTo (T 33) (Plain (Einsum [(T 27,[0;1;2;3])] [1;0;3;2]));
  (*208*) Del (T 27);
  (*209*) Assign (T 28) (Plain (Zeros [0;0;0;1]));
  (*210*) AddTo (T 28) (Plain (Einsum [(n_t1,[0;1]); (n_v'ovov,[2;3;4;1])] [0;2;4;3]));
  (*211*) AddTo (T 31) (Plain (Einsum [(T 28,[0;1;2;3])] [0;1;2;3]));
  (*212*) Del (T 28);
  (*213*) Assign (T 29) (Plain (Zeros [0;0;0;1]));
  (*214*) SubFrom (T 29) (Plain (Einsum [(n_t2,[0;1;2;3]); (n_v'ooov,[1;4;5;3])] [0;4;5;2]));
  (*215*) AddTo (T 31) (Plain (Einsum [(T 29,[0;1;2;3])] [0;1;2;3]));
  (*216*) Del (T 29);
  (*217*) Assign (T 32) (Plain (Zeros [0;0;1;1]));
  (*218*) AddTo (T 32) (Plain (Einsum [(n_t1,[0;1]); (T 31,[2;0;3;4])] [2;3;1;4]));
  (*219*) Del (T 31);
  (*220*) AddTo (T 33) (Plain (Einsum [(T 32,[0;1;2;3])] [0;1;2;3]));
  (*221*) Del (T 32);
  (*222*) AddTo n_t2new (Plain (Einsum [(T 33,[0;1;2;3])] [0;1;2;3]));
  (*223*) SubFrom n_t2new (Plain (Einsum [(T 33,[0;1;2;3])] [0;1;3;2]));
  (*224*) SubFrom n_t2new (Plain (Einsum [(T 33,[0;1;2;3])] [1;0;2;3]));
  (*225*) AddTo n_t2new (Plain (Einsum [(T 33,[0;1;2;3])] [1;0;3;2]));
  (*226*) Del (T 33);
  (*227*) Assign (T 34) (Plain (Zeros [0;0;1;1]));
  (*228*) AddTo (T 34) (Plain (Einsum [(n_t1,[0;1]); (n_v'vvov,[2;3;4;1])] [0;4;2;3]));
  (*229*) AddTo (T 43) (Plain (Einsum [(T 34,[0;1;2;3])] [0;1;3;2]));
  (*230*) Del (T 34);
  (*231*) Assign (T 35) (Plain (Zeros [0;0;0;0]));
  (*232*) AddTo (T 35) (Plain (Einsum [(n_t1,[0;1]); (n_v'ooov,[2;3;4;1])] [0;2;3;4]));
  (*233*) Assign (T 36) (Plain (Zeros [0;0;0;1]));
  (*234*) AddTo (T 36) (Plain (Einsum [(n_t1,[0;1]); (T 35,[2;3;0;4])] [2;3;4;1]));
  (*235*) Assign (T 37) (Plain (Zeros [0;0;1;1]));
  (*236*) SubFrom (T 37) (Plain (Einsum [(n_t1,[0;1]); (T 36,[2;0;3;4])] [2;3;4;1]));
  (*237*) Del (T 36);
  (*238*) AddTo (T 43) (Plain (Einsum [(T 37,[0;1;2;3])] [0;1;3;2]));
  (*239*) Del (T 37);
  (*240*) Assign (T 44) (Plain (Zeros [0;0;1;1]));
  (*241*) AddTo (T 44) (Plain (Einsum [(n_t2,[0;1;2;3]); (T 35,[4;0;1;5])] [4;5;2;3]));
  (*242*) Del (T 35);
  (*243*) AddTo (T 46) (Times (Einsum [(T 44,[0;1;2;3])] [0;1;3;2]) (-1) 2);
  (*244*) Del (T 44);
  (*245*) AddTo n_t2new (Times (Einsum [(T 46,[0;1;2;3])] [0;1;2;3]) (-1) 1);
  (*246*) AddTo n_t2new (Plain (Einsum [(T 46,[0;1;2;3])] [1;0;2;3]));
  (*247*) Del (T 46);
  (*248*) AddTo (T 39) (Plain (Einsum [(n_f'oo,[0;1])] [1;0]));
  (*249*) Assign (T 40) (Plain (Zeros [0;0;1;1]));
  (*250*) AddTo (T 40) (Plain (Einsum [(T 39,[0;1]); (n_t2,[1;2;3;4])] [2;0;3;4]));
  (*251*) Del (T 39);
  (*252*) AddTo (T 43) (Plain (Einsum [(T 40,[0;1;2;3])] [1;0;3;2]));
  (*253*) Del (T 40);
  (*254*) AddTo n_t2new (Plain (Einsum [(T 43,[0;1;2;3])] [0;1;2;3]));
  (*255*) SubFrom n_t2new (Plain (Einsum [(T 43,[0;1;2;3])] [1;0;2;3]));
  (*256*) Del (T 43);
  (*257*) Assign (T 47) (Plain (Zeros [0;0;1;1]));
  (*258*) AddTo (T 47) (Plain (Einsum [(n_f'vv,[0;1]); (n_t2,[2;3;4;1])] [2;3;0;4]));
  (*259*) AddTo n_t2new (Plain (Einsum [(T 47,[0;1;2;3])] [1;0;2;3]));
  (*260*) SubFrom n_t2new (Plain (Einsum [(T 47,[0;1;2;3])] [1;0;3;2]));
  (*261*) Del (T 47);
  (*262*) Assign (T 49) (Plain (Zeros [0;0;1;1]));
  (*263*) AddTo (T 49) (Plain (Einsum [(n_t2,[0;1;2;3]); (n_v'oovv,[1;4;3;5])] [0;4;2;5]));
  (*264*) Assign (T 50) (Plain (Zeros [0;0;1;1]));
  (*265*) AddTo (T 50) (Plain (Einsum [(n_t2,[0;1;2;3]); (T 49,[4;1;5;3])] [0;4;2;5]));
  (*266*) Del (T 49);
  (*267*) SubFrom (T 58) (Plain (Einsum [(T 50,[0;1;2;3])] [0;1;2;3]));
  (*268*) Del (T 50);
  (*269*) Assign (T 55) (Plain (Zeros [1;1]));
  (*270*) AddTo (T 55) (Plain (Einsum [(n_g'bov,[0;1;2]); (n_u11,[0;1;3])] [2;3]));
  (*271*) AddTo (T 56) (Plain (Einsum [(T 55,[0;1])] [1;0]));
  (*272*) Assign (T 57) (Plain (Zeros [0;0;1;1]));
  (*273*) AddTo (T 57) (Plain (Einsum [(T 56,[0;1]); (n_t2,[2;3;1;4])] [2;3;4;0]));
  (*274*) Del (T 56);
  (*275*) AddTo (T 58) (Plain (Einsum [(T 57,[0;1;2;3])] [1;0;2;3]));
  (*276*) Del (T 57);
  (*277*) SubFrom n_t2new (Plain (Einsum [(T 58,[0;1;2;3])] [0;1;2;3]));
  (*278*) AddTo n_t2new (Plain (Einsum [(T 58,[0;1;2;3])] [0;1;3;2]));
  (*279*) Del (T 58);
  (*280*) AddTo (T 71) (Plain (Einsum [(T 55,[0;1])] [1;0]));
  (*281*) Del (T 55);
  (*282*) Assign (T 59) (Plain (Zeros [0;0;0;1]));
  (*283*) AddTo (T 59) (Plain (Einsum [(n_t2,[0;1;2;3]); (n_v'ovvv,[4;5;2;3])] [0;1;4;5]));
  (*284*) Assign (T 60) (Plain (Zeros [0;0;1;1]));
  (*285*) AddTo (T 60) (Plain (Einsum [(n_t1,[0;1]); (T 59,[2;3;0;4])] [2;3;1;4]));
  (*286*) Del (T 59);
  (*287*) Assign (T 63) (Plain (Zeros [0;0;1;1]));
  (*288*) AddTo (T 63) (Times (Einsum [(T 60,[0;1;2;3])] [0;1;2;3]) (1) 2);
  (*289*) Del (T 60);
  (*290*) Assign (T 61) (Plain (Zeros [1;1]));
  (*291*) SubFrom (T 61) (Plain (Einsum [(n_t2,[0;1;2;3]); (n_v'oovv,[0;1;3;4])] [2;4]));
  (*292*) Assign (T 62) (Plain (Zeros [0;0;1;1]));
  (*293*) AddTo (T 62) (Plain (Einsum [(T 61,[0;1]); (n_t2,[2;3;4;1])] [2;3;4;0]));
  (*294*) AddTo (T 63) (Times (Einsum [(T 62,[0;1;2;3])] [0;1;2;3]) (1) 2);
  (*295*) Del (T 62);
  (*296*) AddTo n_t2new (Times (Einsum [(T 63,[0;1;2;3])] [0;1;2;3]) (-1) 1);
  (*297*) AddTo n_t2new (Plain (Einsum [(T 63,[0;1;2;3])] [0;1;3;2]));
  (*298*) Del (T 63);
  (*299*) AddTo (T 71) (Times (Einsum [(T 61,[0;1])] [0;1]) (1) 2);
  (*300*) Del (T 61);
  (*301*) Assign (T 64) (Plain (Zeros [0;0;0;0]));
  (*302*) AddTo (T 64) (Plain (Einsum [(n_t2,[0;1;2;3]); (n_v'oovv,[4;5;2;3])] [0;1;4;5]));
  (*303*) AddTo (T 66) (Times (Einsum [(T 64,[0;1;2;3])] [3;2;1;0]) (49999999999999967) 100000000000000000);
  (*304*) AddTo (T 67) (Times (Einsum [(T 64,[0;1;2;3])] [3;2;1;0]) (5000000000000003) 10000000000000000);
  (*305*) Del (T 64);
  (*306*) AddTo (T 66) (Times (Einsum [(n_v'oooo,[0;1;2;3])] [1;0;3;2]) (9999999999999993) 10000000000000000);
  (*307*) AddTo n_t2new (Times (Einsum [(n_t2,[0;1;2;3]); (T 66,[0;1;4;5])] [5;4;3;2]) (5000000000000003) 10000000000000000);
  (*308*) Del (T 66);
  (*309*) AddTo (T 67) (Plain (Einsum [(n_v'oooo,[0;1;2;3])] [1;0;3;2]));
  (*310*) Assign (T 68) (Plain (Zeros [0;0;0;1]));
  (*311*) AddTo (T 68) (Plain (Einsum [(n_t1,[0;1]); (T 67,[0;2;3;4])] [4;3;2;1]));
  (*312*) Del (T 67);
  (*313*) AddTo (T 68) (Plain (Einsum [(n_v'ovoo,[0;1;2;3])] [3;2;0;1]));
  (*314*) AddTo n_t2new (Plain (Einsum [(n_t1,[0;1]); (T 68,[2;3;0;4])] [2;3;1;4]));
  (*315*) Del (T 68);
  (*316*) Assign (T 69) (Plain (Zeros [3;0;1]));
  (*317*) AddTo (T 69) (Plain (Einsum [(n_u11,[0;1;2]); (n_v'oovv,[1;3;2;4])] [0;3;4]));
  (*318*) Assign (T 70) (Plain (Zeros [3;0;1]));
  (*319*) AddTo (T 70) (Plain (Einsum [(T 69,[0;1;2])] [0;1;2]));
  (*320*) Del (T 69);
  (*321*) AddTo (T 70) (Plain (Einsum [(n_gc'bov,[0;1;2])] [0;1;2]));
  (*322*) Assign (T 73) (Plain (Zeros [3;0;0]));
  (*323*) AddTo (T 73) (Plain (Einsum [(n_t1,[0;1]); (T 70,[2;3;1])] [2;3;0]));
  (*324*) AddTo n_u11new (Plain (Einsum [(T 70,[0;1;2]); (n_t2,[1;3;2;4])] [0;3;4]));
  (*325*) Del (T 70);
  (*326*) AddTo (T 71) (Times (Einsum [(n_f'vv,[0;1])] [0;1]) (-1) 1);
  (*327*) AddTo n_u11new (Times (Einsum [(T 71,[0;1]); (n_u11,[2;3;1])] [2;3;0]) (-1) 1);
  (*328*) Del (T 71);
  (*329*) AddTo (T 72) (Plain (Einsum [(n_f'ov,[0;1])] [0;1]));
  (*330*) AddTo (T 73) (Plain (Einsum [(T 72,[0;1]); (n_u11,[2;3;1])] [2;0;3]));
  (*331*) Del (T 72);
  (*332*) AddTo (T 73) (Plain (Einsum [(n_gc'boo,[0;1;2])] [0;1;2]));
  (*333*) SubFrom (T 73) (Plain (Einsum [(n_u11,[0;1;2]); (n_v'ooov,[1;3;4;2])] [0;3;4]));
  (*334*) SubFrom n_u11new (Plain (Einsum [(n_t1,[0;1]); (T 73,[2;0;3])] [2;3;1]));
  (*335*) Del (T 73);
  (*336*) Assign (T 74) (Plain (Zeros [3;1;1]));
  (*337*) AddTo (T 74) (Plain (Einsum [(n_gc'bvv,[0;1;2])] [0;1;2]));
  (*338*) AddTo (T 74) (Plain (Einsum [(n_u11,[0;1;2]); (n_v'ovvv,[1;3;2;4])] [0;3;4]));
  (*339*) AddTo n_u11new (Plain (Einsum [(n_t1,[0;1]); (T 74,[2;3;1])] [2;0;3]));
  (*340*) Del (T 74);
  (*341*) Assign (T 75) (Plain (Zeros [3;3]));
  (*342*) AddTo (T 75) (Plain (Einsum [(n_w,[0;1])] [0;1]));
  (*343*) AddTo (T 75) (Plain (Einsum [(n_g'bov,[0;1;2]); (n_u11,[3;1;2])] [3;0]));
  (*344*) AddTo n_u11new (Plain (Einsum [(T 75,[0;1]); (n_u11,[1;2;3])] [0;2;3]));
  (*345*) Del (T 75);
  (*346*) AddTo n_t1new (Plain (Einsum [(n_g'bvv,[0;1;2]); (n_u11,[0;3;2])] [3;1]));
  (*347*) AddTo n_t1new (Plain (Einsum [(n_f'vo,[0;1])] [1;0]));
  (*348*) AddTo n_t1new (Plain (Einsum [(n_s1,[0]); (n_g'bvo,[0;1;2])] [2;1]));
  (*349*) AddTo n_t1new (Times (Einsum [(n_t2,[0;1;2;3]); (n_v'ovvv,[1;4;2;3])] [0;4]) (-1) 2);
  (*350*) SubFrom n_t1new (Plain (Einsum [(n_t1,[0;1]); (n_v'ovov,[0;2;3;1])] [3;2]));
  (*351*) SubFrom n_t2new (Plain (Einsum [(n_t1,[0;1]); (n_v'ovoo,[0;2;3;4])] [4;3;2;1]));
  (*352*) AddTo n_t2new (Plain (Einsum [(n_v'vvoo,[0;1;2;3])] [3;2;1;0]));
  (*353*) AddTo n_t2new (Times (Einsum [(n_t2,[0;1;2;3]); (n_v'vvvv,[4;5;2;3])] [1;0;5;4]) (1) 2);
  (*354*) AddTo n_s1new (Plain (Einsum [(n_s1,[0]); (n_w,[1;0])] [1]));
  (*355*) AddTo n_s1new (Plain (Einsum [(n_t1,[0;1]); (n_gc'bov,[2;0;1])] [2]));
  (*356*) AddTo n_s1new (Plain (Einsum [(n_G,[0])] [0]));
  (*357*) AddTo n_u11new (Plain (Einsum [(n_gc'bvo,[0;1;2])] [0;2;1]));
  (*358*) SubFrom n_u11new (Plain (Einsum [(n_u11,[0;1;2]); (n_v'ovov,[1;3;4;2])] [0;4;3]))]
 [(n_t1new,[0;1]); (n_t2new,[0;0;1;1]); (n_s1new,[3]); (n_u11new,[3;0;1])].

(** ebcc/codegen/GCCSD_S_1_1.py:362-923 [update_lams] *)
Definition GCCSD_S_1_1_update_lams : prog := mkprog
 [(n_g'boo,[3;0;0]); (n_g'bvo,[3;1;0]); (n_g'bov,[3;0;1]); (n_g'bvv,[3;1;1]); (n_l2,[1;1;0;0]); (n_t2,[0;0;1;1]); (n_v'ooov,[0;0;0;1]); (n_t1,[0;1]); (n_v'oovv,[0;0;1;1]); (n_v'ovvv,[0;1;1;1]); (n_u11,[3;0;1]); (n_s1,[3]); (n_l1,[1;0]); (n_f'ov,[0;1]); (n_ls1,[3]); (n_v'oooo,[0;0;0;0]); (n_v'ovov,[0;1;0;1]); (n_v'ovoo,[0;1;0;0]); (n_v'vvov,[1;1;0;1]); (n_v'vvvv,[1;1;1;1]); (n_f'oo,[0;0]); (n_lu11,[3;1;0]); (n_f'vv,[1;1]); (n_G,[3]); (n_f'vo,[1;0]); (n_w,[3;3])]
 [(*364*) Assign n_gc'boo (Plain (Transpose n_g'boo [0;2;1]));
  (*364*) Assign n_gc'bov (Plain (Transpose n_g'bvo [0;2;1]));
  (*364*) Assign n_gc'bvo (Plain (Transpose n_g'bov [0;2;1]));
  (*364*) Assign n_gc'bvv (Plain (Transpose n_g'bvv [0;2;1]));
  (*372*) Assign (T 1) (Plain (Zeros [0;0;0;0]));
  (*373*) AddTo (T 1) (Plain (Einsum [(n_l2,[0;1;2;3]); (n_t2,[4;5;0;1])] [2;3;4;5]));
  (*374*) Assign (T 19) (Plain (Zeros [0;0;0;0]));
  (*375*) AddTo (T 19) (Times (Einsum [(T 1,[0;1;2;3])] [1;0;3;2]) (-1) 1);
  (*376*) Assign (T 113) (Plain (Zeros [0;0;0;0]));
  (*377*) AddTo (T 113) (Times (Einsum [(T 1,[0;1;2;3])] [1;0;3;2]) (-1) 2);
  (*378*) Assign n_l1new (Plain (Zeros [1;0]));
  (*379*) AddTo n_l1new (Times (Einsum [(n_v'ooov,[0;1;2;3]); (T 1,[4;2;0;1])] [3;4]) (-1) 4);
  (*380*) Del (T 1);
  (*381*) Assign (T 2) (Plain (Zeros [0;0;0;1]));
  (*382*) AddTo (T 2) (Plain (Einsum [(n_t1,[0;1]); (n_l2,[2;1;3;4])] [3;4;0;2]));
  (*383*) Assign (T 3) (Plain (Zeros [0;0;0;0]));
  (*384*) AddTo (T 3) (Plain (Einsum [(n_t1,[0;1]); (T 2,[2;3;4;1])] [2;3;0;4]));
  (*385*) AddTo (T 19) (Times (Einsum [(T 3,[0;1;2;3])] [0;1;3;2]) (20000000000000013) 10000000000000000);
  (*386*) Assign (T 20) (Plain (Zeros [0;0;0;1]));
  (*387*) AddTo (T 20) (Times (Einsum [(n_t1,[0;1]); (T 19,[0;2;3;4])] [2;4;3;1]) (-1) 2);
  (*388*) Del (T 19);
  (*389*) AddTo (T 113) (Plain (Einsum [(T 3,[0;1;2;3])] [0;1;3;2]));
  (*390*) Assign n_l2new (Plain (Zeros [1;1;0;0]));
  (*391*) AddTo n_l2new (Times (Einsum [(n_v'oovv,[0;1;2;3]); (T 113,[4;5;0;1])] [3;2;5;4]) (-1) 2);
  (*392*) Del (T 113);
  (*393*) AddTo n_l1new (Times (Einsum [(n_v'ooov,[0;1;2;3]); (T 3,[4;2;1;0])] [3;4]) (1) 2);
  (*394*) Del (T 3);
  (*395*) AddTo (T 20) (Times (Einsum [(n_t2,[0;1;2;3]); (T 2,[4;1;5;3])] [4;5;0;2]) (2) 1);
  (*396*) Assign (T 51) (Plain (Zeros [0;1]));
  (*397*) AddTo (T 51) (Plain (Einsum [(n_t2,[0;1;2;3]); (T 2,[0;1;4;2])] [4;3]));
  (*398*) Assign (T 55) (Plain (Zeros [0;1]));
  (*399*) AddTo (T 55) (Times (Einsum [(T 51,[0;1])] [0;1]) (1) 2);
  (*400*) Del (T 51);
  (*401*) AddTo n_l2new (Plain (Einsum [(n_v'ovvv,[0;1;2;3]); (T 2,[4;5;0;1])] [3;2;5;4]));
  (*402*) Assign (T 4) (Plain (Zeros [3;0;1]));
  (*403*) SubFrom (T 4) (Plain (Einsum [(n_u11,[0;1;2]); (n_l2,[2;3;4;1])] [0;4;3]));
  (*404*) Assign (T 66) (Plain (Zeros [3;0;0]));
  (*405*) AddTo (T 66) (Plain (Einsum [(n_t1,[0;1]); (T 4,[2;3;1])] [2;3;0]));
  (*406*) Assign (T 74) (Plain (Zeros [0;0;1;1]));
  (*407*) AddTo (T 74) (Plain (Einsum [(n_g'bov,[0;1;2]); (T 4,[0;3;4])] [1;3;2;4]));
  (*408*) Assign (T 82) (Plain (Zeros [0;0;1;1]));
  (*409*) AddTo (T 82) (Plain (Einsum [(T 74,[0;1;2;3])] [0;1;2;3]));
  (*410*) Del (T 74);
  (*411*) AddTo n_l1new (Plain (Einsum [(n_g'bvv,[0;1;2]); (T 4,[0;3;1])] [2;3]));
  (*412*) Assign (T 5) (Plain (Zeros [0;0;1;1]));
  (*413*) SubFrom (T 5) (Plain (Einsum [(n_l2,[0;1;2;3]); (n_t2,[4;2;5;1])] [3;4;0;5]));
  (*414*) SubFrom n_l1new (Plain (Einsum [(n_v'ovvv,[0;1;2;3]); (T 5,[4;0;1;3])] [2;4]));
  (*415*) Del (T 5);
  (*416*) Assign (T 6) (Plain (Zeros [0;1]));
  (*417*) AddTo (T 6) (Plain (Einsum [(n_s1,[0]); (n_g'bov,[0;1;2])] [1;2]));
  (*418*) Assign (T 12) (Plain (Zeros [0;1]));
  (*419*) AddTo (T 12) (Plain (Einsum [(T 6,[0;1])] [0;1]));
  (*420*) Assign (T 60) (Plain (Zeros [0;1]));
  (*421*) AddTo (T 60) (Plain (Einsum [(T 6,[0;1])] [0;1]));
  (*422*) Assign (T 81) (Plain (Zeros [0;1]));
  (*423*) AddTo (T 81) (Plain (Einsum [(T 6,[0;1])] [0;1]));
  (*424*) Assign (T 7) (Plain (Zeros [0;0]));
  (*425*) AddTo (T 7) (Plain (Einsum [(n_l1,[0;1]); (n_t1,[2;0])] [1;2]));
  (*426*) Assign (T 53) (Plain (Zeros [0;0]));
  (*427*) AddTo (T 53) (Times (Einsum [(T 7,[0;1])] [0;1]) (2) 1);
  (*428*) Assign (T 69) (Plain (Zeros [0;0]));
  (*429*) AddTo (T 69) (Plain (Einsum [(T 7,[0;1])] [0;1]));
  (*430*) Assign (T 121) (Plain (Zeros [0;0]));
  (*431*) AddTo (T 121) (Plain (Einsum [(T 7,[0;1])] [0;1]));
  (*432*) SubFrom n_l1new (Plain (Einsum [(T 6,[0;1]); (T 7,[2;0])] [1;2]));
  (*433*) Del (T 6);
  (*434*) Assign n_ls1new (Plain (Zeros [3]));
  (*435*) SubFrom n_ls1new (Plain (Einsum [(T 7,[0;1]); (n_g'boo,[2;1;0])] [2]));
  (*436*) Del (T 7);
  (*437*) Assign (T 8) (Plain (Zeros [0;0]));
  (*438*) AddTo (T 8) (Plain (Einsum [(n_l2,[0;1;2;3]); (n_t2,[2;4;0;1])] [3;4]));
  (*439*) AddTo (T 20) (Times (Einsum [(n_t1,[0;1]); (T 8,[2;3])] [2;3;0;1]) (-1) 1);
  (*440*) AddTo (T 53) (Plain (Einsum [(T 8,[0;1])] [0;1]));
  (*441*) Assign (T 65) (Plain (Zeros [0;0]));
  (*442*) AddTo (T 65) (Times (Einsum [(T 8,[0;1])] [0;1]) (1) 2);
  (*443*) Assign (T 84) (Plain (Zeros [0;0;1;1]));
  (*444*) SubFrom (T 84) (Plain (Einsum [(T 8,[0;1]); (n_v'oovv,[2;1;3;4])] [0;2;3;4]));
  (*445*) Assign (T 85) (Plain (Zeros [0;0;1;1]));
  (*446*) AddTo (T 85) (Times (Einsum [(T 84,[0;1;2;3])] [0;1;3;2]) (-1) 2);
  (*447*) Del (T 84);
  (*448*) AddTo (T 121) (Times (Einsum [(T 8,[0;1])] [0;1]) (1) 2);
  (*449*) AddTo n_l1new (Times (Einsum [(n_f'ov,[0;1]); (T 8,[2;0])] [1;2]) (-1) 2);
  (*450*) Del (T 8);
  (*451*) Assign (T 9) (Plain (Zeros [0;0;0;1]));
  (*452*) AddTo (T 9) (Plain (Einsum [(n_t1,[0;1]); (n_v'oovv,[2;3;4;1])] [0;2;3;4]));
  (*453*) Assign (T 10) (Plain (Zeros [0;0;0;1]));
  (*454*) AddTo (T 10) (Times (Einsum [(T 9,[0;1;2;3])] [0;2;1;3]) (-1) 1);
  (*455*) Assign (T 14) (Plain (Zeros [0;0;0;1]));
  (*456*) AddTo (T 14) (Times (Einsum [(T 9,[0;1;2;3])] [2;1;0;3]) (5000000000000003) 10000000000000000);
  (*457*) Assign (T 79) (Plain (Zeros [0;0;0;1]));
  (*458*) SubFrom (T 79) (Plain (Einsum [(T 9,[0;1;2;3])] [0;2;1;3]));
  (*459*) Assign (T 99) (Plain (Zeros [0;0;1;1]));
  (*460*) SubFrom (T 99) (Plain (Einsum [(n_l1,[0;1]); (T 9,[1;2;3;4])] [3;2;0;4]));
  (*461*) Assign (T 107) (Plain (Zeros [0;0;1;1]));
  (*462*) AddTo (T 107) (Plain (Einsum [(T 99,[0;1;2;3])] [0;1;2;3]));
  (*463*) Del (T 99);
  (*464*) Assign (T 111) (Plain (Zeros [0;0;0;1]));
  (*465*) AddTo (T 111) (Times (Einsum [(T 9,[0;1;2;3])] [2;1;0;3]) (1) 2);
  (*466*) Del (T 9);
  (*467*) AddTo (T 10) (Plain (Einsum [(n_v'ooov,[0;1;2;3])] [2;1;0;3]));
  (*468*) Assign (T 18) (Plain (Zeros [0;0;0;1]));
  (*469*) AddTo (T 18) (Times (Einsum [(n_t2,[0;1;2;3]); (T 10,[4;0;5;2])] [5;4;1;3]) (2) 1);
  (*470*) Assign (T 27) (Plain (Zeros [0;1]));
  (*471*) AddTo (T 27) (Times (Einsum [(n_t2,[0;1;2;3]); (T 10,[4;0;1;2])] [4;3]) (1) 2);
  (*472*) Del (T 10);
  (*473*) Assign (T 46) (Plain (Zeros [0;1]));
  (*474*) AddTo (T 46) (Plain (Einsum [(T 27,[0;1])] [0;1]));
  (*475*) Del (T 27);
  (*476*) Assign (T 11) (Plain (Zeros [0;1]));
  (*477*) AddTo (T 11) (Plain (Einsum [(n_t1,[0;1]); (n_v'oovv,[2;0;3;1])] [2;3]));
  (*478*) AddTo (T 12) (Plain (Einsum [(T 11,[0;1])] [0;1]));
  (*479*) AddTo (T 60) (Plain (Einsum [(T 11,[0;1])] [0;1]));
  (*480*) Assign (T 70) (Plain (Zeros [0;1]));
  (*481*) AddTo (T 70) (Plain (Einsum [(T 11,[0;1])] [0;1]));
  (*482*) AddTo (T 82) (Plain (Einsum [(n_l1,[0;1]); (T 11,[2;3])] [1;2;0;3]));
  (*483*) Assign (T 95) (Plain (Zeros [0;0]));
  (*484*) AddTo (T 95) (Plain (Einsum [(n_t1,[0;1]); (T 11,[2;1])] [0;2]));
  (*485*) Assign (T 96) (Plain (Zeros [0;0]));
  (*486*) AddTo (T 96) (Plain (Einsum [(T 95,[0;1])] [1;0]));
  (*487*) Del (T 95);
  (*488*) Assign (T 102) (Plain (Zeros [0;0;1;1]));
  (*489*) SubFrom (T 102) (Plain (Einsum [(T 11,[0;1]); (T 2,[2;3;0;4])] [3;2;4;1]));
  (*490*) SubFrom (T 107) (Plain (Einsum [(T 102,[0;1;2;3])] [0;1;2;3]));
  (*491*) Del (T 102);
  (*492*) Assign (T 119) (Plain (Zeros [1;1]));
  (*493*) AddTo (T 119) (Plain (Einsum [(n_t1,[0;1]); (T 11,[0;2])] [1;2]));
  (*494*) Del (T 11);
  (*495*) AddTo (T 12) (Plain (Einsum [(n_f'ov,[0;1])] [0;1]));
  (*496*) AddTo (T 18) (Times (Einsum [(T 12,[0;1]); (n_t2,[2;3;1;4])] [0;3;2;4]) (-1) 1);
  (*497*) Assign (T 28) (Plain (Zeros [0;1]));
  (*498*) AddTo (T 28) (Plain (Einsum [(T 12,[0;1]); (n_t2,[0;2;1;3])] [2;3]));
  (*499*) AddTo (T 46) (Times (Einsum [(T 28,[0;1])] [0;1]) (-1) 1);
  (*500*) Del (T 28);
  (*501*) Assign (T 36) (Plain (Zeros [0;0]));
  (*502*) AddTo (T 36) (Plain (Einsum [(n_t1,[0;1]); (T 12,[2;1])] [0;2]));
  (*503*) Assign (T 37) (Plain (Zeros [0;0]));
  (*504*) AddTo (T 37) (Plain (Einsum [(T 36,[0;1])] [1;0]));
  (*505*) Del (T 36);
  (*506*) Assign n_lu11new (Plain (Zeros [3;1;0]));
  (*507*) AddTo n_lu11new (Times (Einsum [(n_ls1,[0]); (T 12,[1;2])] [0;2;1]) (2) 1);
  (*508*) Del (T 12);
  (*509*) Assign (T 13) (Plain (Zeros [0;0;0;0]));
  (*510*) AddTo (T 13) (Plain (Einsum [(n_t2,[0;1;2;3]); (n_v'oovv,[4;5;2;3])] [0;1;4;5]));
  (*511*) Assign (T 15) (Plain (Zeros [0;0;0;0]));
  (*512*) AddTo (T 15) (Plain (Einsum [(T 13,[0;1;2;3])] [3;2;1;0]));
  (*513*) Assign (T 112) (Plain (Zeros [0;0;0;0]));
  (*514*) AddTo (T 112) (Plain (Einsum [(T 13,[0;1;2;3])] [3;2;1;0]));
  (*515*) Del (T 13);
  (*516*) AddTo (T 14) (Times (Einsum [(n_v'ooov,[0;1;2;3])] [1;0;2;3]) (-1) 1);
  (*517*) AddTo (T 15) (Times (Einsum [(n_t1,[0;1]); (T 14,[2;3;4;1])] [3;2;4;0]) (-4) 1);
  (*518*) Del (T 14);
  (*519*) AddTo (T 15) (Times (Einsum [(n_v'oooo,[0;1;2;3])] [1;0;3;2]) (2) 1);
  (*520*) AddTo (T 18) (Times (Einsum [(n_t1,[0;1]); (T 15,[0;2;3;4])] [2;4;3;1]) (-1) 2);
  (*521*) Del (T 15);
  (*522*) Assign (T 16) (Plain (Zeros [0;0;1;1]));
  (*523*) AddTo (T 16) (Plain (Einsum [(n_t1,[0;1]); (n_v'ovvv,[2;3;4;1])] [0;2;3;4]));
  (*524*) Assign (T 17) (Plain (Zeros [0;0;1;1]));
  (*525*) AddTo (T 17) (Times (Einsum [(T 16,[0;1;2;3])] [1;0;2;3]) (-1) 2);
  (*526*) Assign (T 22) (Plain (Zeros [0;0;1;1]));
  (*527*) SubFrom (T 22) (Plain (Einsum [(T 16,[0;1;2;3])] [1;0;2;3]));
  (*528*) Assign (T 77) (Plain (Zeros [0;0;1;1]));
  (*529*) AddTo (T 77) (Plain (Einsum [(T 16,[0;1;2;3])] [0;1;2;3]));
  (*530*) Del (T 16);
  (*531*) AddTo (T 17) (Plain (Einsum [(n_v'ovov,[0;1;2;3])] [0;2;1;3]));
  (*532*) AddTo (T 18) (Times (Einsum [(n_t1,[0;1]); (T 17,[2;3;4;1])] [2;0;3;4]) (-2) 1);
  (*533*) Del (T 17);
  (*534*) AddTo (T 18) (Times (Einsum [(n_v'ovoo,[0;1;2;3])] [0;3;2;1]) (-1) 1);
  (*535*) AddTo (T 18) (Times (Einsum [(n_t2,[0;1;2;3]); (n_v'ovvv,[4;5;2;3])] [4;1;0;5]) (-1) 2);
  (*536*) AddTo n_l1new (Times (Einsum [(n_l2,[0;1;2;3]); (T 18,[4;2;3;0])] [1;4]) (1) 2);
  (*537*) Del (T 18);
  (*538*) AddTo (T 20) (Times (Einsum [(n_l1,[0;1]); (n_t2,[2;3;4;0])] [1;3;2;4]) (-1) 1);
  (*539*) AddTo n_l1new (Times (Einsum [(n_v'oovv,[0;1;2;3]); (T 20,[4;0;1;2])] [3;4]) (-1) 2);
  (*540*) Del (T 20);
  (*541*) Assign (T 21) (Plain (Zeros [0;1;1;1]));
  (*542*) AddTo (T 21) (Times (Einsum [(n_v'vvov,[0;1;2;3])] [2;1;0;3]) (-1) 1);
  (*543*) AddTo (T 21) (Plain (Einsum [(n_t1,[0;1]); (n_v'vvvv,[2;3;4;1])] [0;3;2;4]));
  (*544*) AddTo n_l1new (Times (Einsum [(n_l2,[0;1;2;3]); (T 21,[2;0;1;4])] [4;3]) (1) 2);
  (*545*) Del (T 21);
  (*546*) AddTo (T 22) (Plain (Einsum [(n_v'ovov,[0;1;2;3])] [0;2;1;3]));
  (*547*) AddTo n_l1new (Plain (Einsum [(T 2,[0;1;2;3]); (T 22,[2;0;3;4])] [4;1]));
  (*548*) Del (T 22);
  (*549*) Assign (T 23) (Plain (Zeros [0;1]));
  (*550*) AddTo (T 23) (Plain (Einsum [(n_s1,[0]); (n_g'bvo,[0;1;2])] [2;1]));
  (*551*) AddTo (T 46) (Times (Einsum [(T 23,[0;1])] [0;1]) (-1) 1);
  (*552*) Del (T 23);
  (*553*) Assign (T 24) (Plain (Zeros [0;1]));
  (*554*) AddTo (T 24) (Plain (Einsum [(n_g'bvv,[0;1;2]); (n_u11,[0;3;2])] [3;1]));
  (*555*) AddTo (T 46) (Times (Einsum [(T 24,[0;1])] [0;1]) (-1) 1);
  (*556*) Del (T 24);
  (*557*) Assign (T 25) (Plain (Zeros [0;1]));
  (*558*) AddTo (T 25) (Plain (Einsum [(n_t1,[0;1]); (n_v'ovov,[0;2;3;1])] [3;2]));
  (*559*) AddTo (T 46) (Plain (Einsum [(T 25,[0;1])] [0;1]));
  (*560*) Del (T 25);
  (*561*) Assign (T 26) (Plain (Zeros [0;1]));
  (*562*) SubFrom (T 26) (Plain (Einsum [(n_t2,[0;1;2;3]); (n_v'ovvv,[0;4;2;3])] [1;4]));
  (*563*) AddTo (T 46) (Times (Einsum [(T 26,[0;1])] [0;1]) (1) 2);
  (*564*) Del (T 26);
  (*565*) Assign (T 29) (Plain (Zeros [3;0;0]));
  (*566*) AddTo (T 29) (Plain (Einsum [(n_t1,[0;1]); (n_g'bov,[2;3;1])] [2;3;0]));
  (*567*) Assign (T 30) (Plain (Zeros [3;0;0]));
  (*568*) AddTo (T 30) (Plain (Einsum [(T 29,[0;1;2])] [0;1;2]));
  (*569*) Assign (T 67) (Plain (Zeros [3;0;0]));
  (*570*) AddTo (T 67) (Plain (Einsum [(T 29,[0;1;2])] [0;1;2]));
  (*571*) Del (T 29);
  (*572*) AddTo (T 30) (Plain (Einsum [(n_g'boo,[0;1;2])] [0;1;2]));
  (*573*) Assign (T 31) (Plain (Zeros [0;1]));
  (*574*) AddTo (T 31) (Plain (Einsum [(n_u11,[0;1;2]); (T 30,[0;1;3])] [3;2]));
  (*575*) Del (T 30);
  (*576*) AddTo (T 46) (Plain (Einsum [(T 31,[0;1])] [0;1]));
  (*577*) Del (T 31);
  (*578*) Assign (T 32) (Plain (Zeros [0;0]));
  (*579*) AddTo (T 32) (Plain (Einsum [(n_s1,[0]); (n_g'boo,[0;1;2])] [1;2]));
  (*580*) AddTo (T 37) (Plain (Einsum [(T 32,[0;1])] [0;1]));
  (*581*) Assign (T 92) (Plain (Zeros [0;0]));
  (*582*) AddTo (T 92) (Plain (Einsum [(T 32,[0;1])] [0;1]));
  (*583*) Del (T 32);
  (*584*) Assign (T 33) (Plain (Zeros [0;0]));
  (*585*) AddTo (T 33) (Plain (Einsum [(n_g'bov,[0;1;2]); (n_u11,[0;3;2])] [1;3]));
  (*586*) AddTo (T 37) (Plain (Einsum [(T 33,[0;1])] [0;1]));
  (*587*) AddTo (T 92) (Plain (Einsum [(T 33,[0;1])] [0;1]));
  (*588*) Del (T 33);
  (*589*) Assign (T 34) (Plain (Zeros [0;0]));
  (*590*) SubFrom (T 34) (Plain (Einsum [(n_t1,[0;1]); (n_v'ooov,[0;2;3;1])] [2;3]));
  (*591*) AddTo (T 37) (Plain (Einsum [(T 34,[0;1])] [0;1]));
  (*592*) AddTo (T 96) (Plain (Einsum [(T 34,[0;1])] [0;1]));
  (*593*) Del (T 34);
  (*594*) Assign (T 97) (Plain (Zeros [0;0;1;1]));
  (*595*) AddTo (T 97) (Plain (Einsum [(T 96,[0;1]); (n_l2,[2;3;1;4])] [4;0;2;3]));
  (*596*) Del (T 96);
  (*597*) Assign (T 98) (Plain (Zeros [0;0;1;1]));
  (*598*) SubFrom (T 98) (Plain (Einsum [(T 97,[0;1;2;3])] [0;1;3;2]));
  (*599*) Del (T 97);
  (*600*) Assign (T 35) (Plain (Zeros [0;0]));
  (*601*) AddTo (T 35) (Plain (Einsum [(n_t2,[0;1;2;3]); (n_v'oovv,[0;4;2;3])] [1;4]));
  (*602*) AddTo (T 37) (Times (Einsum [(T 35,[0;1])] [1;0]) (1) 2);
  (*603*) Assign (T 83) (Plain (Zeros [0;0;1;1]));
  (*604*) AddTo (T 83) (Plain (Einsum [(T 35,[0;1]); (n_l2,[2;3;4;0])] [4;1;2;3]));
  (*605*) Del (T 35);
  (*606*) AddTo (T 85) (Times (Einsum [(T 83,[0;1;2;3])] [0;1;3;2]) (-1) 2);
  (*607*) Del (T 83);
  (*608*) AddTo n_l2new (Times (Einsum [(T 85,[0;1;2;3])] [2;3;0;1]) (-1) 1);
  (*609*) AddTo n_l2new (Plain (Einsum [(T 85,[0;1;2;3])] [2;3;1;0]));
  (*610*) Del (T 85);
  (*611*) AddTo (T 37) (Plain (Einsum [(n_f'oo,[0;1])] [0;1]));
  (*612*) Assign (T 38) (Plain (Zeros [0;1]));
  (*613*) AddTo (T 38) (Plain (Einsum [(n_t1,[0;1]); (T 37,[0;2])] [2;1]));
  (*614*) AddTo (T 46) (Plain (Einsum [(T 38,[0;1])] [0;1]));
  (*615*) Del (T 38);
  (*616*) AddTo n_l1new (Times (Einsum [(n_l1,[0;1]); (T 37,[2;1])] [0;2]) (-1) 1);
  (*617*) AddTo n_lu11new (Times (Einsum [(T 37,[0;1]); (n_lu11,[2;3;1])] [2;3;0]) (-1) 1);
  (*618*) Del (T 37);
  (*619*) Assign (T 39) (Plain (Zeros [1;1]));
  (*620*) AddTo (T 39) (Plain (Einsum [(n_s1,[0]); (n_g'bvv,[0;1;2])] [1;2]));
  (*621*) Assign (T 41) (Plain (Zeros [1;1]));
  (*622*) AddTo (T 41) (Plain (Einsum [(T 39,[0;1])] [0;1]));
  (*623*) Assign (T 68) (Plain (Zeros [1;1]));
  (*624*) AddTo (T 68) (Plain (Einsum [(T 39,[0;1])] [0;1]));
  (*625*) Assign (T 104) (Plain (Zeros [1;1]));
  (*626*) AddTo (T 104) (Plain (Einsum [(T 39,[0;1])] [0;1]));
  (*627*) AddTo (T 119) (Times (Einsum [(T 39,[0;1])] [0;1]) (-1) 1);
  (*628*) Del (T 39);
  (*629*) Assign (T 40) (Plain (Zeros [1;1]));
  (*630*) SubFrom (T 40) (Plain (Einsum [(n_t1,[0;1]); (n_v'ovvv,[0;2;1;3])] [2;3]));
  (*631*) AddTo (T 41) (Times (Einsum [(T 40,[0;1])] [0;1]) (-1) 1);
  (*632*) SubFrom (T 68) (Plain (Einsum [(T 40,[0;1])] [0;1]));
  (*633*) Assign (T 101) (Plain (Zeros [0;0;1;1]));
  (*634*) SubFrom (T 101) (Plain (Einsum [(T 40,[0;1]); (n_l2,[2;0;3;4])] [4;3;2;1]));
  (*635*) SubFrom (T 107) (Plain (Einsum [(T 101,[0;1;2;3])] [0;1;2;3]));
  (*636*) Del (T 101);
  (*637*) AddTo (T 119) (Plain (Einsum [(T 40,[0;1])] [0;1]));
  (*638*) Del (T 40);
  (*639*) AddTo (T 41) (Plain (Einsum [(n_f'vv,[0;1])] [0;1]));
  (*640*) Assign (T 42) (Plain (Zeros [0;1]));
  (*641*) AddTo (T 42) (Plain (Einsum [(n_t1,[0;1]); (T 41,[2;1])] [0;2]));
  (*642*) Del (T 41);
  (*643*) AddTo (T 46) (Times (Einsum [(T 42,[0;1])] [0;1]) (-1) 1);
  (*644*) Del (T 42);
  (*645*) Assign (T 43) (Plain (Zeros [3]));
  (*646*) AddTo (T 43) (Plain (Einsum [(n_t1,[0;1]); (n_g'bov,[2;0;1])] [2]));
  (*647*) Assign (T 44) (Plain (Zeros [3]));
  (*648*) AddTo (T 44) (Plain (Einsum [(T 43,[0])] [0]));
  (*649*) Del (T 43);
  (*650*) AddTo (T 44) (Plain (Einsum [(n_G,[0])] [0]));
  (*651*) Assign (T 45) (Plain (Zeros [0;1]));
  (*652*) AddTo (T 45) (Plain (Einsum [(T 44,[0]); (n_u11,[0;1;2])] [1;2]));
  (*653*) Del (T 44);
  (*654*) AddTo (T 46) (Times (Einsum [(T 45,[0;1])] [0;1]) (-1) 1);
  (*655*) Del (T 45);
  (*656*) AddTo (T 46) (Times (Einsum [(n_f'vo,[0;1])] [1;0]) (-1) 1);
  (*657*) AddTo n_l1new (Times (Einsum [(T 46,[0;1]); (n_l2,[1;2;0;3])] [2;3]) (-1) 1);
  (*658*) AddTo n_ls1new (Times (Einsum [(T 46,[0;1]); (n_lu11,[2;1;0])] [2]) (-1) 1);
  (*659*) Del (T 46);
  (*660*) Assign (T 47) (Plain (Zeros [0;1]));
  (*661*) AddTo (T 47) (Plain (Einsum [(n_ls1,[0]); (n_u11,[0;1;2])] [1;2]));
  (*662*) AddTo (T 55) (Times (Einsum [(T 47,[0;1])] [0;1]) (-1) 1);
  (*663*) Del (T 47);
  (*664*) Assign (T 48) (Plain (Zeros [0;1]));
  (*665*) AddTo (T 48) (Plain (Einsum [(n_l1,[0;1]); (n_t2,[2;1;3;0])] [2;3]));
  (*666*) AddTo (T 55) (Times (Einsum [(T 48,[0;1])] [0;1]) (-1) 1);
  (*667*) Del (T 48);
  (*668*) Assign (T 49) (Plain (Zeros [3;0;0]));
  (*669*) AddTo (T 49) (Plain (Einsum [(n_t1,[0;1]); (n_lu11,[2;1;3])] [2;3;0]));
  (*670*) Assign (T 50) (Plain (Zeros [0;1]));
  (*671*) AddTo (T 50) (Plain (Einsum [(n_u11,[0;1;2]); (T 49,[0;1;3])] [3;2]));
  (*672*) AddTo (T 55) (Plain (Einsum [(T 50,[0;1])] [0;1]));
  (*673*) Del (T 50);
  (*674*) Assign (T 118) (Plain (Zeros [3;0;1]));
  (*675*) SubFrom (T 118) (Plain (Einsum [(n_t1,[0;1]); (T 49,[2;0;3])] [2;3;1]));
  (*676*) AddTo n_lu11new (Plain (Einsum [(T 49,[0;1;2]); (n_v'ooov,[3;2;1;4])] [0;4;3]));
  (*677*) Assign (T 52) (Plain (Zeros [0;0]));
  (*678*) AddTo (T 52) (Plain (Einsum [(n_lu11,[0;1;2]); (n_u11,[0;3;1])] [2;3]));
  (*679*) AddTo (T 53) (Times (Einsum [(T 52,[0;1])] [0;1]) (2) 1);
  (*680*) Assign (T 54) (Plain (Zeros [0;1]));
  (*681*) AddTo (T 54) (Times (Einsum [(n_t1,[0;1]); (T 53,[0;2])] [2;1]) (1) 2);
  (*682*) AddTo (T 55) (Plain (Einsum [(T 54,[0;1])] [0;1]));
  (*683*) Del (T 54);
  (*684*) AddTo n_l1new (Times (Einsum [(T 53,[0;1]); (n_v'ooov,[1;2;0;3])] [3;2]) (-1) 2);
  (*685*) Del (T 53);
  (*686*) AddTo (T 65) (Plain (Einsum [(T 52,[0;1])] [0;1]));
  (*687*) AddTo (T 66) (Plain (Einsum [(n_s1,[0]); (T 65,[1;2])] [0;1;2]));
  (*688*) AddTo n_ls1new (Times (Einsum [(T 65,[0;1]); (n_g'boo,[2;1;0])] [2]) (-1) 1);
  (*689*) Del (T 65);
  (*690*) AddTo (T 69) (Plain (Einsum [(T 52,[0;1])] [0;1]));
  (*691*) Assign (T 94) (Plain (Zeros [0;0;1;1]));
  (*692*) AddTo (T 94) (Plain (Einsum [(T 69,[0;1]); (n_v'oovv,[1;2;3;4])] [2;0;3;4]));
  (*693*) AddTo (T 98) (Plain (Einsum [(T 94,[0;1;2;3])] [1;0;3;2]));
  (*694*) Del (T 94);
  (*695*) AddTo (T 121) (Plain (Einsum [(T 52,[0;1])] [0;1]));
  (*696*) Del (T 52);
  (*697*) AddTo n_lu11new (Times (Einsum [(T 121,[0;1]); (n_g'bov,[2;1;3])] [2;3;0]) (-1) 1);
  (*698*) Del (T 121);
  (*699*) AddTo (T 55) (Times (Einsum [(n_t1,[0;1])] [0;1]) (-1) 1);
  (*700*) AddTo n_l1new (Times (Einsum [(T 55,[0;1]); (n_v'oovv,[0;2;1;3])] [3;2]) (-1) 1);
  (*701*) AddTo n_ls1new (Times (Einsum [(T 55,[0;1]); (n_g'bov,[2;0;1])] [2]) (-1) 1);
  (*702*) Del (T 55);
  (*703*) Assign (T 56) (Plain (Zeros [1;1]));
  (*704*) AddTo (T 56) (Plain (Einsum [(n_l1,[0;1]); (n_t1,[1;2])] [0;2]));
  (*705*) Assign (T 59) (Plain (Zeros [1;1]));
  (*706*) AddTo (T 59) (Plain (Einsum [(T 56,[0;1])] [0;1]));
  (*707*) AddTo n_ls1new (Plain (Einsum [(T 56,[0;1]); (n_g'bvv,[2;0;1])] [2]));
  (*708*) Del (T 56);
  (*709*) Assign (T 57) (Plain (Zeros [1;1]));
  (*710*) AddTo (T 57) (Plain (Einsum [(n_lu11,[0;1;2]); (n_u11,[0;2;3])] [1;3]));
  (*711*) AddTo (T 59) (Plain (Einsum [(T 57,[0;1])] [0;1]));
  (*712*) Assign (T 100) (Plain (Zeros [0;0;1;1]));
  (*713*) SubFrom (T 100) (Plain (Einsum [(T 57,[0;1]); (n_v'oovv,[2;3;4;1])] [3;2;0;4]));
  (*714*) AddTo (T 107) (Plain (Einsum [(T 100,[0;1;2;3])] [0;1;2;3]));
  (*715*) Del (T 100);
  (*716*) Assign (T 114) (Plain (Zeros [1;1]));
  (*717*) AddTo (T 114) (Times (Einsum [(T 57,[0;1])] [0;1]) (2) 1);
  (*718*) Assign (T 120) (Plain (Zeros [1;1]));
  (*719*) AddTo (T 120) (Plain (Einsum [(T 57,[0;1])] [0;1]));
  (*720*) Del (T 57);
  (*721*) Assign (T 58) (Plain (Zeros [1;1]));
  (*722*) SubFrom (T 58) (Plain (Einsum [(n_l2,[0;1;2;3]); (n_t2,[2;3;1;4])] [0;4]));
  (*723*) AddTo (T 59) (Times (Einsum [(T 58,[0;1])] [0;1]) (1) 2);
  (*724*) AddTo n_l1new (Times (Einsum [(T 59,[0;1]); (n_v'ovvv,[2;0;1;3])] [3;2]) (-1) 1);
  (*725*) Del (T 59);
  (*726*) Assign (T 86) (Plain (Zeros [0;0;1;1]));
  (*727*) AddTo (T 86) (Plain (Einsum [(T 58,[0;1]); (n_v'oovv,[2;3;4;1])] [3;2;0;4]));
  (*728*) Assign (T 89) (Plain (Zeros [0;0;1;1]));
  (*729*) AddTo (T 89) (Times (Einsum [(T 86,[0;1;2;3])] [0;1;2;3]) (1) 2);
  (*730*) Del (T 86);
  (*731*) AddTo (T 114) (Plain (Einsum [(T 58,[0;1])] [0;1]));
  (*732*) AddTo n_ls1new (Times (Einsum [(T 114,[0;1]); (n_g'bvv,[2;0;1])] [2]) (1) 2);
  (*733*) Del (T 114);
  (*734*) AddTo (T 120) (Times (Einsum [(T 58,[0;1])] [0;1]) (1) 2);
  (*735*) Del (T 58);
  (*736*) AddTo n_lu11new (Times (Einsum [(T 120,[0;1]); (n_g'bov,[2;3;1])] [2;0;3]) (-1) 1);
  (*737*) Del (T 120);
  (*738*) AddTo (T 60) (Plain (Einsum [(n_f'ov,[0;1])] [0;1]));
  (*739*) Assign (T 63) (Plain (Zeros [3;0;0]));
  (*740*) AddTo (T 63) (Plain (Einsum [(T 60,[0;1]); (n_u11,[2;3;1])] [2;0;3]));
  (*741*) Assign (T 71) (Plain (Zeros [3]));
  (*742*) AddTo (T 71) (Plain (Einsum [(T 60,[0;1]); (n_u11,[2;0;1])] [2]));
  (*743*) Del (T 60);
  (*744*) Assign (T 61) (Plain (Zeros [3;0;1]));
  (*745*) AddTo (T 61) (Plain (Einsum [(n_u11,[0;1;2]); (n_v'oovv,[1;3;2;4])] [0;3;4]));
  (*746*) Assign (T 62) (Plain (Zeros [3;0;1]));
  (*747*) AddTo (T 62) (Plain (Einsum [(T 61,[0;1;2])] [0;1;2]));
  (*748*) Assign (T 75) (Plain (Zeros [0;0;1;1]));
  (*749*) AddTo (T 75) (Plain (Einsum [(n_lu11,[0;1;2]); (T 61,[0;3;4])] [2;3;1;4]));
  (*750*) Del (T 61);
  (*751*) AddTo (T 82) (Plain (Einsum [(T 75,[0;1;2;3])] [0;1;2;3]));
  (*752*) Del (T 75);
  (*753*) AddTo (T 62) (Plain (Einsum [(n_gc'bov,[0;1;2])] [0;1;2]));
  (*754*) AddTo (T 63) (Plain (Einsum [(n_t1,[0;1]); (T 62,[2;3;1])] [2;3;0]));
  (*755*) SubFrom n_l1new (Plain (Einsum [(T 49,[0;1;2]); (T 62,[0;2;3])] [3;1]));
  (*756*) Del (T 62);
  (*757*) AddTo (T 63) (Plain (Einsum [(n_gc'boo,[0;1;2])] [0;1;2]));
  (*758*) AddTo (T 63) (Plain (Einsum [(n_u11,[0;1;2]); (n_v'ooov,[3;1;4;2])] [0;3;4]));
  (*759*) SubFrom n_l1new (Plain (Einsum [(n_lu11,[0;1;2]); (T 63,[0;3;2])] [1;3]));
  (*760*) Del (T 63);
  (*761*) Assign (T 64) (Plain (Zeros [3;1;1]));
  (*762*) AddTo (T 64) (Plain (Einsum [(n_gc'bvv,[0;1;2])] [0;1;2]));
  (*763*) SubFrom (T 64) (Plain (Einsum [(n_u11,[0;1;2]); (n_v'ovvv,[1;3;4;2])] [0;3;4]));
  (*764*) AddTo n_l1new (Plain (Einsum [(n_lu11,[0;1;2]); (T 64,[0;1;3])] [3;2]));
  (*765*) Del (T 64);
  (*766*) AddTo (T 66) (Plain (Einsum [(n_l1,[0;1]); (n_u11,[2;3;0])] [2;1;3]));
  (*767*) AddTo n_l1new (Times (Einsum [(n_g'bov,[0;1;2]); (T 66,[0;3;1])] [2;3]) (-1) 1);
  (*768*) Del (T 66);
  (*769*) AddTo (T 67) (Plain (Einsum [(n_g'boo,[0;1;2])] [0;1;2]));
  (*770*) Assign (T 117) (Plain (Zeros [3;0;1]));
  (*771*) SubFrom (T 117) (Plain (Einsum [(n_t1,[0;1]); (T 67,[2;0;3])] [2;3;1]));
  (*772*) SubFrom n_l1new (Plain (Einsum [(T 4,[0;1;2]); (T 67,[0;3;1])] [2;3]));
  (*773*) Del (T 4);
  (*774*) SubFrom n_lu11new (Plain (Einsum [(n_l1,[0;1]); (T 67,[2;3;1])] [2;0;3]));
  (*775*) Del (T 67);
  (*776*) AddTo (T 68) (Plain (Einsum [(n_f'vv,[0;1])] [0;1]));
  (*777*) AddTo n_l1new (Plain (Einsum [(n_l1,[0;1]); (T 68,[0;2])] [2;1]));
  (*778*) Del (T 68);
  (*779*) AddTo (T 70) (Plain (Einsum [(n_f'ov,[0;1])] [0;1]));
  (*780*) SubFrom n_l1new (Plain (Einsum [(T 69,[0;1]); (T 70,[1;2])] [2;0]));
  (*781*) Del (T 69);
  (*782*) Del (T 70);
  (*783*) AddTo (T 71) (Plain (Einsum [(n_G,[0])] [0]));
  (*784*) AddTo (T 71) (Plain (Einsum [(n_s1,[0]); (n_w,[1;0])] [1]));
  (*785*) AddTo (T 71) (Plain (Einsum [(n_t1,[0;1]); (n_gc'bov,[2;0;1])] [2]));
  (*786*) AddTo n_l1new (Plain (Einsum [(T 71,[0]); (n_lu11,[0;1;2])] [1;2]));
  (*787*) Del (T 71);
  (*788*) Assign (T 72) (Plain (Zeros [3]));
  (*789*) AddTo (T 72) (Plain (Einsum [(n_s1,[0])] [0]));
  (*790*) AddTo (T 72) (Plain (Einsum [(n_l1,[0;1]); (n_u11,[2;1;0])] [2]));
  (*791*) AddTo n_l1new (Plain (Einsum [(T 72,[0]); (n_g'bov,[0;1;2])] [2;1]));
  (*792*) Del (T 72);
  (*793*) Assign (T 73) (Plain (Zeros [0;0;1;1]));
  (*794*) AddTo (T 73) (Plain (Einsum [(n_gc'bov,[0;1;2]); (n_lu11,[0;3;4])] [1;4;2;3]));
  (*795*) AddTo (T 82) (Plain (Einsum [(T 73,[0;1;2;3])] [0;1;2;3]));
  (*796*) Del (T 73);
  (*797*) Assign (T 76) (Plain (Zeros [0;0;1;1]));
  (*798*) SubFrom (T 76) (Plain (Einsum [(n_t2,[0;1;2;3]); (n_v'oovv,[0;4;5;2])] [1;4;3;5]));
  (*799*) AddTo (T 77) (Plain (Einsum [(T 76,[0;1;2;3])] [0;1;2;3]));
  (*800*) Del (T 76);
  (*801*) SubFrom (T 77) (Plain (Einsum [(n_v'ovov,[0;1;2;3])] [2;0;1;3]));
  (*802*) Assign (T 78) (Plain (Zeros [0;0;1;1]));
  (*803*) AddTo (T 78) (Plain (Einsum [(n_l2,[0;1;2;3]); (T 77,[2;4;0;5])] [3;4;1;5]));
  (*804*) Del (T 77);
  (*805*) AddTo (T 82) (Plain (Einsum [(T 78,[0;1;2;3])] [0;1;2;3]));
  (*806*) Del (T 78);
  (*807*) AddTo (T 79) (Plain (Einsum [(n_v'ooov,[0;1;2;3])] [2;1;0;3]));
  (*808*) Assign (T 80) (Plain (Zeros [0;0;1;1]));
  (*809*) AddTo (T 80) (Plain (Einsum [(T 2,[0;1;2;3]); (T 79,[0;2;4;5])] [1;4;3;5]));
  (*810*) Del (T 79);
  (*811*) SubFrom (T 82) (Plain (Einsum [(T 80,[0;1;2;3])] [0;1;2;3]));
  (*812*) Del (T 80);
  (*813*) AddTo (T 81) (Plain (Einsum [(n_f'ov,[0;1])] [0;1]));
  (*814*) AddTo (T 82) (Plain (Einsum [(n_l1,[0;1]); (T 81,[2;3])] [2;1;3;0]));
  (*815*) AddTo n_l2new (Plain (Einsum [(T 82,[0;1;2;3])] [2;3;0;1]));
  (*816*) SubFrom n_l2new (Plain (Einsum [(T 82,[0;1;2;3])] [3;2;0;1]));
  (*817*) SubFrom n_l2new (Plain (Einsum [(T 82,[0;1;2;3])] [2;3;1;0]));
  (*818*) AddTo n_l2new (Plain (Einsum [(T 82,[0;1;2;3])] [3;2;1;0]));
  (*819*) Del (T 82);
  (*820*) Assign (T 91) (Plain (Zeros [0;0]));
  (*821*) AddTo (T 91) (Plain (Einsum [(n_t1,[0;1]); (T 81,[2;1])] [0;2]));
  (*822*) AddTo (T 92) (Plain (Einsum [(T 91,[0;1])] [1;0]));
  (*823*) Del (T 91);
  (*824*) Assign (T 106) (Plain (Zeros [0;0;1;1]));
  (*825*) AddTo (T 106) (Plain (Einsum [(T 81,[0;1]); (T 2,[2;3;0;4])] [2;3;4;1]));
  (*826*) Del (T 2);
  (*827*) SubFrom (T 107) (Plain (Einsum [(T 106,[0;1;2;3])] [1;0;3;2]));
  (*828*) Del (T 106);
  (*829*) SubFrom n_lu11new (Plain (Einsum [(T 81,[0;1]); (T 49,[2;3;0])] [2;1;3]));
  (*830*) Del (T 49);
  (*831*) Del (T 81);
  (*832*) Assign (T 87) (Plain (Zeros [1;1]));
  (*833*) AddTo (T 87) (Plain (Einsum [(n_t2,[0;1;2;3]); (n_v'oovv,[0;1;2;4])] [3;4]));
  (*834*) Assign (T 88) (Plain (Zeros [0;0;1;1]));
  (*835*) SubFrom (T 88) (Plain (Einsum [(T 87,[0;1]); (n_l2,[2;0;3;4])] [4;3;2;1]));
  (*836*) AddTo (T 89) (Times (Einsum [(T 88,[0;1;2;3])] [0;1;2;3]) (1) 2);
  (*837*) Del (T 88);
  (*838*) AddTo n_l2new (Times (Einsum [(T 89,[0;1;2;3])] [2;3;0;1]) (-1) 1);
  (*839*) AddTo n_l2new (Plain (Einsum [(T 89,[0;1;2;3])] [3;2;0;1]));
  (*840*) Del (T 89);
  (*841*) AddTo (T 119) (Times (Einsum [(T 87,[0;1])] [0;1]) (1) 2);
  (*842*) Del (T 87);
  (*843*) Assign (T 90) (Plain (Zeros [0;0;1;1]));
  (*844*) AddTo (T 90) (Plain (Einsum [(n_l1,[0;1]); (n_v'ovvv,[2;0;3;4])] [1;2;3;4]));
  (*845*) AddTo (T 98) (Plain (Einsum [(T 90,[0;1;2;3])] [0;1;3;2]));
  (*846*) Del (T 90);
  (*847*) AddTo (T 92) (Plain (Einsum [(n_f'oo,[0;1])] [0;1]));
  (*848*) Assign (T 93) (Plain (Zeros [0;0;1;1]));
  (*849*) AddTo (T 93) (Plain (Einsum [(T 92,[0;1]); (n_l2,[2;3;1;4])] [4;0;2;3]));
  (*850*) Del (T 92);
  (*851*) AddTo (T 98) (Plain (Einsum [(T 93,[0;1;2;3])] [1;0;3;2]));
  (*852*) Del (T 93);
  (*853*) AddTo n_l2new (Plain (Einsum [(T 98,[0;1;2;3])] [2;3;0;1]));
  (*854*) SubFrom n_l2new (Plain (Einsum [(T 98,[0;1;2;3])] [2;3;1;0]));
  (*855*) Del (T 98);
  (*856*) Assign (T 103) (Plain (Zeros [1;1]));
  (*857*) AddTo (T 103) (Plain (Einsum [(n_g'bov,[0;1;2]); (n_u11,[0;1;3])] [2;3]));
  (*858*) SubFrom (T 104) (Plain (Einsum [(T 103,[0;1])] [1;0]));
  (*859*) Assign (T 105) (Plain (Zeros [0;0;1;1]));
  (*860*) AddTo (T 105) (Plain (Einsum [(T 104,[0;1]); (n_l2,[0;2;3;4])] [3;4;2;1]));
  (*861*) Del (T 104);
  (*862*) SubFrom (T 107) (Plain (Einsum [(T 105,[0;1;2;3])] [1;0;3;2]));
  (*863*) Del (T 105);
  (*864*) AddTo n_l2new (Plain (Einsum [(T 107,[0;1;2;3])] [2;3;0;1]));
  (*865*) SubFrom n_l2new (Plain (Einsum [(T 107,[0;1;2;3])] [3;2;0;1]));
  (*866*) Del (T 107);
  (*867*) AddTo (T 119) (Plain (Einsum [(T 103,[0;1])] [1;0]));
  (*868*) Del (T 103);
  (*869*) Assign (T 108) (Plain (Zeros [0;0;1;1]));
  (*870*) AddTo (T 108) (Plain (Einsum [(n_l1,[0;1]); (n_v'ooov,[2;3;1;4])] [2;3;0;4]));
  (*871*) Assign (T 110) (Plain (Zeros [0;0;1;1]));
  (*872*) SubFrom (T 110) (Plain (Einsum [(T 108,[0;1;2;3])] [1;0;2;3]));
  (*873*) Del (T 108);
  (*874*) Assign (T 109) (Plain (Zeros [0;0;1;1]));
  (*875*) AddTo (T 109) (Plain (Einsum [(n_f'vv,[0;1]); (n_l2,[2;0;3;4])] [3;4;1;2]));
  (*876*) SubFrom (T 110) (Plain (Einsum [(T 109,[0;1;2;3])] [1;0;2;3]));
  (*877*) Del (T 109);
  (*878*) SubFrom n_l2new (Plain (Einsum [(T 110,[0;1;2;3])] [2;3;0;1]));
  (*879*) AddTo n_l2new (Plain (Einsum [(T 110,[0;1;2;3])] [3;2;0;1]));
  (*880*) Del (T 110);
  (*881*) AddTo (T 111) (Times (Einsum [(n_v'ooov,[0;1;2;3])] [1;0;2;3]) (-1) 1);
  (*882*) AddTo (T 112) (Times (Einsum [(n_t1,[0;1]); (T 111,[2;3;4;1])] [3;2;4;0]) (-4) 1);
  (*883*) Del (T 111);
  (*884*) AddTo (T 112) (Times (Einsum [(n_v'oooo,[0;1;2;3])] [1;0;3;2]) (2) 1);
  (*885*) AddTo n_l2new (Times (Einsum [(n_l2,[0;1;2;3]); (T 112,[4;5;2;3])] [1;0;5;4]) (1) 4);
  (*886*) Del (T 112);
  (*887*) Assign (T 115) (Plain (Zeros [3;3]));
  (*888*) AddTo (T 115) (Plain (Einsum [(n_lu11,[0;1;2]); (n_u11,[3;2;1])] [0;3]));
  (*889*) AddTo n_lu11new (Plain (Einsum [(T 115,[0;1]); (n_g'bov,[1;2;3])] [0;3;2]));
  (*890*) Del (T 115);
  (*891*) Assign (T 116) (Plain (Zeros [3;1;1]));
  (*892*) AddTo (T 116) (Plain (Einsum [(n_t1,[0;1]); (n_lu11,[2;3;0])] [2;3;1]));
  (*893*) AddTo n_lu11new (Plain (Einsum [(T 116,[0;1;2]); (n_v'ovvv,[3;1;4;2])] [0;4;3]));
  (*894*) Del (T 116);
  (*895*) AddTo (T 117) (Plain (Einsum [(n_g'bvo,[0;1;2])] [0;2;1]));
  (*896*) AddTo (T 117) (Plain (Einsum [(n_t1,[0;1]); (n_g'bvv,[2;3;1])] [2;0;3]));
  (*897*) AddTo (T 117) (Plain (Einsum [(n_g'bov,[0;1;2]); (n_t2,[3;1;4;2])] [0;3;4]));
  (*898*) AddTo n_lu11new (Plain (Einsum [(T 117,[0;1;2]); (n_l2,[2;3;1;4])] [0;3;4]));
  (*899*) Del (T 117);
  (*900*) AddTo (T 118) (Plain (Einsum [(n_lu11,[0;1;2]); (n_t2,[2;3;1;4])] [0;3;4]));
  (*901*) AddTo n_lu11new (Plain (Einsum [(T 118,[0;1;2]); (n_v'oovv,[1;3;2;4])] [0;4;3]));
  (*902*) Del (T 118);
  (*903*) AddTo (T 119) (Times (Einsum [(n_f'vv,[0;1])] [0;1]) (-1) 1);
  (*904*) AddTo n_lu11new (Times (Einsum [(T 119,[0;1]); (n_lu11,[2;0;3])] [2;1;3]) (-1) 1);
  (*905*) Del (T 119);
  (*906*) Assign (T 122) (Plain (Zeros [3;3]));
  (*907*) AddTo (T 122) (Plain (Einsum [(n_w,[0;1])] [0;1]));
  (*908*) AddTo (T 122) (Plain (Einsum [(n_g'bov,[0;1;2]); (n_u11,[3;1;2])] [3;0]));
  (*909*) AddTo n_lu11new (Plain (Einsum [(T 122,[0;1]); (n_lu11,[0;2;3])] [1;2;3]));
  (*910*) Del (T 122);
  (*911*) SubFrom n_l1new (Plain (Einsum [(n_l1,[0;1]); (n_v'ovov,[2;0;1;3])] [3;2]));
  (*912*) AddTo n_l1new (Plain (Einsum [(n_f'ov,[0;1])] [1;0]));
  (*913*) AddTo n_l1new (Plain (Einsum [(n_ls1,[0]); (n_gc'bov,[0;1;2])] [2;1]));
  (*914*) AddTo n_l2new (Times (Einsum [(n_l2,[0;1;2;3]); (n_v'vvvv,[0;1;4;5])] [5;4;3;2]) (1) 2);
  (*915*) AddTo n_l2new (Plain (Einsum [(n_v'oovv,[0;1;2;3])] [3;2;1;0]));
  (*916*) AddTo n_ls1new (Plain (Einsum [(n_l1,[0;1]); (n_g'bvo,[2;0;1])] [2]));
  (*917*) AddTo n_ls1new (Plain (Einsum [(n_G,[0])] [0]));
  (*918*) AddTo n_ls1new (Plain (Einsum [(n_ls1,[0]); (n_w,[0;1])] [1]));
  (*919*) AddTo n_lu11new (Plain (Einsum [(n_g'bov,[0;1;2])] [0;2;1]));
  (*920*) SubFrom n_lu11new (Plain (Einsum [(n_lu11,[0;1;2]); (n_v'ovov,[3;1;2;4])] [0;4;3]));
  (*921*) AddTo n_lu11new (Plain (Einsum [(n_l1,[0;1]); (n_g'bvv,[2;0;3])] [2;3;1]))]
 [(n_l1new,[1;0]); (n_l2new,[1;1;0;0]); (n_ls1new,[3]); (n_lu11new,[3;1;0])].

(** ebcc/codegen/GCCSD_S_1_1.py:925-979 [make_rdm1_f]; assembly (line 977) not translated *)
Definition GCCSD_S_1_1_make_rdm1_f : prog := mkprog
 [(n_g'boo,[3;0;0]); (n_g'bvo,[3;1;0]); (n_g'bov,[3;0;1]); (n_g'bvv,[3;1;1]); (n_l1,[1;0]); (n_t1,[0;1]); (n_lu11,[3;1;0]); (n_u11,[3;0;1]); (n_l2,[1;1;0;0]); (n_t2,[0;0;1;1]); (n_ls1,[3])]
 [(*927*) Assign n_gc'boo (Plain (Transpose n_g'boo [0;2;1]));
  (*927*) Assign n_gc'bov (Plain (Transpose n_g'bvo [0;2;1]));
  (*927*) Assign n_gc'bvo (Plain (Transpose n_g'bov [0;2;1]));
  (*927*) Assign n_gc'bvv (Plain (Transpose n_g'bvv [0;2;1]));
  (*934*) Assign n_delta_oo (Plain (Eye 0));
  (*935*) Assign n_delta_vv (Plain (Eye 1));
  (*938*) Assign (T 1) (Plain (Zeros [0;0]));
  (*939*) AddTo (T 1) (Plain (Einsum [(n_l1,[0;1]); (n_t1,[2;0])] [1;2]));
  (*940*) Assign (T 6) (Plain (Zeros [0;0]));
  (*941*) AddTo (T 6) (Plain (Einsum [(T 1,[0;1])] [0;1]));
  (*942*) Assign n_rdm1_f_oo (Plain (Zeros [0;0]));
  (*943*) SubFrom n_rdm1_f_oo (Plain (Einsum [(T 1,[0;1])] [0;1]));
  (*944*) Del (T 1);
  (*945*) Assign (T 2) (Plain (Zeros [0;0]));
  (*946*) AddTo (T 2) (Plain (Einsum [(n_lu11,[0;1;2]); (n_u11,[0;3;1])] [2;3]));
  (*947*) AddTo (T 6) (Plain (Einsum [(T 2,[0;1])] [0;1]));
  (*948*) SubFrom n_rdm1_f_oo (Plain (Einsum [(T 2,[0;1])] [0;1]));
  (*949*) Del (T 2);
  (*950*) Assign (T 3) (Plain (Zeros [0;0]));
  (*951*) AddTo (T 3) (Plain (Einsum [(n_l2,[0;1;2;3]); (n_t2,[4;3;0;1])] [2;4]));
  (*952*) AddTo (T 6) (Times (Einsum [(T 3,[0;1])] [0;1]) (1) 2);
  (*953*) Assign n_rdm1_f_vo (Plain (Zeros [1;0]));
  (*954*) AddTo n_rdm1_f_vo (Times (Einsum [(n_t1,[0;1]); (T 6,[0;2])] [1;2]) (-1) 1);
  (*955*) Del (T 6);
  (*956*) AddTo n_rdm1_f_oo (Times (Einsum [(T 3,[0;1])] [0;1]) (-1) 2);
  (*957*) Del (T 3);
  (*958*) Assign (T 4) (Plain (Zeros [3;0;0]));
  (*959*) AddTo (T 4) (Plain (Einsum [(n_t1,[0;1]); (n_lu11,[2;1;3])] [2;3;0]));
  (*960*) SubFrom n_rdm1_f_vo (Plain (Einsum [(n_u11,[0;1;2]); (T 4,[0;1;3])] [2;3]));
  (*961*) Del (T 4);
  (*962*) Assign (T 5) (Plain (Zeros [0;0;0;1]));
  (*963*) AddTo (T 5) (Plain (Einsum [(n_t1,[0;1]); (n_l2,[2;1;3;4])] [3;4;0;2]));
  (*964*) AddTo n_rdm1_f_vo (Times (Einsum [(n_t2,[0;1;2;3]); (T 5,[0;1;4;3])] [2;4]) (1) 2);
  (*965*) Del (T 5);
  (*966*) AddTo n_rdm1_f_oo (Plain (Einsum [(n_delta_oo,[0;1])] [1;0]));
  (*967*) Assign n_rdm1_f_ov (Plain (Zeros [0;1]));
  (*968*) AddTo n_rdm1_f_ov (Plain (Einsum [(n_l1,[0;1])] [1;0]));
  (*969*) AddTo n_rdm1_f_vo (Plain (Einsum [(n_ls1,[0]); (n_u11,[0;1;2])] [2;1]));
  (*970*) AddTo n_rdm1_f_vo (Plain (Einsum [(n_t1,[0;1])] [1;0]));
  (*971*) AddTo n_rdm1_f_vo (Plain (Einsum [(n_l1,[0;1]); (n_t2,[2;1;3;0])] [3;2]));
  (*972*) Assign n_rdm1_f_vv (Plain (Zeros [1;1]));
  (*973*) AddTo n_rdm1_f_vv (Plain (Einsum [(n_l1,[0;1]); (n_t1,[1;2])] [2;0]));
  (*974*) AddTo n_rdm1_f_vv (Plain (Einsum [(n_lu11,[0;1;2]); (n_u11,[0;2;3])] [3;1]));
  (*975*) AddTo n_rdm1_f_vv (Times (Einsum [(n_l2,[0;1;2;3]); (n_t2,[2;3;4;0])] [4;1]) (-1) 2)]
 [(n_rdm1_f_oo,[0;0]); (n_rdm1_f_ov,[0;1]); (n_rdm1_f_vo,[1;0]); (n_rdm1_f_vv,[1;1])].

(** ebcc/codegen/GCCSD_S_1_1.py:981-1339 [make_rdm2_f]; assembly (line 1335) not translated *)
Definition GCCSD_S_1_1_make_rdm2_f : prog := mkprog
 [(n_g'boo,[3;0;0]); (n_g'bvo,[3;1;0]); (n_g'bov,[3;0;1]); (n_g'bvv,[3;1;1]); (n_l2,[1;1;0;0]); (n_t2,[0;0;1;1]); (n_t1,[0;1]); (n_l1,[1;0]); (n_lu11,[3;1;0]); (n_u11,[3;0;1]); (n_ls1,[3])]
 [(*983*) Assign n_gc'boo (Plain (Transpose n_g'boo [0;2;1]));
  (*983*) Assign n_gc'bov (Plain (Transpose n_g'bvo [0;2;1]));
  (*983*) Assign n_gc'bvo (Plain (Transpose n_g'bov [0;2;1]));
  (*983*) Assign n_gc'bvv (Plain (Transpose n_g'bvv [0;2;1]));
  (*990*) Assign n_delta_oo (Plain (Eye 0));
  (*991*) Assign n_delta_vv (Plain (Eye 1));
  (*994*) Assign (T 1) (Plain (Zeros [0;0;0;0]));
  (*995*) AddTo (T 1) (Plain (Einsum [(n_l2,[0;1;2;3]); (n_t2,[4;5;0;1])] [2;3;4;5]));
  (*996*) Assign (T 21) (Plain (Zeros [0;0;0;0]));
  (*997*) AddTo (T 21) (Times (Einsum [(T 1,[0;1;2;3])] [1;0;3;2]) (-1) 1);
  (*998*) Assign (T 49) (Plain (Zeros [0;0;0;0]));
  (*999*) AddTo (T 49) (Times (Einsum [(T 1,[0;1;2;3])] [1;0;3;2]) (-1) 1);
  (*1000*) Assign (T 50) (Plain (Zeros [0;0;0;0]));
  (*1001*) AddTo (T 50) (Times (Einsum [(T 1,[0;1;2;3])] [1;0;3;2]) (-1) 1);
  (*1002*) Assign n_rdm2_f_oooo (Plain (Zeros [0;0;0;0]));
  (*1003*) AddTo n_rdm2_f_oooo (Times (Einsum [(T 1,[0;1;2;3])] [1;0;3;2]) (1) 2);
  (*1004*) Del (T 1);
  (*1005*) Assign (T 2) (Plain (Zeros [0;0;0;1]));
  (*1006*) AddTo (T 2) (Plain (Einsum [(n_t1,[0;1]); (n_l2,[2;1;3;4])] [3;4;0;2]));
  (*1007*) Assign (T 3) (Plain (Zeros [0;0;0;0]));
  (*1008*) AddTo (T 3) (Plain (Einsum [(n_t1,[0;1]); (T 2,[2;3;4;1])] [2;3;0;4]));
  (*1009*) AddTo (T 21) (Times (Einsum [(T 3,[0;1;2;3])] [0;1;3;2]) (2) 1);
  (*1010*) Assign (T 22) (Plain (Zeros [0;0;0;1]));
  (*1011*) AddTo (T 22) (Times (Einsum [(n_t1,[0;1]); (T 21,[0;2;3;4])] [2;3;4;1]) (1) 2);
  (*1012*) Del (T 21);
  (*1013*) Assign n_rdm2_f_ovoo (Plain (Zeros [0;1;0;0]));
  (*1014*) AddTo n_rdm2_f_ovoo (Times (Einsum [(T 22,[0;1;2;3])] [0;3;2;1]) (-1) 1);
  (*1015*) Assign n_rdm2_f_vooo (Plain (Zeros [1;0;0;0]));
  (*1016*) AddTo n_rdm2_f_vooo (Plain (Einsum [(T 22,[0;1;2;3])] [3;0;2;1]));
  (*1017*) Del (T 22);
  (*1018*) AddTo (T 49) (Times (Einsum [(T 3,[0;1;2;3])] [0;1;3;2]) (20000000000000013) 10000000000000000);
  (*1019*) Assign n_rdm2_f_vvoo (Plain (Zeros [1;1;0;0]));
  (*1020*) AddTo n_rdm2_f_vvoo (Times (Einsum [(n_t2,[0;1;2;3]); (T 49,[0;1;4;5])] [3;2;5;4]) (-1) 4);
  (*1021*) Del (T 49);
  (*1022*) AddTo (T 50) (Times (Einsum [(T 3,[0;1;2;3])] [0;1;3;2]) (19999999999999987) 10000000000000000);
  (*1023*) Assign (T 51) (Plain (Zeros [0;0;0;1]));
  (*1024*) AddTo (T 51) (Times (Einsum [(n_t1,[0;1]); (T 50,[0;2;3;4])] [2;4;3;1]) (-1) 1);
  (*1025*) Del (T 50);
  (*1026*) AddTo n_rdm2_f_vvoo (Times (Einsum [(n_t1,[0;1]); (T 51,[0;2;3;4])] [1;4;3;2]) (-5000000000000003) 10000000000000000);
  (*1027*) Del (T 51);
  (*1028*) SubFrom n_rdm2_f_oooo (Plain (Einsum [(T 3,[0;1;2;3])] [0;1;3;2]));
  (*1029*) Del (T 3);
  (*1030*) Assign (T 10) (Plain (Zeros [0;0;0;1]));
  (*1031*) SubFrom (T 10) (Plain (Einsum [(n_t2,[0;1;2;3]); (T 2,[4;1;5;3])] [4;5;0;2]));
  (*1032*) Assign (T 16) (Plain (Zeros [0;0;0;1]));
  (*1033*) AddTo (T 16) (Plain (Einsum [(T 10,[0;1;2;3])] [0;1;2;3]));
  (*1034*) Assign (T 26) (Plain (Zeros [0;0;0;1]));
  (*1035*) SubFrom (T 26) (Plain (Einsum [(T 10,[0;1;2;3])] [0;1;2;3]));
  (*1036*) Assign (T 34) (Plain (Zeros [0;0;1;1]));
  (*1037*) AddTo (T 34) (Plain (Einsum [(n_t1,[0;1]); (T 10,[0;2;3;4])] [2;3;1;4]));
  (*1038*) Del (T 10);
  (*1039*) Assign (T 39) (Plain (Zeros [0;0;1;1]));
  (*1040*) SubFrom (T 39) (Plain (Einsum [(T 34,[0;1;2;3])] [0;1;2;3]));
  (*1041*) Del (T 34);
  (*1042*) Assign (T 17) (Plain (Zeros [0;1]));
  (*1043*) SubFrom (T 17) (Plain (Einsum [(n_t2,[0;1;2;3]); (T 2,[0;1;4;3])] [4;2]));
  (*1044*) Assign (T 19) (Plain (Zeros [0;1]));
  (*1045*) AddTo (T 19) (Plain (Einsum [(T 17,[0;1])] [0;1]));
  (*1046*) Del (T 17);
  (*1047*) Assign (T 29) (Plain (Zeros [0;0;1;1]));
  (*1048*) AddTo (T 29) (Plain (Einsum [(n_t1,[0;1]); (T 2,[2;0;3;4])] [2;3;4;1]));
  (*1049*) Assign (T 57) (Plain (Zeros [0;1;1;1]));
  (*1050*) SubFrom (T 57) (Plain (Einsum [(n_t1,[0;1]); (T 29,[0;2;3;4])] [2;3;4;1]));
  (*1051*) Assign n_rdm2_f_vvov (Plain (Zeros [1;1;0;1]));
  (*1052*) SubFrom n_rdm2_f_vvov (Plain (Einsum [(T 57,[0;1;2;3])] [3;2;0;1]));
  (*1053*) Assign n_rdm2_f_vvvo (Plain (Zeros [1;1;1;0]));
  (*1054*) AddTo n_rdm2_f_vvvo (Plain (Einsum [(T 57,[0;1;2;3])] [3;2;1;0]));
  (*1055*) Del (T 57);
  (*1056*) Assign n_rdm2_f_ovov (Plain (Zeros [0;1;0;1]));
  (*1057*) AddTo n_rdm2_f_ovov (Plain (Einsum [(T 29,[0;1;2;3])] [0;3;1;2]));
  (*1058*) Assign n_rdm2_f_ovvo (Plain (Zeros [0;1;1;0]));
  (*1059*) SubFrom n_rdm2_f_ovvo (Plain (Einsum [(T 29,[0;1;2;3])] [0;3;2;1]));
  (*1060*) Assign n_rdm2_f_voov (Plain (Zeros [1;0;0;1]));
  (*1061*) SubFrom n_rdm2_f_voov (Plain (Einsum [(T 29,[0;1;2;3])] [3;0;1;2]));
  (*1062*) Assign n_rdm2_f_vovo (Plain (Zeros [1;0;1;0]));
  (*1063*) AddTo n_rdm2_f_vovo (Plain (Einsum [(T 29,[0;1;2;3])] [3;0;2;1]));
  (*1064*) Del (T 29);
  (*1065*) Assign (T 56) (Plain (Zeros [0;1;1;1]));
  (*1066*) AddTo (T 56) (Plain (Einsum [(n_t2,[0;1;2;3]); (T 2,[0;1;4;5])] [4;5;2;3]));
  (*1067*) AddTo n_rdm2_f_vvov (Times (Einsum [(T 56,[0;1;2;3])] [2;3;0;1]) (1) 2);
  (*1068*) AddTo n_rdm2_f_vvvo (Times (Einsum [(T 56,[0;1;2;3])] [2;3;1;0]) (-1) 2);
  (*1069*) Del (T 56);
  (*1070*) Assign n_rdm2_f_ooov (Plain (Zeros [0;0;0;1]));
  (*1071*) SubFrom n_rdm2_f_ooov (Plain (Einsum [(T 2,[0;1;2;3])] [1;0;2;3]));
  (*1072*) Assign n_rdm2_f_oovo (Plain (Zeros [0;0;1;0]));
  (*1073*) AddTo n_rdm2_f_oovo (Plain (Einsum [(T 2,[0;1;2;3])] [1;0;3;2]));
  (*1074*) Del (T 2);
  (*1075*) Assign (T 4) (Plain (Zeros [0;0]));
  (*1076*) AddTo (T 4) (Plain (Einsum [(n_l1,[0;1]); (n_t1,[2;0])] [1;2]));
  (*1077*) Assign (T 15) (Plain (Zeros [0;0]));
  (*1078*) AddTo (T 15) (Plain (Einsum [(T 4,[0;1])] [0;1]));
  (*1079*) Assign (T 24) (Plain (Zeros [0;1]));
  (*1080*) AddTo (T 24) (Plain (Einsum [(n_t1,[0;1]); (T 4,[0;2])] [2;1]));
  (*1081*) Assign (T 25) (Plain (Zeros [0;1]));
  (*1082*) SubFrom (T 25) (Plain (Einsum [(T 24,[0;1])] [0;1]));
  (*1083*) Del (T 24);
  (*1084*) Assign (T 44) (Plain (Zeros [0;0;1;1]));
  (*1085*) AddTo (T 44) (Plain (Einsum [(T 4,[0;1]); (n_t2,[2;0;3;4])] [1;2;3;4]));
  (*1086*) Assign (T 46) (Plain (Zeros [0;0;1;1]));
  (*1087*) SubFrom (T 46) (Plain (Einsum [(T 44,[0;1;2;3])] [0;1;3;2]));
  (*1088*) Del (T 44);
  (*1089*) SubFrom n_rdm2_f_oooo (Plain (Einsum [(n_delta_oo,[0;1]); (T 4,[2;3])] [1;2;0;3]));
  (*1090*) AddTo n_rdm2_f_oooo (Plain (Einsum [(n_delta_oo,[0;1]); (T 4,[2;3])] [2;1;0;3]));
  (*1091*) AddTo n_rdm2_f_oooo (Plain (Einsum [(n_delta_oo,[0;1]); (T 4,[2;3])] [1;2;3;0]));
  (*1092*) SubFrom n_rdm2_f_oooo (Plain (Einsum [(n_delta_oo,[0;1]); (T 4,[2;3])] [2;1;3;0]));
  (*1093*) Del (T 4);
  (*1094*) Assign (T 5) (Plain (Zeros [0;0]));
  (*1095*) AddTo (T 5) (Plain (Einsum [(n_l2,[0;1;2;3]); (n_t2,[4;3;0;1])] [2;4]));
  (*1096*) Assign (T 18) (Plain (Zeros [0;1]));
  (*1097*) AddTo (T 18) (Plain (Einsum [(n_t1,[0;1]); (T 5,[0;2])] [2;1]));
  (*1098*) AddTo (T 19) (Plain (Einsum [(T 18,[0;1])] [0;1]));
  (*1099*) Del (T 18);
  (*1100*) Assign (T 20) (Plain (Zeros [0;0;0;1]));
  (*1101*) AddTo (T 20) (Times (Einsum [(n_delta_oo,[0;1]); (T 19,[2;3])] [1;0;2;3]) (1) 2);
  (*1102*) AddTo n_rdm2_f_vooo (Times (Einsum [(n_delta_oo,[0;1]); (T 19,[2;3])] [3;0;1;2]) (1) 2);
  (*1103*) AddTo n_rdm2_f_vooo (Times (Einsum [(n_delta_oo,[0;1]); (T 19,[2;3])] [3;0;2;1]) (-1) 2);
  (*1104*) AddTo n_rdm2_f_vvoo (Times (Einsum [(n_t1,[0;1]); (T 19,[2;3])] [1;3;0;2]) (-5000000000000003) 10000000000000000);
  (*1105*) AddTo n_rdm2_f_vvoo (Times (Einsum [(n_t1,[0;1]); (T 19,[2;3])] [3;1;0;2]) (5000000000000003) 10000000000000000);
  (*1106*) AddTo n_rdm2_f_vvoo (Times (Einsum [(n_t1,[0;1]); (T 19,[2;3])] [1;3;2;0]) (5000000000000003) 10000000000000000);
  (*1107*) AddTo n_rdm2_f_vvoo (Times (Einsum [(n_t1,[0;1]); (T 19,[2;3])] [3;1;2;0]) (-5000000000000003) 10000000000000000);
  (*1108*) Del (T 19);
  (*1109*) AddTo (T 20) (Times (Einsum [(n_t1,[0;1]); (T 5,[2;3])] [2;0;3;1]) (-1) 2);
  (*1110*) AddTo n_rdm2_f_ovoo (Times (Einsum [(T 20,[0;1;2;3])] [0;3;1;2]) (-1) 1);
  (*1111*) AddTo n_rdm2_f_ovoo (Plain (Einsum [(T 20,[0;1;2;3])] [0;3;2;1]));
  (*1112*) Del (T 20);
  (*1113*) Assign (T 48) (Plain (Zeros [0;0;1;1]));
  (*1114*) AddTo (T 48) (Plain (Einsum [(T 5,[0;1]); (n_t2,[2;0;3;4])] [2;1;3;4]));
  (*1115*) AddTo n_rdm2_f_vvoo (Times (Einsum [(T 48,[0;1;2;3])] [2;3;0;1]) (-1) 2);
  (*1116*) AddTo n_rdm2_f_vvoo (Times (Einsum [(T 48,[0;1;2;3])] [2;3;1;0]) (1) 2);
  (*1117*) Del (T 48);
  (*1118*) AddTo n_rdm2_f_oooo (Times (Einsum [(n_delta_oo,[0;1]); (T 5,[2;3])] [0;2;1;3]) (-1) 2);
  (*1119*) AddTo n_rdm2_f_oooo (Times (Einsum [(n_delta_oo,[0;1]); (T 5,[2;3])] [0;2;3;1]) (1) 2);
  (*1120*) AddTo n_rdm2_f_oooo (Times (Einsum [(n_delta_oo,[0;1]); (T 5,[2;3])] [2;1;0;3]) (1) 2);
  (*1121*) AddTo n_rdm2_f_oooo (Times (Einsum [(n_delta_oo,[0;1]); (T 5,[2;3])] [2;1;3;0]) (-1) 2);
  (*1122*) AddTo n_rdm2_f_vooo (Times (Einsum [(n_t1,[0;1]); (T 5,[2;3])] [1;2;0;3]) (-1) 2);
  (*1123*) AddTo n_rdm2_f_vooo (Times (Einsum [(n_t1,[0;1]); (T 5,[2;3])] [1;2;3;0]) (1) 2);
  (*1124*) Del (T 5);
  (*1125*) Assign (T 6) (Plain (Zeros [0;0]));
  (*1126*) AddTo (T 6) (Plain (Einsum [(n_lu11,[0;1;2]); (n_u11,[0;3;1])] [2;3]));
  (*1127*) Assign (T 13) (Plain (Zeros [0;1]));
  (*1128*) AddTo (T 13) (Plain (Einsum [(n_t1,[0;1]); (T 6,[0;2])] [2;1]));
  (*1129*) Assign (T 14) (Plain (Zeros [0;1]));
  (*1130*) AddTo (T 14) (Plain (Einsum [(T 13,[0;1])] [0;1]));
  (*1131*) Del (T 13);
  (*1132*) AddTo (T 15) (Plain (Einsum [(T 6,[0;1])] [0;1]));
  (*1133*) SubFrom (T 16) (Plain (Einsum [(n_t1,[0;1]); (T 15,[2;3])] [2;0;3;1]));
  (*1134*) AddTo (T 26) (Plain (Einsum [(n_t1,[0;1]); (T 15,[2;3])] [2;0;3;1]));
  (*1135*) Assign (T 52) (Plain (Zeros [0;1]));
  (*1136*) AddTo (T 52) (Plain (Einsum [(n_t1,[0;1]); (T 15,[0;2])] [2;1]));
  (*1137*) Del (T 15);
  (*1138*) Assign (T 53) (Plain (Zeros [0;1]));
  (*1139*) AddTo (T 53) (Plain (Einsum [(T 52,[0;1])] [0;1]));
  (*1140*) Assign (T 54) (Plain (Zeros [0;1]));
  (*1141*) AddTo (T 54) (Plain (Einsum [(T 52,[0;1])] [0;1]));
  (*1142*) Del (T 52);
  (*1143*) Assign (T 45) (Plain (Zeros [0;0;1;1]));
  (*1144*) AddTo (T 45) (Plain (Einsum [(T 6,[0;1]); (n_t2,[2;0;3;4])] [2;1;3;4]));
  (*1145*) AddTo (T 46) (Plain (Einsum [(T 45,[0;1;2;3])] [0;1;3;2]));
  (*1146*) Del (T 45);
  (*1147*) SubFrom n_rdm2_f_vvoo (Plain (Einsum [(T 46,[0;1;2;3])] [3;2;0;1]));
  (*1148*) AddTo n_rdm2_f_vvoo (Plain (Einsum [(T 46,[0;1;2;3])] [3;2;1;0]));
  (*1149*) Del (T 46);
  (*1150*) SubFrom n_rdm2_f_oooo (Plain (Einsum [(n_delta_oo,[0;1]); (T 6,[2;3])] [0;2;1;3]));
  (*1151*) AddTo n_rdm2_f_oooo (Plain (Einsum [(n_delta_oo,[0;1]); (T 6,[2;3])] [0;2;3;1]));
  (*1152*) AddTo n_rdm2_f_oooo (Plain (Einsum [(n_delta_oo,[0;1]); (T 6,[2;3])] [2;1;0;3]));
  (*1153*) SubFrom n_rdm2_f_oooo (Plain (Einsum [(n_delta_oo,[0;1]); (T 6,[2;3])] [2;1;3;0]));
  (*1154*) Del (T 6);
  (*1155*) Assign (T 7) (Plain (Zeros [0;0;0;1]));
  (*1156*) AddTo (T 7) (Plain (Einsum [(n_l1,[0;1]); (n_t2,[2;3;4;0])] [1;2;3;4]));
  (*1157*) Assign (T 40) (Plain (Zeros [0;0;1;1]));
  (*1158*) AddTo (T 40) (Plain (Einsum [(n_t1,[0;1]); (T 7,[0;2;3;4])] [2;3;1;4]));
  (*1159*) Assign (T 43) (Plain (Zeros [0;0;1;1]));
  (*1160*) AddTo (T 43) (Plain (Einsum [(T 40,[0;1;2;3])] [0;1;2;3]));
  (*1161*) Del (T 40);
  (*1162*) SubFrom n_rdm2_f_ovoo (Plain (Einsum [(T 7,[0;1;2;3])] [0;3;2;1]));
  (*1163*) AddTo n_rdm2_f_vooo (Plain (Einsum [(T 7,[0;1;2;3])] [3;0;2;1]));
  (*1164*) Del (T 7);
  (*1165*) Assign (T 8) (Plain (Zeros [3;0;0]));
  (*1166*) AddTo (T 8) (Plain (Einsum [(n_t1,[0;1]); (n_lu11,[2;1;3])] [2;3;0]));
  (*1167*) Assign (T 9) (Plain (Zeros [0;0;0;1]));
  (*1168*) AddTo (T 9) (Plain (Einsum [(n_u11,[0;1;2]); (T 8,[0;3;4])] [3;4;1;2]));
  (*1169*) AddTo (T 16) (Plain (Einsum [(T 9,[0;1;2;3])] [0;1;2;3]));
  (*1170*) SubFrom (T 26) (Plain (Einsum [(T 9,[0;1;2;3])] [0;1;2;3]));
  (*1171*) Del (T 9);
  (*1172*) SubFrom n_rdm2_f_vooo (Plain (Einsum [(T 26,[0;1;2;3])] [3;0;1;2]));
  (*1173*) AddTo n_rdm2_f_vooo (Plain (Einsum [(T 26,[0;1;2;3])] [3;0;2;1]));
  (*1174*) Del (T 26);
  (*1175*) Assign (T 12) (Plain (Zeros [0;1]));
  (*1176*) AddTo (T 12) (Plain (Einsum [(n_u11,[0;1;2]); (T 8,[0;1;3])] [3;2]));
  (*1177*) AddTo (T 14) (Plain (Einsum [(T 12,[0;1])] [0;1]));
  (*1178*) AddTo (T 53) (Plain (Einsum [(T 12,[0;1])] [0;1]));
  (*1179*) AddTo (T 54) (Plain (Einsum [(T 12,[0;1])] [0;1]));
  (*1180*) Del (T 12);
  (*1181*) Assign (T 36) (Plain (Zeros [3;0;1]));
  (*1182*) AddTo (T 36) (Plain (Einsum [(n_t1,[0;1]); (T 8,[2;0;3])] [2;3;1]));
  (*1183*) Del (T 8);
  (*1184*) Assign (T 37) (Plain (Zeros [3;0;1]));
  (*1185*) SubFrom (T 37) (Plain (Einsum [(T 36,[0;1;2])] [0;1;2]));
  (*1186*) Del (T 36);
  (*1187*) Assign (T 11) (Plain (Zeros [0;1]));
  (*1188*) AddTo (T 11) (Plain (Einsum [(n_l1,[0;1]); (n_t2,[2;1;3;0])] [2;3]));
  (*1189*) SubFrom (T 14) (Plain (Einsum [(T 11,[0;1])] [0;1]));
  (*1190*) AddTo (T 16) (Plain (Einsum [(n_delta_oo,[0;1]); (T 14,[2;3])] [1;0;2;3]));
  (*1191*) SubFrom n_rdm2_f_ovoo (Plain (Einsum [(T 16,[0;1;2;3])] [0;3;1;2]));
  (*1192*) AddTo n_rdm2_f_ovoo (Plain (Einsum [(T 16,[0;1;2;3])] [0;3;2;1]));
  (*1193*) Del (T 16);
  (*1194*) AddTo n_rdm2_f_vooo (Plain (Einsum [(n_delta_oo,[0;1]); (T 14,[2;3])] [3;0;1;2]));
  (*1195*) SubFrom n_rdm2_f_vooo (Plain (Einsum [(n_delta_oo,[0;1]); (T 14,[2;3])] [3;0;2;1]));
  (*1196*) Del (T 14);
  (*1197*) AddTo (T 39) (Plain (Einsum [(n_t1,[0;1]); (T 11,[2;3])] [0;2;1;3]));
  (*1198*) Del (T 11);
  (*1199*) Assign (T 23) (Plain (Zeros [0;1]));
  (*1200*) AddTo (T 23) (Plain (Einsum [(n_ls1,[0]); (n_u11,[0;1;2])] [1;2]));
  (*1201*) AddTo (T 25) (Plain (Einsum [(T 23,[0;1])] [0;1]));
  (*1202*) SubFrom (T 53) (Plain (Einsum [(T 23,[0;1])] [0;1]));
  (*1203*) SubFrom (T 54) (Plain (Einsum [(T 23,[0;1])] [0;1]));
  (*1204*) Del (T 23);
  (*1205*) AddTo n_rdm2_f_vvoo (Plain (Einsum [(n_t1,[0;1]); (T 54,[2;3])] [1;3;2;0]));
  (*1206*) SubFrom n_rdm2_f_vvoo (Plain (Einsum [(n_t1,[0;1]); (T 54,[2;3])] [3;1;2;0]));
  (*1207*) Del (T 54);
  (*1208*) AddTo (T 25) (Plain (Einsum [(n_t1,[0;1])] [0;1]));
  (*1209*) SubFrom n_rdm2_f_ovoo (Plain (Einsum [(n_delta_oo,[0;1]); (T 25,[2;3])] [1;3;2;0]));
  (*1210*) AddTo n_rdm2_f_ovoo (Plain (Einsum [(n_delta_oo,[0;1]); (T 25,[2;3])] [1;3;0;2]));
  (*1211*) SubFrom n_rdm2_f_vooo (Plain (Einsum [(n_delta_oo,[0;1]); (T 25,[2;3])] [3;1;0;2]));
  (*1212*) AddTo n_rdm2_f_vooo (Plain (Einsum [(n_delta_oo,[0;1]); (T 25,[2;3])] [3;1;2;0]));
  (*1213*) Del (T 25);
  (*1214*) Assign (T 27) (Plain (Zeros [0;0;1;1]));
  (*1215*) AddTo (T 27) (Plain (Einsum [(n_lu11,[0;1;2]); (n_u11,[0;3;4])] [2;3;1;4]));
  (*1216*) SubFrom n_rdm2_f_ovov (Plain (Einsum [(T 27,[0;1;2;3])] [0;3;1;2]));
  (*1217*) AddTo n_rdm2_f_ovvo (Plain (Einsum [(T 27,[0;1;2;3])] [0;3;2;1]));
  (*1218*) AddTo n_rdm2_f_voov (Plain (Einsum [(T 27,[0;1;2;3])] [3;0;1;2]));
  (*1219*) SubFrom n_rdm2_f_vovo (Plain (Einsum [(T 27,[0;1;2;3])] [3;0;2;1]));
  (*1220*) Del (T 27);
  (*1221*) Assign (T 28) (Plain (Zeros [0;0;1;1]));
  (*1222*) SubFrom (T 28) (Plain (Einsum [(n_l2,[0;1;2;3]); (n_t2,[4;3;5;0])] [2;4;1;5]));
  (*1223*) Assign (T 42) (Plain (Zeros [0;0;1;1]));
  (*1224*) AddTo (T 42) (Plain (Einsum [(n_t2,[0;1;2;3]); (T 28,[1;4;3;5])] [0;4;2;5]));
  (*1225*) AddTo (T 43) (Plain (Einsum [(T 42,[0;1;2;3])] [0;1;2;3]));
  (*1226*) Del (T 42);
  (*1227*) Assign (T 61) (Plain (Zeros [0;1;1;1]));
  (*1228*) AddTo (T 61) (Plain (Einsum [(n_t1,[0;1]); (T 28,[0;2;3;4])] [2;3;1;4]));
  (*1229*) Assign (T 63) (Plain (Zeros [0;1;1;1]));
  (*1230*) SubFrom (T 63) (Plain (Einsum [(T 61,[0;1;2;3])] [0;1;2;3]));
  (*1231*) Del (T 61);
  (*1232*) SubFrom n_rdm2_f_ovov (Plain (Einsum [(T 28,[0;1;2;3])] [0;3;1;2]));
  (*1233*) AddTo n_rdm2_f_ovvo (Plain (Einsum [(T 28,[0;1;2;3])] [0;3;2;1]));
  (*1234*) AddTo n_rdm2_f_voov (Plain (Einsum [(T 28,[0;1;2;3])] [3;0;1;2]));
  (*1235*) SubFrom n_rdm2_f_vovo (Plain (Einsum [(T 28,[0;1;2;3])] [3;0;2;1]));
  (*1236*) Del (T 28);
  (*1237*) Assign (T 30) (Plain (Zeros [1;1]));
  (*1238*) AddTo (T 30) (Plain (Einsum [(n_l1,[0;1]); (n_t1,[1;2])] [0;2]));
  (*1239*) Assign (T 33) (Plain (Zeros [1;1]));
  (*1240*) AddTo (T 33) (Plain (Einsum [(T 30,[0;1])] [0;1]));
  (*1241*) Assign (T 62) (Plain (Zeros [1;1]));
  (*1242*) AddTo (T 62) (Plain (Einsum [(T 30,[0;1])] [0;1]));
  (*1243*) Del (T 30);
  (*1244*) Assign (T 31) (Plain (Zeros [1;1]));
  (*1245*) AddTo (T 31) (Plain (Einsum [(n_lu11,[0;1;2]); (n_u11,[0;2;3])] [1;3]));
  (*1246*) AddTo (T 33) (Plain (Einsum [(T 31,[0;1])] [0;1]));
  (*1247*) Assign (T 41) (Plain (Zeros [0;0;1;1]));
  (*1248*) AddTo (T 41) (Plain (Einsum [(T 31,[0;1]); (n_t2,[2;3;4;0])] [2;3;4;1]));
  (*1249*) SubFrom (T 43) (Plain (Einsum [(T 41,[0;1;2;3])] [0;1;2;3]));
  (*1250*) Del (T 41);
  (*1251*) SubFrom n_rdm2_f_vvoo (Plain (Einsum [(T 43,[0;1;2;3])] [2;3;1;0]));
  (*1252*) AddTo n_rdm2_f_vvoo (Plain (Einsum [(T 43,[0;1;2;3])] [3;2;1;0]));
  (*1253*) Del (T 43);
  (*1254*) AddTo (T 62) (Plain (Einsum [(T 31,[0;1])] [0;1]));
  (*1255*) Del (T 31);
  (*1256*) AddTo (T 63) (Plain (Einsum [(n_t1,[0;1]); (T 62,[2;3])] [0;2;1;3]));
  (*1257*) Del (T 62);
  (*1258*) Assign (T 32) (Plain (Zeros [1;1]));
  (*1259*) SubFrom (T 32) (Plain (Einsum [(n_l2,[0;1;2;3]); (n_t2,[2;3;4;0])] [1;4]));
  (*1260*) AddTo (T 33) (Times (Einsum [(T 32,[0;1])] [0;1]) (1) 2);
  (*1261*) AddTo n_rdm2_f_ovov (Plain (Einsum [(n_delta_oo,[0;1]); (T 33,[2;3])] [1;3;0;2]));
  (*1262*) AddTo n_rdm2_f_ovvo (Times (Einsum [(n_delta_oo,[0;1]); (T 33,[2;3])] [1;3;2;0]) (-1) 1);
  (*1263*) AddTo n_rdm2_f_voov (Times (Einsum [(n_delta_oo,[0;1]); (T 33,[2;3])] [3;1;0;2]) (-1) 1);
  (*1264*) AddTo n_rdm2_f_vovo (Plain (Einsum [(n_delta_oo,[0;1]); (T 33,[2;3])] [3;1;2;0]));
  (*1265*) Del (T 33);
  (*1266*) Assign (T 47) (Plain (Zeros [0;0;1;1]));
  (*1267*) AddTo (T 47) (Plain (Einsum [(T 32,[0;1]); (n_t2,[2;3;4;0])] [2;3;4;1]));
  (*1268*) AddTo n_rdm2_f_vvoo (Times (Einsum [(T 47,[0;1;2;3])] [2;3;1;0]) (1) 2);
  (*1269*) AddTo n_rdm2_f_vvoo (Times (Einsum [(T 47,[0;1;2;3])] [3;2;1;0]) (-1) 2);
  (*1270*) Del (T 47);
  (*1271*) AddTo n_rdm2_f_vvov (Times (Einsum [(n_t1,[0;1]); (T 32,[2;3])] [1;3;0;2]) (1) 2);
  (*1272*) AddTo n_rdm2_f_vvov (Times (Einsum [(n_t1,[0;1]); (T 32,[2;3])] [3;1;0;2]) (-1) 2);
  (*1273*) AddTo n_rdm2_f_vvvo (Times (Einsum [(n_t1,[0;1]); (T 32,[2;3])] [1;3;2;0]) (-1) 2);
  (*1274*) AddTo n_rdm2_f_vvvo (Times (Einsum [(n_t1,[0;1]); (T 32,[2;3])] [3;1;2;0]) (1) 2);
  (*1275*) Del (T 32);
  (*1276*) Assign (T 35) (Plain (Zeros [3;0;1]));
  (*1277*) AddTo (T 35) (Plain (Einsum [(n_lu11,[0;1;2]); (n_t2,[3;2;4;1])] [0;3;4]));
  (*1278*) AddTo (T 37) (Plain (Einsum [(T 35,[0;1;2])] [0;1;2]));
  (*1279*) Del (T 35);
  (*1280*) Assign (T 38) (Plain (Zeros [0;0;1;1]));
  (*1281*) AddTo (T 38) (Plain (Einsum [(n_u11,[0;1;2]); (T 37,[0;3;4])] [3;1;4;2]));
  (*1282*) Del (T 37);
  (*1283*) AddTo (T 39) (Plain (Einsum [(T 38,[0;1;2;3])] [0;1;2;3]));
  (*1284*) Del (T 38);
  (*1285*) AddTo n_rdm2_f_vvoo (Plain (Einsum [(T 39,[0;1;2;3])] [2;3;0;1]));
  (*1286*) SubFrom n_rdm2_f_vvoo (Plain (Einsum [(T 39,[0;1;2;3])] [3;2;0;1]));
  (*1287*) SubFrom n_rdm2_f_vvoo (Plain (Einsum [(T 39,[0;1;2;3])] [2;3;1;0]));
  (*1288*) AddTo n_rdm2_f_vvoo (Plain (Einsum [(T 39,[0;1;2;3])] [3;2;1;0]));
  (*1289*) Del (T 39);
  (*1290*) SubFrom (T 53) (Plain (Einsum [(n_t1,[0;1])] [0;1]));
  (*1291*) AddTo n_rdm2_f_vvoo (Plain (Einsum [(n_t1,[0;1]); (T 53,[2;3])] [3;1;0;2]));
  (*1292*) SubFrom n_rdm2_f_vvoo (Plain (Einsum [(n_t1,[0;1]); (T 53,[2;3])] [1;3;0;2]));
  (*1293*) Del (T 53);
  (*1294*) Assign (T 55) (Plain (Zeros [0;1;1;1]));
  (*1295*) AddTo (T 55) (Plain (Einsum [(n_t1,[0;1]); (n_l2,[2;3;4;0])] [4;2;3;1]));
  (*1296*) Assign n_rdm2_f_ovvv (Plain (Zeros [0;1;1;1]));
  (*1297*) SubFrom n_rdm2_f_ovvv (Plain (Einsum [(T 55,[0;1;2;3])] [0;3;2;1]));
  (*1298*) Assign n_rdm2_f_vovv (Plain (Zeros [1;0;1;1]));
  (*1299*) AddTo n_rdm2_f_vovv (Plain (Einsum [(T 55,[0;1;2;3])] [3;0;2;1]));
  (*1300*) Assign n_rdm2_f_vvvv (Plain (Zeros [1;1;1;1]));
  (*1301*) SubFrom n_rdm2_f_vvvv (Plain (Einsum [(n_t1,[0;1]); (T 55,[0;2;3;4])] [1;4;3;2]));
  (*1302*) Del (T 55);
  (*1303*) Assign (T 58) (Plain (Zeros [0;1;1;1]));
  (*1304*) AddTo (T 58) (Plain (Einsum [(n_l1,[0;1]); (n_t2,[2;1;3;4])] [2;0;3;4]));
  (*1305*) SubFrom n_rdm2_f_vvov (Plain (Einsum [(T 58,[0;1;2;3])] [3;2;0;1]));
  (*1306*) AddTo n_rdm2_f_vvvo (Plain (Einsum [(T 58,[0;1;2;3])] [3;2;1;0]));
  (*1307*) Del (T 58);
  (*1308*) Assign (T 59) (Plain (Zeros [3;1;1]));
  (*1309*) AddTo (T 59) (Plain (Einsum [(n_t1,[0;1]); (n_lu11,[2;3;0])] [2;3;1]));
  (*1310*) Assign (T 60) (Plain (Zeros [0;1;1;1]));
  (*1311*) AddTo (T 60) (Plain (Einsum [(n_u11,[0;1;2]); (T 59,[0;3;4])] [1;3;4;2]));
  (*1312*) Del (T 59);
  (*1313*) SubFrom (T 63) (Plain (Einsum [(T 60,[0;1;2;3])] [0;1;2;3]));
  (*1314*) Del (T 60);
  (*1315*) AddTo n_rdm2_f_vvov (Plain (Einsum [(T 63,[0;1;2;3])] [2;3;0;1]));
  (*1316*) SubFrom n_rdm2_f_vvov (Plain (Einsum [(T 63,[0;1;2;3])] [3;2;0;1]));
  (*1317*) SubFrom n_rdm2_f_vvvo (Plain (Einsum [(T 63,[0;1;2;3])] [2;3;1;0]));
  (*1318*) AddTo n_rdm2_f_vvvo (Plain (Einsum [(T 63,[0;1;2;3])] [3;2;1;0]));
  (*1319*) Del (T 63);
  (*1320*) AddTo n_rdm2_f_oooo (Plain (Einsum [(n_delta_oo,[0;1]); (n_delta_oo,[2;3])] [1;3;0;2]));
  (*1321*) SubFrom n_rdm2_f_oooo (Plain (Einsum [(n_delta_oo,[0;1]); (n_delta_oo,[2;3])] [3;0;1;2]));
  (*1322*) AddTo n_rdm2_f_ooov (Plain (Einsum [(n_delta_oo,[0;1]); (n_l1,[2;3])] [1;3;0;2]));
  (*1323*) SubFrom n_rdm2_f_ooov (Plain (Einsum [(n_delta_oo,[0;1]); (n_l1,[2;3])] [3;1;0;2]));
  (*1324*) SubFrom n_rdm2_f_oovo (Plain (Einsum [(n_delta_oo,[0;1]); (n_l1,[2;3])] [1;3;2;0]));
  (*1325*) AddTo n_rdm2_f_oovo (Plain (Einsum [(n_delta_oo,[0;1]); (n_l1,[2;3])] [3;1;2;0]));
  (*1326*) Assign n_rdm2_f_oovv (Plain (Zeros [0;0;1;1]));
  (*1327*) AddTo n_rdm2_f_oovv (Plain (Einsum [(n_l2,[0;1;2;3])] [3;2;1;0]));
  (*1328*) SubFrom n_rdm2_f_ovov (Plain (Einsum [(n_l1,[0;1]); (n_t1,[2;3])] [1;3;2;0]));
  (*1329*) AddTo n_rdm2_f_ovvo (Plain (Einsum [(n_l1,[0;1]); (n_t1,[2;3])] [1;3;0;2]));
  (*1330*) AddTo n_rdm2_f_voov (Plain (Einsum [(n_l1,[0;1]); (n_t1,[2;3])] [3;1;2;0]));
  (*1331*) SubFrom n_rdm2_f_vovo (Plain (Einsum [(n_l1,[0;1]); (n_t1,[2;3])] [3;1;0;2]));
  (*1332*) AddTo n_rdm2_f_vvoo (Plain (Einsum [(n_t2,[0;1;2;3])] [3;2;1;0]));
  (*1333*) AddTo n_rdm2_f_vvvv (Times (Einsum [(n_l2,[0;1;2;3]); (n_t2,[2;3;4;5])] [5;4;1;0]) (1) 2)]
 [(n_rdm2_f_oooo,[0;0;0;0]); (n_rdm2_f_ooov,[0;0;0;1]); (n_rdm2_f_oovo,[0;0;1;0]); (n_rdm2_f_ovoo,[0;1;0;0]); (n_rdm2_f_vooo,[1;0;0;0]); (n_rdm2_f_oovv,[0;0;1;1]); (n_rdm2_f_ovov,[0;1;0;1]); (n_rdm2_f_ovvo,[0;1;1;0]); (n_rdm2_f_voov,[1;0;0;1]); (n_rdm2_f_vovo,[1;0;1;0]); (n_rdm2_f_vvoo,[1;1;0;0]); (n_rdm2_f_ovvv,[0;1;1;1]); (n_rdm2_f_vovv,[1;0;1;1]); (n_rdm2_f_vvov,[1;1;0;1]); (n_rdm2_f_vvvo,[1;1;1;0]); (n_rdm2_f_vvvv,[1;1;1;1])].

(** ebcc/codegen/GCCSD_S_1_1.py:1341-1359 [make_sing_b_dm]; assembly (line 1357) not translated *)
Definition GCCSD_S_1_1_make_sing_b_dm : prog := mkprog
 [(n_g'boo,[3;0;0]); (n_g'bvo,[3;1;0]); (n_g'bov,[3;0;1]); (n_g'bvv,[3;1;1]); (n_ls1,[3]); (n_l1,[1;0]); (n_u11,[3;0;1]); (n_s1,[3])]
 [(*1343*) Assign n_gc'boo (Plain (Transpose n_g'boo [0;2;1]));
  (*1343*) Assign n_gc'bov (Plain (Transpose n_g'bvo [0;2;1]));
  (*1343*) Assign n_gc'bvo (Plain (Transpose n_g'bov [0;2;1]));
  (*1343*) Assign n_gc'bvv (Plain (Transpose n_g'bvv [0;2;1]));
  (*1351*) Assign n_dm_b_cre (Plain (Zeros [3]));
  (*1352*) AddTo n_dm_b_cre (Plain (Einsum [(n_ls1,[0])] [0]));
  (*1353*) Assign n_dm_b_des (Plain (Zeros [3]));
  (*1354*) AddTo n_dm_b_des (Plain (Einsum [(n_l1,[0;1]); (n_u11,[2;1;0])] [2]));
  (*1355*) AddTo n_dm_b_des (Plain (Einsum [(n_s1,[0])] [0]))]
 [(n_dm_b_cre,[3]); (n_dm_b_des,[3])].

(** ebcc/codegen/GCCSD_S_1_1.py:1361-1375 [make_rdm1_b] *)
Definition GCCSD_S_1_1_make_rdm1_b : prog := mkprog
 [(n_g'boo,[3;0;0]); (n_g'bvo,[3;1;0]); (n_g'bov,[3;0;1]); (n_g'bvv,[3;1;1]); (n_lu11,[3;1;0]); (n_u11,[3;0;1]); (n_ls1,[3]); (n_s1,[3])]
 [(*1363*) Assign n_gc'boo (Plain (Transpose n_g'boo [0;2;1]));
  (*1363*) Assign n_gc'bov (Plain (Transpose n_g'bvo [0;2;1]));
  (*1363*) Assign n_gc'bvo (Plain (Transpose n_g'bov [0;2;1]));
  (*1363*) Assign n_gc'bvv (Plain (Transpose n_g'bvv [0;2;1]));
  (*1371*) Assign n_rdm1_b (Plain (Zeros [3;3]));
  (*1372*) AddTo n_rdm1_b (Plain (Einsum [(n_lu11,[0;1;2]); (n_u11,[3;2;1])] [0;3]));
  (*1373*) AddTo n_rdm1_b (Plain (Einsum [(n_ls1,[0]); (n_s1,[1])] [0;1]))]
 [(n_rdm1_b,[3;3])].

(** ebcc/codegen/GCCSD_S_1_1.py:1377-1501 [make_eb_coup_rdm]; assembly (line 1496) not translated *)
Definition GCCSD_S_1_1_make_eb_coup_rdm : prog := mkprog
 [(n_g'boo,[3;0;0]); (n_g'bvo,[3;1;0]); (n_g'bov,[3;0;1]); (n_g'bvv,[3;1;1]); (n_t1,[0;1]); (n_lu11,[3;1;0]); (n_u11,[3;0;1]); (n_l1,[1;0]); (n_l2,[1;1;0;0]); (n_t2,[0;0;1;1]); (n_s1,[3]); (n_ls1,[3])]
 [(*1379*) Assign n_gc'boo (Plain (Transpose n_g'boo [0;2;1]));
  (*1379*) Assign n_gc'bov (Plain (Transpose n_g'bvo [0;2;1]));
  (*1379*) Assign n_gc'bvo (Plain (Transpose n_g'bov [0;2;1]));
  (*1379*) Assign n_gc'bvv (Plain (Transpose n_g'bvv [0;2;1]));
  (*1386*) Assign n_delta_oo (Plain (Eye 0));
  (*1387*) Assign n_delta_vv (Plain (Eye 1));
  (*1390*) Assign (T 1) (Plain (Zeros [3;0;0]));
  (*1391*) AddTo (T 1) (Plain (Einsum [(n_t1,[0;1]); (n_lu11,[2;1;3])] [2;3;0]));
  (*1392*) Assign (T 18) (Plain (Zeros [0;1]));
  (*1393*) AddTo (T 18) (Plain (Einsum [(n_u11,[0;1;2]); (T 1,[0;1;3])] [3;2]));
  (*1394*) Assign n_rdm_eb_cre_oo (Plain (Zeros [3;0;0]));
  (*1395*) SubFrom n_rdm_eb_cre_oo (Plain (Einsum [(T 1,[0;1;2])] [0;2;1]));
  (*1396*) Assign n_rdm_eb_cre_ov (Plain (Zeros [3;0;1]));
  (*1397*) SubFrom n_rdm_eb_cre_ov (Plain (Einsum [(n_t1,[0;1]); (T 1,[2;0;3])] [2;3;1]));
  (*1398*) Del (T 1);
  (*1399*) Assign (T 2) (Plain (Zeros [3;0;0]));
  (*1400*) AddTo (T 2) (Plain (Einsum [(n_l1,[0;1]); (n_u11,[2;3;0])] [2;1;3]));
  (*1401*) Assign (T 15) (Plain (Zeros [3;0;0]));
  (*1402*) AddTo (T 15) (Plain (Einsum [(T 2,[0;1;2])] [0;1;2]));
  (*1403*) Assign n_rdm_eb_des_oo (Plain (Zeros [3;0;0]));
  (*1404*) SubFrom n_rdm_eb_des_oo (Plain (Einsum [(T 2,[0;1;2])] [0;2;1]));
  (*1405*) Del (T 2);
  (*1406*) Assign (T 3) (Plain (Zeros [3]));
  (*1407*) AddTo (T 3) (Plain (Einsum [(n_l1,[0;1]); (n_u11,[2;1;0])] [2]));
  (*1408*) AddTo n_rdm_eb_des_oo (Plain (Einsum [(T 3,[0]); (n_delta_oo,[1;2])] [0;2;1]));
  (*1409*) Assign n_rdm_eb_des_ov (Plain (Zeros [3;0;1]));
  (*1410*) AddTo n_rdm_eb_des_ov (Plain (Einsum [(T 3,[0]); (n_t1,[1;2])] [0;1;2]));
  (*1411*) Del (T 3);
  (*1412*) Assign (T 4) (Plain (Zeros [3;0;1]));
  (*1413*) SubFrom (T 4) (Plain (Einsum [(n_u11,[0;1;2]); (n_l2,[2;3;4;1])] [0;4;3]));
  (*1414*) Assign (T 5) (Plain (Zeros [3;0;0]));
  (*1415*) AddTo (T 5) (Plain (Einsum [(n_t1,[0;1]); (T 4,[2;3;1])] [2;3;0]));
  (*1416*) AddTo (T 15) (Plain (Einsum [(T 5,[0;1;2])] [0;1;2]));
  (*1417*) SubFrom n_rdm_eb_des_ov (Plain (Einsum [(n_t1,[0;1]); (T 15,[2;0;3])] [2;3;1]));
  (*1418*) Del (T 15);
  (*1419*) SubFrom n_rdm_eb_des_oo (Plain (Einsum [(T 5,[0;1;2])] [0;2;1]));
  (*1420*) Del (T 5);
  (*1421*) AddTo n_rdm_eb_des_ov (Plain (Einsum [(T 4,[0;1;2]); (n_t2,[3;1;4;2])] [0;3;4]));
  (*1422*) Assign n_rdm_eb_des_vo (Plain (Zeros [3;1;0]));
  (*1423*) AddTo n_rdm_eb_des_vo (Plain (Einsum [(T 4,[0;1;2])] [0;2;1]));
  (*1424*) Assign n_rdm_eb_des_vv (Plain (Zeros [3;1;1]));
  (*1425*) AddTo n_rdm_eb_des_vv (Plain (Einsum [(n_t1,[0;1]); (T 4,[2;0;3])] [2;3;1]));
  (*1426*) Del (T 4);
  (*1427*) Assign (T 6) (Plain (Zeros [0;0]));
  (*1428*) AddTo (T 6) (Plain (Einsum [(n_l1,[0;1]); (n_t1,[2;0])] [1;2]));
  (*1429*) Assign (T 9) (Plain (Zeros [0;0]));
  (*1430*) AddTo (T 9) (Plain (Einsum [(T 6,[0;1])] [0;1]));
  (*1431*) Assign (T 14) (Plain (Zeros [0;0]));
  (*1432*) AddTo (T 14) (Plain (Einsum [(T 6,[0;1])] [0;1]));
  (*1433*) Assign (T 17) (Plain (Zeros [0;0]));
  (*1434*) AddTo (T 17) (Times (Einsum [(T 6,[0;1])] [0;1]) (19999999999999987) 10000000000000000);
  (*1435*) Del (T 6);
  (*1436*) Assign (T 7) (Plain (Zeros [0;0]));
  (*1437*) AddTo (T 7) (Plain (Einsum [(n_lu11,[0;1;2]); (n_u11,[0;3;1])] [2;3]));
  (*1438*) AddTo (T 9) (Plain (Einsum [(T 7,[0;1])] [0;1]));
  (*1439*) AddTo (T 14) (Plain (Einsum [(T 7,[0;1])] [0;1]));
  (*1440*) AddTo (T 17) (Times (Einsum [(T 7,[0;1])] [0;1]) (19999999999999987) 10000000000000000);
  (*1441*) Del (T 7);
  (*1442*) Assign (T 8) (Plain (Zeros [0;0]));
  (*1443*) AddTo (T 8) (Plain (Einsum [(n_l2,[0;1;2;3]); (n_t2,[4;3;0;1])] [2;4]));
  (*1444*) AddTo (T 9) (Times (Einsum [(T 8,[0;1])] [0;1]) (1) 2);
  (*1445*) AddTo (T 14) (Times (Einsum [(T 8,[0;1])] [0;1]) (1) 2);
  (*1446*) AddTo n_rdm_eb_des_ov (Times (Einsum [(T 14,[0;1]); (n_u11,[2;0;3])] [2;1;3]) (-1) 1);
  (*1447*) Del (T 14);
  (*1448*) AddTo (T 17) (Plain (Einsum [(T 8,[0;1])] [0;1]));
  (*1449*) Del (T 8);
  (*1450*) AddTo (T 18) (Times (Einsum [(n_t1,[0;1]); (T 17,[0;2])] [2;1]) (5000000000000003) 10000000000000000);
  (*1451*) Del (T 17);
  (*1452*) AddTo (T 9) (Times (Einsum [(n_delta_oo,[0;1])] [1;0]) (-1) 1);
  (*1453*) AddTo n_rdm_eb_des_oo (Times (Einsum [(n_s1,[0]); (T 9,[1;2])] [0;2;1]) (-1) 1);
  (*1454*) Del (T 9);
  (*1455*) Assign (T 10) (Plain (Zeros [3;3]));
  (*1456*) AddTo (T 10) (Plain (Einsum [(n_lu11,[0;1;2]); (n_u11,[3;2;1])] [0;3]));
  (*1457*) AddTo n_rdm_eb_des_ov (Plain (Einsum [(T 10,[0;1]); (n_u11,[0;2;3])] [1;2;3]));
  (*1458*) Del (T 10);
  (*1459*) Assign (T 11) (Plain (Zeros [1;1]));
  (*1460*) AddTo (T 11) (Plain (Einsum [(n_lu11,[0;1;2]); (n_u11,[0;2;3])] [1;3]));
  (*1461*) Assign (T 13) (Plain (Zeros [1;1]));
  (*1462*) AddTo (T 13) (Times (Einsum [(T 11,[0;1])] [0;1]) (2) 1);
  (*1463*) Assign (T 19) (Plain (Zeros [1;1]));
  (*1464*) AddTo (T 19) (Plain (Einsum [(T 11,[0;1])] [0;1]));
  (*1465*) Del (T 11);
  (*1466*) Assign (T 12) (Plain (Zeros [1;1]));
  (*1467*) SubFrom (T 12) (Plain (Einsum [(n_l2,[0;1;2;3]); (n_t2,[2;3;4;0])] [1;4]));
  (*1468*) AddTo (T 13) (Plain (Einsum [(T 12,[0;1])] [0;1]));
  (*1469*) AddTo n_rdm_eb_des_ov (Times (Einsum [(T 13,[0;1]); (n_u11,[2;3;0])] [2;3;1]) (-1) 2);
  (*1470*) Del (T 13);
  (*1471*) AddTo (T 19) (Times (Einsum [(T 12,[0;1])] [0;1]) (1) 2);
  (*1472*) Del (T 12);
  (*1473*) Assign (T 16) (Plain (Zeros [0;0;0;1]));
  (*1474*) AddTo (T 16) (Plain (Einsum [(n_t1,[0;1]); (n_l2,[2;1;3;4])] [3;4;0;2]));
  (*1475*) AddTo (T 18) (Times (Einsum [(n_t2,[0;1;2;3]); (T 16,[0;1;4;3])] [4;2]) (-5000000000000003) 10000000000000000);
  (*1476*) Del (T 16);
  (*1477*) AddTo (T 18) (Times (Einsum [(n_t1,[0;1])] [0;1]) (-1) 1);
  (*1478*) AddTo (T 18) (Times (Einsum [(n_ls1,[0]); (n_u11,[0;1;2])] [1;2]) (-1) 1);
  (*1479*) AddTo (T 18) (Times (Einsum [(n_l1,[0;1]); (n_t2,[2;1;3;0])] [2;3]) (-1) 1);
  (*1480*) AddTo n_rdm_eb_des_ov (Times (Einsum [(n_s1,[0]); (T 18,[1;2])] [0;1;2]) (-1) 1);
  (*1481*) Del (T 18);
  (*1482*) AddTo (T 19) (Plain (Einsum [(n_l1,[0;1]); (n_t1,[1;2])] [0;2]));
  (*1483*) AddTo n_rdm_eb_des_vv (Plain (Einsum [(n_s1,[0]); (T 19,[1;2])] [0;1;2]));
  (*1484*) Del (T 19);
  (*1485*) AddTo n_rdm_eb_cre_oo (Plain (Einsum [(n_ls1,[0]); (n_delta_oo,[1;2])] [0;2;1]));
  (*1486*) AddTo n_rdm_eb_cre_ov (Plain (Einsum [(n_ls1,[0]); (n_t1,[1;2])] [0;1;2]));
  (*1487*) AddTo n_rdm_eb_cre_ov (Plain (Einsum [(n_lu11,[0;1;2]); (n_t2,[3;2;4;1])] [0;3;4]));
  (*1488*) Assign n_rdm_eb_cre_vo (Plain (Zeros [3;1;0]));
  (*1489*) AddTo n_rdm_eb_cre_vo (Plain (Einsum [(n_lu11,[0;1;2])] [0;1;2]));
  (*1490*) Assign n_rdm_eb_cre_vv (Plain (Zeros [3;1;1]));
  (*1491*) AddTo n_rdm_eb_cre_vv (Plain (Einsum [(n_t1,[0;1]); (n_lu11,[2;3;0])] [2;3;1]));
  (*1492*) AddTo n_rdm_eb_des_ov (Plain (Einsum [(n_u11,[0;1;2])] [0;1;2]));
  (*1493*) AddTo n_rdm_eb_des_vo (Plain (Einsum [(n_s1,[0]); (n_l1,[1;2])] [0;1;2]));
  (*1494*) AddTo n_rdm_eb_des_vv (Plain (Einsum [(n_l1,[0;1]); (n_u11,[2;1;3])] [2;0;3]))]
 [(n_rdm_eb_cre_oo,[3;0;0]); (n_rdm_eb_cre_ov,[3;0;1]); (n_rdm_eb_cre_vo,[3;1;0]); (n_rdm_eb_cre_vv,[3;1;1]); (n_rdm_eb_des_oo,[3;0;0]); (n_rdm_eb_des_ov,[3;0;1]); (n_rdm_eb_des_vo,[3;1;0]); (n_rdm_eb_des_vv,[3;1;1])].

