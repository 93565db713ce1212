(** Generated by tools/translate_codegen.py from ebcc/codegen/RCCSD_S_1_1.py; one statement per source line
    (the number in the comment before it). *)
From Coq Require Import ZArith List.
From Verif Require Import CgModel CgNames.
Import ListNotations.

(** ebcc/codegen/RCCSD_S_1_1.py:7-31 [energy] *)
Definition RCCSD_S_1_1_energy : prog := mkprog
 [(n_v'ovov,[0;1;0;1]); (n_t2,[0;0;1;1]); (n_t1,[0;1]); (n_f'ov,[0;1]); (n_u11,[3;0;1]); (n_s1,[3]); (n_g'bov,[3;0;1]); (n_G,[3])]
 [(*9*) Assign (T 1) (Plain (Zeros [0;0;1;1]));
  (*10*) AddTo (T 1) (Plain (Einsum [(n_v'ovov,[0;1;2;3])] [2;0;1;3]));
  (*11*) AddTo (T 1) (Times (Einsum [(n_v'ovov,[0;1;2;3])] [2;0;3;1]) (-1) 2);
  (*12*) Assign n_e_cc (Plain (Zeros []));
  (*13*) AddTo n_e_cc (Times (Einsum [(n_t2,[0;1;2;3]); (T 1,[0;1;3;2])] []) (2) 1);
  (*14*) Del (T 1);
  (*15*) Assign (T 2) (Plain (Zeros [0;0;1;1]));
  (*16*) AddTo (T 2) (Times (Einsum [(n_v'ovov,[0;1;2;3])] [2;0;1;3]) (-1) 2);
  (*17*) AddTo (T 2) (Plain (Einsum [(n_v'ovov,[0;1;2;3])] [2;0;3;1]));
  (*18*) Assign (T 3) (Plain (Zeros [0;1]));
  (*19*) AddTo (T 3) (Plain (Einsum [(n_t1,[0;1]); (T 2,[0;2;1;3])] [2;3]));
  (*20*) Del (T 2);
  (*21*) AddTo (T 3) (Plain (Einsum [(n_f'ov,[0;1])] [0;1]));
  (*22*) AddTo n_e_cc (Times (Einsum [(n_t1,[0;1]); (T 3,[0;1])] []) (2) 1);
  (*23*) Del (T 3);
  (*24*) Assign (T 4) (Plain (Zeros [3;0;1]));
  (*25*) AddTo (T 4) (Plain (Einsum [(n_u11,[0;1;2])] [0;1;2]));
  (*26*) AddTo (T 4) (Plain (Einsum [(n_s1,[0]); (n_t1,[1;2])] [0;1;2]));
  (*27*) AddTo n_e_cc (Times (Einsum [(n_g'bov,[0;1;2]); (T 4,[0;1;2])] []) (2) 1);
  (*28*) Del (T 4);
  (*29*) AddTo n_e_cc (Plain (Einsum [(n_G,[0]); (n_s1,[0])] []))]
 [(n_e_cc,[])].

(** ebcc/codegen/RCCSD_S_1_1.py:33-479 [update_amps] *)
Definition RCCSD_S_1_1_update_amps : prog := mkprog
 [(n_g'boo,[3;0;0]); (n_g'bvo,[3;1;0]); (n_g'bov,[3;0;1]); (n_g'bvv,[3;1;1]); (n_t1,[0;1]); (n_v'ovov,[0;1;0;1]); (n_t2,[0;0;1;1]); (n_v'ooov,[0;0;0;1]); (n_v'ovvv,[0;1;1;1]); (n_s1,[3]); (n_u11,[3;0;1]); (n_f'ov,[0;1]); (n_v'ovvo,[0;1;1;0]); (n_v'oovv,[0;0;1;1]); (n_f'oo,[0;0]); (n_f'vv,[1;1]); (n_G,[3]); (n_v'vvvv,[1;1;1;1]); (n_v'vovv,[1;0;1;1]); (n_v'oooo,[0;0;0;0]); (n_v'oovo,[0;0;1;0]); (n_w,[3;3]); (n_f'vo,[1;0]); (n_v'vovo,[1;0;1;0])]
 [(*35*) Assign n_gc'boo (Plain (Transpose n_g'boo [0;2;1]));
  (*35*) Assign n_gc'bov (Plain (Transpose n_g'bvo [0;2;1]));
  (*35*) Assign n_gc'bvo (Plain (Transpose n_g'bov [0;2;1]));
  (*35*) Assign n_gc'bvv (Plain (Transpose n_g'bvv [0;2;1]));
  (*43*) Assign (T 1) (Plain (Zeros [0;0;0;1]));
  (*44*) AddTo (T 1) (Plain (Einsum [(n_t1,[0;1]); (n_v'ovov,[2;1;3;4])] [0;3;2;4]));
  (*45*) Assign (T 2) (Plain (Zeros [0;0;0;1]));
  (*46*) AddTo (T 2) (Times (Einsum [(T 1,[0;1;2;3])] [0;1;2;3]) (2) 1);
  (*47*) AddTo (T 2) (Times (Einsum [(T 1,[0;1;2;3])] [0;2;1;3]) (-1) 1);
  (*48*) Assign (T 28) (Plain (Zeros [0;0;0;0]));
  (*49*) AddTo (T 28) (Plain (Einsum [(n_t1,[0;1]); (T 1,[2;3;4;1])] [2;0;4;3]));
  (*50*) Assign (T 89) (Plain (Zeros [0;0;0;0]));
  (*51*) AddTo (T 89) (Plain (Einsum [(T 28,[0;1;2;3])] [3;2;1;0]));
  (*52*) Assign n_t2new (Plain (Zeros [0;0;1;1]));
  (*53*) AddTo n_t2new (Plain (Einsum [(n_t2,[0;1;2;3]); (T 28,[4;5;1;0])] [5;4;2;3]));
  (*54*) Del (T 28);
  (*55*) Assign (T 36) (Plain (Zeros [0;0;0;1]));
  (*56*) AddTo (T 36) (Plain (Einsum [(n_t2,[0;1;2;3]); (T 1,[4;1;5;2])] [4;0;5;3]));
  (*57*) Assign (T 42) (Plain (Zeros [0;0;0;1]));
  (*58*) SubFrom (T 42) (Plain (Einsum [(T 36,[0;1;2;3])] [0;2;1;3]));
  (*59*) Del (T 36);
  (*60*) Assign (T 37) (Plain (Zeros [0;0;0;1]));
  (*61*) SubFrom (T 37) (Plain (Einsum [(T 1,[0;1;2;3])] [0;1;2;3]));
  (*62*) AddTo (T 37) (Times (Einsum [(T 1,[0;1;2;3])] [0;2;1;3]) (2) 1);
  (*63*) Assign (T 38) (Plain (Zeros [0;0;0;1]));
  (*64*) AddTo (T 38) (Plain (Einsum [(n_t2,[0;1;2;3]); (T 37,[4;5;0;2])] [1;4;5;3]));
  (*65*) Del (T 37);
  (*66*) AddTo (T 42) (Plain (Einsum [(T 38,[0;1;2;3])] [1;2;0;3]));
  (*67*) Del (T 38);
  (*68*) Assign (T 66) (Plain (Zeros [0;0;0;1]));
  (*69*) AddTo (T 66) (Plain (Einsum [(n_t2,[0;1;2;3]); (T 1,[4;5;1;2])] [4;0;5;3]));
  (*70*) Del (T 1);
  (*71*) Assign (T 70) (Plain (Zeros [0;0;0;1]));
  (*72*) SubFrom (T 70) (Plain (Einsum [(T 66,[0;1;2;3])] [2;0;1;3]));
  (*73*) Del (T 66);
  (*74*) AddTo (T 2) (Times (Einsum [(n_v'ooov,[0;1;2;3])] [1;0;2;3]) (-1) 1);
  (*75*) AddTo (T 2) (Times (Einsum [(n_v'ooov,[0;1;2;3])] [1;2;0;3]) (2) 1);
  (*76*) Assign n_t1new (Plain (Zeros [0;1]));
  (*77*) AddTo n_t1new (Times (Einsum [(n_t2,[0;1;2;3]); (T 2,[4;0;1;2])] [4;3]) (-2) 1);
  (*78*) Del (T 2);
  (*79*) Assign (T 3) (Plain (Zeros [0;1;1;1]));
  (*80*) AddTo (T 3) (Times (Einsum [(n_v'ovvv,[0;1;2;3])] [0;2;1;3]) (-1) 2);
  (*81*) AddTo (T 3) (Plain (Einsum [(n_v'ovvv,[0;1;2;3])] [0;2;3;1]));
  (*82*) AddTo n_t1new (Times (Einsum [(n_t2,[0;1;2;3]); (T 3,[0;4;3;2])] [1;4]) (4) 1);
  (*83*) Del (T 3);
  (*84*) Assign (T 4) (Plain (Zeros [0;1]));
  (*85*) AddTo (T 4) (Plain (Einsum [(n_s1,[0]); (n_g'bov,[0;1;2])] [1;2]));
  (*86*) Assign (T 7) (Plain (Zeros [0;1]));
  (*87*) AddTo (T 7) (Plain (Einsum [(T 4,[0;1])] [0;1]));
  (*88*) Assign (T 20) (Plain (Zeros [0;1]));
  (*89*) AddTo (T 20) (Times (Einsum [(T 4,[0;1])] [0;1]) (1) 2);
  (*90*) Assign (T 99) (Plain (Zeros [0;1]));
  (*91*) AddTo (T 99) (Plain (Einsum [(T 4,[0;1])] [0;1]));
  (*92*) Del (T 4);
  (*93*) Assign (T 5) (Plain (Zeros [0;0;1;1]));
  (*94*) AddTo (T 5) (Times (Einsum [(n_v'ovov,[0;1;2;3])] [2;0;1;3]) (2) 1);
  (*95*) SubFrom (T 5) (Plain (Einsum [(n_v'ovov,[0;1;2;3])] [2;0;3;1]));
  (*96*) Assign (T 6) (Plain (Zeros [0;1]));
  (*97*) AddTo (T 6) (Plain (Einsum [(n_t1,[0;1]); (T 5,[0;2;3;1])] [2;3]));
  (*98*) AddTo (T 7) (Plain (Einsum [(T 6,[0;1])] [0;1]));
  (*99*) Del (T 6);
  (*100*) Assign (T 93) (Plain (Zeros [3;0;1]));
  (*101*) AddTo (T 93) (Plain (Einsum [(n_u11,[0;1;2]); (T 5,[1;3;4;2])] [0;3;4]));
  (*102*) Del (T 5);
  (*103*) Assign (T 94) (Plain (Zeros [3;0;1]));
  (*104*) AddTo (T 94) (Plain (Einsum [(T 93,[0;1;2])] [0;1;2]));
  (*105*) Del (T 93);
  (*106*) AddTo (T 7) (Plain (Einsum [(n_f'ov,[0;1])] [0;1]));
  (*107*) Assign (T 69) (Plain (Zeros [0;0;0;1]));
  (*108*) AddTo (T 69) (Plain (Einsum [(T 7,[0;1]); (n_t2,[2;3;1;4])] [2;3;0;4]));
  (*109*) AddTo (T 70) (Plain (Einsum [(T 69,[0;1;2;3])] [2;1;0;3]));
  (*110*) Del (T 69);
  (*111*) Assign (T 72) (Plain (Zeros [0;0]));
  (*112*) AddTo (T 72) (Plain (Einsum [(n_t1,[0;1]); (T 7,[2;1])] [0;2]));
  (*113*) Assign (T 73) (Plain (Zeros [0;0]));
  (*114*) AddTo (T 73) (Plain (Einsum [(T 72,[0;1])] [0;1]));
  (*115*) Del (T 72);
  (*116*) Assign n_s1new (Plain (Zeros [3]));
  (*117*) AddTo n_s1new (Times (Einsum [(T 7,[0;1]); (n_u11,[2;0;1])] [2]) (2) 1);
  (*118*) Assign (T 8) (Plain (Zeros [0;0;1;1]));
  (*119*) SubFrom (T 8) (Plain (Einsum [(n_t2,[0;1;2;3])] [1;0;2;3]));
  (*120*) AddTo (T 8) (Times (Einsum [(n_t2,[0;1;2;3])] [1;0;3;2]) (2) 1);
  (*121*) AddTo n_t1new (Times (Einsum [(T 7,[0;1]); (T 8,[0;2;1;3])] [2;3]) (2) 1);
  (*122*) Del (T 7);
  (*123*) Assign (T 9) (Plain (Zeros [0;0;1;1]));
  (*124*) AddTo (T 9) (Times (Einsum [(n_v'ovvo,[0;1;2;3])] [0;3;2;1]) (2) 1);
  (*125*) SubFrom (T 9) (Plain (Einsum [(n_v'oovv,[0;1;2;3])] [0;1;2;3]));
  (*126*) AddTo n_t1new (Times (Einsum [(n_t1,[0;1]); (T 9,[0;2;3;1])] [2;3]) (2) 1);
  (*127*) Assign n_u11new (Plain (Zeros [3;0;1]));
  (*128*) AddTo n_u11new (Plain (Einsum [(n_u11,[0;1;2]); (T 9,[1;3;4;2])] [0;3;4]));
  (*129*) Del (T 9);
  (*130*) Assign (T 10) (Plain (Zeros [3;0;0]));
  (*131*) AddTo (T 10) (Plain (Einsum [(n_t1,[0;1]); (n_g'bov,[2;3;1])] [2;3;0]));
  (*132*) Assign (T 11) (Plain (Zeros [3;0;0]));
  (*133*) AddTo (T 11) (Plain (Einsum [(T 10,[0;1;2])] [0;1;2]));
  (*134*) Del (T 10);
  (*135*) AddTo (T 11) (Plain (Einsum [(n_g'boo,[0;1;2])] [0;1;2]));
  (*136*) Assign (T 50) (Plain (Zeros [3;0;1]));
  (*137*) AddTo (T 50) (Plain (Einsum [(n_t1,[0;1]); (T 11,[2;0;3])] [2;3;1]));
  (*138*) Assign (T 51) (Plain (Zeros [3;0;1]));
  (*139*) SubFrom (T 51) (Plain (Einsum [(T 50,[0;1;2])] [0;1;2]));
  (*140*) Del (T 50);
  (*141*) SubFrom n_t1new (Times (Einsum [(n_u11,[0;1;2]); (T 11,[0;1;3])] [3;2]) (2) 1);
  (*142*) Del (T 11);
  (*143*) Assign (T 12) (Plain (Zeros [0;0]));
  (*144*) AddTo (T 12) (Plain (Einsum [(n_s1,[0]); (n_g'boo,[0;1;2])] [1;2]));
  (*145*) Assign (T 22) (Plain (Zeros [0;0]));
  (*146*) AddTo (T 22) (Plain (Einsum [(T 12,[0;1])] [0;1]));
  (*147*) AddTo (T 73) (Plain (Einsum [(T 12,[0;1])] [1;0]));
  (*148*) Del (T 12);
  (*149*) Assign (T 13) (Plain (Zeros [0;0]));
  (*150*) AddTo (T 13) (Plain (Einsum [(n_g'bov,[0;1;2]); (n_u11,[0;3;2])] [1;3]));
  (*151*) AddTo (T 22) (Plain (Einsum [(T 13,[0;1])] [0;1]));
  (*152*) Assign (T 55) (Plain (Zeros [0;0]));
  (*153*) AddTo (T 55) (Plain (Einsum [(T 13,[0;1])] [0;1]));
  (*154*) Del (T 13);
  (*155*) Assign (T 14) (Plain (Zeros [0;0;1;1]));
  (*156*) AddTo (T 14) (Times (Einsum [(n_v'ovov,[0;1;2;3])] [2;0;1;3]) (-1) 2);
  (*157*) AddTo (T 14) (Plain (Einsum [(n_v'ovov,[0;1;2;3])] [2;0;3;1]));
  (*158*) Assign (T 15) (Plain (Zeros [0;0]));
  (*159*) AddTo (T 15) (Times (Einsum [(n_t2,[0;1;2;3]); (T 14,[0;4;2;3])] [1;4]) (2) 1);
  (*160*) AddTo (T 22) (Plain (Einsum [(T 15,[0;1])] [1;0]));
  (*161*) Del (T 15);
  (*162*) Assign (T 81) (Plain (Zeros [1;1]));
  (*163*) AddTo (T 81) (Plain (Einsum [(n_t2,[0;1;2;3]); (T 14,[0;1;2;4])] [3;4]));
  (*164*) Assign (T 82) (Plain (Zeros [0;0;1;1]));
  (*165*) AddTo (T 82) (Times (Einsum [(T 81,[0;1]); (n_t2,[2;3;1;4])] [2;3;4;0]) (2) 1);
  (*166*) Del (T 81);
  (*167*) Assign (T 85) (Plain (Zeros [0;0;1;1]));
  (*168*) AddTo (T 85) (Plain (Einsum [(T 82,[0;1;2;3])] [1;0;2;3]));
  (*169*) Del (T 82);
  (*170*) Assign (T 83) (Plain (Zeros [0;0]));
  (*171*) AddTo (T 83) (Plain (Einsum [(n_t2,[0;1;2;3]); (T 14,[0;4;2;3])] [1;4]));
  (*172*) Del (T 14);
  (*173*) Assign (T 84) (Plain (Zeros [0;0;1;1]));
  (*174*) AddTo (T 84) (Times (Einsum [(T 83,[0;1]); (n_t2,[1;2;3;4])] [2;0;3;4]) (2) 1);
  (*175*) Del (T 83);
  (*176*) AddTo (T 85) (Plain (Einsum [(T 84,[0;1;2;3])] [0;1;3;2]));
  (*177*) Del (T 84);
  (*178*) Assign (T 16) (Plain (Zeros [0;0;0;1]));
  (*179*) AddTo (T 16) (Plain (Einsum [(n_v'ooov,[0;1;2;3])] [0;2;1;3]));
  (*180*) AddTo (T 16) (Times (Einsum [(n_v'ooov,[0;1;2;3])] [2;0;1;3]) (-1) 2);
  (*181*) Assign (T 17) (Plain (Zeros [0;0]));
  (*182*) AddTo (T 17) (Times (Einsum [(n_t1,[0;1]); (T 16,[2;0;3;1])] [2;3]) (2) 1);
  (*183*) Del (T 16);
  (*184*) AddTo (T 22) (Plain (Einsum [(T 17,[0;1])] [0;1]));
  (*185*) Del (T 17);
  (*186*) Assign (T 18) (Plain (Zeros [0;0;1;1]));
  (*187*) AddTo (T 18) (Plain (Einsum [(n_v'ovov,[0;1;2;3])] [2;0;1;3]));
  (*188*) AddTo (T 18) (Times (Einsum [(n_v'ovov,[0;1;2;3])] [2;0;3;1]) (-1) 2);
  (*189*) Assign (T 19) (Plain (Zeros [0;1]));
  (*190*) AddTo (T 19) (Plain (Einsum [(n_t1,[0;1]); (T 18,[0;2;3;1])] [2;3]));
  (*191*) AddTo (T 20) (Plain (Einsum [(T 19,[0;1])] [0;1]));
  (*192*) Del (T 19);
  (*193*) Assign (T 97) (Plain (Zeros [0;1]));
  (*194*) AddTo (T 97) (Times (Einsum [(n_t1,[0;1]); (T 18,[0;2;3;1])] [2;3]) (2) 1);
  (*195*) Del (T 18);
  (*196*) Assign (T 98) (Plain (Zeros [1;1]));
  (*197*) AddTo (T 98) (Times (Einsum [(n_t1,[0;1]); (T 97,[0;2])] [1;2]) (-1) 1);
  (*198*) Del (T 97);
  (*199*) AddTo (T 20) (Times (Einsum [(n_f'ov,[0;1])] [0;1]) (1) 2);
  (*200*) Assign (T 21) (Plain (Zeros [0;0]));
  (*201*) AddTo (T 21) (Times (Einsum [(n_t1,[0;1]); (T 20,[2;1])] [0;2]) (2) 1);
  (*202*) Del (T 20);
  (*203*) AddTo (T 22) (Plain (Einsum [(T 21,[0;1])] [1;0]));
  (*204*) Del (T 21);
  (*205*) AddTo (T 22) (Plain (Einsum [(n_f'oo,[0;1])] [0;1]));
  (*206*) AddTo n_t1new (Times (Einsum [(n_t1,[0;1]); (T 22,[0;2])] [2;1]) (-2) 1);
  (*207*) AddTo n_u11new (Times (Einsum [(T 22,[0;1]); (n_u11,[2;0;3])] [2;1;3]) (-1) 1);
  (*208*) Del (T 22);
  (*209*) Assign (T 23) (Plain (Zeros [1;1]));
  (*210*) AddTo (T 23) (Plain (Einsum [(n_s1,[0]); (n_g'bvv,[0;1;2])] [1;2]));
  (*211*) Assign (T 26) (Plain (Zeros [1;1]));
  (*212*) AddTo (T 26) (Plain (Einsum [(T 23,[0;1])] [0;1]));
  (*213*) Assign (T 75) (Plain (Zeros [1;1]));
  (*214*) AddTo (T 75) (Plain (Einsum [(T 23,[0;1])] [0;1]));
  (*215*) AddTo (T 98) (Plain (Einsum [(T 23,[0;1])] [0;1]));
  (*216*) Del (T 23);
  (*217*) Assign (T 24) (Plain (Zeros [0;1;1;1]));
  (*218*) SubFrom (T 24) (Plain (Einsum [(n_v'ovvv,[0;1;2;3])] [0;2;1;3]));
  (*219*) AddTo (T 24) (Times (Einsum [(n_v'ovvv,[0;1;2;3])] [0;2;3;1]) (2) 1);
  (*220*) Assign (T 25) (Plain (Zeros [1;1]));
  (*221*) AddTo (T 25) (Plain (Einsum [(n_t1,[0;1]); (T 24,[0;2;3;1])] [2;3]));
  (*222*) AddTo (T 26) (Plain (Einsum [(T 25,[0;1])] [0;1]));
  (*223*) Assign (T 45) (Plain (Zeros [1;1]));
  (*224*) SubFrom (T 45) (Plain (Einsum [(T 25,[0;1])] [0;1]));
  (*225*) Del (T 25);
  (*226*) Assign (T 60) (Plain (Zeros [0;0;1;1]));
  (*227*) AddTo (T 60) (Plain (Einsum [(n_t1,[0;1]); (T 24,[2;3;1;4])] [0;2;3;4]));
  (*228*) Assign (T 61) (Plain (Zeros [0;0;1;1]));
  (*229*) AddTo (T 61) (Plain (Einsum [(n_t2,[0;1;2;3]); (T 60,[4;0;5;2])] [1;4;3;5]));
  (*230*) Del (T 60);
  (*231*) Assign (T 77) (Plain (Zeros [0;0;1;1]));
  (*232*) SubFrom (T 77) (Plain (Einsum [(T 61,[0;1;2;3])] [1;0;2;3]));
  (*233*) Del (T 61);
  (*234*) Assign (T 101) (Plain (Zeros [3;1;1]));
  (*235*) AddTo (T 101) (Plain (Einsum [(n_u11,[0;1;2]); (T 24,[1;3;4;2])] [0;3;4]));
  (*236*) Del (T 24);
  (*237*) AddTo (T 26) (Plain (Einsum [(n_f'vv,[0;1])] [0;1]));
  (*238*) AddTo n_t1new (Times (Einsum [(n_t1,[0;1]); (T 26,[2;1])] [0;2]) (2) 1);
  (*239*) Del (T 26);
  (*240*) Assign (T 27) (Plain (Zeros [3]));
  (*241*) AddTo (T 27) (Plain (Einsum [(n_G,[0])] [0]));
  (*242*) AddTo (T 27) (Times (Einsum [(n_t1,[0;1]); (n_g'bov,[2;0;1])] [2]) (2) 1);
  (*243*) AddTo n_t1new (Times (Einsum [(T 27,[0]); (n_u11,[0;1;2])] [1;2]) (2) 1);
  (*244*) Del (T 27);
  (*245*) Assign (T 29) (Plain (Zeros [0;1;1;1]));
  (*246*) AddTo (T 29) (Plain (Einsum [(n_t1,[0;1]); (n_v'vvvv,[2;1;3;4])] [0;3;2;4]));
  (*247*) AddTo n_t2new (Plain (Einsum [(n_t1,[0;1]); (T 29,[2;3;4;1])] [0;2;3;4]));
  (*248*) Del (T 29);
  (*249*) Assign (T 30) (Plain (Zeros [0;0;1;1]));
  (*250*) AddTo (T 30) (Plain (Einsum [(n_t1,[0;1]); (n_v'ovvv,[2;1;3;4])] [0;2;3;4]));
  (*251*) Assign (T 31) (Plain (Zeros [0;0;1;1]));
  (*252*) AddTo (T 31) (Plain (Einsum [(n_t2,[0;1;2;3]); (T 30,[4;1;5;2])] [4;0;3;5]));
  (*253*) Del (T 30);
  (*254*) Assign (T 57) (Plain (Zeros [0;0;1;1]));
  (*255*) AddTo (T 57) (Plain (Einsum [(T 31,[0;1;2;3])] [0;1;2;3]));
  (*256*) Del (T 31);
  (*257*) Assign (T 32) (Plain (Zeros [0;0;1;1]));
  (*258*) SubFrom (T 32) (Plain (Einsum [(n_v'ovov,[0;1;2;3])] [2;0;1;3]));
  (*259*) AddTo (T 32) (Times (Einsum [(n_v'ovov,[0;1;2;3])] [2;0;3;1]) (2) 1);
  (*260*) Assign (T 33) (Plain (Zeros [0;0;1;1]));
  (*261*) AddTo (T 33) (Plain (Einsum [(n_t2,[0;1;2;3]); (T 32,[0;4;3;5])] [1;4;2;5]));
  (*262*) Assign (T 34) (Plain (Zeros [0;0;1;1]));
  (*263*) AddTo (T 34) (Plain (Einsum [(n_t2,[0;1;2;3]); (T 33,[4;0;5;2])] [1;4;3;5]));
  (*264*) Del (T 33);
  (*265*) AddTo (T 57) (Plain (Einsum [(T 34,[0;1;2;3])] [0;1;2;3]));
  (*266*) Del (T 34);
  (*267*) Assign (T 86) (Plain (Zeros [0;0;1;1]));
  (*268*) AddTo (T 86) (Times (Einsum [(n_t2,[0;1;2;3]); (T 32,[0;4;2;5])] [1;4;3;5]) (2) 1);
  (*269*) Del (T 32);
  (*270*) Assign (T 35) (Plain (Zeros [0;0;0;1]));
  (*271*) AddTo (T 35) (Plain (Einsum [(n_t2,[0;1;2;3]); (n_v'ooov,[1;4;5;2])] [0;5;4;3]));
  (*272*) SubFrom (T 42) (Plain (Einsum [(T 35,[0;1;2;3])] [0;1;2;3]));
  (*273*) Del (T 35);
  (*274*) Assign (T 39) (Plain (Zeros [0;0;1;1]));
  (*275*) AddTo (T 39) (Plain (Einsum [(n_t1,[0;1]); (n_v'ovvv,[2;3;4;1])] [0;2;4;3]));
  (*276*) Assign (T 40) (Plain (Zeros [0;0;1;1]));
  (*277*) AddTo (T 40) (Plain (Einsum [(T 39,[0;1;2;3])] [1;0;2;3]));
  (*278*) Assign (T 59) (Plain (Zeros [0;0;1;1]));
  (*279*) AddTo (T 59) (Plain (Einsum [(n_t2,[0;1;2;3]); (T 39,[4;1;5;2])] [4;0;3;5]));
  (*280*) Del (T 39);
  (*281*) AddTo (T 77) (Plain (Einsum [(T 59,[0;1;2;3])] [0;1;2;3]));
  (*282*) Del (T 59);
  (*283*) AddTo (T 40) (Plain (Einsum [(n_v'ovvo,[0;1;2;3])] [0;3;2;1]));
  (*284*) Assign (T 41) (Plain (Zeros [0;0;0;1]));
  (*285*) AddTo (T 41) (Plain (Einsum [(n_t1,[0;1]); (T 40,[2;3;4;1])] [0;2;3;4]));
  (*286*) Del (T 40);
  (*287*) AddTo (T 42) (Plain (Einsum [(T 41,[0;1;2;3])] [0;1;2;3]));
  (*288*) Del (T 41);
  (*289*) Assign (T 43) (Plain (Zeros [0;0;1;1]));
  (*290*) AddTo (T 43) (Plain (Einsum [(n_t1,[0;1]); (T 42,[2;0;3;4])] [2;3;1;4]));
  (*291*) Del (T 42);
  (*292*) AddTo (T 57) (Plain (Einsum [(T 43,[0;1;2;3])] [0;1;2;3]));
  (*293*) Del (T 43);
  (*294*) Assign (T 44) (Plain (Zeros [1;1]));
  (*295*) AddTo (T 44) (Plain (Einsum [(n_g'bov,[0;1;2]); (n_u11,[0;1;3])] [2;3]));
  (*296*) AddTo (T 45) (Plain (Einsum [(T 44,[0;1])] [1;0]));
  (*297*) Assign (T 46) (Plain (Zeros [0;0;1;1]));
  (*298*) AddTo (T 46) (Plain (Einsum [(T 45,[0;1]); (n_t2,[2;3;1;4])] [2;3;4;0]));
  (*299*) Del (T 45);
  (*300*) AddTo (T 57) (Plain (Einsum [(T 46,[0;1;2;3])] [1;0;2;3]));
  (*301*) Del (T 46);
  (*302*) AddTo (T 98) (Times (Einsum [(T 44,[0;1])] [1;0]) (-1) 1);
  (*303*) Del (T 44);
  (*304*) Assign (T 47) (Plain (Zeros [3;0;1]));
  (*305*) AddTo (T 47) (Plain (Einsum [(n_t1,[0;1]); (n_g'bvv,[2;3;1])] [2;0;3]));
  (*306*) AddTo (T 51) (Plain (Einsum [(T 47,[0;1;2])] [0;1;2]));
  (*307*) Del (T 47);
  (*308*) Assign (T 48) (Plain (Zeros [0;0;1;1]));
  (*309*) AddTo (T 48) (Times (Einsum [(n_t2,[0;1;2;3])] [1;0;2;3]) (2) 1);
  (*310*) SubFrom (T 48) (Plain (Einsum [(n_t2,[0;1;2;3])] [1;0;3;2]));
  (*311*) Assign (T 49) (Plain (Zeros [3;0;1]));
  (*312*) AddTo (T 49) (Plain (Einsum [(n_g'bov,[0;1;2]); (T 48,[1;3;4;2])] [0;3;4]));
  (*313*) Del (T 48);
  (*314*) AddTo (T 51) (Plain (Einsum [(T 49,[0;1;2])] [0;1;2]));
  (*315*) Del (T 49);
  (*316*) AddTo (T 51) (Plain (Einsum [(n_g'bvo,[0;1;2])] [0;2;1]));
  (*317*) Assign (T 52) (Plain (Zeros [0;0;1;1]));
  (*318*) AddTo (T 52) (Plain (Einsum [(n_u11,[0;1;2]); (T 51,[0;3;4])] [1;3;2;4]));
  (*319*) Del (T 51);
  (*320*) SubFrom (T 57) (Plain (Einsum [(T 52,[0;1;2;3])] [1;0;3;2]));
  (*321*) Del (T 52);
  (*322*) Assign (T 53) (Plain (Zeros [0;0;0;1]));
  (*323*) AddTo (T 53) (Times (Einsum [(n_v'ooov,[0;1;2;3])] [0;2;1;3]) (2) 1);
  (*324*) SubFrom (T 53) (Plain (Einsum [(n_v'ooov,[0;1;2;3])] [2;0;1;3]));
  (*325*) Assign (T 54) (Plain (Zeros [0;0]));
  (*326*) AddTo (T 54) (Plain (Einsum [(n_t1,[0;1]); (T 53,[2;0;3;1])] [2;3]));
  (*327*) AddTo (T 55) (Plain (Einsum [(T 54,[0;1])] [0;1]));
  (*328*) Del (T 54);
  (*329*) Assign (T 56) (Plain (Zeros [0;0;1;1]));
  (*330*) AddTo (T 56) (Plain (Einsum [(T 55,[0;1]); (n_t2,[0;2;3;4])] [2;1;3;4]));
  (*331*) Del (T 55);
  (*332*) AddTo (T 57) (Plain (Einsum [(T 56,[0;1;2;3])] [0;1;3;2]));
  (*333*) Del (T 56);
  (*334*) SubFrom n_t2new (Plain (Einsum [(T 57,[0;1;2;3])] [0;1;2;3]));
  (*335*) SubFrom n_t2new (Plain (Einsum [(T 57,[0;1;2;3])] [1;0;3;2]));
  (*336*) Del (T 57);
  (*337*) Assign (T 100) (Plain (Zeros [3;0;0]));
  (*338*) AddTo (T 100) (Plain (Einsum [(n_u11,[0;1;2]); (T 53,[3;1;4;2])] [0;3;4]));
  (*339*) Del (T 53);
  (*340*) Assign (T 58) (Plain (Zeros [0;0;1;1]));
  (*341*) AddTo (T 58) (Plain (Einsum [(n_t1,[0;1]); (n_v'vovv,[2;3;4;1])] [0;3;2;4]));
  (*342*) SubFrom (T 77) (Plain (Einsum [(T 58,[0;1;2;3])] [0;1;2;3]));
  (*343*) Del (T 58);
  (*344*) Assign (T 62) (Plain (Zeros [0;0;0;1]));
  (*345*) AddTo (T 62) (Plain (Einsum [(n_t1,[0;1]); (n_v'oovv,[2;3;4;1])] [0;2;3;4]));
  (*346*) AddTo (T 70) (Plain (Einsum [(T 62,[0;1;2;3])] [1;0;2;3]));
  (*347*) Del (T 62);
  (*348*) Assign (T 63) (Plain (Zeros [0;0;0;1]));
  (*349*) AddTo (T 63) (Plain (Einsum [(n_t2,[0;1;2;3]); (n_v'ooov,[4;5;1;2])] [0;4;5;3]));
  (*350*) SubFrom (T 70) (Plain (Einsum [(T 63,[0;1;2;3])] [1;0;2;3]));
  (*351*) Del (T 63);
  (*352*) Assign (T 64) (Plain (Zeros [0;0;0;0]));
  (*353*) AddTo (T 64) (Plain (Einsum [(n_t1,[0;1]); (n_v'ooov,[2;3;4;1])] [0;2;4;3]));
  (*354*) Assign (T 65) (Plain (Zeros [0;0;0;1]));
  (*355*) AddTo (T 65) (Plain (Einsum [(n_t1,[0;1]); (T 64,[2;3;0;4])] [2;3;4;1]));
  (*356*) SubFrom (T 70) (Plain (Einsum [(T 65,[0;1;2;3])] [1;0;2;3]));
  (*357*) Del (T 65);
  (*358*) Assign (T 78) (Plain (Zeros [0;0;1;1]));
  (*359*) AddTo (T 78) (Plain (Einsum [(n_t2,[0;1;2;3]); (T 64,[4;0;1;5])] [4;5;2;3]));
  (*360*) Del (T 64);
  (*361*) AddTo n_t2new (Plain (Einsum [(T 78,[0;1;2;3])] [0;1;3;2]));
  (*362*) AddTo n_t2new (Plain (Einsum [(T 78,[0;1;2;3])] [1;0;2;3]));
  (*363*) Del (T 78);
  (*364*) Assign (T 67) (Plain (Zeros [0;0;0;1]));
  (*365*) SubFrom (T 67) (Plain (Einsum [(n_v'ooov,[0;1;2;3])] [0;2;1;3]));
  (*366*) AddTo (T 67) (Times (Einsum [(n_v'ooov,[0;1;2;3])] [2;0;1;3]) (2) 1);
  (*367*) Assign (T 68) (Plain (Zeros [0;0;0;1]));
  (*368*) AddTo (T 68) (Plain (Einsum [(n_t2,[0;1;2;3]); (T 67,[0;4;5;2])] [1;4;5;3]));
  (*369*) Del (T 67);
  (*370*) AddTo (T 70) (Plain (Einsum [(T 68,[0;1;2;3])] [1;0;2;3]));
  (*371*) Del (T 68);
  (*372*) Assign (T 71) (Plain (Zeros [0;0;1;1]));
  (*373*) AddTo (T 71) (Plain (Einsum [(n_t1,[0;1]); (T 70,[0;2;3;4])] [2;3;1;4]));
  (*374*) Del (T 70);
  (*375*) AddTo (T 77) (Plain (Einsum [(T 71,[0;1;2;3])] [0;1;2;3]));
  (*376*) Del (T 71);
  (*377*) AddTo (T 73) (Plain (Einsum [(n_f'oo,[0;1])] [1;0]));
  (*378*) Assign (T 74) (Plain (Zeros [0;0;1;1]));
  (*379*) AddTo (T 74) (Plain (Einsum [(T 73,[0;1]); (n_t2,[1;2;3;4])] [2;0;3;4]));
  (*380*) Del (T 73);
  (*381*) AddTo (T 77) (Plain (Einsum [(T 74,[0;1;2;3])] [1;0;3;2]));
  (*382*) Del (T 74);
  (*383*) AddTo (T 75) (Plain (Einsum [(n_f'vv,[0;1])] [0;1]));
  (*384*) Assign (T 76) (Plain (Zeros [0;0;1;1]));
  (*385*) AddTo (T 76) (Plain (Einsum [(T 75,[0;1]); (n_t2,[2;3;1;4])] [2;3;4;0]));
  (*386*) Del (T 75);
  (*387*) SubFrom (T 77) (Plain (Einsum [(T 76,[0;1;2;3])] [1;0;3;2]));
  (*388*) Del (T 76);
  (*389*) SubFrom n_t2new (Plain (Einsum [(T 77,[0;1;2;3])] [0;1;3;2]));
  (*390*) SubFrom n_t2new (Plain (Einsum [(T 77,[0;1;2;3])] [1;0;2;3]));
  (*391*) Del (T 77);
  (*392*) Assign (T 79) (Plain (Zeros [0;0;0;1]));
  (*393*) AddTo (T 79) (Plain (Einsum [(n_t2,[0;1;2;3]); (n_v'ovvv,[4;2;5;3])] [0;1;4;5]));
  (*394*) Assign (T 80) (Plain (Zeros [0;0;1;1]));
  (*395*) AddTo (T 80) (Plain (Einsum [(n_t1,[0;1]); (T 79,[2;3;0;4])] [2;3;1;4]));
  (*396*) Del (T 79);
  (*397*) AddTo (T 85) (Plain (Einsum [(T 80,[0;1;2;3])] [0;1;2;3]));
  (*398*) Del (T 80);
  (*399*) AddTo n_t2new (Times (Einsum [(T 85,[0;1;2;3])] [0;1;2;3]) (-1) 1);
  (*400*) AddTo n_t2new (Times (Einsum [(T 85,[0;1;2;3])] [1;0;3;2]) (-1) 1);
  (*401*) Del (T 85);
  (*402*) AddTo (T 86) (Times (Einsum [(n_v'ovvo,[0;1;2;3])] [3;0;2;1]) (2) 1);
  (*403*) SubFrom (T 86) (Plain (Einsum [(n_v'oovv,[0;1;2;3])] [1;0;2;3]));
  (*404*) AddTo n_t2new (Plain (Einsum [(n_t2,[0;1;2;3]); (T 86,[4;0;5;2])] [4;1;5;3]));
  (*405*) Del (T 86);
  (*406*) Assign (T 87) (Plain (Zeros [0;0;0;0]));
  (*407*) AddTo (T 87) (Plain (Einsum [(n_t2,[0;1;2;3]); (n_v'ovov,[4;2;5;3])] [0;1;4;5]));
  (*408*) Assign (T 88) (Plain (Zeros [0;0;0;0]));
  (*409*) AddTo (T 88) (Plain (Einsum [(T 87,[0;1;2;3])] [3;2;1;0]));
  (*410*) AddTo (T 89) (Plain (Einsum [(T 87,[0;1;2;3])] [3;2;1;0]));
  (*411*) Del (T 87);
  (*412*) AddTo (T 88) (Plain (Einsum [(n_v'oooo,[0;1;2;3])] [2;0;3;1]));
  (*413*) AddTo n_t2new (Plain (Einsum [(n_t2,[0;1;2;3]); (T 88,[0;1;4;5])] [5;4;3;2]));
  (*414*) Del (T 88);
  (*415*) AddTo (T 89) (Plain (Einsum [(n_v'oooo,[0;1;2;3])] [2;0;3;1]));
  (*416*) Assign (T 90) (Plain (Zeros [0;0;0;1]));
  (*417*) AddTo (T 90) (Times (Einsum [(n_t1,[0;1]); (T 89,[0;2;3;4])] [4;3;2;1]) (9999999999999993) 10000000000000000);
  (*418*) Del (T 89);
  (*419*) AddTo (T 90) (Times (Einsum [(n_v'oovo,[0;1;2;3])] [1;3;0;2]) (-9999999999999993) 10000000000000000);
  (*420*) AddTo n_t2new (Plain (Einsum [(n_t1,[0;1]); (T 90,[2;3;0;4])] [2;3;1;4]));
  (*421*) Del (T 90);
  (*422*) Assign (T 91) (Plain (Zeros [0;0;1;1]));
  (*423*) SubFrom (T 91) (Plain (Einsum [(n_v'ovvo,[0;1;2;3])] [3;0;2;1]));
  (*424*) AddTo (T 91) (Plain (Einsum [(n_t2,[0;1;2;3]); (n_v'ovov,[1;2;4;5])] [0;4;3;5]));
  (*425*) AddTo n_t2new (Plain (Einsum [(n_t2,[0;1;2;3]); (T 91,[4;0;5;3])] [1;4;2;5]));
  (*426*) Del (T 91);
  (*427*) Assign (T 92) (Plain (Zeros [0;0;1;1]));
  (*428*) SubFrom (T 92) (Plain (Einsum [(n_v'oovv,[0;1;2;3])] [1;0;2;3]));
  (*429*) AddTo (T 92) (Plain (Einsum [(n_t2,[0;1;2;3]); (n_v'ovov,[1;4;5;2])] [0;5;3;4]));
  (*430*) AddTo n_t2new (Plain (Einsum [(n_t2,[0;1;2;3]); (T 92,[4;0;5;3])] [1;4;5;2]));
  (*431*) Del (T 92);
  (*432*) AddTo (T 94) (Plain (Einsum [(n_gc'bov,[0;1;2])] [0;1;2]));
  (*433*) AddTo (T 100) (Plain (Einsum [(n_t1,[0;1]); (T 94,[2;3;1])] [2;3;0]));
  (*434*) AddTo n_u11new (Plain (Einsum [(T 94,[0;1;2]); (T 8,[1;3;2;4])] [0;3;4]));
  (*435*) Del (T 94);
  (*436*) Del (T 8);
  (*437*) Assign (T 95) (Plain (Zeros [0;0;1;1]));
  (*438*) AddTo (T 95) (Times (Einsum [(n_v'ovov,[0;1;2;3])] [2;0;1;3]) (-1) 1);
  (*439*) AddTo (T 95) (Times (Einsum [(n_v'ovov,[0;1;2;3])] [2;0;3;1]) (2) 1);
  (*440*) AddTo (T 98) (Times (Einsum [(n_t2,[0;1;2;3]); (T 95,[0;1;2;4])] [3;4]) (-1) 1);
  (*441*) Del (T 95);
  (*442*) Assign (T 96) (Plain (Zeros [0;1;1;1]));
  (*443*) AddTo (T 96) (Plain (Einsum [(n_v'ovvv,[0;1;2;3])] [0;2;1;3]));
  (*444*) AddTo (T 96) (Times (Einsum [(n_v'ovvv,[0;1;2;3])] [0;2;3;1]) (-1) 2);
  (*445*) AddTo (T 98) (Times (Einsum [(n_t1,[0;1]); (T 96,[0;2;1;3])] [2;3]) (2) 1);
  (*446*) Del (T 96);
  (*447*) AddTo (T 98) (Plain (Einsum [(n_f'vv,[0;1])] [0;1]));
  (*448*) AddTo n_u11new (Plain (Einsum [(T 98,[0;1]); (n_u11,[2;3;1])] [2;3;0]));
  (*449*) Del (T 98);
  (*450*) AddTo (T 99) (Plain (Einsum [(n_f'ov,[0;1])] [0;1]));
  (*451*) AddTo (T 100) (Plain (Einsum [(T 99,[0;1]); (n_u11,[2;3;1])] [2;0;3]));
  (*452*) Del (T 99);
  (*453*) AddTo (T 100) (Plain (Einsum [(n_gc'boo,[0;1;2])] [0;1;2]));
  (*454*) SubFrom n_u11new (Plain (Einsum [(n_t1,[0;1]); (T 100,[2;0;3])] [2;3;1]));
  (*455*) Del (T 100);
  (*456*) AddTo (T 101) (Plain (Einsum [(n_gc'bvv,[0;1;2])] [0;1;2]));
  (*457*) AddTo n_u11new (Plain (Einsum [(n_t1,[0;1]); (T 101,[2;3;1])] [2;0;3]));
  (*458*) Del (T 101);
  (*459*) Assign (T 102) (Plain (Zeros [3;3]));
  (*460*) AddTo (T 102) (Plain (Einsum [(n_w,[0;1])] [0;1]));
  (*461*) AddTo (T 102) (Times (Einsum [(n_g'bov,[0;1;2]); (n_u11,[3;1;2])] [0;3]) (2) 1);
  (*462*) AddTo n_u11new (Plain (Einsum [(T 102,[0;1]); (n_u11,[0;2;3])] [1;2;3]));
  (*463*) Del (T 102);
  (*464*) AddTo n_t1new (Times (Einsum [(n_g'bvv,[0;1;2]); (n_u11,[0;3;2])] [3;1]) (2) 1);
  (*465*) AddTo n_t1new (Times (Einsum [(n_s1,[0]); (n_g'bvo,[0;1;2])] [2;1]) (2) 1);
  (*466*) AddTo n_t1new (Times (Einsum [(n_f'vo,[0;1])] [1;0]) (2) 1);
  (*467*) SubFrom n_t2new (Plain (Einsum [(n_t2,[0;1;2;3]); (n_v'ovvo,[1;2;4;5])] [5;0;4;3]));
  (*468*) SubFrom n_t2new (Plain (Einsum [(n_t2,[0;1;2;3]); (n_v'oovv,[1;4;5;2])] [4;0;3;5]));
  (*469*) SubFrom n_t2new (Plain (Einsum [(n_t2,[0;1;2;3]); (n_v'oovv,[1;4;5;3])] [0;4;2;5]));
  (*470*) AddTo n_t2new (Times (Einsum [(n_t2,[0;1;2;3]); (n_v'ovvo,[1;3;4;5])] [0;5;2;4]) (2) 1);
  (*471*) AddTo n_t2new (Plain (Einsum [(n_t2,[0;1;2;3]); (n_v'vvvv,[4;2;5;3])] [1;0;5;4]));
  (*472*) SubFrom n_t2new (Plain (Einsum [(n_t1,[0;1]); (n_v'oovo,[0;2;3;4])] [4;2;3;1]));
  (*473*) AddTo n_t2new (Plain (Einsum [(n_v'vovo,[0;1;2;3])] [3;1;2;0]));
  (*474*) AddTo n_s1new (Times (Einsum [(n_t1,[0;1]); (n_gc'bov,[2;0;1])] [2]) (2) 1);
  (*475*) AddTo n_s1new (Plain (Einsum [(n_s1,[0]); (n_w,[0;1])] [1]));
  (*476*) AddTo n_s1new (Plain (Einsum [(n_G,[0])] [0]));
  (*477*) AddTo n_u11new (Plain (Einsum [(n_gc'bvo,[0;1;2])] [0;2;1]))]
 [(n_t1new,[0;1]); (n_t2new,[0;0;1;1]); (n_s1new,[3]); (n_u11new,[3;0;1])].

(** ebcc/codegen/RCCSD_S_1_1.py:481-1298 [update_lams] *)
Definition RCCSD_S_1_1_update_lams : prog := mkprog
 [(n_g'boo,[3;0;0]); (n_g'bvo,[3;1;0]); (n_g'bov,[3;0;1]); (n_g'bvv,[3;1;1]); (n_l1,[1;0]); (n_t1,[0;1]); (n_s1,[3]); (n_f'ov,[0;1]); (n_t2,[0;0;1;1]); (n_v'ovvv,[0;1;1;1]); (n_v'ovov,[0;1;0;1]); (n_l2,[1;1;0;0]); (n_v'ooov,[0;0;0;1]); (n_v'oovv,[0;0;1;1]); (n_v'ovvo,[0;1;1;0]); (n_v'oooo,[0;0;0;0]); (n_v'oovo,[0;0;1;0]); (n_lu11,[3;1;0]); (n_v'vvvv,[1;1;1;1]); (n_v'vovv,[1;0;1;1]); (n_u11,[3;0;1]); (n_ls1,[3]); (n_f'oo,[0;0]); (n_f'vv,[1;1]); (n_G,[3]); (n_f'vo,[1;0]); (n_w,[3;3])]
 [(*483*) Assign n_gc'boo (Plain (Transpose n_g'boo [0;2;1]));
  (*483*) Assign n_gc'bov (Plain (Transpose n_g'bvo [0;2;1]));
  (*483*) Assign n_gc'bvo (Plain (Transpose n_g'bov [0;2;1]));
  (*483*) Assign n_gc'bvv (Plain (Transpose n_g'bvv [0;2;1]));
  (*491*) Assign (T 1) (Plain (Zeros [0;0]));
  (*492*) AddTo (T 1) (Plain (Einsum [(n_l1,[0;1]); (n_t1,[2;0])] [1;2]));
  (*493*) Assign (T 88) (Plain (Zeros [0;0]));
  (*494*) AddTo (T 88) (Times (Einsum [(T 1,[0;1])] [0;1]) (1) 2);
  (*495*) Assign (T 96) (Plain (Zeros [0;0]));
  (*496*) AddTo (T 96) (Plain (Einsum [(T 1,[0;1])] [0;1]));
  (*497*) Assign (T 115) (Plain (Zeros [0;0]));
  (*498*) AddTo (T 115) (Plain (Einsum [(T 1,[0;1])] [0;1]));
  (*499*) Assign n_ls1new (Plain (Zeros [3]));
  (*500*) SubFrom n_ls1new (Times (Einsum [(T 1,[0;1]); (n_g'boo,[2;1;0])] [2]) (2) 1);
  (*501*) Assign (T 2) (Plain (Zeros [0;1]));
  (*502*) AddTo (T 2) (Plain (Einsum [(n_s1,[0]); (n_g'bov,[0;1;2])] [1;2]));
  (*503*) Assign (T 3) (Plain (Zeros [0;1]));
  (*504*) AddTo (T 3) (Plain (Einsum [(T 2,[0;1])] [0;1]));
  (*505*) Assign (T 61) (Plain (Zeros [0;1]));
  (*506*) AddTo (T 61) (Plain (Einsum [(T 2,[0;1])] [0;1]));
  (*507*) Assign (T 70) (Plain (Zeros [0;1]));
  (*508*) AddTo (T 70) (Times (Einsum [(T 2,[0;1])] [0;1]) (1) 2);
  (*509*) Assign (T 100) (Plain (Zeros [0;1]));
  (*510*) AddTo (T 100) (Plain (Einsum [(T 2,[0;1])] [0;1]));
  (*511*) Assign (T 142) (Plain (Zeros [0;1]));
  (*512*) AddTo (T 142) (Plain (Einsum [(T 2,[0;1])] [0;1]));
  (*513*) Assign n_l1new (Plain (Zeros [1;0]));
  (*514*) SubFrom n_l1new (Plain (Einsum [(T 1,[0;1]); (T 2,[1;2])] [2;0]));
  (*515*) Del (T 1);
  (*516*) Del (T 2);
  (*517*) AddTo (T 3) (Plain (Einsum [(n_f'ov,[0;1])] [0;1]));
  (*518*) Assign (T 4) (Plain (Zeros [0;0;0;1]));
  (*519*) AddTo (T 4) (Times (Einsum [(T 3,[0;1]); (n_t2,[2;3;1;4])] [2;3;0;4]) (2) 1);
  (*520*) Del (T 3);
  (*521*) Assign (T 18) (Plain (Zeros [0;0;0;1]));
  (*522*) AddTo (T 18) (Times (Einsum [(T 4,[0;1;2;3])] [1;2;0;3]) (-1) 1);
  (*523*) AddTo (T 18) (Times (Einsum [(T 4,[0;1;2;3])] [0;2;1;3]) (1) 2);
  (*524*) Del (T 4);
  (*525*) Assign (T 5) (Plain (Zeros [0;0;0;1]));
  (*526*) AddTo (T 5) (Plain (Einsum [(n_t2,[0;1;2;3]); (n_v'ovvv,[4;3;5;2])] [1;0;4;5]));
  (*527*) Assign (T 8) (Plain (Zeros [0;0;0;1]));
  (*528*) AddTo (T 8) (Plain (Einsum [(T 5,[0;1;2;3])] [0;1;2;3]));
  (*529*) Del (T 5);
  (*530*) Assign (T 6) (Plain (Zeros [0;0;0;0]));
  (*531*) AddTo (T 6) (Plain (Einsum [(n_t2,[0;1;2;3]); (n_v'ovov,[4;2;5;3])] [0;1;4;5]));
  (*532*) Assign (T 7) (Plain (Zeros [0;0;0;1]));
  (*533*) AddTo (T 7) (Plain (Einsum [(n_t1,[0;1]); (T 6,[2;3;4;0])] [2;3;4;1]));
  (*534*) AddTo (T 8) (Times (Einsum [(T 7,[0;1;2;3])] [0;1;2;3]) (-1) 1);
  (*535*) Del (T 7);
  (*536*) AddTo (T 18) (Plain (Einsum [(T 8,[0;1;2;3])] [0;2;1;3]));
  (*537*) AddTo (T 18) (Times (Einsum [(T 8,[0;1;2;3])] [1;2;0;3]) (-2) 1);
  (*538*) Del (T 8);
  (*539*) Assign (T 170) (Plain (Zeros [0;0;0;0]));
  (*540*) AddTo (T 170) (Plain (Einsum [(T 6,[0;1;2;3])] [3;2;1;0]));
  (*541*) Del (T 6);
  (*542*) Assign (T 9) (Plain (Zeros [0;0;1;1]));
  (*543*) AddTo (T 9) (Plain (Einsum [(n_v'ovov,[0;1;2;3])] [2;0;3;1]));
  (*544*) AddTo (T 9) (Times (Einsum [(n_v'ovov,[0;1;2;3])] [2;0;1;3]) (-1) 2);
  (*545*) Assign (T 10) (Plain (Zeros [0;1]));
  (*546*) AddTo (T 10) (Plain (Einsum [(n_t1,[0;1]); (T 9,[0;2;1;3])] [2;3]));
  (*547*) Assign (T 11) (Plain (Zeros [0;0;0;1]));
  (*548*) AddTo (T 11) (Times (Einsum [(T 10,[0;1]); (n_t2,[2;3;1;4])] [2;3;0;4]) (4) 1);
  (*549*) AddTo (T 18) (Times (Einsum [(T 11,[0;1;2;3])] [1;2;0;3]) (-1) 1);
  (*550*) AddTo (T 18) (Times (Einsum [(T 11,[0;1;2;3])] [0;2;1;3]) (1) 2);
  (*551*) Del (T 11);
  (*552*) AddTo (T 70) (Plain (Einsum [(T 10,[0;1])] [0;1]));
  (*553*) Del (T 10);
  (*554*) Assign (T 60) (Plain (Zeros [0;1]));
  (*555*) AddTo (T 60) (Times (Einsum [(n_t1,[0;1]); (T 9,[0;2;1;3])] [2;3]) (2) 1);
  (*556*) AddTo (T 61) (Plain (Einsum [(T 60,[0;1])] [0;1]));
  (*557*) Assign (T 178) (Plain (Zeros [1;1]));
  (*558*) AddTo (T 178) (Times (Einsum [(n_t1,[0;1]); (T 60,[0;2])] [1;2]) (-1) 1);
  (*559*) Del (T 60);
  (*560*) Assign (T 67) (Plain (Zeros [0;0]));
  (*561*) AddTo (T 67) (Times (Einsum [(n_t2,[0;1;2;3]); (T 9,[0;4;2;3])] [1;4]) (2) 1);
  (*562*) Assign (T 72) (Plain (Zeros [0;0]));
  (*563*) AddTo (T 72) (Plain (Einsum [(T 67,[0;1])] [1;0]));
  (*564*) Del (T 67);
  (*565*) Assign (T 160) (Plain (Zeros [1;1]));
  (*566*) AddTo (T 160) (Plain (Einsum [(n_t2,[0;1;2;3]); (T 9,[0;1;2;4])] [3;4]));
  (*567*) Del (T 9);
  (*568*) Assign (T 161) (Plain (Zeros [0;0;1;1]));
  (*569*) AddTo (T 161) (Times (Einsum [(T 160,[0;1]); (n_l2,[0;2;3;4])] [3;4;2;1]) (2) 1);
  (*570*) Del (T 160);
  (*571*) Assign (T 165) (Plain (Zeros [0;0;1;1]));
  (*572*) AddTo (T 165) (Plain (Einsum [(T 161,[0;1;2;3])] [1;0;2;3]));
  (*573*) Del (T 161);
  (*574*) Assign (T 12) (Plain (Zeros [0;0;0;1]));
  (*575*) AddTo (T 12) (Plain (Einsum [(n_t1,[0;1]); (n_v'ovov,[2;3;4;1])] [0;2;4;3]));
  (*576*) Assign (T 13) (Plain (Zeros [0;0;0;1]));
  (*577*) AddTo (T 13) (Times (Einsum [(T 12,[0;1;2;3])] [0;1;2;3]) (-1) 2);
  (*578*) AddTo (T 13) (Plain (Einsum [(T 12,[0;1;2;3])] [0;2;1;3]));
  (*579*) Assign (T 14) (Plain (Zeros [0;0;0;1]));
  (*580*) AddTo (T 14) (Times (Einsum [(T 12,[0;1;2;3])] [0;1;2;3]) (2) 1);
  (*581*) AddTo (T 14) (Times (Einsum [(T 12,[0;1;2;3])] [0;2;1;3]) (-1) 1);
  (*582*) Assign (T 21) (Plain (Zeros [0;0;0;0]));
  (*583*) AddTo (T 21) (Plain (Einsum [(n_t1,[0;1]); (T 12,[2;3;4;1])] [2;0;4;3]));
  (*584*) Assign (T 22) (Plain (Zeros [0;0;0;1]));
  (*585*) AddTo (T 22) (Plain (Einsum [(n_t1,[0;1]); (T 21,[2;3;0;4])] [3;2;4;1]));
  (*586*) Assign (T 23) (Plain (Zeros [0;0;0;1]));
  (*587*) AddTo (T 23) (Times (Einsum [(T 22,[0;1;2;3])] [0;1;2;3]) (20000000000000013) 10000000000000000);
  (*588*) Del (T 22);
  (*589*) Assign n_l2new (Plain (Zeros [1;1;0;0]));
  (*590*) AddTo n_l2new (Plain (Einsum [(n_l2,[0;1;2;3]); (T 21,[2;3;4;5])] [0;1;4;5]));
  (*591*) Del (T 21);
  (*592*) Assign (T 24) (Plain (Zeros [0;0;0;1]));
  (*593*) AddTo (T 24) (Plain (Einsum [(T 12,[0;1;2;3])] [0;1;2;3]));
  (*594*) AddTo (T 24) (Times (Einsum [(T 12,[0;1;2;3])] [0;2;1;3]) (-1) 2);
  (*595*) Assign (T 59) (Plain (Zeros [0;0;0;1]));
  (*596*) AddTo (T 59) (Times (Einsum [(T 12,[0;1;2;3])] [1;2;0;3]) (-1) 1);
  (*597*) AddTo (T 59) (Times (Einsum [(T 12,[0;1;2;3])] [2;1;0;3]) (2) 1);
  (*598*) Assign (T 145) (Plain (Zeros [0;0;1;1]));
  (*599*) AddTo (T 145) (Plain (Einsum [(n_l1,[0;1]); (T 12,[1;2;3;4])] [2;3;0;4]));
  (*600*) Assign (T 159) (Plain (Zeros [0;0;1;1]));
  (*601*) AddTo (T 159) (Plain (Einsum [(T 145,[0;1;2;3])] [0;1;2;3]));
  (*602*) Del (T 145);
  (*603*) AddTo (T 13) (Plain (Einsum [(n_v'ooov,[0;1;2;3])] [1;0;2;3]));
  (*604*) AddTo (T 13) (Times (Einsum [(n_v'ooov,[0;1;2;3])] [1;2;0;3]) (-1) 2);
  (*605*) AddTo (T 18) (Times (Einsum [(n_t2,[0;1;2;3]); (T 13,[4;0;5;3])] [4;5;1;2]) (2) 1);
  (*606*) Del (T 13);
  (*607*) AddTo (T 14) (Times (Einsum [(n_v'ooov,[0;1;2;3])] [1;0;2;3]) (-1) 1);
  (*608*) AddTo (T 14) (Times (Einsum [(n_v'ooov,[0;1;2;3])] [1;2;0;3]) (2) 1);
  (*609*) AddTo (T 18) (Plain (Einsum [(n_t2,[0;1;2;3]); (T 14,[4;0;5;2])] [4;5;1;3]));
  (*610*) Del (T 14);
  (*611*) Assign (T 15) (Plain (Zeros [0;0;1;1]));
  (*612*) AddTo (T 15) (Times (Einsum [(n_v'oovv,[0;1;2;3])] [0;1;2;3]) (2) 1);
  (*613*) AddTo (T 15) (Times (Einsum [(n_v'ovvo,[0;1;2;3])] [0;3;2;1]) (-1) 1);
  (*614*) AddTo (T 18) (Times (Einsum [(n_t1,[0;1]); (T 15,[2;3;4;1])] [0;2;3;4]) (-1) 1);
  (*615*) Del (T 15);
  (*616*) Assign (T 16) (Plain (Zeros [0;0;0;0]));
  (*617*) AddTo (T 16) (Plain (Einsum [(n_t1,[0;1]); (n_v'ooov,[2;3;4;1])] [0;2;4;3]));
  (*618*) Assign (T 17) (Plain (Zeros [0;0;0;0]));
  (*619*) AddTo (T 17) (Times (Einsum [(T 16,[0;1;2;3])] [1;2;0;3]) (-1) 2);
  (*620*) AddTo (T 17) (Plain (Einsum [(T 16,[0;1;2;3])] [2;1;0;3]));
  (*621*) Assign (T 27) (Plain (Zeros [0;0;0;0]));
  (*622*) AddTo (T 27) (Plain (Einsum [(T 16,[0;1;2;3])] [0;1;2;3]));
  (*623*) AddTo (T 27) (Times (Einsum [(T 16,[0;1;2;3])] [0;2;1;3]) (-1) 2);
  (*624*) Assign (T 28) (Plain (Zeros [0;0;0;1]));
  (*625*) AddTo (T 28) (Times (Einsum [(n_t1,[0;1]); (T 27,[2;0;3;4])] [2;3;4;1]) (2) 1);
  (*626*) Del (T 27);
  (*627*) Assign (T 147) (Plain (Zeros [0;0;1;1]));
  (*628*) AddTo (T 147) (Plain (Einsum [(n_l2,[0;1;2;3]); (T 16,[3;4;5;2])] [4;5;1;0]));
  (*629*) Del (T 16);
  (*630*) SubFrom (T 159) (Plain (Einsum [(T 147,[0;1;2;3])] [0;1;2;3]));
  (*631*) Del (T 147);
  (*632*) AddTo (T 17) (Plain (Einsum [(n_v'oooo,[0;1;2;3])] [2;0;3;1]));
  (*633*) AddTo (T 17) (Times (Einsum [(n_v'oooo,[0;1;2;3])] [2;0;1;3]) (-1) 2);
  (*634*) AddTo (T 18) (Times (Einsum [(n_t1,[0;1]); (T 17,[0;2;3;4])] [3;2;4;1]) (2) 1);
  (*635*) Del (T 17);
  (*636*) AddTo (T 18) (Plain (Einsum [(n_v'oovo,[0;1;2;3])] [1;0;3;2]));
  (*637*) AddTo (T 18) (Times (Einsum [(n_v'oovo,[0;1;2;3])] [3;0;1;2]) (-2) 1);
  (*638*) AddTo n_l1new (Plain (Einsum [(n_l2,[0;1;2;3]); (T 18,[3;4;2;1])] [0;4]));
  (*639*) Del (T 18);
  (*640*) Assign (T 19) (Plain (Zeros [0;0;1;1]));
  (*641*) AddTo (T 19) (Plain (Einsum [(n_t1,[0;1]); (n_v'ovvv,[2;1;3;4])] [0;2;3;4]));
  (*642*) Assign (T 20) (Plain (Zeros [0;0;0;1]));
  (*643*) AddTo (T 20) (Plain (Einsum [(n_t1,[0;1]); (T 19,[2;3;4;1])] [2;0;3;4]));
  (*644*) AddTo (T 23) (Times (Einsum [(T 20,[0;1;2;3])] [0;1;2;3]) (-2) 1);
  (*645*) Del (T 20);
  (*646*) AddTo (T 28) (Plain (Einsum [(T 23,[0;1;2;3])] [0;2;1;3]));
  (*647*) AddTo (T 28) (Times (Einsum [(T 23,[0;1;2;3])] [1;2;0;3]) (-1) 2);
  (*648*) Del (T 23);
  (*649*) Assign (T 130) (Plain (Zeros [0;0;1;1]));
  (*650*) AddTo (T 130) (Plain (Einsum [(T 19,[0;1;2;3])] [0;1;2;3]));
  (*651*) Del (T 19);
  (*652*) AddTo (T 24) (Times (Einsum [(n_v'ooov,[0;1;2;3])] [1;0;2;3]) (-1) 2);
  (*653*) AddTo (T 24) (Plain (Einsum [(n_v'ooov,[0;1;2;3])] [1;2;0;3]));
  (*654*) Assign (T 25) (Plain (Zeros [0;0;1;1]));
  (*655*) AddTo (T 25) (Times (Einsum [(n_t2,[0;1;2;3])] [1;0;3;2]) (-1) 1);
  (*656*) AddTo (T 25) (Times (Einsum [(n_t2,[0;1;2;3])] [1;0;2;3]) (2) 1);
  (*657*) AddTo (T 28) (Times (Einsum [(T 24,[0;1;2;3]); (T 25,[1;4;5;3])] [0;2;4;5]) (-2) 1);
  (*658*) Del (T 24);
  (*659*) Assign (T 26) (Plain (Zeros [0;0;1;1]));
  (*660*) AddTo (T 26) (Times (Einsum [(n_v'ovvo,[0;1;2;3])] [0;3;2;1]) (2) 1);
  (*661*) AddTo (T 26) (Times (Einsum [(n_v'oovv,[0;1;2;3])] [0;1;2;3]) (-1) 1);
  (*662*) AddTo (T 28) (Times (Einsum [(n_t1,[0;1]); (T 26,[2;3;4;1])] [0;2;3;4]) (-1) 1);
  (*663*) Del (T 26);
  (*664*) AddTo n_l1new (Plain (Einsum [(n_l2,[0;1;2;3]); (T 28,[3;4;2;0])] [1;4]));
  (*665*) Del (T 28);
  (*666*) Assign (T 29) (Plain (Zeros [0;0;1;1]));
  (*667*) AddTo (T 29) (Times (Einsum [(n_t2,[0;1;2;3])] [1;0;3;2]) (2) 1);
  (*668*) SubFrom (T 29) (Plain (Einsum [(n_t2,[0;1;2;3])] [1;0;2;3]));
  (*669*) Assign (T 30) (Plain (Zeros [0;0;1;1]));
  (*670*) SubFrom (T 30) (Plain (Einsum [(n_l2,[0;1;2;3]); (T 29,[2;4;0;5])] [3;4;1;5]));
  (*671*) Assign (T 126) (Plain (Zeros [0;0;1;1]));
  (*672*) AddTo (T 126) (Plain (Einsum [(n_v'ovov,[0;1;2;3]); (T 29,[0;4;1;5])] [2;4;3;5]));
  (*673*) Assign (T 127) (Plain (Zeros [0;0;1;1]));
  (*674*) AddTo (T 127) (Plain (Einsum [(T 126,[0;1;2;3])] [1;0;3;2]));
  (*675*) Del (T 126);
  (*676*) Assign (T 174) (Plain (Zeros [3;0;1]));
  (*677*) AddTo (T 174) (Plain (Einsum [(n_g'bov,[0;1;2]); (T 29,[1;3;2;4])] [0;3;4]));
  (*678*) Assign (T 175) (Plain (Zeros [3;0;1]));
  (*679*) SubFrom (T 175) (Plain (Einsum [(n_lu11,[0;1;2]); (T 29,[2;3;1;4])] [0;3;4]));
  (*680*) Del (T 29);
  (*681*) AddTo (T 30) (Plain (Einsum [(n_l2,[0;1;2;3]); (n_t2,[4;2;5;1])] [3;4;0;5]));
  (*682*) Assign (T 31) (Plain (Zeros [0;1;1;1]));
  (*683*) SubFrom (T 31) (Plain (Einsum [(n_v'ovvv,[0;1;2;3])] [0;2;1;3]));
  (*684*) AddTo (T 31) (Times (Einsum [(n_v'ovvv,[0;1;2;3])] [0;2;3;1]) (2) 1);
  (*685*) SubFrom n_l1new (Plain (Einsum [(T 30,[0;1;2;3]); (T 31,[1;2;4;3])] [4;0]));
  (*686*) Del (T 30);
  (*687*) Del (T 31);
  (*688*) Assign (T 32) (Plain (Zeros [0;1;1;1]));
  (*689*) AddTo (T 32) (Plain (Einsum [(n_t1,[0;1]); (n_v'vvvv,[2;1;3;4])] [0;3;2;4]));
  (*690*) Assign (T 33) (Plain (Zeros [0;1;1;1]));
  (*691*) AddTo (T 33) (Times (Einsum [(T 32,[0;1;2;3])] [0;2;1;3]) (-1) 2);
  (*692*) AddTo (T 33) (Plain (Einsum [(T 32,[0;1;2;3])] [0;1;2;3]));
  (*693*) Del (T 32);
  (*694*) AddTo (T 33) (Plain (Einsum [(n_v'vovv,[0;1;2;3])] [1;2;0;3]));
  (*695*) AddTo (T 33) (Times (Einsum [(n_v'vovv,[0;1;2;3])] [1;0;2;3]) (-1) 2);
  (*696*) AddTo n_l1new (Times (Einsum [(n_l2,[0;1;2;3]); (T 33,[2;1;0;4])] [4;3]) (2) 1);
  (*697*) Del (T 33);
  (*698*) Assign (T 34) (Plain (Zeros [0;0;0;1]));
  (*699*) AddTo (T 34) (Plain (Einsum [(n_l1,[0;1]); (n_t2,[2;3;4;0])] [1;2;3;4]));
  (*700*) Assign (T 42) (Plain (Zeros [0;0;0;1]));
  (*701*) AddTo (T 42) (Times (Einsum [(T 34,[0;1;2;3])] [0;1;2;3]) (-2) 1);
  (*702*) AddTo (T 42) (Plain (Einsum [(T 34,[0;1;2;3])] [0;2;1;3]));
  (*703*) Del (T 34);
  (*704*) Assign (T 35) (Plain (Zeros [0;0;0;1]));
  (*705*) AddTo (T 35) (Plain (Einsum [(n_t1,[0;1]); (n_l2,[1;2;3;4])] [4;3;0;2]));
  (*706*) Assign (T 36) (Plain (Zeros [0;0;0;0]));
  (*707*) AddTo (T 36) (Plain (Einsum [(n_t1,[0;1]); (T 35,[2;3;4;1])] [2;3;0;4]));
  (*708*) Assign (T 37) (Plain (Zeros [0;0;0;1]));
  (*709*) AddTo (T 37) (Plain (Einsum [(n_t1,[0;1]); (T 36,[2;0;3;4])] [2;3;4;1]));
  (*710*) AddTo (T 42) (Times (Einsum [(T 37,[0;1;2;3])] [0;1;2;3]) (-1) 1);
  (*711*) AddTo (T 42) (Times (Einsum [(T 37,[0;1;2;3])] [0;2;1;3]) (20000000000000013) 10000000000000000);
  (*712*) Del (T 37);
  (*713*) Assign (T 53) (Plain (Zeros [0;0;0;0]));
  (*714*) AddTo (T 53) (Times (Einsum [(T 36,[0;1;2;3])] [0;1;3;2]) (2) 1);
  (*715*) AddTo (T 53) (Times (Einsum [(T 36,[0;1;2;3])] [0;1;2;3]) (-1) 1);
  (*716*) AddTo n_l1new (Plain (Einsum [(n_v'ooov,[0;1;2;3]); (T 53,[4;1;0;2])] [3;4]));
  (*717*) Del (T 53);
  (*718*) AddTo n_l2new (Plain (Einsum [(n_v'ovov,[0;1;2;3]); (T 36,[4;5;0;2])] [3;1;5;4]));
  (*719*) Del (T 36);
  (*720*) Assign (T 38) (Plain (Zeros [0;0;0;1]));
  (*721*) AddTo (T 38) (Times (Einsum [(T 35,[0;1;2;3])] [0;1;2;3]) (-1) 2);
  (*722*) AddTo (T 38) (Plain (Einsum [(T 35,[0;1;2;3])] [1;0;2;3]));
  (*723*) AddTo (T 42) (Times (Einsum [(n_t2,[0;1;2;3]); (T 38,[4;0;5;2])] [4;5;1;3]) (2) 1);
  (*724*) Assign (T 46) (Plain (Zeros [0;0;0;1]));
  (*725*) AddTo (T 46) (Times (Einsum [(T 25,[0;1;2;3]); (T 38,[4;0;5;3])] [4;5;1;2]) (-1) 1);
  (*726*) Del (T 25);
  (*727*) Del (T 38);
  (*728*) Assign (T 39) (Plain (Zeros [0;0;0;1]));
  (*729*) AddTo (T 39) (Times (Einsum [(T 35,[0;1;2;3])] [0;1;2;3]) (2) 1);
  (*730*) AddTo (T 39) (Times (Einsum [(T 35,[0;1;2;3])] [1;0;2;3]) (-1) 1);
  (*731*) AddTo (T 42) (Plain (Einsum [(n_t2,[0;1;2;3]); (T 39,[4;0;5;3])] [4;5;1;2]));
  (*732*) Del (T 39);
  (*733*) Assign (T 47) (Plain (Zeros [0;0;0;1]));
  (*734*) AddTo (T 47) (Times (Einsum [(T 35,[0;1;2;3])] [0;1;2;3]) (2) 1);
  (*735*) SubFrom (T 47) (Plain (Einsum [(T 35,[0;1;2;3])] [1;0;2;3]));
  (*736*) Assign (T 48) (Plain (Zeros [0;0;1;1]));
  (*737*) AddTo (T 48) (Plain (Einsum [(n_t1,[0;1]); (T 47,[0;2;3;4])] [2;3;4;1]));
  (*738*) SubFrom n_l1new (Plain (Einsum [(n_v'ovvv,[0;1;2;3]); (T 48,[4;0;2;3])] [1;4]));
  (*739*) Del (T 48);
  (*740*) Assign (T 132) (Plain (Zeros [0;0;1;1]));
  (*741*) AddTo (T 132) (Plain (Einsum [(T 12,[0;1;2;3]); (T 47,[4;0;2;5])] [1;4;3;5]));
  (*742*) Assign (T 143) (Plain (Zeros [0;0;1;1]));
  (*743*) SubFrom (T 143) (Plain (Einsum [(T 132,[0;1;2;3])] [1;0;3;2]));
  (*744*) Del (T 132);
  (*745*) SubFrom n_l1new (Plain (Einsum [(n_v'ovvo,[0;1;2;3]); (T 47,[3;4;0;2])] [1;4]));
  (*746*) Del (T 47);
  (*747*) Assign (T 49) (Plain (Zeros [0;0;0;1]));
  (*748*) SubFrom (T 49) (Plain (Einsum [(T 35,[0;1;2;3])] [0;1;2;3]));
  (*749*) AddTo (T 49) (Times (Einsum [(T 35,[0;1;2;3])] [1;0;2;3]) (2) 1);
  (*750*) Assign (T 50) (Plain (Zeros [0;0;1;1]));
  (*751*) AddTo (T 50) (Plain (Einsum [(n_t1,[0;1]); (T 49,[0;2;3;4])] [2;3;4;1]));
  (*752*) SubFrom n_l1new (Plain (Einsum [(n_v'ovvv,[0;1;2;3]); (T 50,[4;0;2;1])] [3;4]));
  (*753*) Del (T 50);
  (*754*) SubFrom n_l1new (Plain (Einsum [(n_v'oovv,[0;1;2;3]); (T 49,[1;4;0;2])] [3;4]));
  (*755*) Del (T 49);
  (*756*) Assign (T 121) (Plain (Zeros [0;0;1;1]));
  (*757*) AddTo (T 121) (Plain (Einsum [(n_v'ooov,[0;1;2;3]); (T 35,[1;4;0;5])] [4;2;5;3]));
  (*758*) AddTo (T 143) (Plain (Einsum [(T 121,[0;1;2;3])] [0;1;2;3]));
  (*759*) Del (T 121);
  (*760*) Assign (T 122) (Plain (Zeros [0;0;1;1]));
  (*761*) AddTo (T 122) (Plain (Einsum [(n_v'ovvv,[0;1;2;3]); (T 35,[4;5;0;2])] [5;4;1;3]));
  (*762*) SubFrom (T 143) (Plain (Einsum [(T 122,[0;1;2;3])] [0;1;2;3]));
  (*763*) Del (T 122);
  (*764*) Assign (T 123) (Plain (Zeros [0;0;1;1]));
  (*765*) AddTo (T 123) (Plain (Einsum [(T 12,[0;1;2;3]); (T 35,[4;0;1;5])] [4;2;5;3]));
  (*766*) AddTo (T 143) (Plain (Einsum [(T 123,[0;1;2;3])] [0;1;2;3]));
  (*767*) Del (T 123);
  (*768*) Assign (T 148) (Plain (Zeros [0;0;1;1]));
  (*769*) AddTo (T 148) (Plain (Einsum [(n_v'ooov,[0;1;2;3]); (T 35,[1;4;2;5])] [4;0;5;3]));
  (*770*) SubFrom (T 159) (Plain (Einsum [(T 148,[0;1;2;3])] [0;1;2;3]));
  (*771*) Del (T 148);
  (*772*) Assign (T 149) (Plain (Zeros [0;0;1;1]));
  (*773*) AddTo (T 149) (Plain (Einsum [(T 12,[0;1;2;3]); (T 35,[0;4;1;5])] [4;2;5;3]));
  (*774*) Del (T 12);
  (*775*) SubFrom (T 159) (Plain (Einsum [(T 149,[0;1;2;3])] [0;1;2;3]));
  (*776*) Del (T 149);
  (*777*) Assign (T 40) (Plain (Zeros [0;0;1;1]));
  (*778*) AddTo (T 40) (Plain (Einsum [(n_t2,[0;1;2;3])] [1;0;3;2]));
  (*779*) AddTo (T 40) (Times (Einsum [(n_t2,[0;1;2;3])] [1;0;2;3]) (-1) 2);
  (*780*) Assign (T 41) (Plain (Zeros [0;0]));
  (*781*) AddTo (T 41) (Plain (Einsum [(n_l2,[0;1;2;3]); (T 40,[2;4;0;1])] [3;4]));
  (*782*) AddTo (T 42) (Times (Einsum [(n_t1,[0;1]); (T 41,[2;3])] [2;3;0;1]) (2) 1);
  (*783*) AddTo n_l1new (Plain (Einsum [(n_v'ovov,[0;1;2;3]); (T 42,[4;2;0;3])] [1;4]));
  (*784*) Del (T 42);
  (*785*) AddTo (T 88) (Plain (Einsum [(T 41,[0;1])] [0;1]));
  (*786*) Assign (T 168) (Plain (Zeros [0;0;1;1]));
  (*787*) AddTo (T 168) (Times (Einsum [(T 41,[0;1]); (n_v'ovov,[1;2;3;4])] [3;0;2;4]) (2) 1);
  (*788*) Assign (T 169) (Plain (Zeros [0;0;1;1]));
  (*789*) AddTo (T 169) (Plain (Einsum [(T 168,[0;1;2;3])] [1;0;3;2]));
  (*790*) Del (T 168);
  (*791*) Assign (T 172) (Plain (Zeros [0;0]));
  (*792*) AddTo (T 172) (Plain (Einsum [(T 41,[0;1])] [0;1]));
  (*793*) AddTo n_l1new (Times (Einsum [(n_f'ov,[0;1]); (T 41,[2;0])] [1;2]) (-2) 1);
  (*794*) Del (T 41);
  (*795*) Assign (T 45) (Plain (Zeros [0;0]));
  (*796*) AddTo (T 45) (Times (Einsum [(n_l2,[0;1;2;3]); (T 40,[2;4;0;1])] [3;4]) (2) 1);
  (*797*) AddTo (T 46) (Times (Einsum [(n_t1,[0;1]); (T 45,[2;3])] [2;3;0;1]) (-1) 1);
  (*798*) AddTo (T 96) (Plain (Einsum [(T 45,[0;1])] [0;1]));
  (*799*) Assign (T 111) (Plain (Zeros [0;0]));
  (*800*) AddTo (T 111) (Plain (Einsum [(T 45,[0;1])] [0;1]));
  (*801*) Del (T 45);
  (*802*) Assign (T 84) (Plain (Zeros [0;1]));
  (*803*) AddTo (T 84) (Plain (Einsum [(T 35,[0;1;2;3]); (T 40,[1;0;4;3])] [2;4]));
  (*804*) Assign (T 90) (Plain (Zeros [0;1]));
  (*805*) AddTo (T 90) (Plain (Einsum [(T 84,[0;1])] [0;1]));
  (*806*) Del (T 84);
  (*807*) Assign (T 43) (Plain (Zeros [0;0;0;0]));
  (*808*) AddTo (T 43) (Plain (Einsum [(n_l2,[0;1;2;3]); (n_t2,[4;5;0;1])] [2;3;4;5]));
  (*809*) Assign (T 44) (Plain (Zeros [0;0;0;1]));
  (*810*) AddTo (T 44) (Plain (Einsum [(n_t1,[0;1]); (T 43,[2;0;3;4])] [2;3;4;1]));
  (*811*) AddTo (T 46) (Plain (Einsum [(T 44,[0;1;2;3])] [0;1;2;3]));
  (*812*) AddTo (T 46) (Times (Einsum [(T 44,[0;1;2;3])] [0;2;1;3]) (-1) 2);
  (*813*) Del (T 44);
  (*814*) AddTo n_l1new (Times (Einsum [(n_v'ovov,[0;1;2;3]); (T 46,[4;2;0;1])] [3;4]) (2) 1);
  (*815*) Del (T 46);
  (*816*) Assign (T 54) (Plain (Zeros [0;0;0;0]));
  (*817*) AddTo (T 54) (Plain (Einsum [(T 43,[0;1;2;3])] [1;0;3;2]));
  (*818*) AddTo (T 54) (Times (Einsum [(T 43,[0;1;2;3])] [1;0;2;3]) (-1) 2);
  (*819*) AddTo n_l1new (Times (Einsum [(n_v'ooov,[0;1;2;3]); (T 54,[1;4;0;2])] [3;4]) (2) 1);
  (*820*) Del (T 54);
  (*821*) AddTo n_l2new (Plain (Einsum [(n_v'ovov,[0;1;2;3]); (T 43,[4;5;2;0])] [1;3;5;4]));
  (*822*) Del (T 43);
  (*823*) Assign (T 51) (Plain (Zeros [0;0;1;1]));
  (*824*) AddTo (T 51) (Plain (Einsum [(n_l2,[0;1;2;3]); (n_t2,[4;2;1;5])] [3;4;0;5]));
  (*825*) Assign (T 52) (Plain (Zeros [0;1;1;1]));
  (*826*) AddTo (T 52) (Times (Einsum [(n_v'ovvv,[0;1;2;3])] [0;2;1;3]) (2) 1);
  (*827*) SubFrom (T 52) (Plain (Einsum [(n_v'ovvv,[0;1;2;3])] [0;2;3;1]));
  (*828*) Assign (T 104) (Plain (Zeros [3;1;1]));
  (*829*) AddTo (T 104) (Plain (Einsum [(n_u11,[0;1;2]); (T 52,[1;3;2;4])] [0;3;4]));
  (*830*) Assign (T 113) (Plain (Zeros [1;1]));
  (*831*) AddTo (T 113) (Plain (Einsum [(n_t1,[0;1]); (T 52,[0;2;1;3])] [2;3]));
  (*832*) Assign (T 114) (Plain (Zeros [1;1]));
  (*833*) AddTo (T 114) (Plain (Einsum [(T 113,[0;1])] [0;1]));
  (*834*) Assign (T 138) (Plain (Zeros [0;0;1;1]));
  (*835*) AddTo (T 138) (Plain (Einsum [(T 113,[0;1]); (n_l2,[0;2;3;4])] [3;4;2;1]));
  (*836*) Del (T 113);
  (*837*) AddTo (T 143) (Plain (Einsum [(T 138,[0;1;2;3])] [1;0;2;3]));
  (*838*) Del (T 138);
  (*839*) SubFrom n_l1new (Plain (Einsum [(T 51,[0;1;2;3]); (T 52,[1;2;4;3])] [4;0]));
  (*840*) Del (T 51);
  (*841*) Assign (T 55) (Plain (Zeros [0;1]));
  (*842*) AddTo (T 55) (Plain (Einsum [(n_s1,[0]); (n_g'bvo,[0;1;2])] [2;1]));
  (*843*) Assign (T 79) (Plain (Zeros [0;1]));
  (*844*) AddTo (T 79) (Times (Einsum [(T 55,[0;1])] [0;1]) (1) 2);
  (*845*) Assign (T 171) (Plain (Zeros [0;1]));
  (*846*) AddTo (T 171) (Plain (Einsum [(T 55,[0;1])] [0;1]));
  (*847*) Del (T 55);
  (*848*) Assign (T 56) (Plain (Zeros [0;1]));
  (*849*) AddTo (T 56) (Plain (Einsum [(n_g'bvv,[0;1;2]); (n_u11,[0;3;2])] [3;1]));
  (*850*) AddTo (T 79) (Times (Einsum [(T 56,[0;1])] [0;1]) (1) 2);
  (*851*) AddTo (T 171) (Plain (Einsum [(T 56,[0;1])] [0;1]));
  (*852*) Del (T 56);
  (*853*) Assign (T 57) (Plain (Zeros [0;1]));
  (*854*) AddTo (T 57) (Plain (Einsum [(n_t2,[0;1;2;3]); (n_v'ooov,[1;4;0;3])] [4;2]));
  (*855*) AddTo (T 79) (Times (Einsum [(T 57,[0;1])] [0;1]) (1) 2);
  (*856*) AddTo (T 171) (Plain (Einsum [(T 57,[0;1])] [0;1]));
  (*857*) Del (T 57);
  (*858*) Assign (T 58) (Plain (Zeros [0;0;1;1]));
  (*859*) AddTo (T 58) (Times (Einsum [(n_t2,[0;1;2;3])] [1;0;3;2]) (-1) 2);
  (*860*) AddTo (T 58) (Plain (Einsum [(n_t2,[0;1;2;3])] [1;0;2;3]));
  (*861*) AddTo (T 79) (Plain (Einsum [(n_v'ovvv,[0;1;2;3]); (T 58,[0;4;3;1])] [4;2]));
  (*862*) Assign (T 94) (Plain (Zeros [1;1]));
  (*863*) AddTo (T 94) (Times (Einsum [(n_l2,[0;1;2;3]); (T 58,[2;3;1;4])] [0;4]) (2) 1);
  (*864*) Assign (T 95) (Plain (Zeros [1;1]));
  (*865*) AddTo (T 95) (Plain (Einsum [(T 94,[0;1])] [0;1]));
  (*866*) Assign (T 179) (Plain (Zeros [1;1]));
  (*867*) AddTo (T 179) (Plain (Einsum [(T 94,[0;1])] [0;1]));
  (*868*) Del (T 94);
  (*869*) Assign (T 166) (Plain (Zeros [1;1]));
  (*870*) AddTo (T 166) (Plain (Einsum [(n_l2,[0;1;2;3]); (T 58,[2;3;1;4])] [0;4]));
  (*871*) Assign (T 167) (Plain (Zeros [0;0;1;1]));
  (*872*) AddTo (T 167) (Times (Einsum [(T 166,[0;1]); (n_v'ovov,[2;1;3;4])] [2;3;4;0]) (2) 1);
  (*873*) Del (T 166);
  (*874*) AddTo (T 169) (Plain (Einsum [(T 167,[0;1;2;3])] [1;0;3;2]));
  (*875*) Del (T 167);
  (*876*) AddTo n_l2new (Times (Einsum [(T 169,[0;1;2;3])] [3;2;0;1]) (-1) 1);
  (*877*) AddTo n_l2new (Times (Einsum [(T 169,[0;1;2;3])] [2;3;1;0]) (-1) 1);
  (*878*) Del (T 169);
  (*879*) AddTo (T 171) (Times (Einsum [(n_v'ovvv,[0;1;2;3]); (T 58,[0;4;3;1])] [4;2]) (2) 1);
  (*880*) Del (T 58);
  (*881*) AddTo (T 59) (Times (Einsum [(n_v'ooov,[0;1;2;3])] [0;2;1;3]) (2) 1);
  (*882*) AddTo (T 79) (Times (Einsum [(n_t2,[0;1;2;3]); (T 59,[1;0;4;2])] [4;3]) (-1) 2);
  (*883*) AddTo (T 171) (Times (Einsum [(n_t2,[0;1;2;3]); (T 59,[1;0;4;2])] [4;3]) (-1) 1);
  (*884*) Del (T 59);
  (*885*) AddTo (T 61) (Plain (Einsum [(n_f'ov,[0;1])] [0;1]));
  (*886*) AddTo (T 79) (Plain (Einsum [(T 61,[0;1]); (T 40,[0;2;1;3])] [2;3]));
  (*887*) AddTo (T 171) (Times (Einsum [(T 61,[0;1]); (T 40,[0;2;1;3])] [2;3]) (2) 1);
  (*888*) Del (T 61);
  (*889*) Del (T 40);
  (*890*) Assign (T 62) (Plain (Zeros [0;0;1;1]));
  (*891*) AddTo (T 62) (Plain (Einsum [(n_v'ovvo,[0;1;2;3])] [0;3;2;1]));
  (*892*) AddTo (T 62) (Times (Einsum [(n_v'oovv,[0;1;2;3])] [0;1;2;3]) (-1) 2);
  (*893*) AddTo (T 79) (Plain (Einsum [(n_t1,[0;1]); (T 62,[0;2;3;1])] [2;3]));
  (*894*) AddTo (T 171) (Times (Einsum [(n_t1,[0;1]); (T 62,[0;2;3;1])] [2;3]) (2) 1);
  (*895*) Del (T 62);
  (*896*) Assign (T 63) (Plain (Zeros [3;0;0]));
  (*897*) AddTo (T 63) (Plain (Einsum [(n_t1,[0;1]); (n_g'bov,[2;3;1])] [2;3;0]));
  (*898*) Assign (T 64) (Plain (Zeros [3;0;0]));
  (*899*) AddTo (T 64) (Plain (Einsum [(T 63,[0;1;2])] [0;1;2]));
  (*900*) Assign (T 105) (Plain (Zeros [3;0;0]));
  (*901*) AddTo (T 105) (Plain (Einsum [(T 63,[0;1;2])] [0;1;2]));
  (*902*) Del (T 63);
  (*903*) AddTo (T 64) (Plain (Einsum [(n_g'boo,[0;1;2])] [0;1;2]));
  (*904*) AddTo (T 79) (Times (Einsum [(n_u11,[0;1;2]); (T 64,[0;1;3])] [3;2]) (-1) 2);
  (*905*) AddTo (T 171) (Times (Einsum [(n_u11,[0;1;2]); (T 64,[0;1;3])] [3;2]) (-1) 1);
  (*906*) Del (T 64);
  (*907*) Assign (T 65) (Plain (Zeros [0;0]));
  (*908*) AddTo (T 65) (Plain (Einsum [(n_s1,[0]); (n_g'boo,[0;1;2])] [1;2]));
  (*909*) AddTo (T 72) (Plain (Einsum [(T 65,[0;1])] [0;1]));
  (*910*) Assign (T 155) (Plain (Zeros [0;0]));
  (*911*) AddTo (T 155) (Plain (Einsum [(T 65,[0;1])] [0;1]));
  (*912*) Del (T 65);
  (*913*) Assign (T 66) (Plain (Zeros [0;0]));
  (*914*) AddTo (T 66) (Plain (Einsum [(n_g'bov,[0;1;2]); (n_u11,[0;3;2])] [1;3]));
  (*915*) AddTo (T 72) (Plain (Einsum [(T 66,[0;1])] [0;1]));
  (*916*) AddTo (T 155) (Plain (Einsum [(T 66,[0;1])] [0;1]));
  (*917*) Del (T 66);
  (*918*) Assign (T 68) (Plain (Zeros [0;0;0;1]));
  (*919*) AddTo (T 68) (Times (Einsum [(n_v'ooov,[0;1;2;3])] [0;2;1;3]) (-1) 2);
  (*920*) AddTo (T 68) (Plain (Einsum [(n_v'ooov,[0;1;2;3])] [2;0;1;3]));
  (*921*) Assign (T 69) (Plain (Zeros [0;0]));
  (*922*) AddTo (T 69) (Times (Einsum [(n_t1,[0;1]); (T 68,[0;2;3;1])] [2;3]) (2) 1);
  (*923*) Del (T 68);
  (*924*) AddTo (T 72) (Plain (Einsum [(T 69,[0;1])] [0;1]));
  (*925*) Del (T 69);
  (*926*) AddTo (T 70) (Times (Einsum [(n_f'ov,[0;1])] [0;1]) (1) 2);
  (*927*) Assign (T 71) (Plain (Zeros [0;0]));
  (*928*) AddTo (T 71) (Times (Einsum [(n_t1,[0;1]); (T 70,[2;1])] [0;2]) (2) 1);
  (*929*) AddTo (T 72) (Plain (Einsum [(T 71,[0;1])] [1;0]));
  (*930*) Del (T 71);
  (*931*) Assign n_lu11new (Plain (Zeros [3;1;0]));
  (*932*) AddTo n_lu11new (Times (Einsum [(n_ls1,[0]); (T 70,[1;2])] [0;2;1]) (4) 1);
  (*933*) Del (T 70);
  (*934*) AddTo (T 72) (Plain (Einsum [(n_f'oo,[0;1])] [0;1]));
  (*935*) AddTo (T 79) (Times (Einsum [(n_t1,[0;1]); (T 72,[0;2])] [2;1]) (-1) 2);
  (*936*) AddTo (T 171) (Times (Einsum [(n_t1,[0;1]); (T 72,[0;2])] [2;1]) (-1) 1);
  (*937*) AddTo n_l1new (Times (Einsum [(n_l1,[0;1]); (T 72,[2;1])] [0;2]) (-1) 1);
  (*938*) AddTo n_lu11new (Times (Einsum [(T 72,[0;1]); (n_lu11,[2;3;1])] [2;3;0]) (-1) 1);
  (*939*) Del (T 72);
  (*940*) Assign (T 73) (Plain (Zeros [1;1]));
  (*941*) AddTo (T 73) (Plain (Einsum [(n_s1,[0]); (n_g'bvv,[0;1;2])] [1;2]));
  (*942*) Assign (T 76) (Plain (Zeros [1;1]));
  (*943*) AddTo (T 76) (Plain (Einsum [(T 73,[0;1])] [0;1]));
  (*944*) AddTo (T 114) (Plain (Einsum [(T 73,[0;1])] [0;1]));
  (*945*) Assign (T 152) (Plain (Zeros [1;1]));
  (*946*) AddTo (T 152) (Plain (Einsum [(T 73,[0;1])] [0;1]));
  (*947*) AddTo (T 178) (Plain (Einsum [(T 73,[0;1])] [0;1]));
  (*948*) Del (T 73);
  (*949*) Assign (T 74) (Plain (Zeros [0;1;1;1]));
  (*950*) AddTo (T 74) (Plain (Einsum [(n_v'ovvv,[0;1;2;3])] [0;2;1;3]));
  (*951*) AddTo (T 74) (Times (Einsum [(n_v'ovvv,[0;1;2;3])] [0;2;3;1]) (-1) 2);
  (*952*) Assign (T 75) (Plain (Zeros [1;1]));
  (*953*) AddTo (T 75) (Times (Einsum [(n_t1,[0;1]); (T 74,[0;2;1;3])] [2;3]) (2) 1);
  (*954*) Del (T 74);
  (*955*) AddTo (T 76) (Plain (Einsum [(T 75,[0;1])] [0;1]));
  (*956*) AddTo (T 178) (Plain (Einsum [(T 75,[0;1])] [0;1]));
  (*957*) Del (T 75);
  (*958*) AddTo (T 76) (Plain (Einsum [(n_f'vv,[0;1])] [0;1]));
  (*959*) AddTo (T 79) (Times (Einsum [(n_t1,[0;1]); (T 76,[2;1])] [0;2]) (1) 2);
  (*960*) AddTo (T 171) (Plain (Einsum [(n_t1,[0;1]); (T 76,[2;1])] [0;2]));
  (*961*) Del (T 76);
  (*962*) Assign (T 77) (Plain (Zeros [3]));
  (*963*) AddTo (T 77) (Plain (Einsum [(n_t1,[0;1]); (n_g'bov,[2;0;1])] [2]));
  (*964*) Assign (T 78) (Plain (Zeros [3]));
  (*965*) AddTo (T 78) (Times (Einsum [(T 77,[0])] [0]) (2) 1);
  (*966*) Del (T 77);
  (*967*) AddTo (T 78) (Plain (Einsum [(n_G,[0])] [0]));
  (*968*) AddTo (T 79) (Times (Einsum [(T 78,[0]); (n_u11,[0;1;2])] [1;2]) (1) 2);
  (*969*) AddTo (T 171) (Plain (Einsum [(T 78,[0]); (n_u11,[0;1;2])] [1;2]));
  (*970*) Del (T 78);
  (*971*) AddTo (T 79) (Times (Einsum [(n_f'vo,[0;1])] [1;0]) (1) 2);
  (*972*) Assign (T 80) (Plain (Zeros [0;0;1;1]));
  (*973*) AddTo (T 80) (Times (Einsum [(n_l2,[0;1;2;3])] [3;2;1;0]) (2) 1);
  (*974*) AddTo (T 80) (Times (Einsum [(n_l2,[0;1;2;3])] [3;2;0;1]) (-1) 1);
  (*975*) AddTo n_l1new (Times (Einsum [(T 79,[0;1]); (T 80,[0;2;1;3])] [3;2]) (2) 1);
  (*976*) Del (T 79);
  (*977*) Del (T 80);
  (*978*) Assign (T 81) (Plain (Zeros [0;1]));
  (*979*) AddTo (T 81) (Plain (Einsum [(n_ls1,[0]); (n_u11,[0;1;2])] [1;2]));
  (*980*) AddTo (T 90) (Times (Einsum [(T 81,[0;1])] [0;1]) (-1) 2);
  (*981*) Del (T 81);
  (*982*) Assign (T 82) (Plain (Zeros [3;0;0]));
  (*983*) AddTo (T 82) (Plain (Einsum [(n_t1,[0;1]); (n_lu11,[2;1;3])] [2;3;0]));
  (*984*) Assign (T 83) (Plain (Zeros [0;1]));
  (*985*) AddTo (T 83) (Plain (Einsum [(n_u11,[0;1;2]); (T 82,[0;1;3])] [3;2]));
  (*986*) AddTo (T 90) (Times (Einsum [(T 83,[0;1])] [0;1]) (1) 2);
  (*987*) Del (T 83);
  (*988*) AddTo (T 175) (Plain (Einsum [(n_t1,[0;1]); (T 82,[2;0;3])] [2;3;1]));
  (*989*) Assign (T 85) (Plain (Zeros [0;0;1;1]));
  (*990*) AddTo (T 85) (Times (Einsum [(n_t2,[0;1;2;3])] [1;0;3;2]) (2) 1);
  (*991*) AddTo (T 85) (Times (Einsum [(n_t2,[0;1;2;3])] [1;0;2;3]) (-1) 1);
  (*992*) Assign (T 86) (Plain (Zeros [0;1]));
  (*993*) AddTo (T 86) (Times (Einsum [(n_l1,[0;1]); (T 85,[1;2;0;3])] [2;3]) (1) 2);
  (*994*) Del (T 85);
  (*995*) AddTo (T 90) (Times (Einsum [(T 86,[0;1])] [0;1]) (-1) 1);
  (*996*) Del (T 86);
  (*997*) Assign (T 87) (Plain (Zeros [0;0]));
  (*998*) AddTo (T 87) (Plain (Einsum [(n_lu11,[0;1;2]); (n_u11,[0;3;1])] [2;3]));
  (*999*) AddTo (T 88) (Times (Einsum [(T 87,[0;1])] [0;1]) (1) 2);
  (*1000*) Assign (T 89) (Plain (Zeros [0;1]));
  (*1001*) AddTo (T 89) (Plain (Einsum [(n_t1,[0;1]); (T 88,[0;2])] [2;1]));
  (*1002*) Del (T 88);
  (*1003*) AddTo (T 90) (Plain (Einsum [(T 89,[0;1])] [0;1]));
  (*1004*) Del (T 89);
  (*1005*) AddTo (T 96) (Plain (Einsum [(T 87,[0;1])] [0;1]));
  (*1006*) AddTo n_lu11new (Times (Einsum [(T 96,[0;1]); (n_g'bov,[2;1;3])] [2;3;0]) (-1) 1);
  (*1007*) AddTo (T 111) (Plain (Einsum [(T 87,[0;1])] [0;1]));
  (*1008*) Assign (T 112) (Plain (Zeros [3;0;0]));
  (*1009*) AddTo (T 112) (Times (Einsum [(n_s1,[0]); (T 111,[1;2])] [0;1;2]) (1) 2);
  (*1010*) Del (T 111);
  (*1011*) AddTo (T 115) (Plain (Einsum [(T 87,[0;1])] [0;1]));
  (*1012*) Assign (T 157) (Plain (Zeros [0;0;1;1]));
  (*1013*) AddTo (T 157) (Plain (Einsum [(T 115,[0;1]); (n_v'ovov,[1;2;3;4])] [3;0;2;4]));
  (*1014*) AddTo (T 159) (Plain (Einsum [(T 157,[0;1;2;3])] [1;0;3;2]));
  (*1015*) Del (T 157);
  (*1016*) AddTo (T 172) (Times (Einsum [(T 87,[0;1])] [0;1]) (1) 2);
  (*1017*) Del (T 87);
  (*1018*) AddTo n_ls1new (Times (Einsum [(T 172,[0;1]); (n_g'boo,[2;1;0])] [2]) (-4) 1);
  (*1019*) Del (T 172);
  (*1020*) AddTo (T 90) (Times (Einsum [(n_t1,[0;1])] [0;1]) (-1) 2);
  (*1021*) AddTo n_ls1new (Times (Einsum [(T 90,[0;1]); (n_g'bov,[2;0;1])] [2]) (-4) 1);
  (*1022*) Assign (T 91) (Plain (Zeros [0;0;1;1]));
  (*1023*) AddTo (T 91) (Times (Einsum [(n_v'ovov,[0;1;2;3])] [2;0;3;1]) (2) 1);
  (*1024*) SubFrom (T 91) (Plain (Einsum [(n_v'ovov,[0;1;2;3])] [2;0;1;3]));
  (*1025*) Assign (T 99) (Plain (Zeros [0;1]));
  (*1026*) AddTo (T 99) (Plain (Einsum [(n_t1,[0;1]); (T 91,[0;2;1;3])] [2;3]));
  (*1027*) AddTo (T 100) (Plain (Einsum [(T 99,[0;1])] [0;1]));
  (*1028*) Assign (T 116) (Plain (Zeros [0;1]));
  (*1029*) AddTo (T 116) (Plain (Einsum [(T 99,[0;1])] [0;1]));
  (*1030*) Assign (T 135) (Plain (Zeros [0;0]));
  (*1031*) AddTo (T 135) (Plain (Einsum [(n_t1,[0;1]); (T 99,[2;1])] [0;2]));
  (*1032*) Assign (T 136) (Plain (Zeros [0;0]));
  (*1033*) AddTo (T 136) (Plain (Einsum [(T 135,[0;1])] [1;0]));
  (*1034*) Del (T 135);
  (*1035*) Assign (T 139) (Plain (Zeros [0;0;1;1]));
  (*1036*) AddTo (T 139) (Plain (Einsum [(T 99,[0;1]); (T 35,[2;3;0;4])] [2;3;4;1]));
  (*1037*) SubFrom (T 143) (Plain (Einsum [(T 139,[0;1;2;3])] [0;1;2;3]));
  (*1038*) Del (T 139);
  (*1039*) AddTo (T 143) (Plain (Einsum [(n_l1,[0;1]); (T 99,[2;3])] [1;2;0;3]));
  (*1040*) Del (T 99);
  (*1041*) Assign (T 101) (Plain (Zeros [3;0;1]));
  (*1042*) AddTo (T 101) (Plain (Einsum [(n_u11,[0;1;2]); (T 91,[1;3;2;4])] [0;3;4]));
  (*1043*) Assign (T 102) (Plain (Zeros [3;0;1]));
  (*1044*) AddTo (T 102) (Plain (Einsum [(T 101,[0;1;2])] [0;1;2]));
  (*1045*) Assign (T 140) (Plain (Zeros [0;0;1;1]));
  (*1046*) AddTo (T 140) (Plain (Einsum [(n_lu11,[0;1;2]); (T 101,[0;3;4])] [2;3;1;4]));
  (*1047*) Del (T 101);
  (*1048*) AddTo (T 143) (Plain (Einsum [(T 140,[0;1;2;3])] [0;1;2;3]));
  (*1049*) Del (T 140);
  (*1050*) AddTo n_l1new (Times (Einsum [(T 90,[0;1]); (T 91,[0;2;1;3])] [3;2]) (-2) 1);
  (*1051*) Del (T 90);
  (*1052*) SubFrom n_lu11new (Plain (Einsum [(T 175,[0;1;2]); (T 91,[1;3;2;4])] [0;4;3]));
  (*1053*) Del (T 91);
  (*1054*) Del (T 175);
  (*1055*) Assign (T 92) (Plain (Zeros [1;1]));
  (*1056*) AddTo (T 92) (Plain (Einsum [(n_l1,[0;1]); (n_t1,[1;2])] [0;2]));
  (*1057*) AddTo (T 95) (Plain (Einsum [(T 92,[0;1])] [0;1]));
  (*1058*) Del (T 92);
  (*1059*) Assign (T 93) (Plain (Zeros [1;1]));
  (*1060*) AddTo (T 93) (Plain (Einsum [(n_lu11,[0;1;2]); (n_u11,[0;2;3])] [1;3]));
  (*1061*) AddTo (T 95) (Plain (Einsum [(T 93,[0;1])] [0;1]));
  (*1062*) AddTo n_l1new (Plain (Einsum [(T 95,[0;1]); (T 52,[2;0;3;1])] [3;2]));
  (*1063*) AddTo n_ls1new (Times (Einsum [(T 95,[0;1]); (n_g'bvv,[2;0;1])] [2]) (2) 1);
  (*1064*) Del (T 95);
  (*1065*) Assign (T 146) (Plain (Zeros [0;0;1;1]));
  (*1066*) AddTo (T 146) (Plain (Einsum [(T 93,[0;1]); (n_v'ovov,[2;1;3;4])] [3;2;0;4]));
  (*1067*) AddTo (T 159) (Plain (Einsum [(T 146,[0;1;2;3])] [0;1;2;3]));
  (*1068*) Del (T 146);
  (*1069*) AddTo (T 179) (Plain (Einsum [(T 93,[0;1])] [0;1]));
  (*1070*) Del (T 93);
  (*1071*) AddTo n_lu11new (Times (Einsum [(T 179,[0;1]); (n_g'bov,[2;3;1])] [2;0;3]) (-1) 1);
  (*1072*) Del (T 179);
  (*1073*) Assign (T 97) (Plain (Zeros [0;0;0;1]));
  (*1074*) AddTo (T 97) (Times (Einsum [(n_v'ooov,[0;1;2;3])] [0;2;1;3]) (2) 1);
  (*1075*) SubFrom (T 97) (Plain (Einsum [(n_v'ooov,[0;1;2;3])] [2;0;1;3]));
  (*1076*) AddTo n_l1new (Times (Einsum [(T 96,[0;1]); (T 97,[1;2;0;3])] [3;2]) (-1) 1);
  (*1077*) Del (T 96);
  (*1078*) SubFrom n_lu11new (Plain (Einsum [(T 82,[0;1;2]); (T 97,[2;3;1;4])] [0;4;3]));
  (*1079*) Del (T 97);
  (*1080*) Assign (T 98) (Plain (Zeros [0;0;0;1]));
  (*1081*) SubFrom (T 98) (Plain (Einsum [(n_v'ooov,[0;1;2;3])] [0;2;1;3]));
  (*1082*) AddTo (T 98) (Times (Einsum [(n_v'ooov,[0;1;2;3])] [2;0;1;3]) (2) 1);
  (*1083*) Assign (T 103) (Plain (Zeros [3;0;0]));
  (*1084*) AddTo (T 103) (Plain (Einsum [(n_u11,[0;1;2]); (T 98,[1;3;4;2])] [0;3;4]));
  (*1085*) Assign (T 133) (Plain (Zeros [0;0;1;1]));
  (*1086*) AddTo (T 133) (Plain (Einsum [(T 35,[0;1;2;3]); (T 98,[4;2;1;5])] [0;4;3;5]));
  (*1087*) SubFrom (T 143) (Plain (Einsum [(T 133,[0;1;2;3])] [0;1;2;3]));
  (*1088*) Del (T 133);
  (*1089*) Assign (T 134) (Plain (Zeros [0;0]));
  (*1090*) AddTo (T 134) (Plain (Einsum [(n_t1,[0;1]); (T 98,[0;2;3;1])] [2;3]));
  (*1091*) Del (T 98);
  (*1092*) AddTo (T 136) (Plain (Einsum [(T 134,[0;1])] [0;1]));
  (*1093*) Del (T 134);
  (*1094*) Assign (T 137) (Plain (Zeros [0;0;1;1]));
  (*1095*) AddTo (T 137) (Plain (Einsum [(T 136,[0;1]); (n_l2,[2;3;1;4])] [4;0;2;3]));
  (*1096*) Del (T 136);
  (*1097*) SubFrom (T 143) (Plain (Einsum [(T 137,[0;1;2;3])] [0;1;3;2]));
  (*1098*) Del (T 137);
  (*1099*) AddTo (T 100) (Plain (Einsum [(n_f'ov,[0;1])] [0;1]));
  (*1100*) AddTo (T 103) (Plain (Einsum [(T 100,[0;1]); (n_u11,[2;3;1])] [2;0;3]));
  (*1101*) Assign (T 117) (Plain (Zeros [3]));
  (*1102*) AddTo (T 117) (Times (Einsum [(T 100,[0;1]); (n_u11,[2;0;1])] [2]) (2) 1);
  (*1103*) Del (T 100);
  (*1104*) AddTo (T 102) (Plain (Einsum [(n_gc'bov,[0;1;2])] [0;1;2]));
  (*1105*) AddTo (T 103) (Plain (Einsum [(n_t1,[0;1]); (T 102,[2;3;1])] [2;3;0]));
  (*1106*) SubFrom n_l1new (Plain (Einsum [(T 102,[0;1;2]); (T 82,[0;3;1])] [2;3]));
  (*1107*) Del (T 102);
  (*1108*) AddTo (T 103) (Plain (Einsum [(n_gc'boo,[0;1;2])] [0;1;2]));
  (*1109*) SubFrom n_l1new (Plain (Einsum [(n_lu11,[0;1;2]); (T 103,[0;3;2])] [1;3]));
  (*1110*) Del (T 103);
  (*1111*) AddTo (T 104) (Plain (Einsum [(n_gc'bvv,[0;1;2])] [0;1;2]));
  (*1112*) AddTo n_l1new (Plain (Einsum [(n_lu11,[0;1;2]); (T 104,[0;1;3])] [3;2]));
  (*1113*) Del (T 104);
  (*1114*) AddTo (T 105) (Plain (Einsum [(n_g'boo,[0;1;2])] [0;1;2]));
  (*1115*) SubFrom (T 174) (Plain (Einsum [(n_t1,[0;1]); (T 105,[2;0;3])] [2;3;1]));
  (*1116*) SubFrom n_lu11new (Plain (Einsum [(n_l1,[0;1]); (T 105,[2;3;1])] [2;0;3]));
  (*1117*) Assign (T 106) (Plain (Zeros [0;0;1;1]));
  (*1118*) AddTo (T 106) (Times (Einsum [(n_l2,[0;1;2;3])] [3;2;1;0]) (2) 1);
  (*1119*) SubFrom (T 106) (Plain (Einsum [(n_l2,[0;1;2;3])] [3;2;0;1]));
  (*1120*) Assign (T 107) (Plain (Zeros [3;0;1]));
  (*1121*) AddTo (T 107) (Plain (Einsum [(n_u11,[0;1;2]); (T 106,[1;3;2;4])] [0;3;4]));
  (*1122*) Assign (T 141) (Plain (Zeros [0;0;1;1]));
  (*1123*) AddTo (T 141) (Plain (Einsum [(n_g'bov,[0;1;2]); (T 107,[0;3;4])] [1;3;2;4]));
  (*1124*) AddTo (T 143) (Plain (Einsum [(T 141,[0;1;2;3])] [0;1;2;3]));
  (*1125*) Del (T 141);
  (*1126*) SubFrom n_l1new (Plain (Einsum [(T 105,[0;1;2]); (T 107,[0;2;3])] [3;1]));
  (*1127*) Del (T 105);
  (*1128*) AddTo n_l1new (Plain (Einsum [(n_g'bvv,[0;1;2]); (T 107,[0;3;1])] [2;3]));
  (*1129*) Del (T 107);
  (*1130*) Assign (T 108) (Plain (Zeros [0;0;1;1]));
  (*1131*) AddTo (T 108) (Times (Einsum [(n_v'ovvo,[0;1;2;3])] [0;3;2;1]) (2) 1);
  (*1132*) SubFrom (T 108) (Plain (Einsum [(n_v'oovv,[0;1;2;3])] [0;1;2;3]));
  (*1133*) AddTo n_l1new (Plain (Einsum [(n_l1,[0;1]); (T 108,[2;1;0;3])] [3;2]));
  (*1134*) AddTo n_lu11new (Plain (Einsum [(n_lu11,[0;1;2]); (T 108,[3;2;1;4])] [0;4;3]));
  (*1135*) Del (T 108);
  (*1136*) Assign (T 109) (Plain (Zeros [0;0;1;1]));
  (*1137*) AddTo (T 109) (Plain (Einsum [(n_l2,[0;1;2;3])] [3;2;1;0]));
  (*1138*) AddTo (T 109) (Times (Einsum [(n_l2,[0;1;2;3])] [3;2;0;1]) (-1) 2);
  (*1139*) Assign (T 110) (Plain (Zeros [3;0;1]));
  (*1140*) AddTo (T 110) (Plain (Einsum [(n_u11,[0;1;2]); (T 109,[1;3;2;4])] [0;3;4]));
  (*1141*) Del (T 109);
  (*1142*) AddTo (T 112) (Plain (Einsum [(n_t1,[0;1]); (T 110,[2;3;1])] [2;3;0]));
  (*1143*) Del (T 110);
  (*1144*) AddTo (T 112) (Times (Einsum [(n_l1,[0;1]); (n_u11,[2;3;0])] [2;1;3]) (1) 2);
  (*1145*) AddTo n_l1new (Times (Einsum [(n_g'bov,[0;1;2]); (T 112,[0;3;1])] [2;3]) (-2) 1);
  (*1146*) Del (T 112);
  (*1147*) AddTo (T 114) (Plain (Einsum [(n_f'vv,[0;1])] [0;1]));
  (*1148*) AddTo n_l1new (Plain (Einsum [(n_l1,[0;1]); (T 114,[0;2])] [2;1]));
  (*1149*) Del (T 114);
  (*1150*) AddTo (T 116) (Plain (Einsum [(n_f'ov,[0;1])] [0;1]));
  (*1151*) SubFrom n_l1new (Plain (Einsum [(T 115,[0;1]); (T 116,[1;2])] [2;0]));
  (*1152*) Del (T 115);
  (*1153*) Del (T 116);
  (*1154*) AddTo (T 117) (Plain (Einsum [(n_G,[0])] [0]));
  (*1155*) AddTo (T 117) (Plain (Einsum [(n_s1,[0]); (n_w,[0;1])] [1]));
  (*1156*) AddTo (T 117) (Times (Einsum [(n_t1,[0;1]); (n_gc'bov,[2;0;1])] [2]) (2) 1);
  (*1157*) AddTo n_l1new (Plain (Einsum [(T 117,[0]); (n_lu11,[0;1;2])] [1;2]));
  (*1158*) Del (T 117);
  (*1159*) Assign (T 118) (Plain (Zeros [3]));
  (*1160*) AddTo (T 118) (Plain (Einsum [(n_s1,[0])] [0]));
  (*1161*) AddTo (T 118) (Times (Einsum [(n_l1,[0;1]); (n_u11,[2;1;0])] [2]) (2) 1);
  (*1162*) AddTo n_l1new (Plain (Einsum [(T 118,[0]); (n_g'bov,[0;1;2])] [2;1]));
  (*1163*) Del (T 118);
  (*1164*) Assign (T 119) (Plain (Zeros [0;0;1;1]));
  (*1165*) AddTo (T 119) (Plain (Einsum [(n_gc'bov,[0;1;2]); (n_lu11,[0;3;4])] [1;4;2;3]));
  (*1166*) AddTo (T 143) (Plain (Einsum [(T 119,[0;1;2;3])] [0;1;2;3]));
  (*1167*) Del (T 119);
  (*1168*) Assign (T 120) (Plain (Zeros [0;0;1;1]));
  (*1169*) AddTo (T 120) (Plain (Einsum [(n_l1,[0;1]); (n_v'ooov,[2;1;3;4])] [2;3;0;4]));
  (*1170*) SubFrom (T 143) (Plain (Einsum [(T 120,[0;1;2;3])] [0;1;2;3]));
  (*1171*) Del (T 120);
  (*1172*) Assign (T 124) (Plain (Zeros [0;0;1;1]));
  (*1173*) AddTo (T 124) (Plain (Einsum [(n_t1,[0;1]); (n_v'ovvv,[2;3;4;1])] [0;2;4;3]));
  (*1174*) AddTo (T 127) (Plain (Einsum [(T 124,[0;1;2;3])] [0;1;2;3]));
  (*1175*) Del (T 124);
  (*1176*) Assign (T 125) (Plain (Zeros [0;0;1;1]));
  (*1177*) AddTo (T 125) (Plain (Einsum [(n_t2,[0;1;2;3]); (n_v'ovov,[0;4;5;2])] [1;5;3;4]));
  (*1178*) SubFrom (T 127) (Plain (Einsum [(T 125,[0;1;2;3])] [0;1;2;3]));
  (*1179*) Del (T 125);
  (*1180*) AddTo (T 127) (Plain (Einsum [(n_v'ovvo,[0;1;2;3])] [3;0;2;1]));
  (*1181*) Assign (T 128) (Plain (Zeros [0;0;1;1]));
  (*1182*) AddTo (T 128) (Plain (Einsum [(T 106,[0;1;2;3]); (T 127,[0;4;2;5])] [1;4;3;5]));
  (*1183*) Del (T 127);
  (*1184*) AddTo (T 143) (Plain (Einsum [(T 128,[0;1;2;3])] [0;1;2;3]));
  (*1185*) Del (T 128);
  (*1186*) Assign (T 129) (Plain (Zeros [0;0;1;1]));
  (*1187*) AddTo (T 129) (Plain (Einsum [(n_t2,[0;1;2;3]); (n_v'ovov,[4;3;0;5])] [1;4;2;5]));
  (*1188*) SubFrom (T 130) (Plain (Einsum [(T 129,[0;1;2;3])] [0;1;2;3]));
  (*1189*) Del (T 129);
  (*1190*) AddTo (T 130) (Plain (Einsum [(n_v'oovv,[0;1;2;3])] [1;0;2;3]));
  (*1191*) Assign (T 131) (Plain (Zeros [0;0;1;1]));
  (*1192*) AddTo (T 131) (Plain (Einsum [(n_l2,[0;1;2;3]); (T 130,[2;4;0;5])] [3;4;1;5]));
  (*1193*) SubFrom (T 143) (Plain (Einsum [(T 131,[0;1;2;3])] [0;1;2;3]));
  (*1194*) Del (T 131);
  (*1195*) Assign (T 150) (Plain (Zeros [0;0;1;1]));
  (*1196*) AddTo (T 150) (Plain (Einsum [(n_l2,[0;1;2;3]); (T 130,[2;4;1;5])] [3;4;0;5]));
  (*1197*) Del (T 130);
  (*1198*) AddTo (T 159) (Plain (Einsum [(T 150,[0;1;2;3])] [0;1;2;3]));
  (*1199*) Del (T 150);
  (*1200*) AddTo (T 142) (Plain (Einsum [(n_f'ov,[0;1])] [0;1]));
  (*1201*) AddTo (T 143) (Plain (Einsum [(n_l1,[0;1]); (T 142,[2;3])] [2;1;3;0]));
  (*1202*) AddTo n_l2new (Plain (Einsum [(T 143,[0;1;2;3])] [2;3;0;1]));
  (*1203*) AddTo n_l2new (Plain (Einsum [(T 143,[0;1;2;3])] [3;2;1;0]));
  (*1204*) Del (T 143);
  (*1205*) Assign (T 154) (Plain (Zeros [0;0]));
  (*1206*) AddTo (T 154) (Plain (Einsum [(n_t1,[0;1]); (T 142,[2;1])] [0;2]));
  (*1207*) AddTo (T 155) (Plain (Einsum [(T 154,[0;1])] [1;0]));
  (*1208*) Del (T 154);
  (*1209*) Assign (T 158) (Plain (Zeros [0;0;1;1]));
  (*1210*) AddTo (T 158) (Plain (Einsum [(T 142,[0;1]); (T 35,[2;3;0;4])] [2;3;4;1]));
  (*1211*) Del (T 35);
  (*1212*) AddTo (T 159) (Plain (Einsum [(T 158,[0;1;2;3])] [0;1;3;2]));
  (*1213*) Del (T 158);
  (*1214*) SubFrom n_lu11new (Plain (Einsum [(T 142,[0;1]); (T 82,[2;3;0])] [2;1;3]));
  (*1215*) Del (T 82);
  (*1216*) Del (T 142);
  (*1217*) Assign (T 144) (Plain (Zeros [0;0;1;1]));
  (*1218*) AddTo (T 144) (Plain (Einsum [(n_l1,[0;1]); (n_v'ovvv,[2;3;0;4])] [1;2;3;4]));
  (*1219*) SubFrom (T 159) (Plain (Einsum [(T 144,[0;1;2;3])] [0;1;2;3]));
  (*1220*) Del (T 144);
  (*1221*) Assign (T 151) (Plain (Zeros [1;1]));
  (*1222*) AddTo (T 151) (Plain (Einsum [(n_g'bov,[0;1;2]); (n_u11,[0;1;3])] [2;3]));
  (*1223*) SubFrom (T 152) (Plain (Einsum [(T 151,[0;1])] [1;0]));
  (*1224*) AddTo (T 178) (Times (Einsum [(T 151,[0;1])] [1;0]) (-1) 1);
  (*1225*) Del (T 151);
  (*1226*) AddTo (T 152) (Plain (Einsum [(n_f'vv,[0;1])] [0;1]));
  (*1227*) Assign (T 153) (Plain (Zeros [0;0;1;1]));
  (*1228*) AddTo (T 153) (Plain (Einsum [(T 152,[0;1]); (n_l2,[0;2;3;4])] [3;4;2;1]));
  (*1229*) Del (T 152);
  (*1230*) SubFrom (T 159) (Plain (Einsum [(T 153,[0;1;2;3])] [1;0;3;2]));
  (*1231*) Del (T 153);
  (*1232*) AddTo (T 155) (Plain (Einsum [(n_f'oo,[0;1])] [0;1]));
  (*1233*) Assign (T 156) (Plain (Zeros [0;0;1;1]));
  (*1234*) AddTo (T 156) (Plain (Einsum [(T 155,[0;1]); (n_l2,[2;3;1;4])] [4;0;2;3]));
  (*1235*) Del (T 155);
  (*1236*) AddTo (T 159) (Plain (Einsum [(T 156,[0;1;2;3])] [1;0;3;2]));
  (*1237*) Del (T 156);
  (*1238*) SubFrom n_l2new (Plain (Einsum [(T 159,[0;1;2;3])] [3;2;0;1]));
  (*1239*) SubFrom n_l2new (Plain (Einsum [(T 159,[0;1;2;3])] [2;3;1;0]));
  (*1240*) Del (T 159);
  (*1241*) Assign (T 162) (Plain (Zeros [0;0;1;1]));
  (*1242*) AddTo (T 162) (Times (Einsum [(n_v'ovov,[0;1;2;3])] [2;0;3;1]) (-1) 2);
  (*1243*) AddTo (T 162) (Plain (Einsum [(n_v'ovov,[0;1;2;3])] [2;0;1;3]));
  (*1244*) Assign (T 163) (Plain (Zeros [0;0]));
  (*1245*) AddTo (T 163) (Plain (Einsum [(n_t2,[0;1;2;3]); (T 162,[0;4;3;2])] [1;4]));
  (*1246*) Del (T 162);
  (*1247*) Assign (T 164) (Plain (Zeros [0;0;1;1]));
  (*1248*) AddTo (T 164) (Times (Einsum [(T 163,[0;1]); (n_l2,[2;3;0;4])] [4;1;2;3]) (2) 1);
  (*1249*) Del (T 163);
  (*1250*) AddTo (T 165) (Plain (Einsum [(T 164,[0;1;2;3])] [0;1;3;2]));
  (*1251*) Del (T 164);
  (*1252*) AddTo n_l2new (Times (Einsum [(T 165,[0;1;2;3])] [2;3;0;1]) (-1) 1);
  (*1253*) AddTo n_l2new (Times (Einsum [(T 165,[0;1;2;3])] [3;2;1;0]) (-1) 1);
  (*1254*) Del (T 165);
  (*1255*) AddTo (T 170) (Plain (Einsum [(n_v'oooo,[0;1;2;3])] [2;0;3;1]));
  (*1256*) AddTo n_l2new (Plain (Einsum [(n_l2,[0;1;2;3]); (T 170,[4;5;3;2])] [0;1;5;4]));
  (*1257*) Del (T 170);
  (*1258*) AddTo (T 171) (Plain (Einsum [(n_f'vo,[0;1])] [1;0]));
  (*1259*) AddTo n_ls1new (Times (Einsum [(T 171,[0;1]); (n_lu11,[2;1;0])] [2]) (2) 1);
  (*1260*) Del (T 171);
  (*1261*) Assign (T 173) (Plain (Zeros [3;3]));
  (*1262*) AddTo (T 173) (Plain (Einsum [(n_lu11,[0;1;2]); (n_u11,[3;2;1])] [0;3]));
  (*1263*) AddTo n_lu11new (Times (Einsum [(T 173,[0;1]); (n_g'bov,[1;2;3])] [0;3;2]) (2) 1);
  (*1264*) Del (T 173);
  (*1265*) AddTo (T 174) (Plain (Einsum [(n_g'bvo,[0;1;2])] [0;2;1]));
  (*1266*) AddTo (T 174) (Plain (Einsum [(n_t1,[0;1]); (n_g'bvv,[2;3;1])] [2;0;3]));
  (*1267*) AddTo n_lu11new (Plain (Einsum [(T 174,[0;1;2]); (T 106,[1;3;2;4])] [0;4;3]));
  (*1268*) Del (T 106);
  (*1269*) Del (T 174);
  (*1270*) Assign (T 176) (Plain (Zeros [3;1;1]));
  (*1271*) AddTo (T 176) (Plain (Einsum [(n_t1,[0;1]); (n_lu11,[2;3;0])] [2;3;1]));
  (*1272*) AddTo n_lu11new (Plain (Einsum [(T 176,[0;1;2]); (T 52,[3;1;4;2])] [0;4;3]));
  (*1273*) Del (T 52);
  (*1274*) Del (T 176);
  (*1275*) Assign (T 177) (Plain (Zeros [0;0;1;1]));
  (*1276*) AddTo (T 177) (Times (Einsum [(n_v'ovov,[0;1;2;3])] [2;0;3;1]) (2) 1);
  (*1277*) AddTo (T 177) (Times (Einsum [(n_v'ovov,[0;1;2;3])] [2;0;1;3]) (-1) 1);
  (*1278*) AddTo (T 178) (Times (Einsum [(n_t2,[0;1;2;3]); (T 177,[0;1;2;4])] [3;4]) (-1) 1);
  (*1279*) Del (T 177);
  (*1280*) AddTo (T 178) (Plain (Einsum [(n_f'vv,[0;1])] [0;1]));
  (*1281*) AddTo n_lu11new (Plain (Einsum [(T 178,[0;1]); (n_lu11,[2;0;3])] [2;1;3]));
  (*1282*) Del (T 178);
  (*1283*) Assign (T 180) (Plain (Zeros [3;3]));
  (*1284*) AddTo (T 180) (Plain (Einsum [(n_w,[0;1])] [0;1]));
  (*1285*) AddTo (T 180) (Times (Einsum [(n_g'bov,[0;1;2]); (n_u11,[3;1;2])] [0;3]) (2) 1);
  (*1286*) AddTo n_lu11new (Plain (Einsum [(T 180,[0;1]); (n_lu11,[1;2;3])] [0;2;3]));
  (*1287*) Del (T 180);
  (*1288*) AddTo n_l1new (Plain (Einsum [(n_ls1,[0]); (n_gc'bov,[0;1;2])] [2;1]));
  (*1289*) AddTo n_l1new (Plain (Einsum [(n_f'ov,[0;1])] [1;0]));
  (*1290*) AddTo n_l2new (Plain (Einsum [(n_v'ovov,[0;1;2;3])] [3;1;2;0]));
  (*1291*) AddTo n_l2new (Plain (Einsum [(n_l2,[0;1;2;3]); (n_v'vvvv,[1;4;0;5])] [4;5;3;2]));
  (*1292*) AddTo n_ls1new (Times (Einsum [(n_l1,[0;1]); (n_g'bvo,[2;0;1])] [2]) (2) 1);
  (*1293*) AddTo n_ls1new (Plain (Einsum [(n_ls1,[0]); (n_w,[1;0])] [1]));
  (*1294*) AddTo n_ls1new (Plain (Einsum [(n_G,[0])] [0]));
  (*1295*) AddTo n_lu11new (Plain (Einsum [(n_l1,[0;1]); (n_g'bvv,[2;0;3])] [2;3;1]));
  (*1296*) AddTo n_lu11new (Plain (Einsum [(n_g'bov,[0;1;2])] [0;2;1]))]
 [(n_l1new,[1;0]); (n_l2new,[1;1;0;0]); (n_ls1new,[3]); (n_lu11new,[3;1;0])].

(** ebcc/codegen/RCCSD_S_1_1.py:1300-1371 [make_rdm1_f]; assembly (line 1369) not translated *)
Definition RCCSD_S_1_1_make_rdm1_f : prog := mkprog
 [(n_g'boo,[3;0;0]); (n_g'bvo,[3;1;0]); (n_g'bov,[3;0;1]); (n_g'bvv,[3;1;1]); (n_lu11,[3;1;0]); (n_u11,[3;0;1]); (n_l1,[1;0]); (n_t1,[0;1]); (n_t2,[0;0;1;1]); (n_l2,[1;1;0;0]); (n_ls1,[3])]
 [(*1302*) Assign n_gc'boo (Plain (Transpose n_g'boo [0;2;1]));
  (*1302*) Assign n_gc'bov (Plain (Transpose n_g'bvo [0;2;1]));
  (*1302*) Assign n_gc'bvo (Plain (Transpose n_g'bov [0;2;1]));
  (*1302*) Assign n_gc'bvv (Plain (Transpose n_g'bvv [0;2;1]));
  (*1309*) Assign n_delta_oo (Plain (Eye 0));
  (*1310*) Assign n_delta_vv (Plain (Eye 1));
  (*1313*) Assign (T 1) (Plain (Zeros [0;0]));
  (*1314*) AddTo (T 1) (Plain (Einsum [(n_lu11,[0;1;2]); (n_u11,[0;3;1])] [2;3]));
  (*1315*) Assign (T 9) (Plain (Zeros [0;0]));
  (*1316*) AddTo (T 9) (Plain (Einsum [(T 1,[0;1])] [0;1]));
  (*1317*) Assign n_rdm1_f_oo (Plain (Zeros [0;0]));
  (*1318*) SubFrom n_rdm1_f_oo (Times (Einsum [(T 1,[0;1])] [0;1]) (2) 1);
  (*1319*) Del (T 1);
  (*1320*) Assign (T 2) (Plain (Zeros [0;0]));
  (*1321*) AddTo (T 2) (Plain (Einsum [(n_l1,[0;1]); (n_t1,[2;0])] [1;2]));
  (*1322*) AddTo (T 9) (Plain (Einsum [(T 2,[0;1])] [0;1]));
  (*1323*) SubFrom n_rdm1_f_oo (Times (Einsum [(T 2,[0;1])] [0;1]) (2) 1);
  (*1324*) Del (T 2);
  (*1325*) Assign (T 3) (Plain (Zeros [0;0;1;1]));
  (*1326*) AddTo (T 3) (Times (Einsum [(n_t2,[0;1;2;3])] [1;0;2;3]) (2) 1);
  (*1327*) AddTo (T 3) (Times (Einsum [(n_t2,[0;1;2;3])] [1;0;3;2]) (-1) 1);
  (*1328*) AddTo n_rdm1_f_oo (Times (Einsum [(n_l2,[0;1;2;3]); (T 3,[2;4;1;0])] [3;4]) (-2) 1);
  (*1329*) Del (T 3);
  (*1330*) Assign (T 4) (Plain (Zeros [3;0;0]));
  (*1331*) AddTo (T 4) (Plain (Einsum [(n_t1,[0;1]); (n_lu11,[2;1;3])] [2;3;0]));
  (*1332*) Assign n_rdm1_f_vo (Plain (Zeros [1;0]));
  (*1333*) SubFrom n_rdm1_f_vo (Times (Einsum [(n_u11,[0;1;2]); (T 4,[0;1;3])] [2;3]) (2) 1);
  (*1334*) Del (T 4);
  (*1335*) Assign (T 5) (Plain (Zeros [0;0;0;1]));
  (*1336*) AddTo (T 5) (Plain (Einsum [(n_t1,[0;1]); (n_l2,[2;1;3;4])] [3;4;0;2]));
  (*1337*) Assign (T 6) (Plain (Zeros [0;0;0;1]));
  (*1338*) AddTo (T 6) (Times (Einsum [(T 5,[0;1;2;3])] [0;1;2;3]) (-1) 1);
  (*1339*) AddTo (T 6) (Times (Einsum [(T 5,[0;1;2;3])] [1;0;2;3]) (2) 1);
  (*1340*) Del (T 5);
  (*1341*) AddTo n_rdm1_f_vo (Times (Einsum [(n_t2,[0;1;2;3]); (T 6,[0;1;4;3])] [2;4]) (-2) 1);
  (*1342*) Del (T 6);
  (*1343*) Assign (T 7) (Plain (Zeros [0;0;1;1]));
  (*1344*) SubFrom (T 7) (Plain (Einsum [(n_t2,[0;1;2;3])] [1;0;2;3]));
  (*1345*) AddTo (T 7) (Times (Einsum [(n_t2,[0;1;2;3])] [1;0;3;2]) (2) 1);
  (*1346*) AddTo n_rdm1_f_vo (Times (Einsum [(n_l1,[0;1]); (T 7,[1;2;0;3])] [3;2]) (2) 1);
  (*1347*) Del (T 7);
  (*1348*) Assign (T 8) (Plain (Zeros [0;0;1;1]));
  (*1349*) AddTo (T 8) (Plain (Einsum [(n_t2,[0;1;2;3])] [1;0;2;3]));
  (*1350*) AddTo (T 8) (Times (Einsum [(n_t2,[0;1;2;3])] [1;0;3;2]) (-1) 2);
  (*1351*) AddTo (T 9) (Times (Einsum [(n_l2,[0;1;2;3]); (T 8,[2;4;1;0])] [3;4]) (2) 1);
  (*1352*) Del (T 8);
  (*1353*) AddTo n_rdm1_f_vo (Times (Einsum [(n_t1,[0;1]); (T 9,[0;2])] [1;2]) (-2) 1);
  (*1354*) Del (T 9);
  (*1355*) Assign (T 10) (Plain (Zeros [0;0;1;1]));
  (*1356*) AddTo (T 10) (Times (Einsum [(n_l2,[0;1;2;3])] [3;2;0;1]) (-1) 2);
  (*1357*) AddTo (T 10) (Plain (Einsum [(n_l2,[0;1;2;3])] [3;2;1;0]));
  (*1358*) Assign n_rdm1_f_vv (Plain (Zeros [1;1]));
  (*1359*) AddTo n_rdm1_f_vv (Times (Einsum [(n_t2,[0;1;2;3]); (T 10,[0;1;4;3])] [2;4]) (4) 1);
  (*1360*) Del (T 10);
  (*1361*) AddTo n_rdm1_f_oo (Times (Einsum [(n_delta_oo,[0;1])] [1;0]) (2) 1);
  (*1362*) Assign n_rdm1_f_ov (Plain (Zeros [0;1]));
  (*1363*) AddTo n_rdm1_f_ov (Times (Einsum [(n_l1,[0;1])] [1;0]) (2) 1);
  (*1364*) AddTo n_rdm1_f_vo (Times (Einsum [(n_t1,[0;1])] [1;0]) (2) 1);
  (*1365*) AddTo n_rdm1_f_vo (Times (Einsum [(n_ls1,[0]); (n_u11,[0;1;2])] [2;1]) (2) 1);
  (*1366*) AddTo n_rdm1_f_vv (Times (Einsum [(n_l1,[0;1]); (n_t1,[1;2])] [2;0]) (2) 1);
  (*1367*) AddTo n_rdm1_f_vv (Times (Einsum [(n_lu11,[0;1;2]); (n_u11,[0;2;3])] [3;1]) (2) 1)]
 [(n_rdm1_f_oo,[0;0]); (n_rdm1_f_ov,[0;1]); (n_rdm1_f_vo,[1;0]); (n_rdm1_f_vv,[1;1])].

(** ebcc/codegen/RCCSD_S_1_1.py:1373-1888 [make_rdm2_f]; assembly (line 1886) not translated *)
Definition RCCSD_S_1_1_make_rdm2_f : prog := mkprog
 [(n_g'boo,[3;0;0]); (n_g'bvo,[3;1;0]); (n_g'bov,[3;0;1]); (n_g'bvv,[3;1;1]); (n_lu11,[3;1;0]); (n_u11,[3;0;1]); (n_t1,[0;1]); (n_t2,[0;0;1;1]); (n_l2,[1;1;0;0]); (n_l1,[1;0]); (n_ls1,[3])]
 [(*1375*) Assign n_gc'boo (Plain (Transpose n_g'boo [0;2;1]));
  (*1375*) Assign n_gc'bov (Plain (Transpose n_g'bvo [0;2;1]));
  (*1375*) Assign n_gc'bvo (Plain (Transpose n_g'bov [0;2;1]));
  (*1375*) Assign n_gc'bvv (Plain (Transpose n_g'bvv [0;2;1]));
  (*1382*) Assign n_delta_oo (Plain (Eye 0));
  (*1383*) Assign n_delta_vv (Plain (Eye 1));
  (*1386*) Assign (T 1) (Plain (Zeros [0;0]));
  (*1387*) AddTo (T 1) (Plain (Einsum [(n_lu11,[0;1;2]); (n_u11,[0;3;1])] [2;3]));
  (*1388*) Assign (T 16) (Plain (Zeros [0;0]));
  (*1389*) AddTo (T 16) (Plain (Einsum [(T 1,[0;1])] [0;1]));
  (*1390*) Assign (T 25) (Plain (Zeros [0;1]));
  (*1391*) AddTo (T 25) (Plain (Einsum [(n_t1,[0;1]); (T 1,[0;2])] [2;1]));
  (*1392*) Assign (T 28) (Plain (Zeros [0;1]));
  (*1393*) AddTo (T 28) (Plain (Einsum [(T 25,[0;1])] [0;1]));
  (*1394*) Del (T 25);
  (*1395*) Assign (T 56) (Plain (Zeros [0;0;1;1]));
  (*1396*) AddTo (T 56) (Plain (Einsum [(T 1,[0;1]); (n_t2,[2;0;3;4])] [2;1;3;4]));
  (*1397*) Assign (T 65) (Plain (Zeros [0;0;1;1]));
  (*1398*) AddTo (T 65) (Plain (Einsum [(T 56,[0;1;2;3])] [0;1;2;3]));
  (*1399*) Del (T 56);
  (*1400*) Assign n_rdm2_f_oooo (Plain (Zeros [0;0;0;0]));
  (*1401*) SubFrom n_rdm2_f_oooo (Times (Einsum [(n_delta_oo,[0;1]); (T 1,[2;3])] [0;1;2;3]) (4) 1);
  (*1402*) AddTo n_rdm2_f_oooo (Times (Einsum [(n_delta_oo,[0;1]); (T 1,[2;3])] [0;3;2;1]) (2) 1);
  (*1403*) AddTo n_rdm2_f_oooo (Times (Einsum [(n_delta_oo,[0;1]); (T 1,[2;3])] [2;0;1;3]) (2) 1);
  (*1404*) SubFrom n_rdm2_f_oooo (Times (Einsum [(n_delta_oo,[0;1]); (T 1,[2;3])] [2;3;1;0]) (4) 1);
  (*1405*) Del (T 1);
  (*1406*) Assign (T 2) (Plain (Zeros [0;0;1;1]));
  (*1407*) AddTo (T 2) (Times (Einsum [(n_t2,[0;1;2;3])] [1;0;2;3]) (-1) 2);
  (*1408*) AddTo (T 2) (Plain (Einsum [(n_t2,[0;1;2;3])] [1;0;3;2]));
  (*1409*) Assign (T 3) (Plain (Zeros [0;0]));
  (*1410*) AddTo (T 3) (Plain (Einsum [(n_l2,[0;1;2;3]); (T 2,[2;4;0;1])] [4;3]));
  (*1411*) Del (T 2);
  (*1412*) Assign (T 11) (Plain (Zeros [0;1]));
  (*1413*) AddTo (T 11) (Times (Einsum [(n_t1,[0;1]); (T 3,[2;0])] [2;1]) (2) 1);
  (*1414*) Assign (T 12) (Plain (Zeros [0;1]));
  (*1415*) AddTo (T 12) (Plain (Einsum [(T 11,[0;1])] [0;1]));
  (*1416*) Del (T 11);
  (*1417*) Assign (T 34) (Plain (Zeros [0;1]));
  (*1418*) AddTo (T 34) (Plain (Einsum [(n_t1,[0;1]); (T 3,[2;0])] [2;1]));
  (*1419*) Assign (T 35) (Plain (Zeros [0;1]));
  (*1420*) AddTo (T 35) (Plain (Einsum [(T 34,[0;1])] [0;1]));
  (*1421*) Del (T 34);
  (*1422*) Assign (T 78) (Plain (Zeros [0;0;1;1]));
  (*1423*) AddTo (T 78) (Times (Einsum [(T 3,[0;1]); (n_t2,[1;2;3;4])] [0;2;3;4]) (8) 1);
  (*1424*) Assign (T 79) (Plain (Zeros [0;0;1;1]));
  (*1425*) AddTo (T 79) (Plain (Einsum [(T 78,[0;1;2;3])] [1;0;3;2]));
  (*1426*) Del (T 78);
  (*1427*) AddTo n_rdm2_f_oooo (Times (Einsum [(n_delta_oo,[0;1]); (T 3,[2;3])] [1;0;3;2]) (-8) 1);
  (*1428*) AddTo n_rdm2_f_oooo (Times (Einsum [(n_delta_oo,[0;1]); (T 3,[2;3])] [1;2;3;0]) (4) 1);
  (*1429*) AddTo n_rdm2_f_oooo (Times (Einsum [(n_delta_oo,[0;1]); (T 3,[2;3])] [3;1;0;2]) (4) 1);
  (*1430*) AddTo n_rdm2_f_oooo (Times (Einsum [(n_delta_oo,[0;1]); (T 3,[2;3])] [3;2;0;1]) (-8) 1);
  (*1431*) Assign n_rdm2_f_oovo (Plain (Zeros [0;0;1;0]));
  (*1432*) AddTo n_rdm2_f_oovo (Times (Einsum [(n_t1,[0;1]); (T 3,[2;3])] [3;0;1;2]) (4) 1);
  (*1433*) AddTo n_rdm2_f_oovo (Times (Einsum [(n_t1,[0;1]); (T 3,[2;3])] [3;2;1;0]) (-8) 1);
  (*1434*) Assign n_rdm2_f_vooo (Plain (Zeros [1;0;0;0]));
  (*1435*) AddTo n_rdm2_f_vooo (Times (Einsum [(n_t1,[0;1]); (T 3,[2;3])] [1;0;3;2]) (-8) 1);
  (*1436*) AddTo n_rdm2_f_vooo (Times (Einsum [(n_t1,[0;1]); (T 3,[2;3])] [1;2;3;0]) (4) 1);
  (*1437*) Del (T 3);
  (*1438*) Assign (T 4) (Plain (Zeros [0;0]));
  (*1439*) AddTo (T 4) (Plain (Einsum [(n_l1,[0;1]); (n_t1,[2;0])] [1;2]));
  (*1440*) AddTo (T 16) (Plain (Einsum [(T 4,[0;1])] [0;1]));
  (*1441*) Assign (T 17) (Plain (Zeros [0;0;0;1]));
  (*1442*) AddTo (T 17) (Plain (Einsum [(n_t1,[0;1]); (T 16,[2;3])] [2;0;3;1]));
  (*1443*) Assign (T 84) (Plain (Zeros [0;1]));
  (*1444*) AddTo (T 84) (Plain (Einsum [(n_t1,[0;1]); (T 16,[0;2])] [2;1]));
  (*1445*) Del (T 16);
  (*1446*) Assign (T 85) (Plain (Zeros [0;1]));
  (*1447*) AddTo (T 85) (Plain (Einsum [(T 84,[0;1])] [0;1]));
  (*1448*) Assign (T 86) (Plain (Zeros [0;1]));
  (*1449*) AddTo (T 86) (Plain (Einsum [(T 84,[0;1])] [0;1]));
  (*1450*) Del (T 84);
  (*1451*) Assign (T 31) (Plain (Zeros [0;1]));
  (*1452*) AddTo (T 31) (Plain (Einsum [(n_t1,[0;1]); (T 4,[0;2])] [2;1]));
  (*1453*) Assign (T 32) (Plain (Zeros [0;1]));
  (*1454*) SubFrom (T 32) (Plain (Einsum [(T 31,[0;1])] [0;1]));
  (*1455*) Del (T 31);
  (*1456*) Assign (T 66) (Plain (Zeros [0;0;1;1]));
  (*1457*) AddTo (T 66) (Plain (Einsum [(T 4,[0;1]); (n_t2,[2;0;3;4])] [1;2;3;4]));
  (*1458*) Assign (T 69) (Plain (Zeros [0;0;1;1]));
  (*1459*) AddTo (T 69) (Plain (Einsum [(T 66,[0;1;2;3])] [0;1;2;3]));
  (*1460*) Del (T 66);
  (*1461*) SubFrom n_rdm2_f_oooo (Times (Einsum [(n_delta_oo,[0;1]); (T 4,[2;3])] [1;0;2;3]) (4) 1);
  (*1462*) AddTo n_rdm2_f_oooo (Times (Einsum [(n_delta_oo,[0;1]); (T 4,[2;3])] [2;0;1;3]) (2) 1);
  (*1463*) AddTo n_rdm2_f_oooo (Times (Einsum [(n_delta_oo,[0;1]); (T 4,[2;3])] [1;3;2;0]) (2) 1);
  (*1464*) SubFrom n_rdm2_f_oooo (Times (Einsum [(n_delta_oo,[0;1]); (T 4,[2;3])] [2;3;1;0]) (4) 1);
  (*1465*) Del (T 4);
  (*1466*) Assign (T 5) (Plain (Zeros [0;0;0;0]));
  (*1467*) AddTo (T 5) (Plain (Einsum [(n_l2,[0;1;2;3]); (n_t2,[4;5;0;1])] [2;3;4;5]));
  (*1468*) Assign (T 8) (Plain (Zeros [0;0;0;1]));
  (*1469*) AddTo (T 8) (Plain (Einsum [(n_t1,[0;1]); (T 5,[2;0;3;4])] [2;3;4;1]));
  (*1470*) Assign (T 13) (Plain (Zeros [0;0;0;1]));
  (*1471*) AddTo (T 13) (Times (Einsum [(T 8,[0;1;2;3])] [0;1;2;3]) (4) 1);
  (*1472*) Assign (T 80) (Plain (Zeros [0;0;1;1]));
  (*1473*) AddTo (T 80) (Plain (Einsum [(n_t1,[0;1]); (T 8,[0;2;3;4])] [3;2;4;1]));
  (*1474*) Assign (T 83) (Plain (Zeros [0;0;1;1]));
  (*1475*) AddTo (T 83) (Times (Einsum [(T 80,[0;1;2;3])] [0;1;2;3]) (20000000000000013) 10000000000000000);
  (*1476*) Del (T 80);
  (*1477*) AddTo n_rdm2_f_vooo (Times (Einsum [(T 8,[0;1;2;3])] [3;1;0;2]) (-2) 1);
  (*1478*) AddTo n_rdm2_f_vooo (Times (Einsum [(T 8,[0;1;2;3])] [3;2;0;1]) (4) 1);
  (*1479*) Del (T 8);
  (*1480*) Assign (T 81) (Plain (Zeros [0;0;0;0]));
  (*1481*) AddTo (T 81) (Plain (Einsum [(T 5,[0;1;2;3])] [1;0;3;2]));
  (*1482*) AddTo n_rdm2_f_oooo (Times (Einsum [(T 5,[0;1;2;3])] [1;2;0;3]) (-2) 1);
  (*1483*) AddTo n_rdm2_f_oooo (Times (Einsum [(T 5,[0;1;2;3])] [1;3;0;2]) (4) 1);
  (*1484*) Del (T 5);
  (*1485*) Assign (T 6) (Plain (Zeros [0;0;0;1]));
  (*1486*) AddTo (T 6) (Plain (Einsum [(n_t1,[0;1]); (n_l2,[2;1;3;4])] [3;4;0;2]));
  (*1487*) Assign (T 7) (Plain (Zeros [0;0;0;0]));
  (*1488*) AddTo (T 7) (Plain (Einsum [(n_t1,[0;1]); (T 6,[2;3;4;1])] [3;2;4;0]));
  (*1489*) Assign (T 21) (Plain (Zeros [0;0;0;1]));
  (*1490*) AddTo (T 21) (Plain (Einsum [(n_t1,[0;1]); (T 7,[0;2;3;4])] [2;4;3;1]));
  (*1491*) Assign (T 29) (Plain (Zeros [0;0;0;1]));
  (*1492*) SubFrom (T 29) (Plain (Einsum [(T 21,[0;1;2;3])] [0;1;2;3]));
  (*1493*) Assign (T 38) (Plain (Zeros [0;0;0;1]));
  (*1494*) AddTo (T 38) (Plain (Einsum [(T 21,[0;1;2;3])] [0;1;2;3]));
  (*1495*) Assign (T 72) (Plain (Zeros [0;0;1;1]));
  (*1496*) AddTo (T 72) (Plain (Einsum [(n_t1,[0;1]); (T 21,[0;2;3;4])] [2;3;1;4]));
  (*1497*) Del (T 21);
  (*1498*) Assign (T 74) (Plain (Zeros [0;0;1;1]));
  (*1499*) AddTo (T 74) (Plain (Einsum [(T 72,[0;1;2;3])] [0;1;2;3]));
  (*1500*) Del (T 72);
  (*1501*) AddTo (T 81) (Plain (Einsum [(T 7,[0;1;2;3])] [0;1;2;3]));
  (*1502*) Assign (T 82) (Plain (Zeros [0;0;1;1]));
  (*1503*) AddTo (T 82) (Times (Einsum [(n_t2,[0;1;2;3]); (T 81,[0;1;4;5])] [4;5;2;3]) (2) 1);
  (*1504*) Del (T 81);
  (*1505*) AddTo (T 83) (Plain (Einsum [(T 82,[0;1;2;3])] [1;0;3;2]));
  (*1506*) Del (T 82);
  (*1507*) Assign n_rdm2_f_vovo (Plain (Zeros [1;0;1;0]));
  (*1508*) AddTo n_rdm2_f_vovo (Times (Einsum [(T 83,[0;1;2;3])] [2;1;3;0]) (-1) 1);
  (*1509*) AddTo n_rdm2_f_vovo (Times (Einsum [(T 83,[0;1;2;3])] [3;1;2;0]) (2) 1);
  (*1510*) Del (T 83);
  (*1511*) AddTo n_rdm2_f_oooo (Times (Einsum [(T 7,[0;1;2;3])] [0;2;1;3]) (4) 1);
  (*1512*) SubFrom n_rdm2_f_oooo (Times (Einsum [(T 7,[0;1;2;3])] [0;3;1;2]) (2) 1);
  (*1513*) Del (T 7);
  (*1514*) Assign (T 9) (Plain (Zeros [0;0;0;1]));
  (*1515*) AddTo (T 9) (Times (Einsum [(T 6,[0;1;2;3])] [0;1;2;3]) (-1) 2);
  (*1516*) AddTo (T 9) (Plain (Einsum [(T 6,[0;1;2;3])] [1;0;2;3]));
  (*1517*) Assign (T 10) (Plain (Zeros [0;1]));
  (*1518*) AddTo (T 10) (Times (Einsum [(n_t2,[0;1;2;3]); (T 9,[0;1;4;3])] [4;2]) (2) 1);
  (*1519*) AddTo (T 12) (Plain (Einsum [(T 10,[0;1])] [0;1]));
  (*1520*) Del (T 10);
  (*1521*) AddTo (T 13) (Times (Einsum [(n_delta_oo,[0;1]); (T 12,[2;3])] [1;0;2;3]) (-4) 1);
  (*1522*) Del (T 12);
  (*1523*) AddTo n_rdm2_f_oovo (Plain (Einsum [(T 13,[0;1;2;3])] [0;1;3;2]));
  (*1524*) AddTo n_rdm2_f_oovo (Times (Einsum [(T 13,[0;1;2;3])] [0;2;3;1]) (-1) 2);
  (*1525*) Del (T 13);
  (*1526*) Assign (T 33) (Plain (Zeros [0;1]));
  (*1527*) AddTo (T 33) (Plain (Einsum [(n_t2,[0;1;2;3]); (T 9,[0;1;4;3])] [4;2]));
  (*1528*) Del (T 9);
  (*1529*) AddTo (T 35) (Plain (Einsum [(T 33,[0;1])] [0;1]));
  (*1530*) Del (T 33);
  (*1531*) AddTo (T 79) (Times (Einsum [(n_t1,[0;1]); (T 35,[2;3])] [0;2;1;3]) (1600000000000001) 200000000000000);
  (*1532*) AddTo n_rdm2_f_vooo (Times (Einsum [(n_delta_oo,[0;1]); (T 35,[2;3])] [3;1;0;2]) (4) 1);
  (*1533*) AddTo n_rdm2_f_vooo (Times (Einsum [(n_delta_oo,[0;1]); (T 35,[2;3])] [3;2;0;1]) (-8) 1);
  (*1534*) Del (T 35);
  (*1535*) Assign (T 15) (Plain (Zeros [0;0;0;1]));
  (*1536*) AddTo (T 15) (Plain (Einsum [(n_t2,[0;1;2;3]); (T 6,[4;1;5;2])] [4;5;0;3]));
  (*1537*) SubFrom (T 17) (Plain (Einsum [(T 15,[0;1;2;3])] [0;1;2;3]));
  (*1538*) Assign (T 67) (Plain (Zeros [0;0;0;1]));
  (*1539*) SubFrom (T 67) (Plain (Einsum [(T 15,[0;1;2;3])] [0;1;2;3]));
  (*1540*) Del (T 15);
  (*1541*) Assign (T 20) (Plain (Zeros [0;0;0;1]));
  (*1542*) AddTo (T 20) (Plain (Einsum [(n_t2,[0;1;2;3]); (T 6,[1;4;5;2])] [4;5;0;3]));
  (*1543*) SubFrom (T 29) (Plain (Einsum [(T 20,[0;1;2;3])] [0;1;2;3]));
  (*1544*) Del (T 20);
  (*1545*) Assign (T 22) (Plain (Zeros [0;0;0;1]));
  (*1546*) AddTo (T 22) (Times (Einsum [(T 6,[0;1;2;3])] [0;1;2;3]) (2) 1);
  (*1547*) SubFrom (T 22) (Plain (Einsum [(T 6,[0;1;2;3])] [1;0;2;3]));
  (*1548*) Assign (T 23) (Plain (Zeros [0;0;0;1]));
  (*1549*) AddTo (T 23) (Plain (Einsum [(n_t2,[0;1;2;3]); (T 22,[0;4;5;2])] [4;5;1;3]));
  (*1550*) AddTo (T 29) (Plain (Einsum [(T 23,[0;1;2;3])] [0;1;2;3]));
  (*1551*) Del (T 23);
  (*1552*) Assign (T 43) (Plain (Zeros [0;0;1;1]));
  (*1553*) AddTo (T 43) (Plain (Einsum [(n_t1,[0;1]); (T 22,[0;2;3;4])] [2;3;1;4]));
  (*1554*) Del (T 22);
  (*1555*) Assign n_rdm2_f_oovv (Plain (Zeros [0;0;1;1]));
  (*1556*) SubFrom n_rdm2_f_oovv (Times (Einsum [(T 43,[0;1;2;3])] [0;1;2;3]) (2) 1);
  (*1557*) Assign n_rdm2_f_vvoo (Plain (Zeros [1;1;0;0]));
  (*1558*) SubFrom n_rdm2_f_vvoo (Times (Einsum [(T 43,[0;1;2;3])] [2;3;0;1]) (2) 1);
  (*1559*) Del (T 43);
  (*1560*) Assign (T 36) (Plain (Zeros [0;0;0;1]));
  (*1561*) AddTo (T 36) (Plain (Einsum [(n_t2,[0;1;2;3]); (T 6,[4;1;5;3])] [4;5;0;2]));
  (*1562*) AddTo (T 38) (Plain (Einsum [(T 36,[0;1;2;3])] [0;1;2;3]));
  (*1563*) Assign (T 59) (Plain (Zeros [0;0;0;1]));
  (*1564*) AddTo (T 59) (Plain (Einsum [(T 36,[0;1;2;3])] [0;1;2;3]));
  (*1565*) Del (T 36);
  (*1566*) Assign (T 50) (Plain (Zeros [0;0;0;1]));
  (*1567*) SubFrom (T 50) (Plain (Einsum [(T 6,[0;1;2;3])] [0;1;2;3]));
  (*1568*) AddTo (T 50) (Times (Einsum [(T 6,[0;1;2;3])] [1;0;2;3]) (2) 1);
  (*1569*) Assign (T 51) (Plain (Zeros [0;0;1;1]));
  (*1570*) AddTo (T 51) (Plain (Einsum [(n_t1,[0;1]); (T 50,[0;2;3;4])] [2;3;1;4]));
  (*1571*) Del (T 50);
  (*1572*) Assign n_rdm2_f_ovvo (Plain (Zeros [0;1;1;0]));
  (*1573*) SubFrom n_rdm2_f_ovvo (Times (Einsum [(T 51,[0;1;2;3])] [0;3;2;1]) (2) 1);
  (*1574*) Assign n_rdm2_f_voov (Plain (Zeros [1;0;0;1]));
  (*1575*) SubFrom n_rdm2_f_voov (Times (Einsum [(T 51,[0;1;2;3])] [2;1;0;3]) (2) 1);
  (*1576*) Del (T 51);
  (*1577*) Assign (T 91) (Plain (Zeros [0;0;1;1]));
  (*1578*) AddTo (T 91) (Plain (Einsum [(n_t1,[0;1]); (T 6,[2;0;3;4])] [2;3;4;1]));
  (*1579*) Assign (T 93) (Plain (Zeros [0;0;1;1]));
  (*1580*) AddTo (T 93) (Plain (Einsum [(T 91,[0;1;2;3])] [0;1;2;3]));
  (*1581*) Del (T 91);
  (*1582*) Assign (T 100) (Plain (Zeros [0;1;1;1]));
  (*1583*) AddTo (T 100) (Plain (Einsum [(n_t2,[0;1;2;3]); (T 6,[1;0;4;5])] [4;5;3;2]));
  (*1584*) Assign n_rdm2_f_vovv (Plain (Zeros [1;0;1;1]));
  (*1585*) AddTo n_rdm2_f_vovv (Times (Einsum [(T 100,[0;1;2;3])] [2;0;3;1]) (2) 1);
  (*1586*) AddTo n_rdm2_f_vovv (Times (Einsum [(T 100,[0;1;2;3])] [3;0;2;1]) (-4) 1);
  (*1587*) Assign n_rdm2_f_vvvo (Plain (Zeros [1;1;1;0]));
  (*1588*) AddTo n_rdm2_f_vvvo (Times (Einsum [(T 100,[0;1;2;3])] [2;1;3;0]) (-4) 1);
  (*1589*) AddTo n_rdm2_f_vvvo (Times (Einsum [(T 100,[0;1;2;3])] [3;1;2;0]) (2) 1);
  (*1590*) Del (T 100);
  (*1591*) Assign n_rdm2_f_ooov (Plain (Zeros [0;0;0;1]));
  (*1592*) AddTo n_rdm2_f_ooov (Times (Einsum [(T 6,[0;1;2;3])] [0;2;1;3]) (2) 1);
  (*1593*) SubFrom n_rdm2_f_ooov (Times (Einsum [(T 6,[0;1;2;3])] [1;2;0;3]) (4) 1);
  (*1594*) Assign n_rdm2_f_ovoo (Plain (Zeros [0;1;0;0]));
  (*1595*) SubFrom n_rdm2_f_ovoo (Times (Einsum [(T 6,[0;1;2;3])] [0;3;1;2]) (4) 1);
  (*1596*) AddTo n_rdm2_f_ovoo (Times (Einsum [(T 6,[0;1;2;3])] [1;3;0;2]) (2) 1);
  (*1597*) Assign (T 14) (Plain (Zeros [0;0;0;1]));
  (*1598*) AddTo (T 14) (Plain (Einsum [(n_l1,[0;1]); (n_t2,[2;3;4;0])] [1;2;3;4]));
  (*1599*) AddTo (T 17) (Plain (Einsum [(T 14,[0;1;2;3])] [0;1;2;3]));
  (*1600*) AddTo n_rdm2_f_oovo (Times (Einsum [(T 17,[0;1;2;3])] [0;1;3;2]) (2) 1);
  (*1601*) SubFrom n_rdm2_f_oovo (Times (Einsum [(T 17,[0;1;2;3])] [0;2;3;1]) (4) 1);
  (*1602*) SubFrom n_rdm2_f_vooo (Times (Einsum [(T 17,[0;1;2;3])] [3;1;0;2]) (4) 1);
  (*1603*) AddTo n_rdm2_f_vooo (Times (Einsum [(T 17,[0;1;2;3])] [3;2;0;1]) (2) 1);
  (*1604*) Del (T 17);
  (*1605*) AddTo (T 67) (Plain (Einsum [(T 14,[0;1;2;3])] [0;1;2;3]));
  (*1606*) Del (T 14);
  (*1607*) Assign (T 68) (Plain (Zeros [0;0;1;1]));
  (*1608*) AddTo (T 68) (Plain (Einsum [(n_t1,[0;1]); (T 67,[0;2;3;4])] [2;3;1;4]));
  (*1609*) Del (T 67);
  (*1610*) AddTo (T 69) (Plain (Einsum [(T 68,[0;1;2;3])] [0;1;2;3]));
  (*1611*) Del (T 68);
  (*1612*) AddTo n_rdm2_f_vovo (Times (Einsum [(T 69,[0;1;2;3])] [2;0;3;1]) (2) 1);
  (*1613*) SubFrom n_rdm2_f_vovo (Times (Einsum [(T 69,[0;1;2;3])] [3;0;2;1]) (4) 1);
  (*1614*) SubFrom n_rdm2_f_vovo (Times (Einsum [(T 69,[0;1;2;3])] [2;1;3;0]) (4) 1);
  (*1615*) AddTo n_rdm2_f_vovo (Times (Einsum [(T 69,[0;1;2;3])] [3;1;2;0]) (2) 1);
  (*1616*) Del (T 69);
  (*1617*) Assign (T 18) (Plain (Zeros [3;0;0]));
  (*1618*) AddTo (T 18) (Plain (Einsum [(n_t1,[0;1]); (n_lu11,[2;1;3])] [2;3;0]));
  (*1619*) Assign (T 19) (Plain (Zeros [0;0;0;1]));
  (*1620*) AddTo (T 19) (Plain (Einsum [(n_u11,[0;1;2]); (T 18,[0;3;4])] [3;4;1;2]));
  (*1621*) AddTo (T 29) (Plain (Einsum [(T 19,[0;1;2;3])] [0;1;2;3]));
  (*1622*) SubFrom (T 38) (Plain (Einsum [(T 19,[0;1;2;3])] [0;1;2;3]));
  (*1623*) Del (T 19);
  (*1624*) Assign (T 24) (Plain (Zeros [0;1]));
  (*1625*) AddTo (T 24) (Plain (Einsum [(n_u11,[0;1;2]); (T 18,[0;1;3])] [3;2]));
  (*1626*) AddTo (T 28) (Plain (Einsum [(T 24,[0;1])] [0;1]));
  (*1627*) AddTo (T 85) (Plain (Einsum [(T 24,[0;1])] [0;1]));
  (*1628*) AddTo (T 86) (Plain (Einsum [(T 24,[0;1])] [0;1]));
  (*1629*) Del (T 24);
  (*1630*) Assign (T 61) (Plain (Zeros [3;0;1]));
  (*1631*) AddTo (T 61) (Plain (Einsum [(n_t1,[0;1]); (T 18,[2;0;3])] [2;3;1]));
  (*1632*) Del (T 18);
  (*1633*) Assign (T 63) (Plain (Zeros [3;0;1]));
  (*1634*) AddTo (T 63) (Plain (Einsum [(T 61,[0;1;2])] [0;1;2]));
  (*1635*) Del (T 61);
  (*1636*) Assign (T 26) (Plain (Zeros [0;0;1;1]));
  (*1637*) AddTo (T 26) (Times (Einsum [(n_t2,[0;1;2;3])] [1;0;2;3]) (2) 1);
  (*1638*) SubFrom (T 26) (Plain (Einsum [(n_t2,[0;1;2;3])] [1;0;3;2]));
  (*1639*) Assign (T 27) (Plain (Zeros [0;1]));
  (*1640*) AddTo (T 27) (Plain (Einsum [(n_l1,[0;1]); (T 26,[1;2;3;0])] [2;3]));
  (*1641*) SubFrom (T 28) (Plain (Einsum [(T 27,[0;1])] [0;1]));
  (*1642*) AddTo (T 29) (Plain (Einsum [(n_delta_oo,[0;1]); (T 28,[2;3])] [1;0;2;3]));
  (*1643*) SubFrom n_rdm2_f_oovo (Times (Einsum [(T 29,[0;1;2;3])] [0;1;3;2]) (4) 1);
  (*1644*) AddTo n_rdm2_f_oovo (Times (Einsum [(T 29,[0;1;2;3])] [0;2;3;1]) (2) 1);
  (*1645*) Del (T 29);
  (*1646*) AddTo n_rdm2_f_vooo (Times (Einsum [(n_delta_oo,[0;1]); (T 28,[2;3])] [3;1;0;2]) (2) 1);
  (*1647*) SubFrom n_rdm2_f_vooo (Times (Einsum [(n_delta_oo,[0;1]); (T 28,[2;3])] [3;2;0;1]) (4) 1);
  (*1648*) Del (T 28);
  (*1649*) SubFrom (T 65) (Plain (Einsum [(n_t1,[0;1]); (T 27,[2;3])] [0;2;1;3]));
  (*1650*) Del (T 27);
  (*1651*) Assign (T 37) (Plain (Zeros [0;0;0;1]));
  (*1652*) AddTo (T 37) (Plain (Einsum [(T 26,[0;1;2;3]); (T 6,[0;4;5;3])] [1;4;5;2]));
  (*1653*) Del (T 6);
  (*1654*) SubFrom (T 38) (Plain (Einsum [(T 37,[0;1;2;3])] [1;2;0;3]));
  (*1655*) SubFrom n_rdm2_f_vooo (Times (Einsum [(T 38,[0;1;2;3])] [3;1;0;2]) (2) 1);
  (*1656*) AddTo n_rdm2_f_vooo (Times (Einsum [(T 38,[0;1;2;3])] [3;2;0;1]) (4) 1);
  (*1657*) Del (T 38);
  (*1658*) SubFrom (T 59) (Plain (Einsum [(T 37,[0;1;2;3])] [1;2;0;3]));
  (*1659*) Del (T 37);
  (*1660*) Assign (T 60) (Plain (Zeros [0;0;1;1]));
  (*1661*) AddTo (T 60) (Plain (Einsum [(n_t1,[0;1]); (T 59,[0;2;3;4])] [2;3;1;4]));
  (*1662*) Del (T 59);
  (*1663*) SubFrom (T 65) (Plain (Einsum [(T 60,[0;1;2;3])] [0;1;2;3]));
  (*1664*) Del (T 60);
  (*1665*) Assign (T 62) (Plain (Zeros [3;0;1]));
  (*1666*) AddTo (T 62) (Plain (Einsum [(n_lu11,[0;1;2]); (T 26,[2;3;4;1])] [0;3;4]));
  (*1667*) SubFrom (T 63) (Plain (Einsum [(T 62,[0;1;2])] [0;1;2]));
  (*1668*) Del (T 62);
  (*1669*) Assign (T 64) (Plain (Zeros [0;0;1;1]));
  (*1670*) AddTo (T 64) (Plain (Einsum [(n_u11,[0;1;2]); (T 63,[0;3;4])] [3;1;4;2]));
  (*1671*) Del (T 63);
  (*1672*) AddTo (T 65) (Plain (Einsum [(T 64,[0;1;2;3])] [0;1;2;3]));
  (*1673*) Del (T 64);
  (*1674*) SubFrom n_rdm2_f_vvoo (Times (Einsum [(n_l2,[0;1;2;3]); (T 26,[2;4;5;0])] [5;1;3;4]) (2) 1);
  (*1675*) Assign (T 30) (Plain (Zeros [0;1]));
  (*1676*) AddTo (T 30) (Plain (Einsum [(n_ls1,[0]); (n_u11,[0;1;2])] [1;2]));
  (*1677*) AddTo (T 32) (Plain (Einsum [(T 30,[0;1])] [0;1]));
  (*1678*) SubFrom (T 85) (Plain (Einsum [(T 30,[0;1])] [0;1]));
  (*1679*) SubFrom (T 86) (Plain (Einsum [(T 30,[0;1])] [0;1]));
  (*1680*) Del (T 30);
  (*1681*) SubFrom n_rdm2_f_vovo (Times (Einsum [(n_t1,[0;1]); (T 86,[2;3])] [3;2;1;0]) (4) 1);
  (*1682*) AddTo n_rdm2_f_vovo (Times (Einsum [(n_t1,[0;1]); (T 86,[2;3])] [1;2;3;0]) (2) 1);
  (*1683*) Del (T 86);
  (*1684*) AddTo (T 32) (Plain (Einsum [(n_t1,[0;1])] [0;1]));
  (*1685*) AddTo n_rdm2_f_oovo (Times (Einsum [(n_delta_oo,[0;1]); (T 32,[2;3])] [1;0;3;2]) (4) 1);
  (*1686*) SubFrom n_rdm2_f_oovo (Times (Einsum [(n_delta_oo,[0;1]); (T 32,[2;3])] [1;2;3;0]) (2) 1);
  (*1687*) SubFrom n_rdm2_f_vooo (Times (Einsum [(n_delta_oo,[0;1]); (T 32,[2;3])] [3;0;1;2]) (2) 1);
  (*1688*) AddTo n_rdm2_f_vooo (Times (Einsum [(n_delta_oo,[0;1]); (T 32,[2;3])] [3;2;1;0]) (4) 1);
  (*1689*) Del (T 32);
  (*1690*) Assign (T 39) (Plain (Zeros [0;0;1;1]));
  (*1691*) AddTo (T 39) (Plain (Einsum [(n_lu11,[0;1;2]); (n_u11,[0;3;4])] [2;3;1;4]));
  (*1692*) SubFrom n_rdm2_f_oovv (Times (Einsum [(T 39,[0;1;2;3])] [0;1;3;2]) (2) 1);
  (*1693*) AddTo n_rdm2_f_ovvo (Times (Einsum [(T 39,[0;1;2;3])] [0;2;3;1]) (4) 1);
  (*1694*) AddTo n_rdm2_f_voov (Times (Einsum [(T 39,[0;1;2;3])] [3;1;0;2]) (4) 1);
  (*1695*) SubFrom n_rdm2_f_vvoo (Times (Einsum [(T 39,[0;1;2;3])] [3;2;0;1]) (2) 1);
  (*1696*) Del (T 39);
  (*1697*) Assign (T 40) (Plain (Zeros [0;0;1;1]));
  (*1698*) AddTo (T 40) (Times (Einsum [(n_l2,[0;1;2;3])] [3;2;0;1]) (2) 1);
  (*1699*) SubFrom (T 40) (Plain (Einsum [(n_l2,[0;1;2;3])] [3;2;1;0]));
  (*1700*) Assign (T 41) (Plain (Zeros [0;0;1;1]));
  (*1701*) AddTo (T 41) (Plain (Einsum [(n_t2,[0;1;2;3]); (T 40,[0;4;5;2])] [4;1;5;3]));
  (*1702*) Assign (T 73) (Plain (Zeros [0;0;1;1]));
  (*1703*) AddTo (T 73) (Plain (Einsum [(n_t2,[0;1;2;3]); (T 41,[0;4;2;5])] [4;1;5;3]));
  (*1704*) AddTo (T 74) (Times (Einsum [(T 73,[0;1;2;3])] [0;1;2;3]) (2) 1);
  (*1705*) Del (T 73);
  (*1706*) SubFrom n_rdm2_f_oovv (Times (Einsum [(T 41,[0;1;2;3])] [0;1;3;2]) (2) 1);
  (*1707*) Del (T 41);
  (*1708*) Assign (T 49) (Plain (Zeros [0;0;1;1]));
  (*1709*) AddTo (T 49) (Plain (Einsum [(T 26,[0;1;2;3]); (T 40,[0;4;5;3])] [1;4;2;5]));
  (*1710*) Del (T 26);
  (*1711*) AddTo n_rdm2_f_ovvo (Times (Einsum [(T 49,[0;1;2;3])] [1;3;2;0]) (2) 1);
  (*1712*) AddTo n_rdm2_f_voov (Times (Einsum [(T 49,[0;1;2;3])] [2;0;1;3]) (2) 1);
  (*1713*) Del (T 49);
  (*1714*) Assign (T 57) (Plain (Zeros [0;0;1;1]));
  (*1715*) AddTo (T 57) (Plain (Einsum [(n_t2,[0;1;2;3]); (T 40,[0;4;5;3])] [4;1;5;2]));
  (*1716*) Del (T 40);
  (*1717*) Assign (T 58) (Plain (Zeros [0;0;1;1]));
  (*1718*) AddTo (T 58) (Plain (Einsum [(n_t2,[0;1;2;3]); (T 57,[0;4;2;5])] [4;1;5;3]));
  (*1719*) Del (T 57);
  (*1720*) AddTo (T 65) (Plain (Einsum [(T 58,[0;1;2;3])] [1;0;3;2]));
  (*1721*) Del (T 58);
  (*1722*) Assign (T 42) (Plain (Zeros [0;0;1;1]));
  (*1723*) SubFrom (T 42) (Plain (Einsum [(n_l2,[0;1;2;3])] [3;2;0;1]));
  (*1724*) AddTo (T 42) (Times (Einsum [(n_l2,[0;1;2;3])] [3;2;1;0]) (2) 1);
  (*1725*) SubFrom n_rdm2_f_oovv (Times (Einsum [(n_t2,[0;1;2;3]); (T 42,[0;4;5;3])] [4;1;2;5]) (2) 1);
  (*1726*) Del (T 42);
  (*1727*) Assign (T 44) (Plain (Zeros [1;1]));
  (*1728*) AddTo (T 44) (Plain (Einsum [(n_l1,[0;1]); (n_t1,[1;2])] [0;2]));
  (*1729*) Assign (T 48) (Plain (Zeros [1;1]));
  (*1730*) AddTo (T 48) (Times (Einsum [(T 44,[0;1])] [0;1]) (1) 2);
  (*1731*) Assign (T 53) (Plain (Zeros [1;1]));
  (*1732*) AddTo (T 53) (Plain (Einsum [(T 44,[0;1])] [0;1]));
  (*1733*) Assign (T 98) (Plain (Zeros [1;1]));
  (*1734*) AddTo (T 98) (Plain (Einsum [(T 44,[0;1])] [0;1]));
  (*1735*) Del (T 44);
  (*1736*) Assign (T 45) (Plain (Zeros [1;1]));
  (*1737*) AddTo (T 45) (Plain (Einsum [(n_lu11,[0;1;2]); (n_u11,[0;2;3])] [1;3]));
  (*1738*) AddTo (T 48) (Times (Einsum [(T 45,[0;1])] [0;1]) (1) 2);
  (*1739*) AddTo (T 53) (Plain (Einsum [(T 45,[0;1])] [0;1]));
  (*1740*) Assign (T 55) (Plain (Zeros [0;0;1;1]));
  (*1741*) AddTo (T 55) (Plain (Einsum [(T 45,[0;1]); (n_t2,[2;3;0;4])] [3;2;4;1]));
  (*1742*) AddTo (T 65) (Plain (Einsum [(T 55,[0;1;2;3])] [0;1;2;3]));
  (*1743*) Del (T 55);
  (*1744*) SubFrom n_rdm2_f_vovo (Times (Einsum [(T 65,[0;1;2;3])] [2;0;3;1]) (4) 1);
  (*1745*) AddTo n_rdm2_f_vovo (Times (Einsum [(T 65,[0;1;2;3])] [3;0;2;1]) (2) 1);
  (*1746*) AddTo n_rdm2_f_vovo (Times (Einsum [(T 65,[0;1;2;3])] [2;1;3;0]) (2) 1);
  (*1747*) SubFrom n_rdm2_f_vovo (Times (Einsum [(T 65,[0;1;2;3])] [3;1;2;0]) (4) 1);
  (*1748*) Del (T 65);
  (*1749*) AddTo (T 98) (Plain (Einsum [(T 45,[0;1])] [0;1]));
  (*1750*) Del (T 45);
  (*1751*) Assign (T 99) (Plain (Zeros [0;1;1;1]));
  (*1752*) AddTo (T 99) (Plain (Einsum [(n_t1,[0;1]); (T 98,[2;3])] [0;2;1;3]));
  (*1753*) Del (T 98);
  (*1754*) Assign (T 46) (Plain (Zeros [0;0;1;1]));
  (*1755*) AddTo (T 46) (Plain (Einsum [(n_l2,[0;1;2;3])] [3;2;0;1]));
  (*1756*) AddTo (T 46) (Times (Einsum [(n_l2,[0;1;2;3])] [3;2;1;0]) (-1) 2);
  (*1757*) Assign (T 47) (Plain (Zeros [1;1]));
  (*1758*) AddTo (T 47) (Plain (Einsum [(n_t2,[0;1;2;3]); (T 46,[0;1;3;4])] [4;2]));
  (*1759*) AddTo (T 48) (Plain (Einsum [(T 47,[0;1])] [0;1]));
  (*1760*) AddTo n_rdm2_f_oovv (Times (Einsum [(n_delta_oo,[0;1]); (T 48,[2;3])] [1;0;3;2]) (8) 1);
  (*1761*) Del (T 48);
  (*1762*) Assign (T 77) (Plain (Zeros [0;0;1;1]));
  (*1763*) AddTo (T 77) (Times (Einsum [(T 47,[0;1]); (n_t2,[2;3;0;4])] [2;3;1;4]) (8) 1);
  (*1764*) AddTo (T 79) (Plain (Einsum [(T 77,[0;1;2;3])] [1;0;3;2]));
  (*1765*) Del (T 77);
  (*1766*) AddTo n_rdm2_f_vovo (Times (Einsum [(T 79,[0;1;2;3])] [2;0;3;1]) (-1) 1);
  (*1767*) AddTo n_rdm2_f_vovo (Times (Einsum [(T 79,[0;1;2;3])] [3;0;2;1]) (1) 2);
  (*1768*) AddTo n_rdm2_f_vovo (Times (Einsum [(T 79,[0;1;2;3])] [2;1;3;0]) (1) 2);
  (*1769*) AddTo n_rdm2_f_vovo (Times (Einsum [(T 79,[0;1;2;3])] [3;1;2;0]) (-1) 1);
  (*1770*) Del (T 79);
  (*1771*) AddTo n_rdm2_f_vovv (Times (Einsum [(n_t1,[0;1]); (T 47,[2;3])] [1;0;3;2]) (8) 1);
  (*1772*) AddTo n_rdm2_f_vovv (Times (Einsum [(n_t1,[0;1]); (T 47,[2;3])] [3;0;1;2]) (-4) 1);
  (*1773*) AddTo n_rdm2_f_vvvo (Times (Einsum [(n_t1,[0;1]); (T 47,[2;3])] [1;2;3;0]) (-4) 1);
  (*1774*) AddTo n_rdm2_f_vvvo (Times (Einsum [(n_t1,[0;1]); (T 47,[2;3])] [3;2;1;0]) (8) 1);
  (*1775*) Del (T 47);
  (*1776*) Assign (T 52) (Plain (Zeros [1;1]));
  (*1777*) AddTo (T 52) (Times (Einsum [(n_t2,[0;1;2;3]); (T 46,[0;1;3;4])] [4;2]) (2) 1);
  (*1778*) Del (T 46);
  (*1779*) AddTo (T 53) (Plain (Einsum [(T 52,[0;1])] [0;1]));
  (*1780*) Del (T 52);
  (*1781*) AddTo n_rdm2_f_ovvo (Times (Einsum [(n_delta_oo,[0;1]); (T 53,[2;3])] [1;2;3;0]) (-2) 1);
  (*1782*) AddTo n_rdm2_f_voov (Times (Einsum [(n_delta_oo,[0;1]); (T 53,[2;3])] [3;0;1;2]) (-2) 1);
  (*1783*) AddTo n_rdm2_f_vvoo (Times (Einsum [(n_delta_oo,[0;1]); (T 53,[2;3])] [3;2;1;0]) (4) 1);
  (*1784*) Del (T 53);
  (*1785*) Assign (T 54) (Plain (Zeros [0;0;1;1]));
  (*1786*) SubFrom (T 54) (Plain (Einsum [(n_t2,[0;1;2;3])] [1;0;2;3]));
  (*1787*) AddTo (T 54) (Times (Einsum [(n_t2,[0;1;2;3])] [1;0;3;2]) (2) 1);
  (*1788*) Assign (T 92) (Plain (Zeros [0;0;1;1]));
  (*1789*) AddTo (T 92) (Plain (Einsum [(n_l2,[0;1;2;3]); (T 54,[2;4;0;5])] [4;3;5;1]));
  (*1790*) SubFrom (T 93) (Plain (Einsum [(T 92,[0;1;2;3])] [1;0;3;2]));
  (*1791*) Del (T 92);
  (*1792*) SubFrom n_rdm2_f_vvoo (Times (Einsum [(n_l2,[0;1;2;3]); (T 54,[2;4;5;1])] [5;0;3;4]) (2) 1);
  (*1793*) Del (T 54);
  (*1794*) Assign (T 70) (Plain (Zeros [0;0;1;1]));
  (*1795*) AddTo (T 70) (Plain (Einsum [(n_l2,[0;1;2;3]); (n_t2,[4;3;1;5])] [2;4;0;5]));
  (*1796*) Assign (T 71) (Plain (Zeros [0;0;1;1]));
  (*1797*) AddTo (T 71) (Plain (Einsum [(n_t2,[0;1;2;3]); (T 70,[1;4;2;5])] [0;4;3;5]));
  (*1798*) Del (T 70);
  (*1799*) AddTo (T 74) (Plain (Einsum [(T 71,[0;1;2;3])] [0;1;2;3]));
  (*1800*) Del (T 71);
  (*1801*) AddTo (T 74) (Plain (Einsum [(n_t2,[0;1;2;3])] [1;0;3;2]));
  (*1802*) SubFrom n_rdm2_f_vovo (Times (Einsum [(T 74,[0;1;2;3])] [3;0;2;1]) (2) 1);
  (*1803*) AddTo n_rdm2_f_vovo (Times (Einsum [(T 74,[0;1;2;3])] [2;0;3;1]) (4) 1);
  (*1804*) Del (T 74);
  (*1805*) Assign (T 75) (Plain (Zeros [0;0;1;1]));
  (*1806*) AddTo (T 75) (Plain (Einsum [(n_l2,[0;1;2;3]); (n_t2,[4;3;0;5])] [2;4;1;5]));
  (*1807*) Assign (T 76) (Plain (Zeros [0;0;1;1]));
  (*1808*) AddTo (T 76) (Plain (Einsum [(n_t2,[0;1;2;3]); (T 75,[1;4;2;5])] [0;4;3;5]));
  (*1809*) AddTo n_rdm2_f_vovo (Times (Einsum [(T 76,[0;1;2;3])] [2;1;3;0]) (4) 1);
  (*1810*) SubFrom n_rdm2_f_vovo (Times (Einsum [(T 76,[0;1;2;3])] [3;1;2;0]) (2) 1);
  (*1811*) Del (T 76);
  (*1812*) Assign (T 97) (Plain (Zeros [0;1;1;1]));
  (*1813*) AddTo (T 97) (Plain (Einsum [(n_t1,[0;1]); (T 75,[0;2;3;4])] [2;3;1;4]));
  (*1814*) Del (T 75);
  (*1815*) SubFrom (T 99) (Plain (Einsum [(T 97,[0;1;2;3])] [0;1;2;3]));
  (*1816*) Del (T 97);
  (*1817*) SubFrom (T 85) (Plain (Einsum [(n_t1,[0;1])] [0;1]));
  (*1818*) SubFrom n_rdm2_f_vovo (Times (Einsum [(n_t1,[0;1]); (T 85,[2;3])] [1;0;3;2]) (4) 1);
  (*1819*) AddTo n_rdm2_f_vovo (Times (Einsum [(n_t1,[0;1]); (T 85,[2;3])] [3;0;1;2]) (2) 1);
  (*1820*) Del (T 85);
  (*1821*) Assign (T 87) (Plain (Zeros [0;1;1;1]));
  (*1822*) AddTo (T 87) (Plain (Einsum [(n_t1,[0;1]); (n_l2,[2;3;4;0])] [4;2;3;1]));
  (*1823*) Assign (T 102) (Plain (Zeros [1;1;1;1]));
  (*1824*) AddTo (T 102) (Plain (Einsum [(n_t1,[0;1]); (T 87,[0;2;3;4])] [3;2;4;1]));
  (*1825*) Assign n_rdm2_f_vvvv (Plain (Zeros [1;1;1;1]));
  (*1826*) SubFrom n_rdm2_f_vvvv (Times (Einsum [(T 102,[0;1;2;3])] [2;1;3;0]) (2) 1);
  (*1827*) AddTo n_rdm2_f_vvvv (Times (Einsum [(T 102,[0;1;2;3])] [3;1;2;0]) (4) 1);
  (*1828*) Del (T 102);
  (*1829*) Assign n_rdm2_f_ovvv (Plain (Zeros [0;1;1;1]));
  (*1830*) AddTo n_rdm2_f_ovvv (Times (Einsum [(T 87,[0;1;2;3])] [0;1;3;2]) (4) 1);
  (*1831*) SubFrom n_rdm2_f_ovvv (Times (Einsum [(T 87,[0;1;2;3])] [0;2;3;1]) (2) 1);
  (*1832*) Assign n_rdm2_f_vvov (Plain (Zeros [1;1;0;1]));
  (*1833*) SubFrom n_rdm2_f_vvov (Times (Einsum [(T 87,[0;1;2;3])] [3;1;0;2]) (2) 1);
  (*1834*) AddTo n_rdm2_f_vvov (Times (Einsum [(T 87,[0;1;2;3])] [3;2;0;1]) (4) 1);
  (*1835*) Del (T 87);
  (*1836*) Assign (T 88) (Plain (Zeros [3;1;1]));
  (*1837*) AddTo (T 88) (Plain (Einsum [(n_t1,[0;1]); (n_lu11,[2;3;0])] [2;3;1]));
  (*1838*) Assign (T 89) (Plain (Zeros [0;1;1;1]));
  (*1839*) AddTo (T 89) (Plain (Einsum [(n_u11,[0;1;2]); (T 88,[0;3;4])] [1;3;4;2]));
  (*1840*) Del (T 88);
  (*1841*) Assign (T 95) (Plain (Zeros [0;1;1;1]));
  (*1842*) SubFrom (T 95) (Plain (Einsum [(T 89,[0;1;2;3])] [0;1;2;3]));
  (*1843*) Del (T 89);
  (*1844*) Assign (T 90) (Plain (Zeros [0;0;1;1]));
  (*1845*) AddTo (T 90) (Plain (Einsum [(n_l2,[0;1;2;3]); (n_t2,[4;3;5;0])] [2;4;1;5]));
  (*1846*) AddTo (T 93) (Plain (Einsum [(T 90,[0;1;2;3])] [0;1;2;3]));
  (*1847*) Del (T 90);
  (*1848*) Assign (T 94) (Plain (Zeros [0;1;1;1]));
  (*1849*) AddTo (T 94) (Plain (Einsum [(n_t1,[0;1]); (T 93,[0;2;3;4])] [2;1;3;4]));
  (*1850*) Del (T 93);
  (*1851*) AddTo (T 95) (Plain (Einsum [(T 94,[0;1;2;3])] [0;2;1;3]));
  (*1852*) Del (T 94);
  (*1853*) AddTo n_rdm2_f_vovv (Times (Einsum [(T 95,[0;1;2;3])] [2;0;3;1]) (2) 1);
  (*1854*) SubFrom n_rdm2_f_vovv (Times (Einsum [(T 95,[0;1;2;3])] [3;0;2;1]) (4) 1);
  (*1855*) SubFrom n_rdm2_f_vvvo (Times (Einsum [(T 95,[0;1;2;3])] [2;1;3;0]) (4) 1);
  (*1856*) AddTo n_rdm2_f_vvvo (Times (Einsum [(T 95,[0;1;2;3])] [3;1;2;0]) (2) 1);
  (*1857*) Del (T 95);
  (*1858*) Assign (T 96) (Plain (Zeros [0;1;1;1]));
  (*1859*) AddTo (T 96) (Plain (Einsum [(n_l1,[0;1]); (n_t2,[2;1;3;4])] [2;0;3;4]));
  (*1860*) AddTo (T 99) (Plain (Einsum [(T 96,[0;1;2;3])] [0;1;2;3]));
  (*1861*) Del (T 96);
  (*1862*) AddTo n_rdm2_f_vovv (Times (Einsum [(T 99,[0;1;2;3])] [2;0;3;1]) (4) 1);
  (*1863*) SubFrom n_rdm2_f_vovv (Times (Einsum [(T 99,[0;1;2;3])] [3;0;2;1]) (2) 1);
  (*1864*) SubFrom n_rdm2_f_vvvo (Times (Einsum [(T 99,[0;1;2;3])] [2;1;3;0]) (2) 1);
  (*1865*) AddTo n_rdm2_f_vvvo (Times (Einsum [(T 99,[0;1;2;3])] [3;1;2;0]) (4) 1);
  (*1866*) Del (T 99);
  (*1867*) Assign (T 101) (Plain (Zeros [1;1;1;1]));
  (*1868*) AddTo (T 101) (Plain (Einsum [(n_l2,[0;1;2;3]); (n_t2,[2;3;4;5])] [0;1;4;5]));
  (*1869*) AddTo n_rdm2_f_vvvv (Times (Einsum [(T 101,[0;1;2;3])] [2;1;3;0]) (-2) 1);
  (*1870*) AddTo n_rdm2_f_vvvv (Times (Einsum [(T 101,[0;1;2;3])] [3;1;2;0]) (4) 1);
  (*1871*) Del (T 101);
  (*1872*) AddTo n_rdm2_f_oooo (Times (Einsum [(n_delta_oo,[0;1]); (n_delta_oo,[2;3])] [1;0;3;2]) (4) 1);
  (*1873*) SubFrom n_rdm2_f_oooo (Times (Einsum [(n_delta_oo,[0;1]); (n_delta_oo,[2;3])] [3;1;0;2]) (2) 1);
  (*1874*) AddTo n_rdm2_f_ooov (Times (Einsum [(n_delta_oo,[0;1]); (n_l1,[2;3])] [1;0;3;2]) (4) 1);
  (*1875*) SubFrom n_rdm2_f_ooov (Times (Einsum [(n_delta_oo,[0;1]); (n_l1,[2;3])] [3;0;1;2]) (2) 1);
  (*1876*) SubFrom n_rdm2_f_ovoo (Times (Einsum [(n_delta_oo,[0;1]); (n_l1,[2;3])] [1;2;3;0]) (2) 1);
  (*1877*) AddTo n_rdm2_f_ovoo (Times (Einsum [(n_delta_oo,[0;1]); (n_l1,[2;3])] [3;2;1;0]) (4) 1);
  (*1878*) Assign n_rdm2_f_ovov (Plain (Zeros [0;1;0;1]));
  (*1879*) SubFrom n_rdm2_f_ovov (Times (Einsum [(n_l2,[0;1;2;3])] [3;0;2;1]) (2) 1);
  (*1880*) AddTo n_rdm2_f_ovov (Times (Einsum [(n_l2,[0;1;2;3])] [3;1;2;0]) (4) 1);
  (*1881*) SubFrom n_rdm2_f_oovv (Times (Einsum [(n_l1,[0;1]); (n_t1,[2;3])] [1;2;3;0]) (2) 1);
  (*1882*) AddTo n_rdm2_f_ovvo (Times (Einsum [(n_l1,[0;1]); (n_t1,[2;3])] [1;0;3;2]) (4) 1);
  (*1883*) AddTo n_rdm2_f_voov (Times (Einsum [(n_l1,[0;1]); (n_t1,[2;3])] [3;2;1;0]) (4) 1);
  (*1884*) SubFrom n_rdm2_f_vvoo (Times (Einsum [(n_l1,[0;1]); (n_t1,[2;3])] [3;0;1;2]) (2) 1)]
 [(n_rdm2_f_oooo,[0;0;0;0]); (n_rdm2_f_ooov,[0;0;0;1]); (n_rdm2_f_oovo,[0;0;1;0]); (n_rdm2_f_ovoo,[0;1;0;0]); (n_rdm2_f_vooo,[1;0;0;0]); (n_rdm2_f_oovv,[0;0;1;1]); (n_rdm2_f_ovov,[0;1;0;1]); (n_rdm2_f_ovvo,[0;1;1;0]); (n_rdm2_f_voov,[1;0;0;1]); (n_rdm2_f_vovo,[1;0;1;0]); (n_rdm2_f_vvoo,[1;1;0;0]); (n_rdm2_f_ovvv,[0;1;1;1]); (n_rdm2_f_vovv,[1;0;1;1]); (n_rdm2_f_vvov,[1;1;0;1]); (n_rdm2_f_vvvo,[1;1;1;0]); (n_rdm2_f_vvvv,[1;1;1;1])].

(** ebcc/codegen/RCCSD_S_1_1.py:1890-1908 [make_sing_b_dm]; assembly (line 1906) not translated *)
Definition RCCSD_S_1_1_make_sing_b_dm : prog := mkprog
 [(n_g'boo,[3;0;0]); (n_g'bvo,[3;1;0]); (n_g'bov,[3;0;1]); (n_g'bvv,[3;1;1]); (n_ls1,[3]); (n_s1,[3]); (n_l1,[1;0]); (n_u11,[3;0;1])]
 [(*1892*) Assign n_gc'boo (Plain (Transpose n_g'boo [0;2;1]));
  (*1892*) Assign n_gc'bov (Plain (Transpose n_g'bvo [0;2;1]));
  (*1892*) Assign n_gc'bvo (Plain (Transpose n_g'bov [0;2;1]));
  (*1892*) Assign n_gc'bvv (Plain (Transpose n_g'bvv [0;2;1]));
  (*1900*) Assign n_dm_b_cre (Plain (Zeros [3]));
  (*1901*) AddTo n_dm_b_cre (Plain (Einsum [(n_ls1,[0])] [0]));
  (*1902*) Assign n_dm_b_des (Plain (Zeros [3]));
  (*1903*) AddTo n_dm_b_des (Plain (Einsum [(n_s1,[0])] [0]));
  (*1904*) AddTo n_dm_b_des (Times (Einsum [(n_l1,[0;1]); (n_u11,[2;1;0])] [2]) (2) 1)]
 [(n_dm_b_cre,[3]); (n_dm_b_des,[3])].

(** ebcc/codegen/RCCSD_S_1_1.py:1910-1924 [make_rdm1_b] *)
Definition RCCSD_S_1_1_make_rdm1_b : prog := mkprog
 [(n_g'boo,[3;0;0]); (n_g'bvo,[3;1;0]); (n_g'bov,[3;0;1]); (n_g'bvv,[3;1;1]); (n_ls1,[3]); (n_s1,[3]); (n_lu11,[3;1;0]); (n_u11,[3;0;1])]
 [(*1912*) Assign n_gc'boo (Plain (Transpose n_g'boo [0;2;1]));
  (*1912*) Assign n_gc'bov (Plain (Transpose n_g'bvo [0;2;1]));
  (*1912*) Assign n_gc'bvo (Plain (Transpose n_g'bov [0;2;1]));
  (*1912*) Assign n_gc'bvv (Plain (Transpose n_g'bvv [0;2;1]));
  (*1920*) Assign n_rdm1_b (Plain (Zeros [3;3]));
  (*1921*) AddTo n_rdm1_b (Plain (Einsum [(n_ls1,[0]); (n_s1,[1])] [0;1]));
  (*1922*) AddTo n_rdm1_b (Times (Einsum [(n_lu11,[0;1;2]); (n_u11,[3;2;1])] [0;3]) (2) 1)]
 [(n_rdm1_b,[3;3])].

(** ebcc/codegen/RCCSD_S_1_1.py:1926-2071 [make_eb_coup_rdm]; assembly (line 2066) not translated *)
Definition RCCSD_S_1_1_make_eb_coup_rdm : prog := mkprog
 [(n_g'boo,[3;0;0]); (n_g'bvo,[3;1;0]); (n_g'bov,[3;0;1]); (n_g'bvv,[3;1;1]); (n_t1,[0;1]); (n_lu11,[3;1;0]); (n_u11,[3;0;1]); (n_t2,[0;0;1;1]); (n_l1,[1;0]); (n_l2,[1;1;0;0]); (n_s1,[3]); (n_ls1,[3])]
 [(*1928*) Assign n_gc'boo (Plain (Transpose n_g'boo [0;2;1]));
  (*1928*) Assign n_gc'bov (Plain (Transpose n_g'bvo [0;2;1]));
  (*1928*) Assign n_gc'bvo (Plain (Transpose n_g'bov [0;2;1]));
  (*1928*) Assign n_gc'bvv (Plain (Transpose n_g'bvv [0;2;1]));
  (*1935*) Assign n_delta_oo (Plain (Eye 0));
  (*1936*) Assign n_delta_vv (Plain (Eye 1));
  (*1939*) Assign (T 1) (Plain (Zeros [3;0;0]));
  (*1940*) AddTo (T 1) (Plain (Einsum [(n_t1,[0;1]); (n_lu11,[2;1;3])] [2;3;0]));
  (*1941*) Assign (T 23) (Plain (Zeros [0;1]));
  (*1942*) AddTo (T 23) (Plain (Einsum [(n_u11,[0;1;2]); (T 1,[0;1;3])] [3;2]));
  (*1943*) Assign n_rdm_eb_cre_oo (Plain (Zeros [3;0;0]));
  (*1944*) SubFrom n_rdm_eb_cre_oo (Times (Einsum [(T 1,[0;1;2])] [0;2;1]) (2) 1);
  (*1945*) Assign n_rdm_eb_cre_ov (Plain (Zeros [3;0;1]));
  (*1946*) SubFrom n_rdm_eb_cre_ov (Times (Einsum [(n_t1,[0;1]); (T 1,[2;0;3])] [2;3;1]) (2) 1);
  (*1947*) Del (T 1);
  (*1948*) Assign (T 2) (Plain (Zeros [0;0;1;1]));
  (*1949*) SubFrom (T 2) (Plain (Einsum [(n_t2,[0;1;2;3])] [1;0;2;3]));
  (*1950*) AddTo (T 2) (Times (Einsum [(n_t2,[0;1;2;3])] [1;0;3;2]) (2) 1);
  (*1951*) AddTo n_rdm_eb_cre_ov (Times (Einsum [(n_lu11,[0;1;2]); (T 2,[2;3;1;4])] [0;3;4]) (2) 1);
  (*1952*) Assign (T 3) (Plain (Zeros [3;0;0]));
  (*1953*) AddTo (T 3) (Plain (Einsum [(n_l1,[0;1]); (n_u11,[2;3;0])] [2;1;3]));
  (*1954*) Assign (T 18) (Plain (Zeros [3;0;0]));
  (*1955*) AddTo (T 18) (Plain (Einsum [(T 3,[0;1;2])] [0;1;2]));
  (*1956*) Assign n_rdm_eb_des_oo (Plain (Zeros [3;0;0]));
  (*1957*) SubFrom n_rdm_eb_des_oo (Times (Einsum [(T 3,[0;1;2])] [0;2;1]) (2) 1);
  (*1958*) Del (T 3);
  (*1959*) Assign (T 4) (Plain (Zeros [3]));
  (*1960*) AddTo (T 4) (Plain (Einsum [(n_l1,[0;1]); (n_u11,[2;1;0])] [2]));
  (*1961*) AddTo n_rdm_eb_des_oo (Times (Einsum [(T 4,[0]); (n_delta_oo,[1;2])] [0;2;1]) (4) 1);
  (*1962*) Assign n_rdm_eb_des_ov (Plain (Zeros [3;0;1]));
  (*1963*) AddTo n_rdm_eb_des_ov (Times (Einsum [(T 4,[0]); (n_t1,[1;2])] [0;1;2]) (4) 1);
  (*1964*) Del (T 4);
  (*1965*) Assign (T 5) (Plain (Zeros [0;0;1;1]));
  (*1966*) SubFrom (T 5) (Plain (Einsum [(n_l2,[0;1;2;3])] [3;2;0;1]));
  (*1967*) AddTo (T 5) (Times (Einsum [(n_l2,[0;1;2;3])] [3;2;1;0]) (2) 1);
  (*1968*) Assign (T 6) (Plain (Zeros [3;0;1]));
  (*1969*) AddTo (T 6) (Plain (Einsum [(n_u11,[0;1;2]); (T 5,[1;3;2;4])] [0;3;4]));
  (*1970*) Del (T 5);
  (*1971*) Assign (T 7) (Plain (Zeros [3;0;0]));
  (*1972*) AddTo (T 7) (Plain (Einsum [(n_t1,[0;1]); (T 6,[2;3;1])] [2;0;3]));
  (*1973*) AddTo (T 18) (Plain (Einsum [(T 7,[0;1;2])] [0;2;1]));
  (*1974*) SubFrom n_rdm_eb_des_ov (Times (Einsum [(n_t1,[0;1]); (T 18,[2;0;3])] [2;3;1]) (2) 1);
  (*1975*) Del (T 18);
  (*1976*) SubFrom n_rdm_eb_des_oo (Times (Einsum [(T 7,[0;1;2])] [0;1;2]) (2) 1);
  (*1977*) Del (T 7);
  (*1978*) AddTo n_rdm_eb_des_ov (Times (Einsum [(T 6,[0;1;2]); (T 2,[1;3;2;4])] [0;3;4]) (2) 1);
  (*1979*) Del (T 2);
  (*1980*) Assign n_rdm_eb_des_vo (Plain (Zeros [3;1;0]));
  (*1981*) AddTo n_rdm_eb_des_vo (Times (Einsum [(T 6,[0;1;2])] [0;2;1]) (2) 1);
  (*1982*) Assign n_rdm_eb_des_vv (Plain (Zeros [3;1;1]));
  (*1983*) AddTo n_rdm_eb_des_vv (Times (Einsum [(n_t1,[0;1]); (T 6,[2;0;3])] [2;3;1]) (2) 1);
  (*1984*) Del (T 6);
  (*1985*) Assign (T 8) (Plain (Zeros [0;0]));
  (*1986*) AddTo (T 8) (Plain (Einsum [(n_l1,[0;1]); (n_t1,[2;0])] [1;2]));
  (*1987*) Assign (T 12) (Plain (Zeros [0;0]));
  (*1988*) AddTo (T 12) (Plain (Einsum [(T 8,[0;1])] [0;1]));
  (*1989*) Assign (T 17) (Plain (Zeros [0;0]));
  (*1990*) AddTo (T 17) (Plain (Einsum [(T 8,[0;1])] [0;1]));
  (*1991*) Assign (T 22) (Plain (Zeros [0;0]));
  (*1992*) AddTo (T 22) (Times (Einsum [(T 8,[0;1])] [0;1]) (49999999999999967) 100000000000000000);
  (*1993*) Del (T 8);
  (*1994*) Assign (T 9) (Plain (Zeros [0;0]));
  (*1995*) AddTo (T 9) (Plain (Einsum [(n_lu11,[0;1;2]); (n_u11,[0;3;1])] [2;3]));
  (*1996*) AddTo (T 12) (Plain (Einsum [(T 9,[0;1])] [0;1]));
  (*1997*) AddTo (T 17) (Plain (Einsum [(T 9,[0;1])] [0;1]));
  (*1998*) AddTo (T 22) (Times (Einsum [(T 9,[0;1])] [0;1]) (49999999999999967) 100000000000000000);
  (*1999*) Del (T 9);
  (*2000*) Assign (T 10) (Plain (Zeros [0;0;1;1]));
  (*2001*) AddTo (T 10) (Plain (Einsum [(n_t2,[0;1;2;3])] [1;0;2;3]));
  (*2002*) AddTo (T 10) (Times (Einsum [(n_t2,[0;1;2;3])] [1;0;3;2]) (-1) 2);
  (*2003*) Assign (T 11) (Plain (Zeros [0;0]));
  (*2004*) AddTo (T 11) (Times (Einsum [(n_l2,[0;1;2;3]); (T 10,[2;4;1;0])] [3;4]) (2) 1);
  (*2005*) AddTo (T 12) (Plain (Einsum [(T 11,[0;1])] [0;1]));
  (*2006*) AddTo (T 17) (Plain (Einsum [(T 11,[0;1])] [0;1]));
  (*2007*) Del (T 11);
  (*2008*) AddTo n_rdm_eb_des_ov (Times (Einsum [(T 17,[0;1]); (n_u11,[2;0;3])] [2;1;3]) (-2) 1);
  (*2009*) Del (T 17);
  (*2010*) AddTo (T 22) (Plain (Einsum [(n_l2,[0;1;2;3]); (T 10,[2;4;1;0])] [3;4]));
  (*2011*) Del (T 10);
  (*2012*) AddTo (T 23) (Times (Einsum [(n_t1,[0;1]); (T 22,[0;2])] [2;1]) (20000000000000013) 10000000000000000);
  (*2013*) Del (T 22);
  (*2014*) AddTo (T 12) (Times (Einsum [(n_delta_oo,[0;1])] [1;0]) (-1) 1);
  (*2015*) AddTo n_rdm_eb_des_oo (Times (Einsum [(n_s1,[0]); (T 12,[1;2])] [0;2;1]) (-2) 1);
  (*2016*) Del (T 12);
  (*2017*) Assign (T 13) (Plain (Zeros [3;3]));
  (*2018*) AddTo (T 13) (Plain (Einsum [(n_lu11,[0;1;2]); (n_u11,[3;2;1])] [0;3]));
  (*2019*) AddTo n_rdm_eb_des_ov (Times (Einsum [(T 13,[0;1]); (n_u11,[0;2;3])] [1;2;3]) (4) 1);
  (*2020*) Del (T 13);
  (*2021*) Assign (T 14) (Plain (Zeros [1;1]));
  (*2022*) AddTo (T 14) (Plain (Einsum [(n_lu11,[0;1;2]); (n_u11,[0;2;3])] [1;3]));
  (*2023*) Assign (T 16) (Plain (Zeros [1;1]));
  (*2024*) AddTo (T 16) (Plain (Einsum [(T 14,[0;1])] [0;1]));
  (*2025*) Assign (T 24) (Plain (Zeros [1;1]));
  (*2026*) AddTo (T 24) (Times (Einsum [(T 14,[0;1])] [0;1]) (1) 2);
  (*2027*) Del (T 14);
  (*2028*) Assign (T 15) (Plain (Zeros [0;0;1;1]));
  (*2029*) AddTo (T 15) (Plain (Einsum [(n_l2,[0;1;2;3])] [3;2;0;1]));
  (*2030*) AddTo (T 15) (Times (Einsum [(n_l2,[0;1;2;3])] [3;2;1;0]) (-1) 2);
  (*2031*) AddTo (T 16) (Times (Einsum [(n_t2,[0;1;2;3]); (T 15,[0;1;3;4])] [4;2]) (2) 1);
  (*2032*) AddTo n_rdm_eb_des_ov (Times (Einsum [(T 16,[0;1]); (n_u11,[2;3;0])] [2;3;1]) (-2) 1);
  (*2033*) Del (T 16);
  (*2034*) AddTo (T 24) (Plain (Einsum [(n_t2,[0;1;2;3]); (T 15,[0;1;3;4])] [4;2]));
  (*2035*) Del (T 15);
  (*2036*) Assign (T 19) (Plain (Zeros [0;0;0;1]));
  (*2037*) AddTo (T 19) (Plain (Einsum [(n_t1,[0;1]); (n_l2,[1;2;3;4])] [4;3;0;2]));
  (*2038*) Assign (T 20) (Plain (Zeros [0;0;0;1]));
  (*2039*) AddTo (T 20) (Times (Einsum [(T 19,[0;1;2;3])] [0;1;2;3]) (-1) 2);
  (*2040*) AddTo (T 20) (Plain (Einsum [(T 19,[0;1;2;3])] [1;0;2;3]));
  (*2041*) Del (T 19);
  (*2042*) AddTo (T 23) (Times (Einsum [(n_t2,[0;1;2;3]); (T 20,[0;1;4;3])] [4;2]) (20000000000000013) 10000000000000000);
  (*2043*) Del (T 20);
  (*2044*) Assign (T 21) (Plain (Zeros [0;0;1;1]));
  (*2045*) AddTo (T 21) (Times (Einsum [(n_t2,[0;1;2;3])] [1;0;2;3]) (-1) 1);
  (*2046*) AddTo (T 21) (Times (Einsum [(n_t2,[0;1;2;3])] [1;0;3;2]) (2) 1);
  (*2047*) AddTo (T 23) (Times (Einsum [(n_l1,[0;1]); (T 21,[1;2;0;3])] [2;3]) (-1) 1);
  (*2048*) Del (T 21);
  (*2049*) AddTo (T 23) (Times (Einsum [(n_t1,[0;1])] [0;1]) (-1) 1);
  (*2050*) AddTo (T 23) (Times (Einsum [(n_ls1,[0]); (n_u11,[0;1;2])] [1;2]) (-1) 1);
  (*2051*) AddTo n_rdm_eb_des_ov (Times (Einsum [(n_s1,[0]); (T 23,[1;2])] [0;1;2]) (-2) 1);
  (*2052*) Del (T 23);
  (*2053*) AddTo (T 24) (Times (Einsum [(n_l1,[0;1]); (n_t1,[1;2])] [0;2]) (1) 2);
  (*2054*) AddTo n_rdm_eb_des_vv (Times (Einsum [(n_s1,[0]); (T 24,[1;2])] [0;1;2]) (4) 1);
  (*2055*) Del (T 24);
  (*2056*) AddTo n_rdm_eb_cre_oo (Times (Einsum [(n_ls1,[0]); (n_delta_oo,[1;2])] [0;2;1]) (2) 1);
  (*2057*) AddTo n_rdm_eb_cre_ov (Times (Einsum [(n_ls1,[0]); (n_t1,[1;2])] [0;1;2]) (2) 1);
  (*2058*) Assign n_rdm_eb_cre_vo (Plain (Zeros [3;1;0]));
  (*2059*) AddTo n_rdm_eb_cre_vo (Times (Einsum [(n_lu11,[0;1;2])] [0;1;2]) (2) 1);
  (*2060*) Assign n_rdm_eb_cre_vv (Plain (Zeros [3;1;1]));
  (*2061*) AddTo n_rdm_eb_cre_vv (Times (Einsum [(n_t1,[0;1]); (n_lu11,[2;3;0])] [2;3;1]) (2) 1);
  (*2062*) AddTo n_rdm_eb_des_ov (Times (Einsum [(n_u11,[0;1;2])] [0;1;2]) (2) 1);
  (*2063*) AddTo n_rdm_eb_des_vo (Times (Einsum [(n_s1,[0]); (n_l1,[1;2])] [0;1;2]) (2) 1);
  (*2064*) AddTo n_rdm_eb_des_vv (Times (Einsum [(n_l1,[0;1]); (n_u11,[2;1;3])] [2;0;3]) (2) 1)]
 [(n_rdm_eb_cre_oo,[3;0;0]); (n_rdm_eb_cre_ov,[3;0;1]); (n_rdm_eb_cre_vo,[3;1;0]); (n_rdm_eb_cre_vv,[3;1;1]); (n_rdm_eb_des_oo,[3;0;0]); (n_rdm_eb_des_ov,[3;0;1]); (n_rdm_eb_des_vo,[3;1;0]); (n_rdm_eb_des_vv,[3;1;1])].

