(** Generated by tools/translate_codegen.py from ebcc/codegen/RCCSD_SD_1_2.py; one statement per source line
    (the number in the comment before it). *)
From Coq Require Import ZArith List.
From Verif Require Import CgModel CgNames.
Import ListNotations.

(** ebcc/codegen/RCCSD_SD_1_2.py:7-27 [energy] *)
Definition RCCSD_SD_1_2_energy : prog := mkprog
 [(n_v'ovov,[0;1;0;1]); (n_t2,[0;0;1;1]); (n_t1,[0;1]); (n_u11,[3;0;1]); (n_s1,[3]); (n_g'bov,[3;0;1]); (n_f'ov,[0;1]); (n_G,[3])]
 [(*9*) Assign (T 1) (Plain (Zeros [0;0;1;1]));
  (*10*) AddTo (T 1) (Plain (Einsum [(n_v'ovov,[0;1;2;3])] [2;0;1;3]));
  (*11*) AddTo (T 1) (Times (Einsum [(n_v'ovov,[0;1;2;3])] [2;0;3;1]) (-1) 2);
  (*12*) Assign (T 2) (Plain (Zeros [0;0;1;1]));
  (*13*) AddTo (T 2) (Plain (Einsum [(n_t2,[0;1;2;3])] [1;0;3;2]));
  (*14*) AddTo (T 2) (Plain (Einsum [(n_t1,[0;1]); (n_t1,[2;3])] [0;2;1;3]));
  (*15*) Assign n_e_cc (Plain (Zeros []));
  (*16*) AddTo n_e_cc (Times (Einsum [(T 1,[0;1;2;3]); (T 2,[0;1;3;2])] []) (2) 1);
  (*17*) Del (T 1);
  (*18*) Del (T 2);
  (*19*) Assign (T 3) (Plain (Zeros [3;0;1]));
  (*20*) AddTo (T 3) (Plain (Einsum [(n_u11,[0;1;2])] [0;1;2]));
  (*21*) AddTo (T 3) (Plain (Einsum [(n_s1,[0]); (n_t1,[1;2])] [0;1;2]));
  (*22*) AddTo n_e_cc (Times (Einsum [(n_g'bov,[0;1;2]); (T 3,[0;1;2])] []) (2) 1);
  (*23*) Del (T 3);
  (*24*) AddTo n_e_cc (Times (Einsum [(n_f'ov,[0;1]); (n_t1,[0;1])] []) (2) 1);
  (*25*) AddTo n_e_cc (Plain (Einsum [(n_G,[0]); (n_s1,[0])] []))]
 [(n_e_cc,[])].

(** ebcc/codegen/RCCSD_SD_1_2.py:29-631 [update_amps] *)
Definition RCCSD_SD_1_2_update_amps : prog := mkprog
 [(n_g'boo,[3;0;0]); (n_g'bvo,[3;1;0]); (n_g'bov,[3;0;1]); (n_g'bvv,[3;1;1]); (n_t1,[0;1]); (n_v'ovov,[0;1;0;1]); (n_t2,[0;0;1;1]); (n_v'ooov,[0;0;0;1]); (n_v'ovvv,[0;1;1;1]); (n_s1,[3]); (n_u11,[3;0;1]); (n_u12,[3;3;0;1]); (n_f'ov,[0;1]); (n_v'ovvo,[0;1;1;0]); (n_v'oovv,[0;0;1;1]); (n_f'oo,[0;0]); (n_f'vv,[1;1]); (n_G,[3]); (n_s2,[3;3]); (n_v'vvvv,[1;1;1;1]); (n_v'vovv,[1;0;1;1]); (n_v'oooo,[0;0;0;0]); (n_v'oovo,[0;0;1;0]); (n_w,[3;3]); (n_f'vo,[1;0]); (n_v'vovo,[1;0;1;0])]
 [(*31*) Assign n_gc'boo (Plain (Transpose n_g'boo [0;2;1]));
  (*31*) Assign n_gc'bov (Plain (Transpose n_g'bvo [0;2;1]));
  (*31*) Assign n_gc'bvo (Plain (Transpose n_g'bov [0;2;1]));
  (*31*) Assign n_gc'bvv (Plain (Transpose n_g'bvv [0;2;1]));
  (*39*) Assign (T 1) (Plain (Zeros [0;0;0;1]));
  (*40*) AddTo (T 1) (Plain (Einsum [(n_t1,[0;1]); (n_v'ovov,[2;3;4;1])] [0;2;4;3]));
  (*41*) Assign (T 2) (Plain (Zeros [0;0;0;1]));
  (*42*) AddTo (T 2) (Times (Einsum [(T 1,[0;1;2;3])] [0;1;2;3]) (2) 1);
  (*43*) AddTo (T 2) (Times (Einsum [(T 1,[0;1;2;3])] [0;2;1;3]) (-1) 1);
  (*44*) Assign (T 29) (Plain (Zeros [0;0;0;0]));
  (*45*) AddTo (T 29) (Plain (Einsum [(n_t1,[0;1]); (T 1,[2;3;4;1])] [2;0;4;3]));
  (*46*) Assign (T 89) (Plain (Zeros [0;0;0;0]));
  (*47*) AddTo (T 89) (Plain (Einsum [(T 29,[0;1;2;3])] [3;2;1;0]));
  (*48*) Assign n_t2new (Plain (Zeros [0;0;1;1]));
  (*49*) AddTo n_t2new (Plain (Einsum [(n_t2,[0;1;2;3]); (T 29,[4;5;0;1])] [5;4;3;2]));
  (*50*) Del (T 29);
  (*51*) Assign (T 36) (Plain (Zeros [0;0;0;1]));
  (*52*) AddTo (T 36) (Plain (Einsum [(n_t2,[0;1;2;3]); (T 1,[4;1;5;2])] [4;0;5;3]));
  (*53*) Assign (T 42) (Plain (Zeros [0;0;0;1]));
  (*54*) SubFrom (T 42) (Plain (Einsum [(T 36,[0;1;2;3])] [0;2;1;3]));
  (*55*) Del (T 36);
  (*56*) Assign (T 37) (Plain (Zeros [0;0;0;1]));
  (*57*) AddTo (T 37) (Times (Einsum [(T 1,[0;1;2;3])] [0;1;2;3]) (2) 1);
  (*58*) SubFrom (T 37) (Plain (Einsum [(T 1,[0;1;2;3])] [0;2;1;3]));
  (*59*) Assign (T 38) (Plain (Zeros [0;0;0;1]));
  (*60*) AddTo (T 38) (Plain (Einsum [(n_t2,[0;1;2;3]); (T 37,[4;0;5;2])] [1;4;5;3]));
  (*61*) Del (T 37);
  (*62*) AddTo (T 42) (Plain (Einsum [(T 38,[0;1;2;3])] [1;2;0;3]));
  (*63*) Del (T 38);
  (*64*) Assign (T 66) (Plain (Zeros [0;0;0;1]));
  (*65*) AddTo (T 66) (Plain (Einsum [(n_t2,[0;1;2;3]); (T 1,[4;5;1;2])] [4;0;5;3]));
  (*66*) Assign (T 70) (Plain (Zeros [0;0;0;1]));
  (*67*) SubFrom (T 70) (Plain (Einsum [(T 66,[0;1;2;3])] [2;0;1;3]));
  (*68*) Del (T 66);
  (*69*) Assign (T 137) (Plain (Zeros [0;0;0;1]));
  (*70*) SubFrom (T 137) (Plain (Einsum [(T 1,[0;1;2;3])] [1;2;0;3]));
  (*71*) AddTo (T 137) (Times (Einsum [(T 1,[0;1;2;3])] [2;1;0;3]) (2) 1);
  (*72*) Del (T 1);
  (*73*) AddTo (T 2) (Times (Einsum [(n_v'ooov,[0;1;2;3])] [1;0;2;3]) (-1) 1);
  (*74*) AddTo (T 2) (Times (Einsum [(n_v'ooov,[0;1;2;3])] [1;2;0;3]) (2) 1);
  (*75*) Assign n_t1new (Plain (Zeros [0;1]));
  (*76*) AddTo n_t1new (Times (Einsum [(n_t2,[0;1;2;3]); (T 2,[4;1;0;3])] [4;2]) (-1) 1);
  (*77*) Del (T 2);
  (*78*) Assign (T 3) (Plain (Zeros [0;1;1;1]));
  (*79*) AddTo (T 3) (Plain (Einsum [(n_v'ovvv,[0;1;2;3])] [0;2;1;3]));
  (*80*) AddTo (T 3) (Times (Einsum [(n_v'ovvv,[0;1;2;3])] [0;2;3;1]) (-1) 2);
  (*81*) Assign (T 103) (Plain (Zeros [1;1]));
  (*82*) AddTo (T 103) (Times (Einsum [(n_t1,[0;1]); (T 3,[0;2;1;3])] [2;3]) (2) 1);
  (*83*) Assign (T 105) (Plain (Zeros [1;1]));
  (*84*) AddTo (T 105) (Plain (Einsum [(T 103,[0;1])] [0;1]));
  (*85*) Assign (T 136) (Plain (Zeros [1;1]));
  (*86*) AddTo (T 136) (Plain (Einsum [(T 103,[0;1])] [0;1]));
  (*87*) Del (T 103);
  (*88*) AddTo n_t1new (Times (Einsum [(n_t2,[0;1;2;3]); (T 3,[0;4;2;3])] [1;4]) (2) 1);
  (*89*) Del (T 3);
  (*90*) Assign (T 4) (Plain (Zeros [0;1]));
  (*91*) AddTo (T 4) (Plain (Einsum [(n_s1,[0]); (n_g'bov,[0;1;2])] [1;2]));
  (*92*) Assign (T 7) (Plain (Zeros [0;1]));
  (*93*) AddTo (T 7) (Plain (Einsum [(T 4,[0;1])] [0;1]));
  (*94*) Assign (T 19) (Plain (Zeros [0;1]));
  (*95*) AddTo (T 19) (Times (Einsum [(T 4,[0;1])] [0;1]) (1) 2);
  (*96*) Assign (T 109) (Plain (Zeros [0;1]));
  (*97*) AddTo (T 109) (Plain (Einsum [(T 4,[0;1])] [0;1]));
  (*98*) Del (T 4);
  (*99*) Assign (T 5) (Plain (Zeros [0;0;1;1]));
  (*100*) AddTo (T 5) (Times (Einsum [(n_v'ovov,[0;1;2;3])] [2;0;1;3]) (2) 1);
  (*101*) SubFrom (T 5) (Plain (Einsum [(n_v'ovov,[0;1;2;3])] [2;0;3;1]));
  (*102*) Assign (T 6) (Plain (Zeros [0;1]));
  (*103*) AddTo (T 6) (Plain (Einsum [(n_t1,[0;1]); (T 5,[0;2;3;1])] [2;3]));
  (*104*) AddTo (T 7) (Plain (Einsum [(T 6,[0;1])] [0;1]));
  (*105*) Del (T 6);
  (*106*) Assign (T 98) (Plain (Zeros [3;0;1]));
  (*107*) AddTo (T 98) (Plain (Einsum [(n_u11,[0;1;2]); (T 5,[1;3;4;2])] [0;3;4]));
  (*108*) Assign (T 100) (Plain (Zeros [3;0;1]));
  (*109*) AddTo (T 100) (Plain (Einsum [(T 98,[0;1;2])] [0;1;2]));
  (*110*) Assign (T 118) (Plain (Zeros [3;1;1]));
  (*111*) AddTo (T 118) (Plain (Einsum [(n_t1,[0;1]); (T 98,[2;0;3])] [2;1;3]));
  (*112*) Assign (T 119) (Plain (Zeros [3;1;1]));
  (*113*) AddTo (T 119) (Plain (Einsum [(T 118,[0;1;2])] [0;2;1]));
  (*114*) Del (T 118);
  (*115*) Assign (T 126) (Plain (Zeros [3;0;0]));
  (*116*) AddTo (T 126) (Plain (Einsum [(n_t1,[0;1]); (T 98,[2;3;1])] [2;0;3]));
  (*117*) Assign (T 127) (Plain (Zeros [3;0;0]));
  (*118*) AddTo (T 127) (Plain (Einsum [(T 126,[0;1;2])] [0;2;1]));
  (*119*) Del (T 126);
  (*120*) Assign n_s2new (Plain (Zeros [3;3]));
  (*121*) AddTo n_s2new (Times (Einsum [(n_u11,[0;1;2]); (T 98,[3;1;2])] [0;3]) (2) 1);
  (*122*) Del (T 98);
  (*123*) Assign (T 134) (Plain (Zeros [3;3;0;1]));
  (*124*) AddTo (T 134) (Plain (Einsum [(n_u12,[0;1;2;3]); (T 5,[2;4;5;3])] [1;0;4;5]));
  (*125*) Del (T 5);
  (*126*) AddTo (T 7) (Plain (Einsum [(n_f'ov,[0;1])] [0;1]));
  (*127*) Assign (T 69) (Plain (Zeros [0;0;0;1]));
  (*128*) AddTo (T 69) (Plain (Einsum [(T 7,[0;1]); (n_t2,[2;3;1;4])] [2;3;0;4]));
  (*129*) AddTo (T 70) (Plain (Einsum [(T 69,[0;1;2;3])] [2;1;0;3]));
  (*130*) Del (T 69);
  (*131*) Assign (T 72) (Plain (Zeros [0;0]));
  (*132*) AddTo (T 72) (Plain (Einsum [(n_t1,[0;1]); (T 7,[2;1])] [0;2]));
  (*133*) Assign (T 73) (Plain (Zeros [0;0]));
  (*134*) AddTo (T 73) (Plain (Einsum [(T 72,[0;1])] [0;1]));
  (*135*) Del (T 72);
  (*136*) Assign (T 121) (Plain (Zeros [3;0;0]));
  (*137*) AddTo (T 121) (Plain (Einsum [(T 7,[0;1]); (n_u11,[2;3;1])] [2;3;0]));
  (*138*) Assign (T 124) (Plain (Zeros [3;0;0]));
  (*139*) AddTo (T 124) (Plain (Einsum [(T 121,[0;1;2])] [0;2;1]));
  (*140*) Del (T 121);
  (*141*) Assign (T 138) (Plain (Zeros [3;3;0;0]));
  (*142*) AddTo (T 138) (Plain (Einsum [(T 7,[0;1]); (n_u12,[2;3;4;1])] [3;2;0;4]));
  (*143*) Assign n_s1new (Plain (Zeros [3]));
  (*144*) AddTo n_s1new (Times (Einsum [(T 7,[0;1]); (n_u11,[2;0;1])] [2]) (2) 1);
  (*145*) AddTo n_s2new (Times (Einsum [(T 7,[0;1]); (n_u12,[2;3;0;1])] [3;2]) (2) 1);
  (*146*) Assign (T 8) (Plain (Zeros [0;0;1;1]));
  (*147*) AddTo (T 8) (Times (Einsum [(n_t2,[0;1;2;3])] [1;0;2;3]) (2) 1);
  (*148*) SubFrom (T 8) (Plain (Einsum [(n_t2,[0;1;2;3])] [1;0;3;2]));
  (*149*) Assign (T 48) (Plain (Zeros [3;0;1]));
  (*150*) AddTo (T 48) (Plain (Einsum [(n_g'bov,[0;1;2]); (T 8,[1;3;4;2])] [0;3;4]));
  (*151*) Assign (T 50) (Plain (Zeros [3;0;1]));
  (*152*) AddTo (T 50) (Plain (Einsum [(T 48,[0;1;2])] [0;1;2]));
  (*153*) Del (T 48);
  (*154*) AddTo n_t1new (Plain (Einsum [(T 7,[0;1]); (T 8,[0;2;3;1])] [2;3]));
  (*155*) Del (T 7);
  (*156*) Assign n_u12new (Plain (Zeros [3;3;0;1]));
  (*157*) AddTo n_u12new (Plain (Einsum [(T 134,[0;1;2;3]); (T 8,[2;4;5;3])] [1;0;4;5]));
  (*158*) Del (T 134);
  (*159*) Assign (T 9) (Plain (Zeros [0;0;1;1]));
  (*160*) AddTo (T 9) (Times (Einsum [(n_v'ovvo,[0;1;2;3])] [0;3;2;1]) (2) 1);
  (*161*) SubFrom (T 9) (Plain (Einsum [(n_v'oovv,[0;1;2;3])] [0;1;2;3]));
  (*162*) AddTo n_t1new (Plain (Einsum [(n_t1,[0;1]); (T 9,[0;2;3;1])] [2;3]));
  (*163*) Assign n_u11new (Plain (Zeros [3;0;1]));
  (*164*) AddTo n_u11new (Plain (Einsum [(n_u11,[0;1;2]); (T 9,[1;3;4;2])] [0;3;4]));
  (*165*) Del (T 9);
  (*166*) Assign (T 10) (Plain (Zeros [3;0;0]));
  (*167*) AddTo (T 10) (Plain (Einsum [(n_t1,[0;1]); (n_g'bov,[2;3;1])] [2;3;0]));
  (*168*) Assign (T 11) (Plain (Zeros [3;0;0]));
  (*169*) AddTo (T 11) (Plain (Einsum [(T 10,[0;1;2])] [0;1;2]));
  (*170*) Del (T 10);
  (*171*) AddTo (T 11) (Plain (Einsum [(n_g'boo,[0;1;2])] [0;1;2]));
  (*172*) Assign (T 49) (Plain (Zeros [3;0;1]));
  (*173*) AddTo (T 49) (Plain (Einsum [(n_t1,[0;1]); (T 11,[2;0;3])] [2;3;1]));
  (*174*) SubFrom (T 50) (Plain (Einsum [(T 49,[0;1;2])] [0;1;2]));
  (*175*) Del (T 49);
  (*176*) SubFrom n_t1new (Plain (Einsum [(n_u11,[0;1;2]); (T 11,[0;1;3])] [3;2]));
  (*177*) SubFrom n_u11new (Plain (Einsum [(T 11,[0;1;2]); (n_u12,[0;3;1;4])] [3;2;4]));
  (*178*) Del (T 11);
  (*179*) Assign (T 12) (Plain (Zeros [0;0]));
  (*180*) AddTo (T 12) (Plain (Einsum [(n_s1,[0]); (n_g'boo,[0;1;2])] [1;2]));
  (*181*) Assign (T 21) (Plain (Zeros [0;0]));
  (*182*) AddTo (T 21) (Plain (Einsum [(T 12,[0;1])] [0;1]));
  (*183*) AddTo (T 73) (Plain (Einsum [(T 12,[0;1])] [1;0]));
  (*184*) Del (T 12);
  (*185*) Assign (T 13) (Plain (Zeros [0;0]));
  (*186*) AddTo (T 13) (Plain (Einsum [(n_g'bov,[0;1;2]); (n_u11,[0;3;2])] [1;3]));
  (*187*) AddTo (T 21) (Plain (Einsum [(T 13,[0;1])] [0;1]));
  (*188*) Assign (T 54) (Plain (Zeros [0;0]));
  (*189*) AddTo (T 54) (Plain (Einsum [(T 13,[0;1])] [0;1]));
  (*190*) Del (T 13);
  (*191*) Assign (T 14) (Plain (Zeros [0;0;1;1]));
  (*192*) AddTo (T 14) (Plain (Einsum [(n_v'ovov,[0;1;2;3])] [2;0;1;3]));
  (*193*) AddTo (T 14) (Times (Einsum [(n_v'ovov,[0;1;2;3])] [2;0;3;1]) (-1) 2);
  (*194*) Assign (T 15) (Plain (Zeros [0;0]));
  (*195*) AddTo (T 15) (Times (Einsum [(n_t2,[0;1;2;3]); (T 14,[0;4;3;2])] [1;4]) (2) 1);
  (*196*) AddTo (T 21) (Plain (Einsum [(T 15,[0;1])] [1;0]));
  (*197*) Del (T 15);
  (*198*) Assign (T 18) (Plain (Zeros [0;1]));
  (*199*) AddTo (T 18) (Plain (Einsum [(n_t1,[0;1]); (T 14,[0;2;3;1])] [2;3]));
  (*200*) AddTo (T 19) (Plain (Einsum [(T 18,[0;1])] [0;1]));
  (*201*) Del (T 18);
  (*202*) Assign (T 80) (Plain (Zeros [1;1]));
  (*203*) AddTo (T 80) (Plain (Einsum [(n_t2,[0;1;2;3]); (T 14,[0;1;3;4])] [2;4]));
  (*204*) Assign (T 81) (Plain (Zeros [0;0;1;1]));
  (*205*) AddTo (T 81) (Times (Einsum [(T 80,[0;1]); (n_t2,[2;3;1;4])] [2;3;4;0]) (2) 1);
  (*206*) Del (T 80);
  (*207*) Assign (T 84) (Plain (Zeros [0;0;1;1]));
  (*208*) AddTo (T 84) (Plain (Einsum [(T 81,[0;1;2;3])] [1;0;2;3]));
  (*209*) Del (T 81);
  (*210*) Assign (T 82) (Plain (Zeros [0;0]));
  (*211*) AddTo (T 82) (Plain (Einsum [(n_t2,[0;1;2;3]); (T 14,[0;4;3;2])] [1;4]));
  (*212*) Assign (T 83) (Plain (Zeros [0;0;1;1]));
  (*213*) AddTo (T 83) (Times (Einsum [(T 82,[0;1]); (n_t2,[1;2;3;4])] [2;0;3;4]) (2) 1);
  (*214*) Del (T 82);
  (*215*) AddTo (T 84) (Plain (Einsum [(T 83,[0;1;2;3])] [0;1;3;2]));
  (*216*) Del (T 83);
  (*217*) Assign (T 104) (Plain (Zeros [0;1]));
  (*218*) AddTo (T 104) (Times (Einsum [(n_t1,[0;1]); (T 14,[0;2;3;1])] [2;3]) (2) 1);
  (*219*) Del (T 14);
  (*220*) AddTo (T 105) (Times (Einsum [(n_t1,[0;1]); (T 104,[0;2])] [1;2]) (-1) 1);
  (*221*) Del (T 104);
  (*222*) Assign (T 16) (Plain (Zeros [0;0;0;1]));
  (*223*) AddTo (T 16) (Plain (Einsum [(n_v'ooov,[0;1;2;3])] [0;2;1;3]));
  (*224*) AddTo (T 16) (Times (Einsum [(n_v'ooov,[0;1;2;3])] [2;0;1;3]) (-1) 2);
  (*225*) Assign (T 17) (Plain (Zeros [0;0]));
  (*226*) AddTo (T 17) (Times (Einsum [(n_t1,[0;1]); (T 16,[2;0;3;1])] [2;3]) (2) 1);
  (*227*) Del (T 16);
  (*228*) AddTo (T 21) (Plain (Einsum [(T 17,[0;1])] [0;1]));
  (*229*) Del (T 17);
  (*230*) AddTo (T 19) (Times (Einsum [(n_f'ov,[0;1])] [0;1]) (1) 2);
  (*231*) Assign (T 20) (Plain (Zeros [0;0]));
  (*232*) AddTo (T 20) (Times (Einsum [(n_t1,[0;1]); (T 19,[2;1])] [0;2]) (2) 1);
  (*233*) Del (T 19);
  (*234*) AddTo (T 21) (Plain (Einsum [(T 20,[0;1])] [1;0]));
  (*235*) Del (T 20);
  (*236*) AddTo (T 21) (Plain (Einsum [(n_f'oo,[0;1])] [0;1]));
  (*237*) AddTo n_t1new (Times (Einsum [(n_t1,[0;1]); (T 21,[0;2])] [2;1]) (-1) 1);
  (*238*) AddTo n_u11new (Times (Einsum [(T 21,[0;1]); (n_u11,[2;0;3])] [2;1;3]) (-1) 1);
  (*239*) AddTo n_u12new (Times (Einsum [(T 21,[0;1]); (n_u12,[2;3;0;4])] [3;2;1;4]) (-1) 1);
  (*240*) Del (T 21);
  (*241*) Assign (T 22) (Plain (Zeros [1;1]));
  (*242*) AddTo (T 22) (Plain (Einsum [(n_s1,[0]); (n_g'bvv,[0;1;2])] [1;2]));
  (*243*) Assign (T 25) (Plain (Zeros [1;1]));
  (*244*) AddTo (T 25) (Plain (Einsum [(T 22,[0;1])] [0;1]));
  (*245*) Assign (T 75) (Plain (Zeros [1;1]));
  (*246*) AddTo (T 75) (Plain (Einsum [(T 22,[0;1])] [0;1]));
  (*247*) AddTo (T 105) (Plain (Einsum [(T 22,[0;1])] [0;1]));
  (*248*) AddTo (T 136) (Plain (Einsum [(T 22,[0;1])] [0;1]));
  (*249*) Del (T 22);
  (*250*) Assign (T 23) (Plain (Zeros [0;1;1;1]));
  (*251*) SubFrom (T 23) (Plain (Einsum [(n_v'ovvv,[0;1;2;3])] [0;2;1;3]));
  (*252*) AddTo (T 23) (Times (Einsum [(n_v'ovvv,[0;1;2;3])] [0;2;3;1]) (2) 1);
  (*253*) Assign (T 24) (Plain (Zeros [1;1]));
  (*254*) AddTo (T 24) (Plain (Einsum [(n_t1,[0;1]); (T 23,[0;2;3;1])] [2;3]));
  (*255*) AddTo (T 25) (Plain (Einsum [(T 24,[0;1])] [0;1]));
  (*256*) Assign (T 45) (Plain (Zeros [1;1]));
  (*257*) SubFrom (T 45) (Plain (Einsum [(T 24,[0;1])] [0;1]));
  (*258*) Del (T 24);
  (*259*) Assign (T 112) (Plain (Zeros [3;1;1]));
  (*260*) AddTo (T 112) (Plain (Einsum [(n_u11,[0;1;2]); (T 23,[1;3;4;2])] [0;3;4]));
  (*261*) Del (T 23);
  (*262*) Assign (T 113) (Plain (Zeros [3;1;1]));
  (*263*) AddTo (T 113) (Plain (Einsum [(T 112,[0;1;2])] [0;1;2]));
  (*264*) SubFrom (T 119) (Plain (Einsum [(T 112,[0;1;2])] [0;2;1]));
  (*265*) Del (T 112);
  (*266*) AddTo (T 25) (Plain (Einsum [(n_f'vv,[0;1])] [0;1]));
  (*267*) AddTo n_t1new (Plain (Einsum [(n_t1,[0;1]); (T 25,[2;1])] [0;2]));
  (*268*) Del (T 25);
  (*269*) Assign (T 26) (Plain (Zeros [3]));
  (*270*) AddTo (T 26) (Plain (Einsum [(n_t1,[0;1]); (n_g'bov,[2;0;1])] [2]));
  (*271*) Assign (T 27) (Plain (Zeros [3]));
  (*272*) AddTo (T 27) (Times (Einsum [(T 26,[0])] [0]) (2) 1);
  (*273*) Del (T 26);
  (*274*) AddTo (T 27) (Plain (Einsum [(n_G,[0])] [0]));
  (*275*) AddTo n_t1new (Plain (Einsum [(T 27,[0]); (n_u11,[0;1;2])] [1;2]));
  (*276*) AddTo n_s1new (Plain (Einsum [(T 27,[0]); (n_s2,[0;1])] [1]));
  (*277*) AddTo n_u11new (Plain (Einsum [(T 27,[0]); (n_u12,[0;1;2;3])] [1;2;3]));
  (*278*) Del (T 27);
  (*279*) Assign (T 28) (Plain (Zeros [0;1;1;1]));
  (*280*) AddTo (T 28) (Plain (Einsum [(n_t1,[0;1]); (n_v'vvvv,[2;1;3;4])] [0;3;2;4]));
  (*281*) AddTo n_t2new (Plain (Einsum [(n_t1,[0;1]); (T 28,[2;3;4;1])] [0;2;3;4]));
  (*282*) Del (T 28);
  (*283*) Assign (T 30) (Plain (Zeros [0;0;1;1]));
  (*284*) AddTo (T 30) (Plain (Einsum [(n_t1,[0;1]); (n_v'ovvv,[2;1;3;4])] [0;2;3;4]));
  (*285*) Assign (T 31) (Plain (Zeros [0;0;1;1]));
  (*286*) AddTo (T 31) (Plain (Einsum [(n_t2,[0;1;2;3]); (T 30,[4;1;5;2])] [4;0;3;5]));
  (*287*) Del (T 30);
  (*288*) Assign (T 56) (Plain (Zeros [0;0;1;1]));
  (*289*) AddTo (T 56) (Plain (Einsum [(T 31,[0;1;2;3])] [0;1;2;3]));
  (*290*) Del (T 31);
  (*291*) Assign (T 32) (Plain (Zeros [0;0;1;1]));
  (*292*) SubFrom (T 32) (Plain (Einsum [(n_v'ovov,[0;1;2;3])] [2;0;1;3]));
  (*293*) AddTo (T 32) (Times (Einsum [(n_v'ovov,[0;1;2;3])] [2;0;3;1]) (2) 1);
  (*294*) Assign (T 33) (Plain (Zeros [0;0;1;1]));
  (*295*) AddTo (T 33) (Plain (Einsum [(n_t2,[0;1;2;3]); (T 32,[0;4;3;5])] [1;4;2;5]));
  (*296*) Assign (T 34) (Plain (Zeros [0;0;1;1]));
  (*297*) AddTo (T 34) (Plain (Einsum [(n_t2,[0;1;2;3]); (T 33,[4;0;5;2])] [1;4;3;5]));
  (*298*) Del (T 33);
  (*299*) AddTo (T 56) (Plain (Einsum [(T 34,[0;1;2;3])] [0;1;2;3]));
  (*300*) Del (T 34);
  (*301*) Assign (T 86) (Plain (Zeros [0;0;1;1]));
  (*302*) AddTo (T 86) (Times (Einsum [(n_t2,[0;1;2;3]); (T 32,[0;4;2;5])] [1;4;3;5]) (2) 1);
  (*303*) Del (T 32);
  (*304*) Assign (T 35) (Plain (Zeros [0;0;0;1]));
  (*305*) AddTo (T 35) (Plain (Einsum [(n_t2,[0;1;2;3]); (n_v'ooov,[1;4;5;2])] [0;5;4;3]));
  (*306*) SubFrom (T 42) (Plain (Einsum [(T 35,[0;1;2;3])] [0;1;2;3]));
  (*307*) Del (T 35);
  (*308*) Assign (T 39) (Plain (Zeros [0;0;1;1]));
  (*309*) AddTo (T 39) (Plain (Einsum [(n_t1,[0;1]); (n_v'ovvv,[2;3;4;1])] [0;2;4;3]));
  (*310*) Assign (T 40) (Plain (Zeros [0;0;1;1]));
  (*311*) AddTo (T 40) (Plain (Einsum [(T 39,[0;1;2;3])] [1;0;2;3]));
  (*312*) Assign (T 58) (Plain (Zeros [0;0;1;1]));
  (*313*) AddTo (T 58) (Plain (Einsum [(n_t2,[0;1;2;3]); (T 39,[4;1;5;2])] [4;0;3;5]));
  (*314*) Del (T 39);
  (*315*) Assign (T 77) (Plain (Zeros [0;0;1;1]));
  (*316*) AddTo (T 77) (Plain (Einsum [(T 58,[0;1;2;3])] [0;1;2;3]));
  (*317*) Del (T 58);
  (*318*) AddTo (T 40) (Plain (Einsum [(n_v'ovvo,[0;1;2;3])] [0;3;2;1]));
  (*319*) Assign (T 41) (Plain (Zeros [0;0;0;1]));
  (*320*) AddTo (T 41) (Plain (Einsum [(n_t1,[0;1]); (T 40,[2;3;4;1])] [0;2;3;4]));
  (*321*) Del (T 40);
  (*322*) AddTo (T 42) (Plain (Einsum [(T 41,[0;1;2;3])] [0;1;2;3]));
  (*323*) Del (T 41);
  (*324*) Assign (T 43) (Plain (Zeros [0;0;1;1]));
  (*325*) AddTo (T 43) (Plain (Einsum [(n_t1,[0;1]); (T 42,[2;0;3;4])] [2;3;1;4]));
  (*326*) Del (T 42);
  (*327*) AddTo (T 56) (Plain (Einsum [(T 43,[0;1;2;3])] [0;1;2;3]));
  (*328*) Del (T 43);
  (*329*) Assign (T 44) (Plain (Zeros [1;1]));
  (*330*) AddTo (T 44) (Plain (Einsum [(n_g'bov,[0;1;2]); (n_u11,[0;1;3])] [2;3]));
  (*331*) AddTo (T 45) (Plain (Einsum [(T 44,[0;1])] [1;0]));
  (*332*) Assign (T 46) (Plain (Zeros [0;0;1;1]));
  (*333*) AddTo (T 46) (Plain (Einsum [(T 45,[0;1]); (n_t2,[2;3;1;4])] [2;3;4;0]));
  (*334*) Del (T 45);
  (*335*) AddTo (T 56) (Plain (Einsum [(T 46,[0;1;2;3])] [1;0;2;3]));
  (*336*) Del (T 46);
  (*337*) AddTo (T 105) (Times (Einsum [(T 44,[0;1])] [1;0]) (-1) 1);
  (*338*) AddTo (T 136) (Times (Einsum [(T 44,[0;1])] [1;0]) (-1) 1);
  (*339*) Del (T 44);
  (*340*) Assign (T 47) (Plain (Zeros [3;0;1]));
  (*341*) AddTo (T 47) (Plain (Einsum [(n_t1,[0;1]); (n_g'bvv,[2;3;1])] [2;0;3]));
  (*342*) AddTo (T 50) (Plain (Einsum [(T 47,[0;1;2])] [0;1;2]));
  (*343*) Del (T 47);
  (*344*) AddTo (T 50) (Plain (Einsum [(n_g'bvo,[0;1;2])] [0;2;1]));
  (*345*) Assign (T 51) (Plain (Zeros [0;0;1;1]));
  (*346*) AddTo (T 51) (Plain (Einsum [(n_u11,[0;1;2]); (T 50,[0;3;4])] [1;3;2;4]));
  (*347*) Del (T 50);
  (*348*) SubFrom (T 56) (Plain (Einsum [(T 51,[0;1;2;3])] [1;0;3;2]));
  (*349*) Del (T 51);
  (*350*) Assign (T 52) (Plain (Zeros [0;0;0;1]));
  (*351*) AddTo (T 52) (Times (Einsum [(n_v'ooov,[0;1;2;3])] [0;2;1;3]) (2) 1);
  (*352*) SubFrom (T 52) (Plain (Einsum [(n_v'ooov,[0;1;2;3])] [2;0;1;3]));
  (*353*) Assign (T 53) (Plain (Zeros [0;0]));
  (*354*) AddTo (T 53) (Plain (Einsum [(n_t1,[0;1]); (T 52,[2;0;3;1])] [2;3]));
  (*355*) AddTo (T 54) (Plain (Einsum [(T 53,[0;1])] [0;1]));
  (*356*) Del (T 53);
  (*357*) Assign (T 55) (Plain (Zeros [0;0;1;1]));
  (*358*) AddTo (T 55) (Plain (Einsum [(T 54,[0;1]); (n_t2,[0;2;3;4])] [2;1;3;4]));
  (*359*) Del (T 54);
  (*360*) AddTo (T 56) (Plain (Einsum [(T 55,[0;1;2;3])] [0;1;3;2]));
  (*361*) Del (T 55);
  (*362*) SubFrom n_t2new (Plain (Einsum [(T 56,[0;1;2;3])] [0;1;2;3]));
  (*363*) SubFrom n_t2new (Plain (Einsum [(T 56,[0;1;2;3])] [1;0;3;2]));
  (*364*) Del (T 56);
  (*365*) Assign (T 108) (Plain (Zeros [3;0;0]));
  (*366*) AddTo (T 108) (Plain (Einsum [(n_u11,[0;1;2]); (T 52,[3;1;4;2])] [0;3;4]));
  (*367*) Del (T 52);
  (*368*) Assign (T 110) (Plain (Zeros [3;0;0]));
  (*369*) AddTo (T 110) (Plain (Einsum [(T 108,[0;1;2])] [0;1;2]));
  (*370*) AddTo (T 127) (Plain (Einsum [(T 108,[0;1;2])] [0;1;2]));
  (*371*) Del (T 108);
  (*372*) Assign (T 57) (Plain (Zeros [0;0;1;1]));
  (*373*) AddTo (T 57) (Plain (Einsum [(n_t1,[0;1]); (n_v'vovv,[2;3;4;1])] [0;3;2;4]));
  (*374*) SubFrom (T 77) (Plain (Einsum [(T 57,[0;1;2;3])] [0;1;2;3]));
  (*375*) Del (T 57);
  (*376*) Assign (T 59) (Plain (Zeros [0;1;1;1]));
  (*377*) AddTo (T 59) (Times (Einsum [(n_v'ovvv,[0;1;2;3])] [0;2;1;3]) (2) 1);
  (*378*) SubFrom (T 59) (Plain (Einsum [(n_v'ovvv,[0;1;2;3])] [0;2;3;1]));
  (*379*) Assign (T 60) (Plain (Zeros [0;0;1;1]));
  (*380*) AddTo (T 60) (Plain (Einsum [(n_t1,[0;1]); (T 59,[2;3;4;1])] [0;2;3;4]));
  (*381*) Del (T 59);
  (*382*) Assign (T 61) (Plain (Zeros [0;0;1;1]));
  (*383*) AddTo (T 61) (Plain (Einsum [(n_t2,[0;1;2;3]); (T 60,[4;0;5;2])] [1;4;3;5]));
  (*384*) SubFrom (T 77) (Plain (Einsum [(T 61,[0;1;2;3])] [1;0;2;3]));
  (*385*) Del (T 61);
  (*386*) Assign (T 135) (Plain (Zeros [0;0;1;1]));
  (*387*) AddTo (T 135) (Plain (Einsum [(T 60,[0;1;2;3])] [1;0;2;3]));
  (*388*) Del (T 60);
  (*389*) Assign (T 62) (Plain (Zeros [0;0;0;1]));
  (*390*) AddTo (T 62) (Plain (Einsum [(n_t1,[0;1]); (n_v'oovv,[2;3;4;1])] [0;2;3;4]));
  (*391*) AddTo (T 70) (Plain (Einsum [(T 62,[0;1;2;3])] [1;0;2;3]));
  (*392*) Del (T 62);
  (*393*) Assign (T 63) (Plain (Zeros [0;0;0;1]));
  (*394*) AddTo (T 63) (Plain (Einsum [(n_t2,[0;1;2;3]); (n_v'ooov,[4;5;1;2])] [0;4;5;3]));
  (*395*) SubFrom (T 70) (Plain (Einsum [(T 63,[0;1;2;3])] [1;0;2;3]));
  (*396*) Del (T 63);
  (*397*) Assign (T 64) (Plain (Zeros [0;0;0;0]));
  (*398*) AddTo (T 64) (Plain (Einsum [(n_t1,[0;1]); (n_v'ooov,[2;3;4;1])] [0;2;4;3]));
  (*399*) Assign (T 65) (Plain (Zeros [0;0;0;1]));
  (*400*) AddTo (T 65) (Plain (Einsum [(n_t1,[0;1]); (T 64,[2;3;0;4])] [2;3;4;1]));
  (*401*) SubFrom (T 70) (Plain (Einsum [(T 65,[0;1;2;3])] [1;0;2;3]));
  (*402*) Del (T 65);
  (*403*) Assign (T 85) (Plain (Zeros [0;0;1;1]));
  (*404*) AddTo (T 85) (Plain (Einsum [(n_t2,[0;1;2;3]); (T 64,[4;1;0;5])] [4;5;3;2]));
  (*405*) Del (T 64);
  (*406*) AddTo n_t2new (Plain (Einsum [(T 85,[0;1;2;3])] [0;1;3;2]));
  (*407*) AddTo n_t2new (Plain (Einsum [(T 85,[0;1;2;3])] [1;0;2;3]));
  (*408*) Del (T 85);
  (*409*) Assign (T 67) (Plain (Zeros [0;0;0;1]));
  (*410*) SubFrom (T 67) (Plain (Einsum [(n_v'ooov,[0;1;2;3])] [0;2;1;3]));
  (*411*) AddTo (T 67) (Times (Einsum [(n_v'ooov,[0;1;2;3])] [2;0;1;3]) (2) 1);
  (*412*) Assign (T 68) (Plain (Zeros [0;0;0;1]));
  (*413*) AddTo (T 68) (Plain (Einsum [(n_t2,[0;1;2;3]); (T 67,[0;4;5;2])] [1;4;5;3]));
  (*414*) Del (T 67);
  (*415*) AddTo (T 70) (Plain (Einsum [(T 68,[0;1;2;3])] [1;0;2;3]));
  (*416*) Del (T 68);
  (*417*) Assign (T 71) (Plain (Zeros [0;0;1;1]));
  (*418*) AddTo (T 71) (Plain (Einsum [(n_t1,[0;1]); (T 70,[0;2;3;4])] [2;3;1;4]));
  (*419*) Del (T 70);
  (*420*) AddTo (T 77) (Plain (Einsum [(T 71,[0;1;2;3])] [0;1;2;3]));
  (*421*) Del (T 71);
  (*422*) AddTo (T 73) (Plain (Einsum [(n_f'oo,[0;1])] [1;0]));
  (*423*) Assign (T 74) (Plain (Zeros [0;0;1;1]));
  (*424*) AddTo (T 74) (Plain (Einsum [(T 73,[0;1]); (n_t2,[1;2;3;4])] [2;0;3;4]));
  (*425*) Del (T 73);
  (*426*) AddTo (T 77) (Plain (Einsum [(T 74,[0;1;2;3])] [1;0;3;2]));
  (*427*) Del (T 74);
  (*428*) AddTo (T 75) (Plain (Einsum [(n_f'vv,[0;1])] [0;1]));
  (*429*) Assign (T 76) (Plain (Zeros [0;0;1;1]));
  (*430*) AddTo (T 76) (Plain (Einsum [(T 75,[0;1]); (n_t2,[2;3;1;4])] [2;3;4;0]));
  (*431*) Del (T 75);
  (*432*) SubFrom (T 77) (Plain (Einsum [(T 76,[0;1;2;3])] [1;0;3;2]));
  (*433*) Del (T 76);
  (*434*) SubFrom n_t2new (Plain (Einsum [(T 77,[0;1;2;3])] [0;1;3;2]));
  (*435*) SubFrom n_t2new (Plain (Einsum [(T 77,[0;1;2;3])] [1;0;2;3]));
  (*436*) Del (T 77);
  (*437*) Assign (T 78) (Plain (Zeros [0;0;0;1]));
  (*438*) AddTo (T 78) (Plain (Einsum [(n_t2,[0;1;2;3]); (n_v'ovvv,[4;2;5;3])] [0;1;4;5]));
  (*439*) Assign (T 79) (Plain (Zeros [0;0;1;1]));
  (*440*) AddTo (T 79) (Plain (Einsum [(n_t1,[0;1]); (T 78,[2;3;0;4])] [2;3;1;4]));
  (*441*) Del (T 78);
  (*442*) AddTo (T 84) (Plain (Einsum [(T 79,[0;1;2;3])] [0;1;2;3]));
  (*443*) Del (T 79);
  (*444*) AddTo n_t2new (Times (Einsum [(T 84,[0;1;2;3])] [0;1;2;3]) (-1) 1);
  (*445*) AddTo n_t2new (Times (Einsum [(T 84,[0;1;2;3])] [1;0;3;2]) (-1) 1);
  (*446*) Del (T 84);
  (*447*) AddTo (T 86) (Times (Einsum [(n_v'ovvo,[0;1;2;3])] [3;0;2;1]) (2) 1);
  (*448*) SubFrom (T 86) (Plain (Einsum [(n_v'oovv,[0;1;2;3])] [1;0;2;3]));
  (*449*) AddTo n_t2new (Plain (Einsum [(n_t2,[0;1;2;3]); (T 86,[4;0;5;2])] [4;1;5;3]));
  (*450*) Del (T 86);
  (*451*) Assign (T 87) (Plain (Zeros [0;0;0;0]));
  (*452*) AddTo (T 87) (Plain (Einsum [(n_t2,[0;1;2;3]); (n_v'ovov,[4;3;5;2])] [0;1;5;4]));
  (*453*) Assign (T 88) (Plain (Zeros [0;0;0;0]));
  (*454*) AddTo (T 88) (Plain (Einsum [(T 87,[0;1;2;3])] [3;2;1;0]));
  (*455*) AddTo (T 89) (Plain (Einsum [(T 87,[0;1;2;3])] [3;2;1;0]));
  (*456*) Del (T 87);
  (*457*) AddTo (T 88) (Plain (Einsum [(n_v'oooo,[0;1;2;3])] [2;0;3;1]));
  (*458*) AddTo n_t2new (Plain (Einsum [(n_t2,[0;1;2;3]); (T 88,[0;1;4;5])] [4;5;2;3]));
  (*459*) Del (T 88);
  (*460*) AddTo (T 89) (Plain (Einsum [(n_v'oooo,[0;1;2;3])] [2;0;3;1]));
  (*461*) Assign (T 90) (Plain (Zeros [0;0;0;1]));
  (*462*) AddTo (T 90) (Plain (Einsum [(n_t1,[0;1]); (T 89,[0;2;3;4])] [4;3;2;1]));
  (*463*) Del (T 89);
  (*464*) AddTo (T 90) (Times (Einsum [(n_v'oovo,[0;1;2;3])] [1;3;0;2]) (-1) 1);
  (*465*) AddTo n_t2new (Plain (Einsum [(n_t1,[0;1]); (T 90,[2;3;0;4])] [2;3;1;4]));
  (*466*) Del (T 90);
  (*467*) Assign (T 91) (Plain (Zeros [0;0;1;1]));
  (*468*) SubFrom (T 91) (Plain (Einsum [(n_v'ovvo,[0;1;2;3])] [3;0;2;1]));
  (*469*) AddTo (T 91) (Plain (Einsum [(n_t2,[0;1;2;3]); (n_v'ovov,[1;2;4;5])] [0;4;3;5]));
  (*470*) AddTo n_t2new (Plain (Einsum [(n_t2,[0;1;2;3]); (T 91,[4;0;5;3])] [1;4;2;5]));
  (*471*) Del (T 91);
  (*472*) Assign (T 92) (Plain (Zeros [0;0;1;1]));
  (*473*) SubFrom (T 92) (Plain (Einsum [(n_v'oovv,[0;1;2;3])] [1;0;2;3]));
  (*474*) AddTo (T 92) (Plain (Einsum [(n_t2,[0;1;2;3]); (n_v'ovov,[1;4;5;2])] [0;5;3;4]));
  (*475*) AddTo n_t2new (Plain (Einsum [(n_t2,[0;1;2;3]); (T 92,[4;0;5;3])] [1;4;5;2]));
  (*476*) Del (T 92);
  (*477*) Assign (T 93) (Plain (Zeros [3;3]));
  (*478*) AddTo (T 93) (Plain (Einsum [(n_gc'bov,[0;1;2]); (n_u11,[3;1;2])] [0;3]));
  (*479*) Assign (T 97) (Plain (Zeros [3;3]));
  (*480*) AddTo (T 97) (Times (Einsum [(T 93,[0;1])] [0;1]) (2) 1);
  (*481*) Del (T 93);
  (*482*) Assign (T 94) (Plain (Zeros [3;3]));
  (*483*) AddTo (T 94) (Plain (Einsum [(n_g'bov,[0;1;2]); (n_u11,[3;1;2])] [0;3]));
  (*484*) Assign (T 95) (Plain (Zeros [3;3]));
  (*485*) AddTo (T 95) (Times (Einsum [(T 94,[0;1])] [0;1]) (2) 1);
  (*486*) Assign (T 116) (Plain (Zeros [3;3;0;1]));
  (*487*) AddTo (T 116) (Plain (Einsum [(T 94,[0;1]); (n_u12,[2;0;3;4])] [1;2;3;4]));
  (*488*) Del (T 94);
  (*489*) Assign (T 133) (Plain (Zeros [3;3;0;1]));
  (*490*) SubFrom (T 133) (Times (Einsum [(T 116,[0;1;2;3])] [0;1;2;3]) (2) 1);
  (*491*) Del (T 116);
  (*492*) AddTo (T 95) (Plain (Einsum [(n_w,[0;1])] [0;1]));
  (*493*) Assign (T 96) (Plain (Zeros [3;3]));
  (*494*) AddTo (T 96) (Plain (Einsum [(n_s2,[0;1]); (T 95,[0;2])] [1;2]));
  (*495*) AddTo (T 97) (Plain (Einsum [(T 96,[0;1])] [0;1]));
  (*496*) Del (T 96);
  (*497*) AddTo n_s2new (Plain (Einsum [(T 97,[0;1])] [0;1]));
  (*498*) AddTo n_s2new (Plain (Einsum [(T 97,[0;1])] [1;0]));
  (*499*) Del (T 97);
  (*500*) AddTo n_u11new (Plain (Einsum [(T 95,[0;1]); (n_u11,[0;2;3])] [1;2;3]));
  (*501*) Del (T 95);
  (*502*) Assign (T 99) (Plain (Zeros [3;0;1]));
  (*503*) AddTo (T 99) (Plain (Einsum [(n_s2,[0;1]); (n_g'bov,[1;2;3])] [0;2;3]));
  (*504*) AddTo (T 100) (Plain (Einsum [(T 99,[0;1;2])] [0;1;2]));
  (*505*) Assign (T 122) (Plain (Zeros [3;0;1]));
  (*506*) AddTo (T 122) (Plain (Einsum [(T 99,[0;1;2])] [0;1;2]));
  (*507*) Del (T 99);
  (*508*) AddTo (T 100) (Plain (Einsum [(n_gc'bov,[0;1;2])] [0;1;2]));
  (*509*) AddTo (T 110) (Plain (Einsum [(n_t1,[0;1]); (T 100,[2;3;1])] [2;3;0]));
  (*510*) AddTo n_u11new (Plain (Einsum [(T 100,[0;1;2]); (T 8,[1;3;4;2])] [0;3;4]));
  (*511*) Del (T 100);
  (*512*) Del (T 8);
  (*513*) Assign (T 101) (Plain (Zeros [0;0;1;1]));
  (*514*) AddTo (T 101) (Times (Einsum [(n_v'ovov,[0;1;2;3])] [2;0;1;3]) (-1) 1);
  (*515*) AddTo (T 101) (Times (Einsum [(n_v'ovov,[0;1;2;3])] [2;0;3;1]) (2) 1);
  (*516*) Assign (T 102) (Plain (Zeros [1;1]));
  (*517*) AddTo (T 102) (Plain (Einsum [(n_t2,[0;1;2;3]); (T 101,[0;1;4;3])] [2;4]));
  (*518*) Del (T 101);
  (*519*) AddTo (T 105) (Times (Einsum [(T 102,[0;1])] [0;1]) (-1) 1);
  (*520*) AddTo (T 136) (Times (Einsum [(T 102,[0;1])] [0;1]) (-1) 1);
  (*521*) Del (T 102);
  (*522*) AddTo (T 105) (Plain (Einsum [(n_f'vv,[0;1])] [0;1]));
  (*523*) AddTo n_u11new (Plain (Einsum [(T 105,[0;1]); (n_u11,[2;3;1])] [2;3;0]));
  (*524*) Del (T 105);
  (*525*) Assign (T 106) (Plain (Zeros [3;0;0]));
  (*526*) AddTo (T 106) (Plain (Einsum [(n_s2,[0;1]); (n_g'boo,[1;2;3])] [0;2;3]));
  (*527*) AddTo (T 110) (Plain (Einsum [(T 106,[0;1;2])] [0;1;2]));
  (*528*) AddTo (T 124) (Plain (Einsum [(T 106,[0;1;2])] [0;1;2]));
  (*529*) Del (T 106);
  (*530*) Assign (T 107) (Plain (Zeros [3;0;0]));
  (*531*) AddTo (T 107) (Plain (Einsum [(n_g'bov,[0;1;2]); (n_u12,[3;0;4;2])] [3;1;4]));
  (*532*) AddTo (T 110) (Plain (Einsum [(T 107,[0;1;2])] [0;1;2]));
  (*533*) AddTo (T 127) (Plain (Einsum [(T 107,[0;1;2])] [0;1;2]));
  (*534*) Del (T 107);
  (*535*) Assign (T 128) (Plain (Zeros [3;3;0;1]));
  (*536*) AddTo (T 128) (Plain (Einsum [(n_u11,[0;1;2]); (T 127,[3;1;4])] [0;3;4;2]));
  (*537*) Del (T 127);
  (*538*) AddTo (T 133) (Plain (Einsum [(T 128,[0;1;2;3])] [0;1;2;3]));
  (*539*) Del (T 128);
  (*540*) AddTo (T 109) (Plain (Einsum [(n_f'ov,[0;1])] [0;1]));
  (*541*) AddTo (T 110) (Plain (Einsum [(T 109,[0;1]); (n_u11,[2;3;1])] [2;0;3]));
  (*542*) Del (T 109);
  (*543*) AddTo (T 110) (Plain (Einsum [(n_gc'boo,[0;1;2])] [0;1;2]));
  (*544*) SubFrom n_u11new (Plain (Einsum [(n_t1,[0;1]); (T 110,[2;0;3])] [2;3;1]));
  (*545*) Del (T 110);
  (*546*) Assign (T 111) (Plain (Zeros [3;1;1]));
  (*547*) AddTo (T 111) (Plain (Einsum [(n_s2,[0;1]); (n_g'bvv,[1;2;3])] [0;2;3]));
  (*548*) AddTo (T 113) (Plain (Einsum [(T 111,[0;1;2])] [0;1;2]));
  (*549*) Assign (T 129) (Plain (Zeros [3;1;1]));
  (*550*) AddTo (T 129) (Plain (Einsum [(T 111,[0;1;2])] [0;1;2]));
  (*551*) Del (T 111);
  (*552*) AddTo (T 113) (Plain (Einsum [(n_gc'bvv,[0;1;2])] [0;1;2]));
  (*553*) AddTo n_u11new (Plain (Einsum [(n_t1,[0;1]); (T 113,[2;3;1])] [2;0;3]));
  (*554*) Del (T 113);
  (*555*) Assign (T 114) (Plain (Zeros [3;3;3]));
  (*556*) AddTo (T 114) (Plain (Einsum [(n_g'bov,[0;1;2]); (n_u12,[3;4;1;2])] [0;3;4]));
  (*557*) AddTo n_u12new (Times (Einsum [(n_u11,[0;1;2]); (T 114,[0;3;4])] [4;3;1;2]) (2) 1);
  (*558*) Del (T 114);
  (*559*) Assign (T 115) (Plain (Zeros [3;3;0;1]));
  (*560*) AddTo (T 115) (Plain (Einsum [(n_w,[0;1]); (n_u12,[2;0;3;4])] [2;1;3;4]));
  (*561*) SubFrom (T 133) (Plain (Einsum [(T 115,[0;1;2;3])] [0;1;2;3]));
  (*562*) Del (T 115);
  (*563*) Assign (T 117) (Plain (Zeros [3;1;1]));
  (*564*) AddTo (T 117) (Plain (Einsum [(n_g'bov,[0;1;2]); (n_u12,[3;0;1;4])] [3;2;4]));
  (*565*) AddTo (T 119) (Plain (Einsum [(T 117,[0;1;2])] [0;1;2]));
  (*566*) Del (T 117);
  (*567*) Assign (T 120) (Plain (Zeros [3;3;0;1]));
  (*568*) AddTo (T 120) (Plain (Einsum [(n_u11,[0;1;2]); (T 119,[3;2;4])] [0;3;1;4]));
  (*569*) Del (T 119);
  (*570*) AddTo (T 133) (Plain (Einsum [(T 120,[0;1;2;3])] [0;1;2;3]));
  (*571*) Del (T 120);
  (*572*) AddTo (T 122) (Plain (Einsum [(n_gc'bov,[0;1;2])] [0;1;2]));
  (*573*) Assign (T 123) (Plain (Zeros [3;0;0]));
  (*574*) AddTo (T 123) (Plain (Einsum [(n_t1,[0;1]); (T 122,[2;3;1])] [2;0;3]));
  (*575*) AddTo (T 124) (Plain (Einsum [(T 123,[0;1;2])] [0;2;1]));
  (*576*) Del (T 123);
  (*577*) Assign (T 131) (Plain (Zeros [3;3;0;0]));
  (*578*) AddTo (T 131) (Plain (Einsum [(n_u11,[0;1;2]); (T 122,[3;4;2])] [0;3;1;4]));
  (*579*) Del (T 122);
  (*580*) Assign (T 132) (Plain (Zeros [3;3;0;1]));
  (*581*) AddTo (T 132) (Plain (Einsum [(n_t1,[0;1]); (T 131,[2;3;4;0])] [3;2;4;1]));
  (*582*) Del (T 131);
  (*583*) AddTo (T 133) (Plain (Einsum [(T 132,[0;1;2;3])] [0;1;2;3]));
  (*584*) Del (T 132);
  (*585*) AddTo (T 124) (Plain (Einsum [(n_gc'boo,[0;1;2])] [0;1;2]));
  (*586*) Assign (T 125) (Plain (Zeros [3;3;0;1]));
  (*587*) AddTo (T 125) (Plain (Einsum [(n_u11,[0;1;2]); (T 124,[3;1;4])] [0;3;4;2]));
  (*588*) Del (T 124);
  (*589*) AddTo (T 133) (Plain (Einsum [(T 125,[0;1;2;3])] [1;0;2;3]));
  (*590*) Del (T 125);
  (*591*) AddTo (T 129) (Plain (Einsum [(n_gc'bvv,[0;1;2])] [0;1;2]));
  (*592*) Assign (T 130) (Plain (Zeros [3;3;0;1]));
  (*593*) AddTo (T 130) (Plain (Einsum [(n_u11,[0;1;2]); (T 129,[3;4;2])] [0;3;1;4]));
  (*594*) Del (T 129);
  (*595*) SubFrom (T 133) (Plain (Einsum [(T 130,[0;1;2;3])] [1;0;2;3]));
  (*596*) Del (T 130);
  (*597*) SubFrom n_u12new (Plain (Einsum [(T 133,[0;1;2;3])] [0;1;2;3]));
  (*598*) SubFrom n_u12new (Plain (Einsum [(T 133,[0;1;2;3])] [1;0;2;3]));
  (*599*) Del (T 133);
  (*600*) AddTo (T 135) (Times (Einsum [(n_v'ovvo,[0;1;2;3])] [0;3;2;1]) (2) 1);
  (*601*) SubFrom (T 135) (Plain (Einsum [(n_v'oovv,[0;1;2;3])] [0;1;2;3]));
  (*602*) AddTo n_u12new (Plain (Einsum [(n_u12,[0;1;2;3]); (T 135,[2;4;5;3])] [1;0;4;5]));
  (*603*) Del (T 135);
  (*604*) AddTo (T 136) (Plain (Einsum [(n_f'vv,[0;1])] [0;1]));
  (*605*) AddTo n_u12new (Plain (Einsum [(T 136,[0;1]); (n_u12,[2;3;4;1])] [3;2;4;0]));
  (*606*) Del (T 136);
  (*607*) AddTo (T 137) (Times (Einsum [(n_v'ooov,[0;1;2;3])] [0;2;1;3]) (2) 1);
  (*608*) SubFrom (T 137) (Plain (Einsum [(n_v'ooov,[0;1;2;3])] [2;0;1;3]));
  (*609*) AddTo (T 138) (Plain (Einsum [(n_u12,[0;1;2;3]); (T 137,[4;2;5;3])] [1;0;4;5]));
  (*610*) Del (T 137);
  (*611*) SubFrom n_u12new (Plain (Einsum [(n_t1,[0;1]); (T 138,[2;3;0;4])] [3;2;4;1]));
  (*612*) Del (T 138);
  (*613*) AddTo n_t1new (Plain (Einsum [(n_s1,[0]); (n_g'bvo,[0;1;2])] [2;1]));
  (*614*) AddTo n_t1new (Plain (Einsum [(n_f'vo,[0;1])] [1;0]));
  (*615*) AddTo n_t1new (Plain (Einsum [(n_g'bvv,[0;1;2]); (n_u11,[0;3;2])] [3;1]));
  (*616*) SubFrom n_t2new (Plain (Einsum [(n_t2,[0;1;2;3]); (n_v'ovvo,[1;2;4;5])] [5;0;4;3]));
  (*617*) SubFrom n_t2new (Plain (Einsum [(n_t2,[0;1;2;3]); (n_v'oovv,[1;4;5;2])] [4;0;3;5]));
  (*618*) SubFrom n_t2new (Plain (Einsum [(n_t2,[0;1;2;3]); (n_v'oovv,[1;4;5;3])] [0;4;2;5]));
  (*619*) AddTo n_t2new (Times (Einsum [(n_t2,[0;1;2;3]); (n_v'ovvo,[1;3;4;5])] [0;5;2;4]) (2) 1);
  (*620*) AddTo n_t2new (Plain (Einsum [(n_t2,[0;1;2;3]); (n_v'vvvv,[4;2;5;3])] [1;0;5;4]));
  (*621*) AddTo n_t2new (Plain (Einsum [(n_v'vovo,[0;1;2;3])] [3;1;2;0]));
  (*622*) SubFrom n_t2new (Plain (Einsum [(n_t1,[0;1]); (n_v'oovo,[0;2;3;4])] [4;2;3;1]));
  (*623*) AddTo n_s1new (Times (Einsum [(n_g'bov,[0;1;2]); (n_u12,[3;0;1;2])] [3]) (2) 1);
  (*624*) AddTo n_s1new (Plain (Einsum [(n_s1,[0]); (n_w,[0;1])] [1]));
  (*625*) AddTo n_s1new (Plain (Einsum [(n_G,[0])] [0]));
  (*626*) AddTo n_s1new (Times (Einsum [(n_t1,[0;1]); (n_gc'bov,[2;0;1])] [2]) (2) 1);
  (*627*) AddTo n_u11new (Plain (Einsum [(n_g'bvv,[0;1;2]); (n_u12,[3;0;4;2])] [3;4;1]));
  (*628*) AddTo n_u11new (Plain (Einsum [(n_s2,[0;1]); (n_g'bvo,[1;2;3])] [0;3;2]));
  (*629*) AddTo n_u11new (Plain (Einsum [(n_gc'bvo,[0;1;2])] [0;2;1]))]
 [(n_t1new,[0;1]); (n_t2new,[0;0;1;1]); (n_s1new,[3]); (n_s2new,[3;3]); (n_u11new,[3;0;1]); (n_u12new,[3;3;0;1])].

(** ebcc/codegen/RCCSD_SD_1_2.py:633-1704 [update_lams] *)
Definition RCCSD_SD_1_2_update_lams : prog := mkprog
 [(n_g'boo,[3;0;0]); (n_g'bvo,[3;1;0]); (n_g'bov,[3;0;1]); (n_g'bvv,[3;1;1]); (n_s1,[3]); (n_f'ov,[0;1]); (n_t2,[0;0;1;1]); (n_v'ovvv,[0;1;1;1]); (n_t1,[0;1]); (n_v'ovov,[0;1;0;1]); (n_l1,[1;0]); (n_u11,[3;0;1]); (n_u12,[3;3;0;1]); (n_lu12,[3;3;1;0]); (n_v'ooov,[0;0;0;1]); (n_v'oovv,[0;0;1;1]); (n_v'ovvo,[0;1;1;0]); (n_l2,[1;1;0;0]); (n_v'oooo,[0;0;0;0]); (n_v'oovo,[0;0;1;0]); (n_lu11,[3;1;0]); (n_v'vvvv,[1;1;1;1]); (n_v'vovv,[1;0;1;1]); (n_ls1,[3]); (n_s2,[3;3]); (n_ls2,[3;3]); (n_f'oo,[0;0]); (n_f'vv,[1;1]); (n_G,[3]); (n_f'vo,[1;0]); (n_w,[3;3])]
 [(*635*) Assign n_gc'boo (Plain (Transpose n_g'boo [0;2;1]));
  (*635*) Assign n_gc'bov (Plain (Transpose n_g'bvo [0;2;1]));
  (*635*) Assign n_gc'bvo (Plain (Transpose n_g'bov [0;2;1]));
  (*635*) Assign n_gc'bvv (Plain (Transpose n_g'bvv [0;2;1]));
  (*643*) Assign (T 1) (Plain (Zeros [0;1]));
  (*644*) AddTo (T 1) (Plain (Einsum [(n_s1,[0]); (n_g'bov,[0;1;2])] [1;2]));
  (*645*) Assign (T 2) (Plain (Zeros [0;1]));
  (*646*) AddTo (T 2) (Plain (Einsum [(T 1,[0;1])] [0;1]));
  (*647*) Assign (T 53) (Plain (Zeros [0;1]));
  (*648*) AddTo (T 53) (Times (Einsum [(T 1,[0;1])] [0;1]) (1) 2);
  (*649*) Assign (T 65) (Plain (Zeros [0;1]));
  (*650*) AddTo (T 65) (Plain (Einsum [(T 1,[0;1])] [0;1]));
  (*651*) Assign (T 113) (Plain (Zeros [0;1]));
  (*652*) AddTo (T 113) (Plain (Einsum [(T 1,[0;1])] [0;1]));
  (*653*) Assign (T 164) (Plain (Zeros [0;1]));
  (*654*) AddTo (T 164) (Plain (Einsum [(T 1,[0;1])] [0;1]));
  (*655*) Del (T 1);
  (*656*) AddTo (T 2) (Plain (Einsum [(n_f'ov,[0;1])] [0;1]));
  (*657*) Assign (T 3) (Plain (Zeros [0;0;0;1]));
  (*658*) AddTo (T 3) (Times (Einsum [(T 2,[0;1]); (n_t2,[2;3;1;4])] [2;3;0;4]) (1) 2);
  (*659*) Del (T 2);
  (*660*) Assign (T 21) (Plain (Zeros [0;0;0;1]));
  (*661*) AddTo (T 21) (Plain (Einsum [(T 3,[0;1;2;3])] [0;2;1;3]));
  (*662*) AddTo (T 21) (Times (Einsum [(T 3,[0;1;2;3])] [1;2;0;3]) (-2) 1);
  (*663*) Del (T 3);
  (*664*) Assign (T 4) (Plain (Zeros [0;0;0;1]));
  (*665*) AddTo (T 4) (Plain (Einsum [(n_t2,[0;1;2;3]); (n_v'ovvv,[4;3;5;2])] [1;0;4;5]));
  (*666*) Assign (T 12) (Plain (Zeros [0;0;0;1]));
  (*667*) AddTo (T 12) (Times (Einsum [(T 4,[0;1;2;3])] [0;1;2;3]) (-1) 1);
  (*668*) Del (T 4);
  (*669*) Assign (T 5) (Plain (Zeros [0;0;1;1]));
  (*670*) AddTo (T 5) (Plain (Einsum [(n_t1,[0;1]); (n_v'ovvv,[2;3;4;1])] [0;2;4;3]));
  (*671*) Assign (T 6) (Plain (Zeros [0;0;0;1]));
  (*672*) AddTo (T 6) (Plain (Einsum [(n_t1,[0;1]); (T 5,[2;3;4;1])] [0;2;3;4]));
  (*673*) AddTo (T 12) (Times (Einsum [(T 6,[0;1;2;3])] [0;1;2;3]) (-1) 1);
  (*674*) Del (T 6);
  (*675*) Assign (T 38) (Plain (Zeros [0;0;1;1]));
  (*676*) AddTo (T 38) (Plain (Einsum [(T 5,[0;1;2;3])] [1;0;2;3]));
  (*677*) Assign (T 179) (Plain (Zeros [0;0;1;1]));
  (*678*) AddTo (T 179) (Plain (Einsum [(T 5,[0;1;2;3])] [0;1;2;3]));
  (*679*) Del (T 5);
  (*680*) Assign (T 7) (Plain (Zeros [0;0;0;0]));
  (*681*) AddTo (T 7) (Plain (Einsum [(n_t2,[0;1;2;3]); (n_v'ovov,[4;2;5;3])] [0;1;4;5]));
  (*682*) Assign (T 10) (Plain (Zeros [0;0;0;0]));
  (*683*) AddTo (T 10) (Plain (Einsum [(T 7,[0;1;2;3])] [1;0;3;2]));
  (*684*) Assign (T 193) (Plain (Zeros [0;0;0;0]));
  (*685*) AddTo (T 193) (Plain (Einsum [(T 7,[0;1;2;3])] [3;2;1;0]));
  (*686*) Del (T 7);
  (*687*) Assign (T 8) (Plain (Zeros [0;0;0;1]));
  (*688*) AddTo (T 8) (Plain (Einsum [(n_t1,[0;1]); (n_v'ovov,[2;3;4;1])] [0;2;4;3]));
  (*689*) Assign (T 9) (Plain (Zeros [0;0;0;0]));
  (*690*) AddTo (T 9) (Plain (Einsum [(n_t1,[0;1]); (T 8,[2;3;4;1])] [0;2;3;4]));
  (*691*) AddTo (T 10) (Plain (Einsum [(T 9,[0;1;2;3])] [0;1;2;3]));
  (*692*) Assign (T 11) (Plain (Zeros [0;0;0;1]));
  (*693*) AddTo (T 11) (Plain (Einsum [(n_t1,[0;1]); (T 10,[2;3;0;4])] [2;3;4;1]));
  (*694*) Del (T 10);
  (*695*) AddTo (T 12) (Plain (Einsum [(T 11,[0;1;2;3])] [1;0;2;3]));
  (*696*) Del (T 11);
  (*697*) AddTo (T 21) (Plain (Einsum [(T 12,[0;1;2;3])] [1;2;0;3]));
  (*698*) AddTo (T 21) (Times (Einsum [(T 12,[0;1;2;3])] [0;2;1;3]) (-1) 2);
  (*699*) Del (T 12);
  (*700*) AddTo (T 193) (Plain (Einsum [(T 9,[0;1;2;3])] [3;2;1;0]));
  (*701*) Del (T 9);
  (*702*) Assign (T 16) (Plain (Zeros [0;0;0;1]));
  (*703*) AddTo (T 16) (Times (Einsum [(T 8,[0;1;2;3])] [0;2;1;3]) (-1) 2);
  (*704*) AddTo (T 16) (Plain (Einsum [(T 8,[0;1;2;3])] [0;1;2;3]));
  (*705*) Assign (T 17) (Plain (Zeros [0;0;0;1]));
  (*706*) AddTo (T 17) (Times (Einsum [(T 8,[0;1;2;3])] [0;2;1;3]) (2) 1);
  (*707*) AddTo (T 17) (Times (Einsum [(T 8,[0;1;2;3])] [0;1;2;3]) (-1) 1);
  (*708*) Assign (T 25) (Plain (Zeros [0;0;0;1]));
  (*709*) AddTo (T 25) (Times (Einsum [(T 8,[0;1;2;3])] [0;2;1;3]) (2) 1);
  (*710*) SubFrom (T 25) (Plain (Einsum [(T 8,[0;1;2;3])] [0;1;2;3]));
  (*711*) Assign (T 52) (Plain (Zeros [0;0;0;1]));
  (*712*) AddTo (T 52) (Times (Einsum [(T 8,[0;1;2;3])] [1;2;0;3]) (-1) 2);
  (*713*) AddTo (T 52) (Plain (Einsum [(T 8,[0;1;2;3])] [2;1;0;3]));
  (*714*) Assign (T 63) (Plain (Zeros [0;0;0;1]));
  (*715*) AddTo (T 63) (Times (Einsum [(T 8,[0;1;2;3])] [1;2;0;3]) (-1) 1);
  (*716*) AddTo (T 63) (Times (Einsum [(T 8,[0;1;2;3])] [2;1;0;3]) (2) 1);
  (*717*) Assign (T 153) (Plain (Zeros [0;0;1;1]));
  (*718*) AddTo (T 153) (Plain (Einsum [(n_l1,[0;1]); (T 8,[1;2;3;4])] [2;3;0;4]));
  (*719*) Assign (T 171) (Plain (Zeros [0;0;1;1]));
  (*720*) AddTo (T 171) (Plain (Einsum [(T 153,[0;1;2;3])] [0;1;2;3]));
  (*721*) Del (T 153);
  (*722*) Assign (T 159) (Plain (Zeros [0;0;0;1]));
  (*723*) AddTo (T 159) (Plain (Einsum [(T 8,[0;1;2;3])] [0;1;2;3]));
  (*724*) Assign (T 240) (Plain (Zeros [0;0;0;1]));
  (*725*) SubFrom (T 240) (Plain (Einsum [(T 8,[0;1;2;3])] [0;2;1;3]));
  (*726*) AddTo (T 240) (Times (Einsum [(T 8,[0;1;2;3])] [0;1;2;3]) (2) 1);
  (*727*) Del (T 8);
  (*728*) Assign (T 13) (Plain (Zeros [0;0;1;1]));
  (*729*) AddTo (T 13) (Plain (Einsum [(n_v'ovov,[0;1;2;3])] [2;0;1;3]));
  (*730*) AddTo (T 13) (Times (Einsum [(n_v'ovov,[0;1;2;3])] [2;0;3;1]) (-1) 2);
  (*731*) Assign (T 14) (Plain (Zeros [0;1]));
  (*732*) AddTo (T 14) (Plain (Einsum [(n_t1,[0;1]); (T 13,[0;2;3;1])] [2;3]));
  (*733*) Assign (T 15) (Plain (Zeros [0;0;0;1]));
  (*734*) AddTo (T 15) (Plain (Einsum [(T 14,[0;1]); (n_t2,[2;3;1;4])] [2;3;0;4]));
  (*735*) AddTo (T 21) (Plain (Einsum [(T 15,[0;1;2;3])] [0;2;1;3]));
  (*736*) AddTo (T 21) (Times (Einsum [(T 15,[0;1;2;3])] [1;2;0;3]) (-2) 1);
  (*737*) Del (T 15);
  (*738*) AddTo (T 53) (Plain (Einsum [(T 14,[0;1])] [0;1]));
  (*739*) Del (T 14);
  (*740*) Assign (T 55) (Plain (Zeros [3;0;1]));
  (*741*) AddTo (T 55) (Plain (Einsum [(n_u11,[0;1;2]); (T 13,[1;3;4;2])] [0;3;4]));
  (*742*) Assign (T 64) (Plain (Zeros [0;1]));
  (*743*) AddTo (T 64) (Times (Einsum [(n_t1,[0;1]); (T 13,[0;2;3;1])] [2;3]) (2) 1);
  (*744*) AddTo (T 65) (Plain (Einsum [(T 64,[0;1])] [0;1]));
  (*745*) Del (T 64);
  (*746*) Assign (T 125) (Plain (Zeros [3;0;1]));
  (*747*) AddTo (T 125) (Times (Einsum [(n_u11,[0;1;2]); (T 13,[1;3;4;2])] [0;3;4]) (2) 1);
  (*748*) Assign (T 126) (Plain (Zeros [3;0;1]));
  (*749*) AddTo (T 126) (Plain (Einsum [(T 125,[0;1;2])] [0;1;2]));
  (*750*) Assign (T 195) (Plain (Zeros [3;0;1]));
  (*751*) AddTo (T 195) (Plain (Einsum [(T 125,[0;1;2])] [0;1;2]));
  (*752*) Assign (T 200) (Plain (Zeros [3;0;1]));
  (*753*) AddTo (T 200) (Plain (Einsum [(T 125,[0;1;2])] [0;1;2]));
  (*754*) Del (T 125);
  (*755*) Assign (T 140) (Plain (Zeros [3;3;0;1]));
  (*756*) AddTo (T 140) (Plain (Einsum [(n_u12,[0;1;2;3]); (T 13,[2;4;5;3])] [0;1;4;5]));
  (*757*) Del (T 13);
  (*758*) Assign (T 141) (Plain (Zeros [0;0;1;1]));
  (*759*) AddTo (T 141) (Plain (Einsum [(n_lu12,[0;1;2;3]); (T 140,[1;0;4;5])] [4;3;5;2]));
  (*760*) Del (T 140);
  (*761*) Assign (T 146) (Plain (Zeros [0;0;1;1]));
  (*762*) AddTo (T 146) (Plain (Einsum [(T 141,[0;1;2;3])] [1;0;3;2]));
  (*763*) Del (T 141);
  (*764*) AddTo (T 16) (Plain (Einsum [(n_v'ooov,[0;1;2;3])] [1;2;0;3]));
  (*765*) AddTo (T 16) (Times (Einsum [(n_v'ooov,[0;1;2;3])] [1;0;2;3]) (-1) 2);
  (*766*) AddTo (T 21) (Plain (Einsum [(n_t2,[0;1;2;3]); (T 16,[4;0;5;2])] [4;5;1;3]));
  (*767*) Del (T 16);
  (*768*) AddTo (T 17) (Times (Einsum [(n_v'ooov,[0;1;2;3])] [1;2;0;3]) (-1) 1);
  (*769*) AddTo (T 17) (Times (Einsum [(n_v'ooov,[0;1;2;3])] [1;0;2;3]) (2) 1);
  (*770*) AddTo (T 21) (Times (Einsum [(n_t2,[0;1;2;3]); (T 17,[4;0;5;3])] [4;5;1;2]) (1) 2);
  (*771*) Del (T 17);
  (*772*) Assign (T 18) (Plain (Zeros [0;0;1;1]));
  (*773*) AddTo (T 18) (Times (Einsum [(n_v'oovv,[0;1;2;3])] [0;1;2;3]) (2) 1);
  (*774*) AddTo (T 18) (Times (Einsum [(n_v'ovvo,[0;1;2;3])] [0;3;2;1]) (-1) 1);
  (*775*) AddTo (T 21) (Times (Einsum [(n_t1,[0;1]); (T 18,[2;3;4;1])] [0;2;3;4]) (-1) 2);
  (*776*) Del (T 18);
  (*777*) Assign (T 19) (Plain (Zeros [0;0;0;0]));
  (*778*) AddTo (T 19) (Plain (Einsum [(n_t1,[0;1]); (n_v'ooov,[2;3;4;1])] [0;2;4;3]));
  (*779*) Assign (T 20) (Plain (Zeros [0;0;0;0]));
  (*780*) AddTo (T 20) (Times (Einsum [(T 19,[0;1;2;3])] [1;2;0;3]) (-1) 2);
  (*781*) AddTo (T 20) (Plain (Einsum [(T 19,[0;1;2;3])] [2;1;0;3]));
  (*782*) Assign (T 28) (Plain (Zeros [0;0;0;0]));
  (*783*) SubFrom (T 28) (Plain (Einsum [(T 19,[0;1;2;3])] [0;2;1;3]));
  (*784*) AddTo (T 28) (Times (Einsum [(T 19,[0;1;2;3])] [0;1;2;3]) (2) 1);
  (*785*) Assign (T 29) (Plain (Zeros [0;0;0;1]));
  (*786*) AddTo (T 29) (Plain (Einsum [(n_t1,[0;1]); (T 28,[2;0;3;4])] [2;3;4;1]));
  (*787*) Del (T 28);
  (*788*) Assign (T 155) (Plain (Zeros [0;0;1;1]));
  (*789*) AddTo (T 155) (Plain (Einsum [(n_l2,[0;1;2;3]); (T 19,[3;4;5;2])] [4;5;1;0]));
  (*790*) Del (T 19);
  (*791*) SubFrom (T 171) (Plain (Einsum [(T 155,[0;1;2;3])] [0;1;2;3]));
  (*792*) Del (T 155);
  (*793*) AddTo (T 20) (Times (Einsum [(n_v'oooo,[0;1;2;3])] [2;0;1;3]) (-1) 2);
  (*794*) AddTo (T 20) (Plain (Einsum [(n_v'oooo,[0;1;2;3])] [2;0;3;1]));
  (*795*) AddTo (T 21) (Plain (Einsum [(n_t1,[0;1]); (T 20,[0;2;3;4])] [3;2;4;1]));
  (*796*) Del (T 20);
  (*797*) AddTo (T 21) (Times (Einsum [(n_v'oovo,[0;1;2;3])] [3;0;1;2]) (-1) 1);
  (*798*) AddTo (T 21) (Times (Einsum [(n_v'oovo,[0;1;2;3])] [1;0;3;2]) (1) 2);
  (*799*) Assign n_l1new (Plain (Zeros [1;0]));
  (*800*) AddTo n_l1new (Times (Einsum [(n_l2,[0;1;2;3]); (T 21,[2;4;3;0])] [1;4]) (2) 1);
  (*801*) Del (T 21);
  (*802*) Assign (T 22) (Plain (Zeros [0;0;1;1]));
  (*803*) AddTo (T 22) (Times (Einsum [(n_l2,[0;1;2;3])] [3;2;0;1]) (-1) 1);
  (*804*) AddTo (T 22) (Times (Einsum [(n_l2,[0;1;2;3])] [3;2;1;0]) (2) 1);
  (*805*) Assign (T 23) (Plain (Zeros [0;0;1;1]));
  (*806*) AddTo (T 23) (Times (Einsum [(n_t2,[0;1;2;3]); (T 22,[0;4;2;5])] [4;1;5;3]) (-1) 1);
  (*807*) Del (T 22);
  (*808*) AddTo (T 23) (Times (Einsum [(n_lu12,[0;1;2;3]); (n_u12,[0;1;4;5])] [3;4;2;5]) (-1) 2);
  (*809*) AddTo (T 23) (Plain (Einsum [(n_l2,[0;1;2;3]); (n_t2,[4;3;1;5])] [2;4;0;5]));
  (*810*) Assign (T 24) (Plain (Zeros [0;1;1;1]));
  (*811*) SubFrom (T 24) (Plain (Einsum [(n_v'ovvv,[0;1;2;3])] [0;2;1;3]));
  (*812*) AddTo (T 24) (Times (Einsum [(n_v'ovvv,[0;1;2;3])] [0;2;3;1]) (2) 1);
  (*813*) Assign (T 124) (Plain (Zeros [3;1;1]));
  (*814*) AddTo (T 124) (Plain (Einsum [(n_u11,[0;1;2]); (T 24,[1;3;4;2])] [0;3;4]));
  (*815*) Assign (T 130) (Plain (Zeros [1;1]));
  (*816*) AddTo (T 130) (Plain (Einsum [(n_t1,[0;1]); (T 24,[0;2;3;1])] [2;3]));
  (*817*) Assign (T 131) (Plain (Zeros [1;1]));
  (*818*) AddTo (T 131) (Plain (Einsum [(T 130,[0;1])] [0;1]));
  (*819*) Assign (T 188) (Plain (Zeros [0;0;1;1]));
  (*820*) AddTo (T 188) (Plain (Einsum [(T 130,[0;1]); (n_l2,[0;2;3;4])] [3;4;1;2]));
  (*821*) Del (T 130);
  (*822*) Assign (T 192) (Plain (Zeros [0;0;1;1]));
  (*823*) AddTo (T 192) (Plain (Einsum [(T 188,[0;1;2;3])] [1;0;3;2]));
  (*824*) Del (T 188);
  (*825*) AddTo n_l1new (Times (Einsum [(T 23,[0;1;2;3]); (T 24,[1;2;4;3])] [4;0]) (-1) 1);
  (*826*) Del (T 23);
  (*827*) Del (T 24);
  (*828*) SubFrom (T 25) (Plain (Einsum [(n_v'ooov,[0;1;2;3])] [1;2;0;3]));
  (*829*) AddTo (T 25) (Times (Einsum [(n_v'ooov,[0;1;2;3])] [1;0;2;3]) (2) 1);
  (*830*) Assign (T 26) (Plain (Zeros [0;0;1;1]));
  (*831*) AddTo (T 26) (Times (Einsum [(n_t2,[0;1;2;3])] [1;0;2;3]) (2) 1);
  (*832*) SubFrom (T 26) (Plain (Einsum [(n_t2,[0;1;2;3])] [1;0;3;2]));
  (*833*) SubFrom (T 29) (Plain (Einsum [(T 25,[0;1;2;3]); (T 26,[2;4;5;3])] [0;1;4;5]));
  (*834*) Del (T 25);
  (*835*) Assign (T 225) (Plain (Zeros [3;0;1]));
  (*836*) AddTo (T 225) (Plain (Einsum [(n_g'bov,[0;1;2]); (T 26,[1;3;4;2])] [0;3;4]));
  (*837*) Assign (T 226) (Plain (Zeros [3;0;1]));
  (*838*) AddTo (T 226) (Plain (Einsum [(T 225,[0;1;2])] [0;1;2]));
  (*839*) Del (T 225);
  (*840*) Assign (T 238) (Plain (Zeros [3;3;0;1]));
  (*841*) AddTo (T 238) (Plain (Einsum [(n_lu12,[0;1;2;3]); (T 26,[3;4;5;2])] [1;0;4;5]));
  (*842*) Del (T 26);
  (*843*) Assign (T 27) (Plain (Zeros [0;0;1;1]));
  (*844*) AddTo (T 27) (Times (Einsum [(n_v'ovvo,[0;1;2;3])] [0;3;2;1]) (2) 1);
  (*845*) SubFrom (T 27) (Plain (Einsum [(n_v'oovv,[0;1;2;3])] [0;1;2;3]));
  (*846*) SubFrom (T 29) (Plain (Einsum [(n_t1,[0;1]); (T 27,[2;3;4;1])] [0;2;3;4]));
  (*847*) AddTo n_l1new (Plain (Einsum [(n_l2,[0;1;2;3]); (T 29,[2;4;3;1])] [0;4]));
  (*848*) Del (T 29);
  (*849*) AddTo n_l1new (Plain (Einsum [(n_l1,[0;1]); (T 27,[2;1;0;3])] [3;2]));
  (*850*) Assign n_lu11new (Plain (Zeros [3;1;0]));
  (*851*) AddTo n_lu11new (Plain (Einsum [(n_lu11,[0;1;2]); (T 27,[3;2;1;4])] [0;4;3]));
  (*852*) Del (T 27);
  (*853*) Assign (T 30) (Plain (Zeros [0;1;1;1]));
  (*854*) AddTo (T 30) (Plain (Einsum [(n_t1,[0;1]); (n_v'vvvv,[2;3;4;1])] [0;2;4;3]));
  (*855*) Assign (T 31) (Plain (Zeros [0;1;1;1]));
  (*856*) AddTo (T 31) (Plain (Einsum [(T 30,[0;1;2;3])] [0;1;2;3]));
  (*857*) AddTo (T 31) (Times (Einsum [(T 30,[0;1;2;3])] [0;2;1;3]) (-1) 2);
  (*858*) Del (T 30);
  (*859*) AddTo (T 31) (Times (Einsum [(n_v'vovv,[0;1;2;3])] [1;0;2;3]) (-1) 2);
  (*860*) AddTo (T 31) (Plain (Einsum [(n_v'vovv,[0;1;2;3])] [1;2;0;3]));
  (*861*) AddTo n_l1new (Times (Einsum [(n_l2,[0;1;2;3]); (T 31,[2;1;0;4])] [4;3]) (2) 1);
  (*862*) Del (T 31);
  (*863*) Assign (T 32) (Plain (Zeros [3;3;0;0]));
  (*864*) AddTo (T 32) (Plain (Einsum [(n_t1,[0;1]); (n_lu12,[2;3;1;4])] [2;3;4;0]));
  (*865*) Assign (T 35) (Plain (Zeros [0;0;0;1]));
  (*866*) AddTo (T 35) (Times (Einsum [(n_u12,[0;1;2;3]); (T 32,[0;1;4;5])] [4;5;2;3]) (-1) 4);
  (*867*) Assign (T 87) (Plain (Zeros [0;1]));
  (*868*) AddTo (T 87) (Plain (Einsum [(n_u12,[0;1;2;3]); (T 32,[0;1;2;4])] [4;3]));
  (*869*) Assign (T 100) (Plain (Zeros [0;1]));
  (*870*) AddTo (T 100) (Times (Einsum [(T 87,[0;1])] [0;1]) (1) 2);
  (*871*) Del (T 87);
  (*872*) Assign (T 222) (Plain (Zeros [3;0;1]));
  (*873*) AddTo (T 222) (Plain (Einsum [(n_u11,[0;1;2]); (T 32,[3;0;1;4])] [3;4;2]));
  (*874*) Assign (T 223) (Plain (Zeros [3;3]));
  (*875*) AddTo (T 223) (Plain (Einsum [(n_g'bov,[0;1;2]); (T 222,[3;1;2])] [0;3]));
  (*876*) Del (T 222);
  (*877*) Assign (T 229) (Plain (Zeros [3;3]));
  (*878*) SubFrom (T 229) (Times (Einsum [(T 223,[0;1])] [0;1]) (2) 1);
  (*879*) Del (T 223);
  (*880*) Assign n_lu12new (Plain (Zeros [3;3;1;0]));
  (*881*) SubFrom n_lu12new (Plain (Einsum [(T 240,[0;1;2;3]); (T 32,[4;5;0;2])] [5;4;3;1]));
  (*882*) Del (T 240);
  (*883*) Assign (T 33) (Plain (Zeros [0;0;0;1]));
  (*884*) AddTo (T 33) (Plain (Einsum [(n_t1,[0;1]); (n_l2,[2;1;3;4])] [3;4;0;2]));
  (*885*) AddTo (T 35) (Times (Einsum [(n_t2,[0;1;2;3]); (T 33,[4;1;5;3])] [4;5;0;2]) (1) 2);
  (*886*) Assign (T 37) (Plain (Zeros [0;0;0;1]));
  (*887*) SubFrom (T 37) (Plain (Einsum [(T 33,[0;1;2;3])] [0;1;2;3]));
  (*888*) AddTo (T 37) (Times (Einsum [(T 33,[0;1;2;3])] [1;0;2;3]) (2) 1);
  (*889*) Assign (T 39) (Plain (Zeros [0;0;0;1]));
  (*890*) AddTo (T 39) (Times (Einsum [(T 33,[0;1;2;3])] [0;1;2;3]) (2) 1);
  (*891*) SubFrom (T 39) (Plain (Einsum [(T 33,[0;1;2;3])] [1;0;2;3]));
  (*892*) Assign (T 44) (Plain (Zeros [0;0;0;1]));
  (*893*) AddTo (T 44) (Plain (Einsum [(n_t2,[0;1;2;3]); (T 33,[4;1;5;2])] [4;5;0;3]));
  (*894*) Assign (T 46) (Plain (Zeros [0;0;0;1]));
  (*895*) AddTo (T 46) (Times (Einsum [(T 44,[0;1;2;3])] [0;1;2;3]) (2) 1);
  (*896*) Assign (T 51) (Plain (Zeros [0;0;0;1]));
  (*897*) AddTo (T 51) (Plain (Einsum [(T 44,[0;1;2;3])] [0;1;2;3]));
  (*898*) Del (T 44);
  (*899*) Assign (T 48) (Plain (Zeros [0;0;0;0]));
  (*900*) AddTo (T 48) (Plain (Einsum [(n_t1,[0;1]); (T 33,[2;3;4;1])] [2;3;0;4]));
  (*901*) Assign (T 49) (Plain (Zeros [0;0;0;0]));
  (*902*) AddTo (T 49) (Plain (Einsum [(T 48,[0;1;2;3])] [0;1;2;3]));
  (*903*) Assign (T 58) (Plain (Zeros [0;0;0;0]));
  (*904*) AddTo (T 58) (Times (Einsum [(T 48,[0;1;2;3])] [0;1;2;3]) (2) 1);
  (*905*) AddTo (T 58) (Times (Einsum [(T 48,[0;1;2;3])] [0;1;3;2]) (-1) 1);
  (*906*) AddTo n_l1new (Plain (Einsum [(n_v'ooov,[0;1;2;3]); (T 58,[4;1;2;0])] [3;4]));
  (*907*) Del (T 58);
  (*908*) Assign (T 194) (Plain (Zeros [0;0;0;0]));
  (*909*) AddTo (T 194) (Plain (Einsum [(T 48,[0;1;2;3])] [0;1;2;3]));
  (*910*) Del (T 48);
  (*911*) Assign (T 174) (Plain (Zeros [0;0;1;1]));
  (*912*) AddTo (T 174) (Plain (Einsum [(n_v'ovvv,[0;1;2;3]); (T 33,[4;5;0;2])] [5;4;1;3]));
  (*913*) SubFrom (T 192) (Plain (Einsum [(T 174,[0;1;2;3])] [0;1;2;3]));
  (*914*) Del (T 174);
  (*915*) Assign (T 34) (Plain (Zeros [0;0;1;1]));
  (*916*) AddTo (T 34) (Times (Einsum [(n_t2,[0;1;2;3])] [1;0;2;3]) (2) 1);
  (*917*) AddTo (T 34) (Times (Einsum [(n_t2,[0;1;2;3])] [1;0;3;2]) (-1) 1);
  (*918*) AddTo (T 35) (Times (Einsum [(T 33,[0;1;2;3]); (T 34,[0;4;5;3])] [1;2;4;5]) (-1) 2);
  (*919*) Assign (T 89) (Plain (Zeros [0;1]));
  (*920*) AddTo (T 89) (Plain (Einsum [(n_l1,[0;1]); (T 34,[1;2;3;0])] [2;3]));
  (*921*) AddTo (T 100) (Times (Einsum [(T 89,[0;1])] [0;1]) (-1) 1);
  (*922*) Del (T 89);
  (*923*) Assign (T 36) (Plain (Zeros [0;0;1;1]));
  (*924*) SubFrom (T 36) (Plain (Einsum [(n_v'ovov,[0;1;2;3])] [2;0;1;3]));
  (*925*) AddTo (T 36) (Times (Einsum [(n_v'ovov,[0;1;2;3])] [2;0;3;1]) (2) 1);
  (*926*) AddTo n_l1new (Times (Einsum [(T 35,[0;1;2;3]); (T 36,[1;2;4;3])] [4;0]) (2) 1);
  (*927*) Del (T 35);
  (*928*) Del (T 36);
  (*929*) AddTo (T 38) (Plain (Einsum [(n_v'ovvo,[0;1;2;3])] [0;3;2;1]));
  (*930*) SubFrom n_l1new (Plain (Einsum [(T 37,[0;1;2;3]); (T 38,[2;1;3;4])] [4;0]));
  (*931*) Del (T 37);
  (*932*) Del (T 38);
  (*933*) Assign (T 40) (Plain (Zeros [0;0;1;1]));
  (*934*) AddTo (T 40) (Plain (Einsum [(n_t1,[0;1]); (n_v'ovvv,[2;1;3;4])] [0;2;3;4]));
  (*935*) Assign (T 41) (Plain (Zeros [0;0;1;1]));
  (*936*) AddTo (T 41) (Plain (Einsum [(T 40,[0;1;2;3])] [1;0;2;3]));
  (*937*) Assign (T 157) (Plain (Zeros [0;0;1;1]));
  (*938*) AddTo (T 157) (Plain (Einsum [(T 40,[0;1;2;3])] [0;1;2;3]));
  (*939*) Del (T 40);
  (*940*) AddTo (T 41) (Plain (Einsum [(n_v'oovv,[0;1;2;3])] [0;1;2;3]));
  (*941*) SubFrom n_l1new (Plain (Einsum [(T 39,[0;1;2;3]); (T 41,[2;1;3;4])] [4;0]));
  (*942*) Del (T 41);
  (*943*) Assign (T 42) (Plain (Zeros [0;1;1;1]));
  (*944*) AddTo (T 42) (Times (Einsum [(n_v'ovvv,[0;1;2;3])] [0;2;1;3]) (2) 1);
  (*945*) SubFrom (T 42) (Plain (Einsum [(n_v'ovvv,[0;1;2;3])] [0;2;3;1]));
  (*946*) Assign (T 239) (Plain (Zeros [0;0;1;1]));
  (*947*) AddTo (T 239) (Plain (Einsum [(n_t1,[0;1]); (T 42,[2;3;4;1])] [2;0;3;4]));
  (*948*) Assign (T 43) (Plain (Zeros [0;0;1;1]));
  (*949*) AddTo (T 43) (Plain (Einsum [(n_l2,[0;1;2;3]); (n_t2,[4;3;0;5])] [2;4;1;5]));
  (*950*) SubFrom n_l1new (Plain (Einsum [(T 42,[0;1;2;3]); (T 43,[4;0;1;3])] [2;4]));
  (*951*) Del (T 42);
  (*952*) Del (T 43);
  (*953*) Assign (T 45) (Plain (Zeros [0;0;0;1]));
  (*954*) AddTo (T 45) (Plain (Einsum [(n_l1,[0;1]); (n_t2,[2;3;4;0])] [1;2;3;4]));
  (*955*) AddTo (T 46) (Plain (Einsum [(T 45,[0;1;2;3])] [0;2;1;3]));
  (*956*) AddTo (T 46) (Times (Einsum [(T 45,[0;1;2;3])] [0;1;2;3]) (-2) 1);
  (*957*) Del (T 45);
  (*958*) AddTo n_l1new (Plain (Einsum [(n_v'ovov,[0;1;2;3]); (T 46,[4;0;2;1])] [3;4]));
  (*959*) Del (T 46);
  (*960*) Assign (T 47) (Plain (Zeros [0;0;0;0]));
  (*961*) AddTo (T 47) (Plain (Einsum [(n_l2,[0;1;2;3]); (n_t2,[4;5;1;0])] [2;3;5;4]));
  (*962*) AddTo (T 49) (Plain (Einsum [(T 47,[0;1;2;3])] [1;0;3;2]));
  (*963*) Assign (T 50) (Plain (Zeros [0;0;0;1]));
  (*964*) AddTo (T 50) (Plain (Einsum [(n_t1,[0;1]); (T 49,[0;2;3;4])] [2;3;4;1]));
  (*965*) Del (T 49);
  (*966*) AddTo (T 51) (Plain (Einsum [(T 50,[0;1;2;3])] [0;1;2;3]));
  (*967*) AddTo (T 51) (Times (Einsum [(T 50,[0;1;2;3])] [0;2;1;3]) (-2) 1);
  (*968*) Del (T 50);
  (*969*) AddTo n_l1new (Times (Einsum [(n_v'ovov,[0;1;2;3]); (T 51,[4;0;2;3])] [1;4]) (-1) 1);
  (*970*) Del (T 51);
  (*971*) Assign (T 57) (Plain (Zeros [0;0;0;0]));
  (*972*) AddTo (T 57) (Times (Einsum [(T 47,[0;1;2;3])] [1;0;2;3]) (2) 1);
  (*973*) AddTo (T 57) (Times (Einsum [(T 47,[0;1;2;3])] [1;0;3;2]) (-1) 1);
  (*974*) AddTo n_l1new (Plain (Einsum [(n_v'ooov,[0;1;2;3]); (T 57,[1;4;2;0])] [3;4]));
  (*975*) Del (T 57);
  (*976*) AddTo (T 194) (Plain (Einsum [(T 47,[0;1;2;3])] [1;0;3;2]));
  (*977*) Del (T 47);
  (*978*) Assign n_l2new (Plain (Zeros [1;1;0;0]));
  (*979*) AddTo n_l2new (Plain (Einsum [(n_v'ovov,[0;1;2;3]); (T 194,[4;5;2;0])] [1;3;5;4]));
  (*980*) Del (T 194);
  (*981*) AddTo (T 52) (Plain (Einsum [(n_v'ooov,[0;1;2;3])] [0;2;1;3]));
  (*982*) AddTo (T 52) (Times (Einsum [(n_v'ooov,[0;1;2;3])] [2;0;1;3]) (-1) 2);
  (*983*) Assign (T 56) (Plain (Zeros [3;3;0;0]));
  (*984*) AddTo (T 56) (Plain (Einsum [(n_u12,[0;1;2;3]); (T 52,[4;2;5;3])] [1;0;4;5]));
  (*985*) Del (T 52);
  (*986*) AddTo (T 53) (Times (Einsum [(n_f'ov,[0;1])] [0;1]) (1) 2);
  (*987*) AddTo (T 56) (Plain (Einsum [(T 53,[0;1]); (n_u12,[2;3;4;1])] [3;2;0;4]));
  (*988*) Assign (T 75) (Plain (Zeros [0;0]));
  (*989*) AddTo (T 75) (Times (Einsum [(n_t1,[0;1]); (T 53,[2;1])] [2;0]) (2) 1);
  (*990*) Assign (T 76) (Plain (Zeros [0;0]));
  (*991*) AddTo (T 76) (Plain (Einsum [(T 75,[0;1])] [0;1]));
  (*992*) Del (T 75);
  (*993*) Assign (T 129) (Plain (Zeros [3;3]));
  (*994*) AddTo (T 129) (Times (Einsum [(T 53,[0;1]); (n_u12,[2;3;0;1])] [3;2]) (2) 1);
  (*995*) Assign (T 201) (Plain (Zeros [3;0;0]));
  (*996*) AddTo (T 201) (Times (Einsum [(T 53,[0;1]); (n_u11,[2;3;1])] [2;0;3]) (2) 1);
  (*997*) AddTo n_lu11new (Times (Einsum [(n_ls1,[0]); (T 53,[1;2])] [0;2;1]) (4) 1);
  (*998*) Del (T 53);
  (*999*) Assign (T 54) (Plain (Zeros [3;0;1]));
  (*1000*) AddTo (T 54) (Plain (Einsum [(n_s2,[0;1]); (n_g'bov,[1;2;3])] [0;2;3]));
  (*1001*) AddTo (T 55) (Times (Einsum [(T 54,[0;1;2])] [0;1;2]) (1) 2);
  (*1002*) AddTo (T 195) (Plain (Einsum [(T 54,[0;1;2])] [0;1;2]));
  (*1003*) Del (T 54);
  (*1004*) AddTo (T 55) (Times (Einsum [(n_gc'bov,[0;1;2])] [0;1;2]) (1) 2);
  (*1005*) AddTo (T 56) (Times (Einsum [(n_u11,[0;1;2]); (T 55,[3;4;2])] [0;3;4;1]) (2) 1);
  (*1006*) Del (T 55);
  (*1007*) AddTo n_l1new (Times (Einsum [(n_lu12,[0;1;2;3]); (T 56,[0;1;4;3])] [2;4]) (-1) 1);
  (*1008*) Del (T 56);
  (*1009*) Assign (T 59) (Plain (Zeros [0;1]));
  (*1010*) AddTo (T 59) (Plain (Einsum [(n_s1,[0]); (n_g'bvo,[0;1;2])] [2;1]));
  (*1011*) Assign (T 83) (Plain (Zeros [0;1]));
  (*1012*) AddTo (T 83) (Plain (Einsum [(T 59,[0;1])] [0;1]));
  (*1013*) Assign (T 214) (Plain (Zeros [0;1]));
  (*1014*) AddTo (T 214) (Times (Einsum [(T 59,[0;1])] [0;1]) (1) 2);
  (*1015*) Del (T 59);
  (*1016*) Assign (T 60) (Plain (Zeros [0;1]));
  (*1017*) AddTo (T 60) (Plain (Einsum [(n_g'bvv,[0;1;2]); (n_u11,[0;3;2])] [3;1]));
  (*1018*) AddTo (T 83) (Plain (Einsum [(T 60,[0;1])] [0;1]));
  (*1019*) AddTo (T 214) (Times (Einsum [(T 60,[0;1])] [0;1]) (1) 2);
  (*1020*) Del (T 60);
  (*1021*) Assign (T 61) (Plain (Zeros [0;1]));
  (*1022*) AddTo (T 61) (Plain (Einsum [(n_t2,[0;1;2;3]); (n_v'ooov,[1;4;0;3])] [4;2]));
  (*1023*) AddTo (T 83) (Plain (Einsum [(T 61,[0;1])] [0;1]));
  (*1024*) AddTo (T 214) (Times (Einsum [(T 61,[0;1])] [0;1]) (1) 2);
  (*1025*) Del (T 61);
  (*1026*) Assign (T 62) (Plain (Zeros [0;0;1;1]));
  (*1027*) AddTo (T 62) (Times (Einsum [(n_t2,[0;1;2;3])] [1;0;2;3]) (-1) 2);
  (*1028*) AddTo (T 62) (Plain (Einsum [(n_t2,[0;1;2;3])] [1;0;3;2]));
  (*1029*) Assign (T 72) (Plain (Zeros [0;0]));
  (*1030*) AddTo (T 72) (Times (Einsum [(n_v'ovov,[0;1;2;3]); (T 62,[0;4;1;3])] [4;2]) (2) 1);
  (*1031*) AddTo (T 76) (Plain (Einsum [(T 72,[0;1])] [1;0]));
  (*1032*) Del (T 72);
  (*1033*) AddTo (T 83) (Times (Einsum [(n_v'ovvv,[0;1;2;3]); (T 62,[0;4;1;3])] [4;2]) (2) 1);
  (*1034*) Assign (T 97) (Plain (Zeros [0;0]));
  (*1035*) AddTo (T 97) (Times (Einsum [(n_l2,[0;1;2;3]); (T 62,[2;4;0;1])] [4;3]) (2) 1);
  (*1036*) Assign (T 98) (Plain (Zeros [0;0]));
  (*1037*) AddTo (T 98) (Plain (Einsum [(T 97,[0;1])] [1;0]));
  (*1038*) Assign (T 149) (Plain (Zeros [0;0]));
  (*1039*) AddTo (T 149) (Plain (Einsum [(T 97,[0;1])] [1;0]));
  (*1040*) Assign (T 216) (Plain (Zeros [0;0]));
  (*1041*) AddTo (T 216) (Plain (Einsum [(T 97,[0;1])] [1;0]));
  (*1042*) Del (T 97);
  (*1043*) Assign (T 105) (Plain (Zeros [1;1]));
  (*1044*) AddTo (T 105) (Times (Einsum [(n_l2,[0;1;2;3]); (T 62,[2;3;0;4])] [4;1]) (2) 1);
  (*1045*) Assign (T 106) (Plain (Zeros [1;1]));
  (*1046*) AddTo (T 106) (Plain (Einsum [(T 105,[0;1])] [1;0]));
  (*1047*) Assign (T 147) (Plain (Zeros [1;1]));
  (*1048*) AddTo (T 147) (Plain (Einsum [(T 105,[0;1])] [1;0]));
  (*1049*) Del (T 105);
  (*1050*) Assign (T 142) (Plain (Zeros [1;1]));
  (*1051*) AddTo (T 142) (Times (Einsum [(n_v'ovov,[0;1;2;3]); (T 62,[0;2;4;3])] [4;1]) (2) 1);
  (*1052*) Assign (T 143) (Plain (Zeros [0;0;1;1]));
  (*1053*) AddTo (T 143) (Plain (Einsum [(T 142,[0;1]); (n_l2,[0;2;3;4])] [3;4;1;2]));
  (*1054*) Del (T 142);
  (*1055*) AddTo (T 146) (Times (Einsum [(T 143,[0;1;2;3])] [1;0;3;2]) (-1) 1);
  (*1056*) Del (T 143);
  (*1057*) Assign (T 206) (Plain (Zeros [0;1]));
  (*1058*) AddTo (T 206) (Plain (Einsum [(n_v'ovvv,[0;1;2;3]); (T 62,[0;4;1;3])] [4;2]));
  (*1059*) AddTo (T 214) (Plain (Einsum [(T 206,[0;1])] [0;1]));
  (*1060*) Del (T 206);
  (*1061*) Assign (T 215) (Plain (Zeros [1;1]));
  (*1062*) AddTo (T 215) (Times (Einsum [(n_l2,[0;1;2;3]); (T 62,[2;3;0;4])] [1;4]) (4) 1);
  (*1063*) Del (T 62);
  (*1064*) AddTo (T 63) (Times (Einsum [(n_v'ooov,[0;1;2;3])] [0;2;1;3]) (2) 1);
  (*1065*) AddTo (T 83) (Times (Einsum [(n_t2,[0;1;2;3]); (T 63,[0;1;4;3])] [4;2]) (-1) 1);
  (*1066*) Assign (T 207) (Plain (Zeros [0;1]));
  (*1067*) AddTo (T 207) (Times (Einsum [(n_t2,[0;1;2;3]); (T 63,[0;1;4;3])] [4;2]) (1) 2);
  (*1068*) Del (T 63);
  (*1069*) AddTo (T 214) (Times (Einsum [(T 207,[0;1])] [0;1]) (-1) 1);
  (*1070*) Del (T 207);
  (*1071*) AddTo (T 65) (Plain (Einsum [(n_f'ov,[0;1])] [0;1]));
  (*1072*) AddTo n_lu12new (Times (Einsum [(n_ls2,[0;1]); (T 65,[2;3])] [1;0;3;2]) (2) 1);
  (*1073*) Assign (T 66) (Plain (Zeros [0;0;1;1]));
  (*1074*) AddTo (T 66) (Plain (Einsum [(n_t2,[0;1;2;3])] [1;0;2;3]));
  (*1075*) AddTo (T 66) (Times (Einsum [(n_t2,[0;1;2;3])] [1;0;3;2]) (-1) 2);
  (*1076*) AddTo (T 83) (Times (Einsum [(T 65,[0;1]); (T 66,[0;2;3;1])] [2;3]) (2) 1);
  (*1077*) Assign (T 88) (Plain (Zeros [0;1]));
  (*1078*) AddTo (T 88) (Times (Einsum [(T 33,[0;1;2;3]); (T 66,[0;1;4;3])] [2;4]) (2) 1);
  (*1079*) AddTo (T 100) (Plain (Einsum [(T 88,[0;1])] [0;1]));
  (*1080*) Del (T 88);
  (*1081*) Assign (T 144) (Plain (Zeros [0;0]));
  (*1082*) AddTo (T 144) (Times (Einsum [(n_v'ovov,[0;1;2;3]); (T 66,[0;4;3;1])] [4;2]) (2) 1);
  (*1083*) Assign (T 145) (Plain (Zeros [0;0;1;1]));
  (*1084*) AddTo (T 145) (Plain (Einsum [(T 144,[0;1]); (n_l2,[2;3;0;4])] [1;4;2;3]));
  (*1085*) Del (T 144);
  (*1086*) AddTo (T 146) (Times (Einsum [(T 145,[0;1;2;3])] [1;0;3;2]) (-1) 1);
  (*1087*) Del (T 145);
  (*1088*) AddTo n_l2new (Plain (Einsum [(T 146,[0;1;2;3])] [2;3;0;1]));
  (*1089*) AddTo n_l2new (Plain (Einsum [(T 146,[0;1;2;3])] [3;2;1;0]));
  (*1090*) Del (T 146);
  (*1091*) Assign (T 208) (Plain (Zeros [0;1]));
  (*1092*) AddTo (T 208) (Plain (Einsum [(T 65,[0;1]); (T 66,[0;2;3;1])] [2;3]));
  (*1093*) Del (T 66);
  (*1094*) AddTo (T 214) (Plain (Einsum [(T 208,[0;1])] [0;1]));
  (*1095*) Del (T 208);
  (*1096*) Assign (T 67) (Plain (Zeros [0;0;1;1]));
  (*1097*) AddTo (T 67) (Plain (Einsum [(n_v'ovvo,[0;1;2;3])] [0;3;2;1]));
  (*1098*) AddTo (T 67) (Times (Einsum [(n_v'oovv,[0;1;2;3])] [0;1;2;3]) (-1) 2);
  (*1099*) AddTo (T 83) (Times (Einsum [(n_t1,[0;1]); (T 67,[0;2;3;1])] [2;3]) (2) 1);
  (*1100*) Assign (T 209) (Plain (Zeros [0;1]));
  (*1101*) AddTo (T 209) (Plain (Einsum [(n_t1,[0;1]); (T 67,[0;2;3;1])] [2;3]));
  (*1102*) Del (T 67);
  (*1103*) AddTo (T 214) (Plain (Einsum [(T 209,[0;1])] [0;1]));
  (*1104*) Del (T 209);
  (*1105*) Assign (T 68) (Plain (Zeros [3;0;0]));
  (*1106*) AddTo (T 68) (Plain (Einsum [(n_t1,[0;1]); (n_g'bov,[2;3;1])] [2;3;0]));
  (*1107*) Assign (T 69) (Plain (Zeros [3;0;0]));
  (*1108*) AddTo (T 69) (Plain (Einsum [(T 68,[0;1;2])] [0;1;2]));
  (*1109*) Assign (T 116) (Plain (Zeros [3;0;0]));
  (*1110*) AddTo (T 116) (Plain (Einsum [(T 68,[0;1;2])] [0;1;2]));
  (*1111*) AddTo (T 69) (Plain (Einsum [(n_g'boo,[0;1;2])] [0;1;2]));
  (*1112*) AddTo (T 83) (Times (Einsum [(n_u11,[0;1;2]); (T 69,[0;1;3])] [3;2]) (-1) 1);
  (*1113*) AddTo (T 201) (Plain (Einsum [(n_s2,[0;1]); (T 69,[0;2;3])] [1;2;3]));
  (*1114*) Assign (T 205) (Plain (Zeros [3;0;1]));
  (*1115*) AddTo (T 205) (Plain (Einsum [(T 69,[0;1;2]); (n_u12,[0;3;1;4])] [3;2;4]));
  (*1116*) Assign (T 210) (Plain (Zeros [0;1]));
  (*1117*) AddTo (T 210) (Times (Einsum [(n_u11,[0;1;2]); (T 69,[0;1;3])] [3;2]) (1) 2);
  (*1118*) Del (T 69);
  (*1119*) AddTo (T 214) (Times (Einsum [(T 210,[0;1])] [0;1]) (-1) 1);
  (*1120*) Del (T 210);
  (*1121*) Assign (T 70) (Plain (Zeros [0;0]));
  (*1122*) AddTo (T 70) (Plain (Einsum [(n_s1,[0]); (n_g'boo,[0;1;2])] [1;2]));
  (*1123*) AddTo (T 76) (Plain (Einsum [(T 70,[0;1])] [0;1]));
  (*1124*) Assign (T 166) (Plain (Zeros [0;0]));
  (*1125*) AddTo (T 166) (Plain (Einsum [(T 70,[0;1])] [0;1]));
  (*1126*) Del (T 70);
  (*1127*) Assign (T 71) (Plain (Zeros [0;0]));
  (*1128*) AddTo (T 71) (Plain (Einsum [(n_g'bov,[0;1;2]); (n_u11,[0;3;2])] [1;3]));
  (*1129*) AddTo (T 76) (Plain (Einsum [(T 71,[0;1])] [0;1]));
  (*1130*) AddTo (T 166) (Plain (Einsum [(T 71,[0;1])] [0;1]));
  (*1131*) Del (T 71);
  (*1132*) Assign (T 73) (Plain (Zeros [0;0;0;1]));
  (*1133*) AddTo (T 73) (Plain (Einsum [(n_v'ooov,[0;1;2;3])] [0;2;1;3]));
  (*1134*) AddTo (T 73) (Times (Einsum [(n_v'ooov,[0;1;2;3])] [2;0;1;3]) (-1) 2);
  (*1135*) Assign (T 74) (Plain (Zeros [0;0]));
  (*1136*) AddTo (T 74) (Times (Einsum [(n_t1,[0;1]); (T 73,[2;0;3;1])] [2;3]) (2) 1);
  (*1137*) AddTo (T 76) (Plain (Einsum [(T 74,[0;1])] [0;1]));
  (*1138*) Del (T 74);
  (*1139*) AddTo (T 201) (Times (Einsum [(n_u11,[0;1;2]); (T 73,[3;1;4;2])] [0;3;4]) (2) 1);
  (*1140*) Del (T 73);
  (*1141*) AddTo (T 76) (Plain (Einsum [(n_f'oo,[0;1])] [0;1]));
  (*1142*) AddTo (T 83) (Times (Einsum [(n_t1,[0;1]); (T 76,[0;2])] [2;1]) (-1) 1);
  (*1143*) AddTo (T 205) (Plain (Einsum [(T 76,[0;1]); (n_u11,[2;0;3])] [2;1;3]));
  (*1144*) Assign (T 211) (Plain (Zeros [0;1]));
  (*1145*) AddTo (T 211) (Times (Einsum [(n_t1,[0;1]); (T 76,[0;2])] [2;1]) (1) 2);
  (*1146*) AddTo (T 214) (Times (Einsum [(T 211,[0;1])] [0;1]) (-1) 1);
  (*1147*) Del (T 211);
  (*1148*) AddTo n_l1new (Times (Einsum [(n_l1,[0;1]); (T 76,[2;1])] [0;2]) (-1) 1);
  (*1149*) AddTo n_lu12new (Times (Einsum [(T 76,[0;1]); (n_lu12,[2;3;4;1])] [3;2;4;0]) (-1) 1);
  (*1150*) Del (T 76);
  (*1151*) Assign (T 77) (Plain (Zeros [1;1]));
  (*1152*) AddTo (T 77) (Plain (Einsum [(n_s1,[0]); (n_g'bvv,[0;1;2])] [1;2]));
  (*1153*) Assign (T 80) (Plain (Zeros [1;1]));
  (*1154*) AddTo (T 80) (Plain (Einsum [(T 77,[0;1])] [0;1]));
  (*1155*) AddTo (T 131) (Plain (Einsum [(T 77,[0;1])] [0;1]));
  (*1156*) Assign (T 162) (Plain (Zeros [1;1]));
  (*1157*) AddTo (T 162) (Plain (Einsum [(T 77,[0;1])] [0;1]));
  (*1158*) Assign (T 199) (Plain (Zeros [1;1]));
  (*1159*) AddTo (T 199) (Plain (Einsum [(T 77,[0;1])] [0;1]));
  (*1160*) Del (T 77);
  (*1161*) Assign (T 78) (Plain (Zeros [0;1;1;1]));
  (*1162*) AddTo (T 78) (Times (Einsum [(n_v'ovvv,[0;1;2;3])] [0;2;1;3]) (-1) 2);
  (*1163*) AddTo (T 78) (Plain (Einsum [(n_v'ovvv,[0;1;2;3])] [0;2;3;1]));
  (*1164*) Assign (T 79) (Plain (Zeros [1;1]));
  (*1165*) AddTo (T 79) (Times (Einsum [(n_t1,[0;1]); (T 78,[0;2;3;1])] [2;3]) (2) 1);
  (*1166*) AddTo (T 80) (Plain (Einsum [(T 79,[0;1])] [0;1]));
  (*1167*) AddTo (T 199) (Plain (Einsum [(T 79,[0;1])] [0;1]));
  (*1168*) Del (T 79);
  (*1169*) Assign (T 202) (Plain (Zeros [3;1;1]));
  (*1170*) AddTo (T 202) (Times (Einsum [(n_u11,[0;1;2]); (T 78,[1;3;4;2])] [0;3;4]) (2) 1);
  (*1171*) Del (T 78);
  (*1172*) AddTo (T 80) (Plain (Einsum [(n_f'vv,[0;1])] [0;1]));
  (*1173*) AddTo (T 83) (Plain (Einsum [(n_t1,[0;1]); (T 80,[2;1])] [0;2]));
  (*1174*) Assign (T 212) (Plain (Zeros [0;1]));
  (*1175*) AddTo (T 212) (Times (Einsum [(n_t1,[0;1]); (T 80,[2;1])] [0;2]) (1) 2);
  (*1176*) Del (T 80);
  (*1177*) AddTo (T 214) (Plain (Einsum [(T 212,[0;1])] [0;1]));
  (*1178*) Del (T 212);
  (*1179*) Assign (T 81) (Plain (Zeros [3]));
  (*1180*) AddTo (T 81) (Plain (Einsum [(n_t1,[0;1]); (n_g'bov,[2;0;1])] [2]));
  (*1181*) Assign (T 82) (Plain (Zeros [3]));
  (*1182*) AddTo (T 82) (Times (Einsum [(T 81,[0])] [0]) (2) 1);
  (*1183*) Assign (T 136) (Plain (Zeros [3]));
  (*1184*) AddTo (T 136) (Times (Einsum [(T 81,[0])] [0]) (2) 1);
  (*1185*) Del (T 81);
  (*1186*) AddTo (T 82) (Plain (Einsum [(n_G,[0])] [0]));
  (*1187*) AddTo (T 83) (Plain (Einsum [(T 82,[0]); (n_u11,[0;1;2])] [1;2]));
  (*1188*) AddTo (T 205) (Times (Einsum [(T 82,[0]); (n_u12,[0;1;2;3])] [1;2;3]) (-1) 1);
  (*1189*) Assign (T 213) (Plain (Zeros [0;1]));
  (*1190*) AddTo (T 213) (Times (Einsum [(T 82,[0]); (n_u11,[0;1;2])] [1;2]) (1) 2);
  (*1191*) Del (T 82);
  (*1192*) AddTo (T 214) (Plain (Einsum [(T 213,[0;1])] [0;1]));
  (*1193*) Del (T 213);
  (*1194*) AddTo (T 83) (Plain (Einsum [(n_f'vo,[0;1])] [1;0]));
  (*1195*) Assign (T 84) (Plain (Zeros [0;0;1;1]));
  (*1196*) AddTo (T 84) (Times (Einsum [(n_l2,[0;1;2;3])] [3;2;0;1]) (2) 1);
  (*1197*) AddTo (T 84) (Times (Einsum [(n_l2,[0;1;2;3])] [3;2;1;0]) (-1) 1);
  (*1198*) AddTo n_l1new (Plain (Einsum [(T 83,[0;1]); (T 84,[0;2;3;1])] [3;2]));
  (*1199*) Del (T 83);
  (*1200*) Del (T 84);
  (*1201*) Assign (T 85) (Plain (Zeros [0;1]));
  (*1202*) AddTo (T 85) (Plain (Einsum [(n_ls1,[0]); (n_u11,[0;1;2])] [1;2]));
  (*1203*) AddTo (T 100) (Times (Einsum [(T 85,[0;1])] [0;1]) (-1) 1);
  (*1204*) Del (T 85);
  (*1205*) Assign (T 86) (Plain (Zeros [0;1]));
  (*1206*) AddTo (T 86) (Plain (Einsum [(n_ls2,[0;1]); (n_u12,[0;1;2;3])] [2;3]));
  (*1207*) AddTo (T 100) (Times (Einsum [(T 86,[0;1])] [0;1]) (-1) 2);
  (*1208*) Del (T 86);
  (*1209*) Assign (T 90) (Plain (Zeros [3;0;0]));
  (*1210*) AddTo (T 90) (Plain (Einsum [(n_t1,[0;1]); (n_lu11,[2;1;3])] [2;3;0]));
  (*1211*) Assign (T 92) (Plain (Zeros [3;0;0]));
  (*1212*) AddTo (T 92) (Plain (Einsum [(T 90,[0;1;2])] [0;1;2]));
  (*1213*) Assign (T 120) (Plain (Zeros [3;0;0]));
  (*1214*) AddTo (T 120) (Plain (Einsum [(T 90,[0;1;2])] [0;1;2]));
  (*1215*) Assign (T 91) (Plain (Zeros [3;0;0]));
  (*1216*) AddTo (T 91) (Plain (Einsum [(n_u11,[0;1;2]); (n_lu12,[0;3;2;4])] [3;4;1]));
  (*1217*) AddTo (T 92) (Plain (Einsum [(T 91,[0;1;2])] [0;1;2]));
  (*1218*) Assign (T 93) (Plain (Zeros [0;1]));
  (*1219*) AddTo (T 93) (Plain (Einsum [(n_u11,[0;1;2]); (T 92,[0;1;3])] [3;2]));
  (*1220*) Del (T 92);
  (*1221*) AddTo (T 100) (Plain (Einsum [(T 93,[0;1])] [0;1]));
  (*1222*) Del (T 93);
  (*1223*) AddTo (T 120) (Plain (Einsum [(T 91,[0;1;2])] [0;1;2]));
  (*1224*) Assign (T 121) (Plain (Zeros [3;0;0]));
  (*1225*) AddTo (T 121) (Plain (Einsum [(n_s2,[0;1]); (T 120,[0;2;3])] [1;2;3]));
  (*1226*) Assign (T 236) (Plain (Zeros [3;3;0;1]));
  (*1227*) AddTo (T 236) (Plain (Einsum [(n_g'bov,[0;1;2]); (T 120,[3;4;1])] [3;0;4;2]));
  (*1228*) Assign (T 237) (Plain (Zeros [3;3;0;1]));
  (*1229*) AddTo (T 237) (Plain (Einsum [(T 236,[0;1;2;3])] [1;0;2;3]));
  (*1230*) Del (T 236);
  (*1231*) Assign (T 219) (Plain (Zeros [3;3]));
  (*1232*) AddTo (T 219) (Plain (Einsum [(n_g'boo,[0;1;2]); (T 91,[3;2;1])] [0;3]));
  (*1233*) SubFrom (T 229) (Times (Einsum [(T 219,[0;1])] [0;1]) (2) 1);
  (*1234*) Del (T 219);
  (*1235*) Assign (T 224) (Plain (Zeros [3;3]));
  (*1236*) AddTo (T 224) (Plain (Einsum [(T 68,[0;1;2]); (T 91,[3;2;1])] [0;3]));
  (*1237*) Del (T 91);
  (*1238*) Del (T 68);
  (*1239*) SubFrom (T 229) (Times (Einsum [(T 224,[0;1])] [0;1]) (2) 1);
  (*1240*) Del (T 224);
  (*1241*) Assign (T 94) (Plain (Zeros [0;0]));
  (*1242*) AddTo (T 94) (Plain (Einsum [(n_l1,[0;1]); (n_t1,[2;0])] [1;2]));
  (*1243*) AddTo (T 98) (Plain (Einsum [(T 94,[0;1])] [0;1]));
  (*1244*) Assign (T 168) (Plain (Zeros [0;0]));
  (*1245*) AddTo (T 168) (Plain (Einsum [(T 94,[0;1])] [0;1]));
  (*1246*) Assign n_ls1new (Plain (Zeros [3]));
  (*1247*) SubFrom n_ls1new (Times (Einsum [(T 94,[0;1]); (n_g'boo,[2;1;0])] [2]) (2) 1);
  (*1248*) Del (T 94);
  (*1249*) Assign (T 95) (Plain (Zeros [0;0]));
  (*1250*) AddTo (T 95) (Plain (Einsum [(n_lu11,[0;1;2]); (n_u11,[0;3;1])] [2;3]));
  (*1251*) AddTo (T 98) (Plain (Einsum [(T 95,[0;1])] [0;1]));
  (*1252*) AddTo (T 168) (Plain (Einsum [(T 95,[0;1])] [0;1]));
  (*1253*) Assign (T 169) (Plain (Zeros [0;0;1;1]));
  (*1254*) AddTo (T 169) (Plain (Einsum [(T 168,[0;1]); (n_v'ovov,[1;2;3;4])] [0;3;2;4]));
  (*1255*) Del (T 168);
  (*1256*) AddTo (T 171) (Plain (Einsum [(T 169,[0;1;2;3])] [0;1;3;2]));
  (*1257*) Del (T 169);
  (*1258*) AddTo (T 216) (Plain (Einsum [(T 95,[0;1])] [0;1]));
  (*1259*) Del (T 95);
  (*1260*) Assign (T 96) (Plain (Zeros [0;0]));
  (*1261*) AddTo (T 96) (Plain (Einsum [(n_lu12,[0;1;2;3]); (n_u12,[0;1;4;2])] [3;4]));
  (*1262*) AddTo (T 98) (Times (Einsum [(T 96,[0;1])] [0;1]) (1) 2);
  (*1263*) Assign (T 99) (Plain (Zeros [0;1]));
  (*1264*) AddTo (T 99) (Plain (Einsum [(n_t1,[0;1]); (T 98,[0;2])] [2;1]));
  (*1265*) AddTo (T 100) (Plain (Einsum [(T 99,[0;1])] [0;1]));
  (*1266*) Del (T 99);
  (*1267*) AddTo n_l1new (Times (Einsum [(T 65,[0;1]); (T 98,[2;0])] [1;2]) (-1) 1);
  (*1268*) Del (T 65);
  (*1269*) AddTo (T 149) (Times (Einsum [(T 96,[0;1])] [0;1]) (1) 2);
  (*1270*) Assign (T 150) (Plain (Zeros [0;0;1;1]));
  (*1271*) AddTo (T 150) (Plain (Einsum [(T 149,[0;1]); (n_v'ovov,[1;2;3;4])] [0;3;2;4]));
  (*1272*) Del (T 149);
  (*1273*) Assign (T 151) (Plain (Zeros [0;0;1;1]));
  (*1274*) AddTo (T 151) (Plain (Einsum [(T 150,[0;1;2;3])] [0;1;3;2]));
  (*1275*) Del (T 150);
  (*1276*) AddTo (T 216) (Times (Einsum [(T 96,[0;1])] [0;1]) (1) 2);
  (*1277*) Del (T 96);
  (*1278*) AddTo n_ls1new (Times (Einsum [(T 216,[0;1]); (n_g'boo,[2;1;0])] [2]) (-2) 1);
  (*1279*) Del (T 216);
  (*1280*) AddTo (T 100) (Times (Einsum [(n_t1,[0;1])] [0;1]) (-1) 1);
  (*1281*) AddTo n_ls1new (Times (Einsum [(T 100,[0;1]); (n_g'bov,[2;0;1])] [2]) (-2) 1);
  (*1282*) Assign (T 101) (Plain (Zeros [0;0;1;1]));
  (*1283*) AddTo (T 101) (Times (Einsum [(n_v'ovov,[0;1;2;3])] [2;0;1;3]) (2) 1);
  (*1284*) AddTo (T 101) (Times (Einsum [(n_v'ovov,[0;1;2;3])] [2;0;3;1]) (-1) 1);
  (*1285*) AddTo n_l1new (Times (Einsum [(T 100,[0;1]); (T 101,[0;2;3;1])] [3;2]) (-1) 1);
  (*1286*) Del (T 100);
  (*1287*) Del (T 101);
  (*1288*) Assign (T 102) (Plain (Zeros [1;1]));
  (*1289*) AddTo (T 102) (Plain (Einsum [(n_l1,[0;1]); (n_t1,[1;2])] [0;2]));
  (*1290*) AddTo (T 106) (Plain (Einsum [(T 102,[0;1])] [0;1]));
  (*1291*) AddTo n_ls1new (Times (Einsum [(T 102,[0;1]); (n_g'bvv,[2;0;1])] [2]) (2) 1);
  (*1292*) Del (T 102);
  (*1293*) Assign (T 103) (Plain (Zeros [1;1]));
  (*1294*) AddTo (T 103) (Plain (Einsum [(n_lu11,[0;1;2]); (n_u11,[0;2;3])] [1;3]));
  (*1295*) AddTo (T 106) (Plain (Einsum [(T 103,[0;1])] [0;1]));
  (*1296*) Assign (T 154) (Plain (Zeros [0;0;1;1]));
  (*1297*) AddTo (T 154) (Plain (Einsum [(T 103,[0;1]); (n_v'ovov,[2;3;4;1])] [2;4;0;3]));
  (*1298*) AddTo (T 171) (Plain (Einsum [(T 154,[0;1;2;3])] [0;1;2;3]));
  (*1299*) Del (T 154);
  (*1300*) AddTo (T 215) (Times (Einsum [(T 103,[0;1])] [0;1]) (2) 1);
  (*1301*) Del (T 103);
  (*1302*) Assign (T 104) (Plain (Zeros [1;1]));
  (*1303*) AddTo (T 104) (Plain (Einsum [(n_lu12,[0;1;2;3]); (n_u12,[0;1;3;4])] [2;4]));
  (*1304*) AddTo (T 106) (Times (Einsum [(T 104,[0;1])] [0;1]) (1) 2);
  (*1305*) AddTo (T 147) (Times (Einsum [(T 104,[0;1])] [0;1]) (1) 2);
  (*1306*) Assign (T 148) (Plain (Zeros [0;0;1;1]));
  (*1307*) AddTo (T 148) (Plain (Einsum [(T 147,[0;1]); (n_v'ovov,[2;1;3;4])] [2;3;0;4]));
  (*1308*) Del (T 147);
  (*1309*) AddTo (T 151) (Plain (Einsum [(T 148,[0;1;2;3])] [1;0;2;3]));
  (*1310*) Del (T 148);
  (*1311*) AddTo n_l2new (Times (Einsum [(T 151,[0;1;2;3])] [3;2;0;1]) (-1) 1);
  (*1312*) AddTo n_l2new (Times (Einsum [(T 151,[0;1;2;3])] [2;3;1;0]) (-1) 1);
  (*1313*) Del (T 151);
  (*1314*) AddTo (T 215) (Plain (Einsum [(T 104,[0;1])] [0;1]));
  (*1315*) Del (T 104);
  (*1316*) AddTo n_ls1new (Plain (Einsum [(T 215,[0;1]); (n_g'bvv,[2;0;1])] [2]));
  (*1317*) Del (T 215);
  (*1318*) Assign (T 107) (Plain (Zeros [0;1;1;1]));
  (*1319*) AddTo (T 107) (Times (Einsum [(n_v'ovvv,[0;1;2;3])] [0;2;1;3]) (-1) 1);
  (*1320*) AddTo (T 107) (Times (Einsum [(n_v'ovvv,[0;1;2;3])] [0;2;3;1]) (2) 1);
  (*1321*) AddTo n_l1new (Plain (Einsum [(T 106,[0;1]); (T 107,[2;0;1;3])] [3;2]));
  (*1322*) Del (T 106);
  (*1323*) Del (T 107);
  (*1324*) Assign (T 108) (Plain (Zeros [0;0;0;1]));
  (*1325*) SubFrom (T 108) (Plain (Einsum [(n_v'ooov,[0;1;2;3])] [0;2;1;3]));
  (*1326*) AddTo (T 108) (Times (Einsum [(n_v'ooov,[0;1;2;3])] [2;0;1;3]) (2) 1);
  (*1327*) AddTo n_l1new (Times (Einsum [(T 98,[0;1]); (T 108,[2;1;0;3])] [3;2]) (-1) 1);
  (*1328*) Del (T 98);
  (*1329*) Del (T 108);
  (*1330*) Assign (T 109) (Plain (Zeros [3;0;0]));
  (*1331*) AddTo (T 109) (Plain (Einsum [(n_g'bov,[0;1;2]); (n_u12,[0;3;4;2])] [3;1;4]));
  (*1332*) Assign (T 117) (Plain (Zeros [3;0;0]));
  (*1333*) AddTo (T 117) (Plain (Einsum [(T 109,[0;1;2])] [0;1;2]));
  (*1334*) AddTo (T 201) (Plain (Einsum [(T 109,[0;1;2])] [0;1;2]));
  (*1335*) Del (T 109);
  (*1336*) Assign (T 110) (Plain (Zeros [0;0;0;1]));
  (*1337*) AddTo (T 110) (Times (Einsum [(n_v'ooov,[0;1;2;3])] [0;2;1;3]) (2) 1);
  (*1338*) SubFrom (T 110) (Plain (Einsum [(n_v'ooov,[0;1;2;3])] [2;0;1;3]));
  (*1339*) AddTo (T 117) (Plain (Einsum [(n_u11,[0;1;2]); (T 110,[3;1;4;2])] [0;3;4]));
  (*1340*) Assign (T 184) (Plain (Zeros [0;0]));
  (*1341*) AddTo (T 184) (Plain (Einsum [(n_t1,[0;1]); (T 110,[2;0;3;1])] [2;3]));
  (*1342*) Assign (T 186) (Plain (Zeros [0;0]));
  (*1343*) AddTo (T 186) (Plain (Einsum [(T 184,[0;1])] [0;1]));
  (*1344*) Del (T 184);
  (*1345*) SubFrom n_lu12new (Plain (Einsum [(T 110,[0;1;2;3]); (T 32,[4;5;2;0])] [5;4;3;1]));
  (*1346*) Del (T 110);
  (*1347*) Assign (T 111) (Plain (Zeros [0;0;1;1]));
  (*1348*) AddTo (T 111) (Times (Einsum [(n_v'ovov,[0;1;2;3])] [2;0;1;3]) (2) 1);
  (*1349*) SubFrom (T 111) (Plain (Einsum [(n_v'ovov,[0;1;2;3])] [2;0;3;1]));
  (*1350*) Assign (T 112) (Plain (Zeros [0;1]));
  (*1351*) AddTo (T 112) (Plain (Einsum [(n_t1,[0;1]); (T 111,[0;2;3;1])] [2;3]));
  (*1352*) AddTo (T 113) (Plain (Einsum [(T 112,[0;1])] [0;1]));
  (*1353*) Assign (T 185) (Plain (Zeros [0;0]));
  (*1354*) AddTo (T 185) (Plain (Einsum [(n_t1,[0;1]); (T 112,[2;1])] [2;0]));
  (*1355*) AddTo (T 186) (Plain (Einsum [(T 185,[0;1])] [0;1]));
  (*1356*) Del (T 185);
  (*1357*) Assign (T 187) (Plain (Zeros [0;0;1;1]));
  (*1358*) AddTo (T 187) (Plain (Einsum [(T 186,[0;1]); (n_l2,[2;3;1;4])] [0;4;2;3]));
  (*1359*) Del (T 186);
  (*1360*) SubFrom (T 192) (Plain (Einsum [(T 187,[0;1;2;3])] [1;0;3;2]));
  (*1361*) Del (T 187);
  (*1362*) Assign (T 190) (Plain (Zeros [0;0;1;1]));
  (*1363*) AddTo (T 190) (Plain (Einsum [(T 112,[0;1]); (T 33,[2;3;0;4])] [2;3;1;4]));
  (*1364*) SubFrom (T 192) (Plain (Einsum [(T 190,[0;1;2;3])] [0;1;3;2]));
  (*1365*) Del (T 190);
  (*1366*) AddTo (T 192) (Plain (Einsum [(n_l1,[0;1]); (T 112,[2;3])] [1;2;0;3]));
  (*1367*) Del (T 112);
  (*1368*) Assign (T 114) (Plain (Zeros [3;0;1]));
  (*1369*) AddTo (T 114) (Plain (Einsum [(n_u11,[0;1;2]); (T 111,[1;3;4;2])] [0;3;4]));
  (*1370*) Assign (T 115) (Plain (Zeros [3;0;1]));
  (*1371*) AddTo (T 115) (Plain (Einsum [(T 114,[0;1;2])] [0;1;2]));
  (*1372*) Assign (T 191) (Plain (Zeros [0;0;1;1]));
  (*1373*) AddTo (T 191) (Plain (Einsum [(n_lu11,[0;1;2]); (T 114,[0;3;4])] [3;2;4;1]));
  (*1374*) Del (T 114);
  (*1375*) AddTo (T 192) (Plain (Einsum [(T 191,[0;1;2;3])] [1;0;3;2]));
  (*1376*) Del (T 191);
  (*1377*) AddTo n_lu12new (Plain (Einsum [(T 111,[0;1;2;3]); (T 238,[4;5;0;3])] [5;4;2;1]));
  (*1378*) Del (T 238);
  (*1379*) Del (T 111);
  (*1380*) AddTo (T 113) (Plain (Einsum [(n_f'ov,[0;1])] [0;1]));
  (*1381*) AddTo (T 117) (Plain (Einsum [(T 113,[0;1]); (n_u11,[2;3;1])] [2;0;3]));
  (*1382*) Assign (T 135) (Plain (Zeros [3]));
  (*1383*) AddTo (T 135) (Plain (Einsum [(T 113,[0;1]); (n_u11,[2;0;1])] [2]));
  (*1384*) Assign (T 138) (Plain (Zeros [3]));
  (*1385*) AddTo (T 138) (Times (Einsum [(T 135,[0])] [0]) (2) 1);
  (*1386*) Del (T 135);
  (*1387*) SubFrom n_lu12new (Plain (Einsum [(T 113,[0;1]); (T 32,[2;3;4;0])] [3;2;1;4]));
  (*1388*) Del (T 113);
  (*1389*) Del (T 32);
  (*1390*) AddTo (T 115) (Plain (Einsum [(n_gc'bov,[0;1;2])] [0;1;2]));
  (*1391*) AddTo (T 117) (Plain (Einsum [(n_t1,[0;1]); (T 115,[2;3;1])] [2;3;0]));
  (*1392*) SubFrom n_l1new (Plain (Einsum [(T 115,[0;1;2]); (T 120,[0;3;1])] [2;3]));
  (*1393*) Del (T 115);
  (*1394*) Del (T 120);
  (*1395*) AddTo (T 116) (Plain (Einsum [(n_g'boo,[0;1;2])] [0;1;2]));
  (*1396*) AddTo (T 117) (Plain (Einsum [(n_s2,[0;1]); (T 116,[0;2;3])] [1;2;3]));
  (*1397*) Assign (T 228) (Plain (Zeros [3;3]));
  (*1398*) AddTo (T 228) (Plain (Einsum [(T 116,[0;1;2]); (T 90,[3;2;1])] [0;3]));
  (*1399*) Del (T 90);
  (*1400*) SubFrom (T 229) (Times (Einsum [(T 228,[0;1])] [0;1]) (2) 1);
  (*1401*) Del (T 228);
  (*1402*) Assign (T 235) (Plain (Zeros [3;3;0;1]));
  (*1403*) AddTo (T 235) (Plain (Einsum [(n_lu11,[0;1;2]); (T 116,[3;4;2])] [3;0;4;1]));
  (*1404*) AddTo (T 237) (Plain (Einsum [(T 235,[0;1;2;3])] [0;1;2;3]));
  (*1405*) Del (T 235);
  (*1406*) AddTo (T 117) (Plain (Einsum [(n_gc'boo,[0;1;2])] [0;1;2]));
  (*1407*) SubFrom n_l1new (Plain (Einsum [(n_lu11,[0;1;2]); (T 117,[0;3;2])] [1;3]));
  (*1408*) Del (T 117);
  (*1409*) Assign (T 118) (Plain (Zeros [0;0;1;1]));
  (*1410*) AddTo (T 118) (Times (Einsum [(n_l2,[0;1;2;3])] [3;2;0;1]) (2) 1);
  (*1411*) SubFrom (T 118) (Plain (Einsum [(n_l2,[0;1;2;3])] [3;2;1;0]));
  (*1412*) Assign (T 119) (Plain (Zeros [3;0;1]));
  (*1413*) AddTo (T 119) (Plain (Einsum [(n_u11,[0;1;2]); (T 118,[1;3;4;2])] [0;3;4]));
  (*1414*) AddTo (T 121) (Plain (Einsum [(n_t1,[0;1]); (T 119,[2;3;1])] [2;3;0]));
  (*1415*) Assign (T 123) (Plain (Zeros [3;0;1]));
  (*1416*) AddTo (T 123) (Plain (Einsum [(T 119,[0;1;2])] [0;1;2]));
  (*1417*) SubFrom n_l1new (Plain (Einsum [(T 116,[0;1;2]); (T 119,[0;2;3])] [3;1]));
  (*1418*) Del (T 116);
  (*1419*) Del (T 119);
  (*1420*) AddTo n_lu11new (Plain (Einsum [(n_g'bvo,[0;1;2]); (T 118,[2;3;4;1])] [0;4;3]));
  (*1421*) Del (T 118);
  (*1422*) AddTo (T 121) (Plain (Einsum [(n_l1,[0;1]); (n_u11,[2;3;0])] [2;1;3]));
  (*1423*) AddTo (T 121) (Plain (Einsum [(n_lu11,[0;1;2]); (n_u12,[0;3;4;1])] [3;2;4]));
  (*1424*) SubFrom n_l1new (Plain (Einsum [(n_g'bov,[0;1;2]); (T 121,[0;3;1])] [2;3]));
  (*1425*) Del (T 121);
  (*1426*) Assign (T 122) (Plain (Zeros [3;0;1]));
  (*1427*) AddTo (T 122) (Plain (Einsum [(n_s2,[0;1]); (n_lu11,[0;2;3])] [1;3;2]));
  (*1428*) AddTo (T 123) (Plain (Einsum [(T 122,[0;1;2])] [0;1;2]));
  (*1429*) Del (T 122);
  (*1430*) Assign (T 189) (Plain (Zeros [0;0;1;1]));
  (*1431*) AddTo (T 189) (Plain (Einsum [(n_g'bov,[0;1;2]); (T 123,[0;3;4])] [3;1;4;2]));
  (*1432*) AddTo (T 192) (Plain (Einsum [(T 189,[0;1;2;3])] [1;0;3;2]));
  (*1433*) Del (T 189);
  (*1434*) AddTo n_l1new (Plain (Einsum [(n_g'bvv,[0;1;2]); (T 123,[0;3;1])] [2;3]));
  (*1435*) Del (T 123);
  (*1436*) AddTo (T 124) (Plain (Einsum [(n_gc'bvv,[0;1;2])] [0;1;2]));
  (*1437*) AddTo n_l1new (Plain (Einsum [(n_lu11,[0;1;2]); (T 124,[0;1;3])] [3;2]));
  (*1438*) Del (T 124);
  (*1439*) AddTo (T 126) (Times (Einsum [(n_gc'bov,[0;1;2])] [0;1;2]) (2) 1);
  (*1440*) AddTo (T 129) (Plain (Einsum [(n_u11,[0;1;2]); (T 126,[3;1;2])] [3;0]));
  (*1441*) Del (T 126);
  (*1442*) Assign (T 127) (Plain (Zeros [3;3]));
  (*1443*) AddTo (T 127) (Plain (Einsum [(n_g'bov,[0;1;2]); (n_u11,[3;1;2])] [0;3]));
  (*1444*) Assign (T 128) (Plain (Zeros [3;3]));
  (*1445*) AddTo (T 128) (Times (Einsum [(T 127,[0;1])] [0;1]) (2) 1);
  (*1446*) Assign (T 218) (Plain (Zeros [3;3]));
  (*1447*) AddTo (T 218) (Plain (Einsum [(n_ls2,[0;1]); (T 127,[2;1])] [2;0]));
  (*1448*) AddTo (T 229) (Times (Einsum [(T 218,[0;1])] [0;1]) (2) 1);
  (*1449*) Del (T 218);
  (*1450*) Assign (T 234) (Plain (Zeros [3;3;0;1]));
  (*1451*) AddTo (T 234) (Plain (Einsum [(T 127,[0;1]); (n_lu12,[1;2;3;4])] [0;2;4;3]));
  (*1452*) Del (T 127);
  (*1453*) SubFrom (T 237) (Times (Einsum [(T 234,[0;1;2;3])] [0;1;2;3]) (2) 1);
  (*1454*) Del (T 234);
  (*1455*) AddTo (T 128) (Plain (Einsum [(n_w,[0;1])] [0;1]));
  (*1456*) AddTo (T 129) (Plain (Einsum [(n_s2,[0;1]); (T 128,[0;2])] [1;2]));
  (*1457*) AddTo n_l1new (Plain (Einsum [(T 129,[0;1]); (n_lu12,[1;0;2;3])] [2;3]));
  (*1458*) Del (T 129);
  (*1459*) AddTo (T 205) (Times (Einsum [(T 128,[0;1]); (n_u11,[0;2;3])] [1;2;3]) (-1) 1);
  (*1460*) Del (T 128);
  (*1461*) AddTo (T 131) (Plain (Einsum [(n_f'vv,[0;1])] [0;1]));
  (*1462*) AddTo n_l1new (Plain (Einsum [(n_l1,[0;1]); (T 131,[0;2])] [2;1]));
  (*1463*) Del (T 131);
  (*1464*) Assign (T 132) (Plain (Zeros [3]));
  (*1465*) AddTo (T 132) (Plain (Einsum [(n_s1,[0]); (n_w,[0;1])] [1]));
  (*1466*) AddTo (T 138) (Plain (Einsum [(T 132,[0])] [0]));
  (*1467*) Del (T 132);
  (*1468*) Assign (T 133) (Plain (Zeros [3]));
  (*1469*) AddTo (T 133) (Plain (Einsum [(n_t1,[0;1]); (n_gc'bov,[2;0;1])] [2]));
  (*1470*) AddTo (T 138) (Times (Einsum [(T 133,[0])] [0]) (2) 1);
  (*1471*) Del (T 133);
  (*1472*) Assign (T 134) (Plain (Zeros [3]));
  (*1473*) AddTo (T 134) (Plain (Einsum [(n_g'bov,[0;1;2]); (n_u12,[0;3;1;2])] [3]));
  (*1474*) AddTo (T 138) (Times (Einsum [(T 134,[0])] [0]) (2) 1);
  (*1475*) Del (T 134);
  (*1476*) AddTo (T 136) (Plain (Einsum [(n_G,[0])] [0]));
  (*1477*) Assign (T 137) (Plain (Zeros [3]));
  (*1478*) AddTo (T 137) (Plain (Einsum [(T 136,[0]); (n_s2,[0;1])] [1]));
  (*1479*) AddTo (T 138) (Plain (Einsum [(T 137,[0])] [0]));
  (*1480*) Del (T 137);
  (*1481*) AddTo (T 229) (Plain (Einsum [(n_ls1,[0]); (T 136,[1])] [1;0]));
  (*1482*) Del (T 136);
  (*1483*) AddTo (T 138) (Plain (Einsum [(n_G,[0])] [0]));
  (*1484*) AddTo n_l1new (Plain (Einsum [(T 138,[0]); (n_lu11,[0;1;2])] [1;2]));
  (*1485*) AddTo n_ls1new (Plain (Einsum [(T 138,[0]); (n_ls2,[0;1])] [1]));
  (*1486*) Del (T 138);
  (*1487*) Assign (T 139) (Plain (Zeros [3]));
  (*1488*) AddTo (T 139) (Plain (Einsum [(n_s1,[0])] [0]));
  (*1489*) AddTo (T 139) (Plain (Einsum [(n_ls1,[0]); (n_s2,[1;0])] [1]));
  (*1490*) AddTo (T 139) (Times (Einsum [(n_l1,[0;1]); (n_u11,[2;1;0])] [2]) (2) 1);
  (*1491*) AddTo (T 139) (Times (Einsum [(n_lu11,[0;1;2]); (n_u12,[0;3;2;1])] [3]) (2) 1);
  (*1492*) AddTo n_l1new (Plain (Einsum [(T 139,[0]); (n_g'bov,[0;1;2])] [2;1]));
  (*1493*) Del (T 139);
  (*1494*) Assign (T 152) (Plain (Zeros [0;0;1;1]));
  (*1495*) AddTo (T 152) (Plain (Einsum [(n_l1,[0;1]); (n_v'ovvv,[2;3;0;4])] [1;2;3;4]));
  (*1496*) SubFrom (T 171) (Plain (Einsum [(T 152,[0;1;2;3])] [0;1;2;3]));
  (*1497*) Del (T 152);
  (*1498*) Assign (T 156) (Plain (Zeros [0;0;1;1]));
  (*1499*) AddTo (T 156) (Plain (Einsum [(n_t2,[0;1;2;3]); (n_v'ovov,[4;3;0;5])] [1;4;2;5]));
  (*1500*) SubFrom (T 157) (Plain (Einsum [(T 156,[0;1;2;3])] [0;1;2;3]));
  (*1501*) Del (T 156);
  (*1502*) AddTo (T 157) (Plain (Einsum [(n_v'oovv,[0;1;2;3])] [1;0;2;3]));
  (*1503*) Assign (T 158) (Plain (Zeros [0;0;1;1]));
  (*1504*) AddTo (T 158) (Plain (Einsum [(n_l2,[0;1;2;3]); (T 157,[2;4;1;5])] [4;3;5;0]));
  (*1505*) AddTo (T 171) (Plain (Einsum [(T 158,[0;1;2;3])] [1;0;3;2]));
  (*1506*) Del (T 158);
  (*1507*) Assign (T 181) (Plain (Zeros [0;0;1;1]));
  (*1508*) AddTo (T 181) (Plain (Einsum [(n_l2,[0;1;2;3]); (T 157,[2;4;0;5])] [4;3;5;1]));
  (*1509*) Del (T 157);
  (*1510*) SubFrom (T 192) (Plain (Einsum [(T 181,[0;1;2;3])] [1;0;3;2]));
  (*1511*) Del (T 181);
  (*1512*) AddTo (T 159) (Plain (Einsum [(n_v'ooov,[0;1;2;3])] [1;2;0;3]));
  (*1513*) Assign (T 160) (Plain (Zeros [0;0;1;1]));
  (*1514*) AddTo (T 160) (Plain (Einsum [(T 159,[0;1;2;3]); (T 33,[0;4;1;5])] [2;4;3;5]));
  (*1515*) SubFrom (T 171) (Plain (Einsum [(T 160,[0;1;2;3])] [1;0;3;2]));
  (*1516*) Del (T 160);
  (*1517*) Assign (T 182) (Plain (Zeros [0;0;1;1]));
  (*1518*) AddTo (T 182) (Plain (Einsum [(T 159,[0;1;2;3]); (T 39,[4;0;2;5])] [4;1;5;3]));
  (*1519*) Del (T 39);
  (*1520*) SubFrom (T 192) (Plain (Einsum [(T 182,[0;1;2;3])] [0;1;2;3]));
  (*1521*) Del (T 182);
  (*1522*) Assign (T 183) (Plain (Zeros [0;0;1;1]));
  (*1523*) AddTo (T 183) (Plain (Einsum [(T 159,[0;1;2;3]); (T 33,[4;0;1;5])] [2;4;3;5]));
  (*1524*) Del (T 159);
  (*1525*) AddTo (T 192) (Plain (Einsum [(T 183,[0;1;2;3])] [1;0;3;2]));
  (*1526*) Del (T 183);
  (*1527*) Assign (T 161) (Plain (Zeros [1;1]));
  (*1528*) AddTo (T 161) (Plain (Einsum [(n_g'bov,[0;1;2]); (n_u11,[0;1;3])] [2;3]));
  (*1529*) SubFrom (T 162) (Plain (Einsum [(T 161,[0;1])] [1;0]));
  (*1530*) AddTo (T 199) (Times (Einsum [(T 161,[0;1])] [1;0]) (-1) 1);
  (*1531*) Del (T 161);
  (*1532*) AddTo (T 162) (Plain (Einsum [(n_f'vv,[0;1])] [0;1]));
  (*1533*) Assign (T 163) (Plain (Zeros [0;0;1;1]));
  (*1534*) AddTo (T 163) (Plain (Einsum [(T 162,[0;1]); (n_l2,[0;2;3;4])] [3;4;1;2]));
  (*1535*) Del (T 162);
  (*1536*) SubFrom (T 171) (Plain (Einsum [(T 163,[0;1;2;3])] [1;0;2;3]));
  (*1537*) Del (T 163);
  (*1538*) AddTo (T 164) (Plain (Einsum [(n_f'ov,[0;1])] [0;1]));
  (*1539*) Assign (T 165) (Plain (Zeros [0;0]));
  (*1540*) AddTo (T 165) (Plain (Einsum [(n_t1,[0;1]); (T 164,[2;1])] [2;0]));
  (*1541*) AddTo (T 166) (Plain (Einsum [(T 165,[0;1])] [0;1]));
  (*1542*) Del (T 165);
  (*1543*) Assign (T 170) (Plain (Zeros [0;0;1;1]));
  (*1544*) AddTo (T 170) (Plain (Einsum [(T 164,[0;1]); (T 33,[2;3;0;4])] [2;3;1;4]));
  (*1545*) Del (T 33);
  (*1546*) AddTo (T 171) (Plain (Einsum [(T 170,[0;1;2;3])] [0;1;2;3]));
  (*1547*) Del (T 170);
  (*1548*) AddTo (T 192) (Plain (Einsum [(n_l1,[0;1]); (T 164,[2;3])] [2;1;3;0]));
  (*1549*) Del (T 164);
  (*1550*) AddTo (T 166) (Plain (Einsum [(n_f'oo,[0;1])] [0;1]));
  (*1551*) Assign (T 167) (Plain (Zeros [0;0;1;1]));
  (*1552*) AddTo (T 167) (Plain (Einsum [(T 166,[0;1]); (n_l2,[2;3;1;4])] [0;4;2;3]));
  (*1553*) Del (T 166);
  (*1554*) AddTo (T 171) (Plain (Einsum [(T 167,[0;1;2;3])] [0;1;3;2]));
  (*1555*) Del (T 167);
  (*1556*) SubFrom n_l2new (Plain (Einsum [(T 171,[0;1;2;3])] [3;2;0;1]));
  (*1557*) SubFrom n_l2new (Plain (Einsum [(T 171,[0;1;2;3])] [2;3;1;0]));
  (*1558*) Del (T 171);
  (*1559*) Assign (T 172) (Plain (Zeros [0;0;1;1]));
  (*1560*) AddTo (T 172) (Plain (Einsum [(n_gc'bov,[0;1;2]); (n_lu11,[0;3;4])] [1;4;2;3]));
  (*1561*) AddTo (T 192) (Plain (Einsum [(T 172,[0;1;2;3])] [0;1;2;3]));
  (*1562*) Del (T 172);
  (*1563*) Assign (T 173) (Plain (Zeros [0;0;1;1]));
  (*1564*) AddTo (T 173) (Plain (Einsum [(n_l1,[0;1]); (n_v'ooov,[2;1;3;4])] [2;3;0;4]));
  (*1565*) SubFrom (T 192) (Plain (Einsum [(T 173,[0;1;2;3])] [0;1;2;3]));
  (*1566*) Del (T 173);
  (*1567*) Assign (T 175) (Plain (Zeros [0;0;1;1]));
  (*1568*) SubFrom (T 175) (Plain (Einsum [(n_l2,[0;1;2;3])] [3;2;0;1]));
  (*1569*) AddTo (T 175) (Times (Einsum [(n_l2,[0;1;2;3])] [3;2;1;0]) (2) 1);
  (*1570*) Assign (T 176) (Plain (Zeros [0;0;1;1]));
  (*1571*) AddTo (T 176) (Plain (Einsum [(n_t2,[0;1;2;3]); (n_v'ovov,[4;2;0;5])] [1;4;3;5]));
  (*1572*) SubFrom (T 179) (Plain (Einsum [(T 176,[0;1;2;3])] [0;1;2;3]));
  (*1573*) Del (T 176);
  (*1574*) Assign (T 177) (Plain (Zeros [0;0;1;1]));
  (*1575*) SubFrom (T 177) (Plain (Einsum [(n_t2,[0;1;2;3])] [1;0;2;3]));
  (*1576*) AddTo (T 177) (Times (Einsum [(n_t2,[0;1;2;3])] [1;0;3;2]) (2) 1);
  (*1577*) Assign (T 178) (Plain (Zeros [0;0;1;1]));
  (*1578*) AddTo (T 178) (Plain (Einsum [(n_v'ovov,[0;1;2;3]); (T 177,[0;4;1;5])] [4;2;5;3]));
  (*1579*) Del (T 177);
  (*1580*) AddTo (T 179) (Plain (Einsum [(T 178,[0;1;2;3])] [0;1;2;3]));
  (*1581*) Del (T 178);
  (*1582*) AddTo (T 179) (Plain (Einsum [(n_v'ovvo,[0;1;2;3])] [3;0;2;1]));
  (*1583*) Assign (T 180) (Plain (Zeros [0;0;1;1]));
  (*1584*) AddTo (T 180) (Plain (Einsum [(T 175,[0;1;2;3]); (T 179,[0;4;2;5])] [1;4;3;5]));
  (*1585*) Del (T 179);
  (*1586*) Del (T 175);
  (*1587*) AddTo (T 192) (Plain (Einsum [(T 180,[0;1;2;3])] [0;1;2;3]));
  (*1588*) Del (T 180);
  (*1589*) AddTo n_l2new (Plain (Einsum [(T 192,[0;1;2;3])] [2;3;0;1]));
  (*1590*) AddTo n_l2new (Plain (Einsum [(T 192,[0;1;2;3])] [3;2;1;0]));
  (*1591*) Del (T 192);
  (*1592*) AddTo (T 193) (Plain (Einsum [(n_v'oooo,[0;1;2;3])] [2;0;3;1]));
  (*1593*) AddTo n_l2new (Plain (Einsum [(n_l2,[0;1;2;3]); (T 193,[4;5;2;3])] [1;0;5;4]));
  (*1594*) Del (T 193);
  (*1595*) AddTo (T 195) (Plain (Einsum [(n_gc'bov,[0;1;2])] [0;1;2]));
  (*1596*) AddTo (T 205) (Times (Einsum [(T 195,[0;1;2]); (T 34,[1;3;4;2])] [0;3;4]) (-1) 1);
  (*1597*) Del (T 34);
  (*1598*) Del (T 195);
  (*1599*) Assign (T 196) (Plain (Zeros [0;0;1;1]));
  (*1600*) AddTo (T 196) (Times (Einsum [(n_v'ovvo,[0;1;2;3])] [0;3;2;1]) (2) 1);
  (*1601*) AddTo (T 196) (Times (Einsum [(n_v'oovv,[0;1;2;3])] [0;1;2;3]) (-1) 1);
  (*1602*) AddTo (T 205) (Times (Einsum [(n_u11,[0;1;2]); (T 196,[1;3;4;2])] [0;3;4]) (-1) 1);
  (*1603*) Del (T 196);
  (*1604*) Assign (T 197) (Plain (Zeros [0;0;1;1]));
  (*1605*) AddTo (T 197) (Times (Einsum [(n_t2,[0;1;2;3])] [1;0;2;3]) (-1) 1);
  (*1606*) AddTo (T 197) (Times (Einsum [(n_t2,[0;1;2;3])] [1;0;3;2]) (2) 1);
  (*1607*) Assign (T 198) (Plain (Zeros [1;1]));
  (*1608*) AddTo (T 198) (Plain (Einsum [(n_v'ovov,[0;1;2;3]); (T 197,[0;2;4;3])] [4;1]));
  (*1609*) Del (T 197);
  (*1610*) AddTo (T 199) (Times (Einsum [(T 198,[0;1])] [0;1]) (-1) 1);
  (*1611*) Del (T 198);
  (*1612*) AddTo (T 199) (Plain (Einsum [(n_f'vv,[0;1])] [0;1]));
  (*1613*) AddTo (T 205) (Times (Einsum [(T 199,[0;1]); (n_u11,[2;3;1])] [2;3;0]) (-1) 1);
  (*1614*) AddTo n_lu12new (Plain (Einsum [(T 199,[0;1]); (n_lu12,[2;3;0;4])] [3;2;1;4]));
  (*1615*) Del (T 199);
  (*1616*) AddTo (T 200) (Plain (Einsum [(n_gc'bov,[0;1;2])] [0;1;2]));
  (*1617*) AddTo (T 201) (Plain (Einsum [(n_t1,[0;1]); (T 200,[2;3;1])] [2;3;0]));
  (*1618*) Del (T 200);
  (*1619*) AddTo (T 201) (Plain (Einsum [(n_gc'boo,[0;1;2])] [0;1;2]));
  (*1620*) AddTo (T 205) (Plain (Einsum [(n_t1,[0;1]); (T 201,[2;0;3])] [2;3;1]));
  (*1621*) Del (T 201);
  (*1622*) AddTo (T 202) (Plain (Einsum [(n_gc'bvv,[0;1;2])] [0;1;2]));
  (*1623*) AddTo (T 205) (Times (Einsum [(n_t1,[0;1]); (T 202,[2;3;1])] [2;0;3]) (-1) 1);
  (*1624*) Del (T 202);
  (*1625*) Assign (T 203) (Plain (Zeros [3;0;1]));
  (*1626*) AddTo (T 203) (Plain (Einsum [(n_t1,[0;1]); (n_g'bvv,[2;3;1])] [2;0;3]));
  (*1627*) Assign (T 204) (Plain (Zeros [3;0;1]));
  (*1628*) AddTo (T 204) (Plain (Einsum [(T 203,[0;1;2])] [0;1;2]));
  (*1629*) AddTo (T 226) (Plain (Einsum [(T 203,[0;1;2])] [0;1;2]));
  (*1630*) Del (T 203);
  (*1631*) AddTo (T 204) (Plain (Einsum [(n_g'bvo,[0;1;2])] [0;2;1]));
  (*1632*) AddTo (T 205) (Times (Einsum [(n_s2,[0;1]); (T 204,[0;2;3])] [1;2;3]) (-1) 1);
  (*1633*) Del (T 204);
  (*1634*) AddTo (T 205) (Times (Einsum [(n_gc'bvo,[0;1;2])] [0;2;1]) (-1) 1);
  (*1635*) AddTo (T 205) (Times (Einsum [(n_g'bvv,[0;1;2]); (n_u12,[0;3;4;2])] [3;4;1]) (-1) 1);
  (*1636*) AddTo n_ls1new (Times (Einsum [(T 205,[0;1;2]); (n_lu12,[0;3;2;1])] [3]) (-2) 1);
  (*1637*) Del (T 205);
  (*1638*) AddTo (T 214) (Times (Einsum [(n_f'vo,[0;1])] [1;0]) (1) 2);
  (*1639*) AddTo n_ls1new (Times (Einsum [(T 214,[0;1]); (n_lu11,[2;1;0])] [2]) (4) 1);
  (*1640*) Assign n_ls2new (Plain (Zeros [3;3]));
  (*1641*) AddTo n_ls2new (Times (Einsum [(T 214,[0;1]); (n_lu12,[2;3;1;0])] [3;2]) (4) 1);
  (*1642*) Del (T 214);
  (*1643*) Assign (T 217) (Plain (Zeros [3;3]));
  (*1644*) AddTo (T 217) (Plain (Einsum [(n_ls2,[0;1]); (n_w,[2;1])] [0;2]));
  (*1645*) AddTo (T 229) (Plain (Einsum [(T 217,[0;1])] [0;1]));
  (*1646*) Del (T 217);
  (*1647*) Assign (T 220) (Plain (Zeros [3;1;1]));
  (*1648*) AddTo (T 220) (Plain (Einsum [(n_u11,[0;1;2]); (n_lu12,[0;3;4;1])] [3;4;2]));
  (*1649*) Assign (T 221) (Plain (Zeros [3;3]));
  (*1650*) AddTo (T 221) (Plain (Einsum [(n_g'bvv,[0;1;2]); (T 220,[3;1;2])] [0;3]));
  (*1651*) AddTo (T 229) (Times (Einsum [(T 221,[0;1])] [0;1]) (2) 1);
  (*1652*) Del (T 221);
  (*1653*) Assign (T 233) (Plain (Zeros [3;3;0;1]));
  (*1654*) AddTo (T 233) (Plain (Einsum [(n_g'bov,[0;1;2]); (T 220,[3;4;2])] [0;3;1;4]));
  (*1655*) Del (T 220);
  (*1656*) AddTo (T 237) (Plain (Einsum [(T 233,[0;1;2;3])] [0;1;2;3]));
  (*1657*) Del (T 233);
  (*1658*) AddTo (T 226) (Plain (Einsum [(n_g'bvo,[0;1;2])] [0;2;1]));
  (*1659*) Assign (T 227) (Plain (Zeros [3;3]));
  (*1660*) AddTo (T 227) (Plain (Einsum [(n_lu11,[0;1;2]); (T 226,[3;2;1])] [3;0]));
  (*1661*) Del (T 226);
  (*1662*) AddTo (T 229) (Times (Einsum [(T 227,[0;1])] [0;1]) (2) 1);
  (*1663*) Del (T 227);
  (*1664*) AddTo n_ls2new (Plain (Einsum [(T 229,[0;1])] [0;1]));
  (*1665*) AddTo n_ls2new (Plain (Einsum [(T 229,[0;1])] [1;0]));
  (*1666*) Del (T 229);
  (*1667*) Assign (T 230) (Plain (Zeros [3;3;3]));
  (*1668*) AddTo (T 230) (Plain (Einsum [(n_u11,[0;1;2]); (n_lu12,[3;4;2;1])] [3;4;0]));
  (*1669*) AddTo n_lu12new (Times (Einsum [(n_g'bov,[0;1;2]); (T 230,[3;4;0])] [4;3;2;1]) (2) 1);
  (*1670*) Del (T 230);
  (*1671*) Assign (T 231) (Plain (Zeros [3;3;0;1]));
  (*1672*) AddTo (T 231) (Plain (Einsum [(n_w,[0;1]); (n_lu12,[1;2;3;4])] [2;0;4;3]));
  (*1673*) SubFrom (T 237) (Plain (Einsum [(T 231,[0;1;2;3])] [0;1;2;3]));
  (*1674*) Del (T 231);
  (*1675*) Assign (T 232) (Plain (Zeros [3;3;0;1]));
  (*1676*) AddTo (T 232) (Plain (Einsum [(n_g'bvv,[0;1;2]); (n_lu11,[3;1;4])] [0;3;4;2]));
  (*1677*) SubFrom (T 237) (Plain (Einsum [(T 232,[0;1;2;3])] [0;1;2;3]));
  (*1678*) Del (T 232);
  (*1679*) SubFrom n_lu12new (Plain (Einsum [(T 237,[0;1;2;3])] [0;1;3;2]));
  (*1680*) SubFrom n_lu12new (Plain (Einsum [(T 237,[0;1;2;3])] [1;0;3;2]));
  (*1681*) Del (T 237);
  (*1682*) AddTo (T 239) (Times (Einsum [(n_v'ovvo,[0;1;2;3])] [0;3;2;1]) (2) 1);
  (*1683*) SubFrom (T 239) (Plain (Einsum [(n_v'oovv,[0;1;2;3])] [0;1;2;3]));
  (*1684*) AddTo n_lu12new (Plain (Einsum [(n_lu12,[0;1;2;3]); (T 239,[4;3;2;5])] [1;0;5;4]));
  (*1685*) Del (T 239);
  (*1686*) AddTo n_l1new (Plain (Einsum [(n_f'ov,[0;1])] [1;0]));
  (*1687*) AddTo n_l1new (Plain (Einsum [(n_ls1,[0]); (n_gc'bov,[0;1;2])] [2;1]));
  (*1688*) AddTo n_l2new (Plain (Einsum [(n_l2,[0;1;2;3]); (n_v'vvvv,[0;4;1;5])] [5;4;3;2]));
  (*1689*) AddTo n_l2new (Plain (Einsum [(n_v'ovov,[0;1;2;3])] [3;1;2;0]));
  (*1690*) AddTo n_ls1new (Plain (Einsum [(n_G,[0])] [0]));
  (*1691*) AddTo n_ls1new (Plain (Einsum [(n_ls1,[0]); (n_w,[1;0])] [1]));
  (*1692*) AddTo n_ls1new (Times (Einsum [(n_l1,[0;1]); (n_g'bvo,[2;0;1])] [2]) (2) 1);
  (*1693*) SubFrom n_lu11new (Plain (Einsum [(n_f'oo,[0;1]); (n_lu11,[2;3;1])] [2;3;0]));
  (*1694*) SubFrom n_lu11new (Plain (Einsum [(n_l1,[0;1]); (n_g'boo,[2;3;1])] [2;0;3]));
  (*1695*) SubFrom n_lu11new (Plain (Einsum [(n_gc'boo,[0;1;2]); (n_lu12,[3;0;4;2])] [3;4;1]));
  (*1696*) AddTo n_lu11new (Plain (Einsum [(n_gc'bvv,[0;1;2]); (n_lu12,[3;0;1;4])] [3;2;4]));
  (*1697*) AddTo n_lu11new (Plain (Einsum [(n_f'vv,[0;1]); (n_lu11,[2;0;3])] [2;1;3]));
  (*1698*) AddTo n_lu11new (Plain (Einsum [(n_l1,[0;1]); (n_g'bvv,[2;0;3])] [2;3;1]));
  (*1699*) AddTo n_lu11new (Plain (Einsum [(n_g'bov,[0;1;2])] [0;2;1]));
  (*1700*) AddTo n_lu11new (Plain (Einsum [(n_G,[0]); (n_lu12,[1;0;2;3])] [1;2;3]));
  (*1701*) AddTo n_lu11new (Plain (Einsum [(n_ls2,[0;1]); (n_gc'bov,[1;2;3])] [0;3;2]));
  (*1702*) AddTo n_lu11new (Plain (Einsum [(n_w,[0;1]); (n_lu11,[1;2;3])] [0;2;3]))]
 [(n_l1new,[1;0]); (n_l2new,[1;1;0;0]); (n_ls1new,[3]); (n_ls2new,[3;3]); (n_lu11new,[3;1;0]); (n_lu12new,[3;3;1;0])].

(** ebcc/codegen/RCCSD_SD_1_2.py:1706-1789 [make_rdm1_f]; assembly (line 1787) not translated *)
Definition RCCSD_SD_1_2_make_rdm1_f : prog := mkprog
 [(n_g'boo,[3;0;0]); (n_g'bvo,[3;1;0]); (n_g'bov,[3;0;1]); (n_g'bvv,[3;1;1]); (n_lu12,[3;3;1;0]); (n_u12,[3;3;0;1]); (n_lu11,[3;1;0]); (n_u11,[3;0;1]); (n_l1,[1;0]); (n_t1,[0;1]); (n_t2,[0;0;1;1]); (n_l2,[1;1;0;0]); (n_ls2,[3;3]); (n_ls1,[3])]
 [(*1708*) Assign n_gc'boo (Plain (Transpose n_g'boo [0;2;1]));
  (*1708*) Assign n_gc'bov (Plain (Transpose n_g'bvo [0;2;1]));
  (*1708*) Assign n_gc'bvo (Plain (Transpose n_g'bov [0;2;1]));
  (*1708*) Assign n_gc'bvv (Plain (Transpose n_g'bvv [0;2;1]));
  (*1715*) Assign n_delta_oo (Plain (Eye 0));
  (*1716*) Assign n_delta_vv (Plain (Eye 1));
  (*1719*) Assign (T 1) (Plain (Zeros [0;0]));
  (*1720*) AddTo (T 1) (Plain (Einsum [(n_lu12,[0;1;2;3]); (n_u12,[0;1;4;2])] [3;4]));
  (*1721*) Assign (T 11) (Plain (Zeros [0;0]));
  (*1722*) AddTo (T 11) (Times (Einsum [(T 1,[0;1])] [0;1]) (1) 2);
  (*1723*) Assign n_rdm1_f_oo (Plain (Zeros [0;0]));
  (*1724*) AddTo n_rdm1_f_oo (Times (Einsum [(T 1,[0;1])] [0;1]) (-1) 1);
  (*1725*) Del (T 1);
  (*1726*) Assign (T 2) (Plain (Zeros [0;0]));
  (*1727*) AddTo (T 2) (Plain (Einsum [(n_lu11,[0;1;2]); (n_u11,[0;3;1])] [2;3]));
  (*1728*) AddTo (T 11) (Plain (Einsum [(T 2,[0;1])] [0;1]));
  (*1729*) SubFrom n_rdm1_f_oo (Times (Einsum [(T 2,[0;1])] [0;1]) (2) 1);
  (*1730*) Del (T 2);
  (*1731*) Assign (T 3) (Plain (Zeros [0;0]));
  (*1732*) AddTo (T 3) (Plain (Einsum [(n_l1,[0;1]); (n_t1,[2;0])] [1;2]));
  (*1733*) AddTo (T 11) (Plain (Einsum [(T 3,[0;1])] [0;1]));
  (*1734*) SubFrom n_rdm1_f_oo (Times (Einsum [(T 3,[0;1])] [0;1]) (2) 1);
  (*1735*) Del (T 3);
  (*1736*) Assign (T 4) (Plain (Zeros [0;0;1;1]));
  (*1737*) AddTo (T 4) (Times (Einsum [(n_t2,[0;1;2;3])] [1;0;2;3]) (-1) 1);
  (*1738*) AddTo (T 4) (Times (Einsum [(n_t2,[0;1;2;3])] [1;0;3;2]) (2) 1);
  (*1739*) AddTo n_rdm1_f_oo (Times (Einsum [(n_l2,[0;1;2;3]); (T 4,[2;4;0;1])] [3;4]) (-2) 1);
  (*1740*) Del (T 4);
  (*1741*) Assign (T 5) (Plain (Zeros [3;3;0;0]));
  (*1742*) AddTo (T 5) (Plain (Einsum [(n_t1,[0;1]); (n_lu12,[2;3;1;4])] [2;3;4;0]));
  (*1743*) Assign n_rdm1_f_vo (Plain (Zeros [1;0]));
  (*1744*) AddTo n_rdm1_f_vo (Times (Einsum [(n_u12,[0;1;2;3]); (T 5,[0;1;2;4])] [3;4]) (-1) 1);
  (*1745*) Del (T 5);
  (*1746*) Assign (T 6) (Plain (Zeros [0;0;0;1]));
  (*1747*) AddTo (T 6) (Plain (Einsum [(n_t1,[0;1]); (n_l2,[2;1;3;4])] [3;4;0;2]));
  (*1748*) Assign (T 7) (Plain (Zeros [0;0;0;1]));
  (*1749*) AddTo (T 7) (Times (Einsum [(T 6,[0;1;2;3])] [0;1;2;3]) (2) 1);
  (*1750*) AddTo (T 7) (Times (Einsum [(T 6,[0;1;2;3])] [1;0;2;3]) (-1) 1);
  (*1751*) Del (T 6);
  (*1752*) AddTo n_rdm1_f_vo (Times (Einsum [(n_t2,[0;1;2;3]); (T 7,[1;0;4;3])] [2;4]) (-2) 1);
  (*1753*) Del (T 7);
  (*1754*) Assign (T 8) (Plain (Zeros [0;0;1;1]));
  (*1755*) SubFrom (T 8) (Plain (Einsum [(n_t2,[0;1;2;3])] [1;0;2;3]));
  (*1756*) AddTo (T 8) (Times (Einsum [(n_t2,[0;1;2;3])] [1;0;3;2]) (2) 1);
  (*1757*) AddTo n_rdm1_f_vo (Times (Einsum [(n_l1,[0;1]); (T 8,[1;2;0;3])] [3;2]) (2) 1);
  (*1758*) Del (T 8);
  (*1759*) Assign (T 9) (Plain (Zeros [3;0;0]));
  (*1760*) AddTo (T 9) (Plain (Einsum [(n_t1,[0;1]); (n_lu11,[2;1;3])] [2;3;0]));
  (*1761*) AddTo (T 9) (Plain (Einsum [(n_u11,[0;1;2]); (n_lu12,[0;3;2;4])] [3;4;1]));
  (*1762*) SubFrom n_rdm1_f_vo (Times (Einsum [(n_u11,[0;1;2]); (T 9,[0;1;3])] [2;3]) (2) 1);
  (*1763*) Del (T 9);
  (*1764*) Assign (T 10) (Plain (Zeros [0;0;1;1]));
  (*1765*) AddTo (T 10) (Plain (Einsum [(n_t2,[0;1;2;3])] [1;0;2;3]));
  (*1766*) AddTo (T 10) (Times (Einsum [(n_t2,[0;1;2;3])] [1;0;3;2]) (-1) 2);
  (*1767*) AddTo (T 11) (Times (Einsum [(n_l2,[0;1;2;3]); (T 10,[2;4;1;0])] [3;4]) (2) 1);
  (*1768*) Del (T 10);
  (*1769*) AddTo n_rdm1_f_vo (Times (Einsum [(n_t1,[0;1]); (T 11,[0;2])] [1;2]) (-2) 1);
  (*1770*) Del (T 11);
  (*1771*) Assign (T 12) (Plain (Zeros [0;0;1;1]));
  (*1772*) AddTo (T 12) (Plain (Einsum [(n_l2,[0;1;2;3])] [3;2;0;1]));
  (*1773*) AddTo (T 12) (Times (Einsum [(n_l2,[0;1;2;3])] [3;2;1;0]) (-1) 2);
  (*1774*) Assign n_rdm1_f_vv (Plain (Zeros [1;1]));
  (*1775*) AddTo n_rdm1_f_vv (Times (Einsum [(n_t2,[0;1;2;3]); (T 12,[0;1;3;4])] [2;4]) (4) 1);
  (*1776*) Del (T 12);
  (*1777*) AddTo n_rdm1_f_oo (Times (Einsum [(n_delta_oo,[0;1])] [1;0]) (2) 1);
  (*1778*) Assign n_rdm1_f_ov (Plain (Zeros [0;1]));
  (*1779*) AddTo n_rdm1_f_ov (Times (Einsum [(n_l1,[0;1])] [1;0]) (2) 1);
  (*1780*) AddTo n_rdm1_f_vo (Plain (Einsum [(n_ls2,[0;1]); (n_u12,[0;1;2;3])] [3;2]));
  (*1781*) AddTo n_rdm1_f_vo (Times (Einsum [(n_ls1,[0]); (n_u11,[0;1;2])] [2;1]) (2) 1);
  (*1782*) AddTo n_rdm1_f_vo (Times (Einsum [(n_t1,[0;1])] [1;0]) (2) 1);
  (*1783*) AddTo n_rdm1_f_vv (Plain (Einsum [(n_lu12,[0;1;2;3]); (n_u12,[0;1;3;4])] [4;2]));
  (*1784*) AddTo n_rdm1_f_vv (Times (Einsum [(n_lu11,[0;1;2]); (n_u11,[0;2;3])] [3;1]) (2) 1);
  (*1785*) AddTo n_rdm1_f_vv (Times (Einsum [(n_l1,[0;1]); (n_t1,[1;2])] [2;0]) (2) 1)]
 [(n_rdm1_f_oo,[0;0]); (n_rdm1_f_ov,[0;1]); (n_rdm1_f_vo,[1;0]); (n_rdm1_f_vv,[1;1])].

(** ebcc/codegen/RCCSD_SD_1_2.py:1791-2438 [make_rdm2_f]; assembly (line 2436) not translated *)
Definition RCCSD_SD_1_2_make_rdm2_f : prog := mkprog
 [(n_g'boo,[3;0;0]); (n_g'bvo,[3;1;0]); (n_g'bov,[3;0;1]); (n_g'bvv,[3;1;1]); (n_lu11,[3;1;0]); (n_u11,[3;0;1]); (n_t1,[0;1]); (n_t2,[0;0;1;1]); (n_l1,[1;0]); (n_l2,[1;1;0;0]); (n_lu12,[3;3;1;0]); (n_u12,[3;3;0;1]); (n_ls1,[3]); (n_ls2,[3;3])]
 [(*1793*) Assign n_gc'boo (Plain (Transpose n_g'boo [0;2;1]));
  (*1793*) Assign n_gc'bov (Plain (Transpose n_g'bvo [0;2;1]));
  (*1793*) Assign n_gc'bvo (Plain (Transpose n_g'bov [0;2;1]));
  (*1793*) Assign n_gc'bvv (Plain (Transpose n_g'bvv [0;2;1]));
  (*1800*) Assign n_delta_oo (Plain (Eye 0));
  (*1801*) Assign n_delta_vv (Plain (Eye 1));
  (*1804*) Assign (T 1) (Plain (Zeros [0;0]));
  (*1805*) AddTo (T 1) (Plain (Einsum [(n_lu11,[0;1;2]); (n_u11,[0;3;1])] [2;3]));
  (*1806*) Assign (T 14) (Plain (Zeros [0;0]));
  (*1807*) AddTo (T 14) (Plain (Einsum [(T 1,[0;1])] [0;1]));
  (*1808*) Assign (T 33) (Plain (Zeros [0;1]));
  (*1809*) AddTo (T 33) (Plain (Einsum [(n_t1,[0;1]); (T 1,[0;2])] [2;1]));
  (*1810*) Assign (T 38) (Plain (Zeros [0;1]));
  (*1811*) AddTo (T 38) (Plain (Einsum [(T 33,[0;1])] [0;1]));
  (*1812*) Del (T 33);
  (*1813*) Assign (T 66) (Plain (Zeros [0;0;1;1]));
  (*1814*) AddTo (T 66) (Plain (Einsum [(T 1,[0;1]); (n_t2,[2;0;3;4])] [2;1;3;4]));
  (*1815*) Assign (T 77) (Plain (Zeros [0;0;1;1]));
  (*1816*) AddTo (T 77) (Plain (Einsum [(T 66,[0;1;2;3])] [0;1;2;3]));
  (*1817*) Del (T 66);
  (*1818*) Assign (T 112) (Plain (Zeros [0;0]));
  (*1819*) AddTo (T 112) (Plain (Einsum [(T 1,[0;1])] [0;1]));
  (*1820*) Assign n_rdm2_f_oooo (Plain (Zeros [0;0;0;0]));
  (*1821*) SubFrom n_rdm2_f_oooo (Times (Einsum [(n_delta_oo,[0;1]); (T 1,[2;3])] [0;1;2;3]) (4) 1);
  (*1822*) AddTo n_rdm2_f_oooo (Times (Einsum [(n_delta_oo,[0;1]); (T 1,[2;3])] [0;3;2;1]) (2) 1);
  (*1823*) AddTo n_rdm2_f_oooo (Times (Einsum [(n_delta_oo,[0;1]); (T 1,[2;3])] [2;0;1;3]) (2) 1);
  (*1824*) SubFrom n_rdm2_f_oooo (Times (Einsum [(n_delta_oo,[0;1]); (T 1,[2;3])] [2;3;1;0]) (4) 1);
  (*1825*) Del (T 1);
  (*1826*) Assign (T 2) (Plain (Zeros [0;0]));
  (*1827*) AddTo (T 2) (Plain (Einsum [(n_l1,[0;1]); (n_t1,[2;0])] [1;2]));
  (*1828*) AddTo (T 14) (Plain (Einsum [(T 2,[0;1])] [0;1]));
  (*1829*) Assign (T 15) (Plain (Zeros [0;0;0;1]));
  (*1830*) AddTo (T 15) (Plain (Einsum [(n_t1,[0;1]); (T 14,[2;3])] [2;0;3;1]));
  (*1831*) Del (T 14);
  (*1832*) Assign (T 42) (Plain (Zeros [0;1]));
  (*1833*) AddTo (T 42) (Plain (Einsum [(n_t1,[0;1]); (T 2,[0;2])] [2;1]));
  (*1834*) Assign (T 43) (Plain (Zeros [0;1]));
  (*1835*) AddTo (T 43) (Times (Einsum [(T 42,[0;1])] [0;1]) (-1) 1);
  (*1836*) Del (T 42);
  (*1837*) Assign (T 80) (Plain (Zeros [0;0;1;1]));
  (*1838*) AddTo (T 80) (Plain (Einsum [(T 2,[0;1]); (n_t2,[2;0;3;4])] [1;2;3;4]));
  (*1839*) Assign (T 87) (Plain (Zeros [0;0;1;1]));
  (*1840*) AddTo (T 87) (Plain (Einsum [(T 80,[0;1;2;3])] [0;1;2;3]));
  (*1841*) Del (T 80);
  (*1842*) AddTo (T 112) (Plain (Einsum [(T 2,[0;1])] [0;1]));
  (*1843*) Assign (T 113) (Plain (Zeros [0;1]));
  (*1844*) AddTo (T 113) (Plain (Einsum [(n_t1,[0;1]); (T 112,[0;2])] [2;1]));
  (*1845*) Del (T 112);
  (*1846*) Assign (T 114) (Plain (Zeros [0;1]));
  (*1847*) AddTo (T 114) (Plain (Einsum [(T 113,[0;1])] [0;1]));
  (*1848*) Assign (T 115) (Plain (Zeros [0;1]));
  (*1849*) AddTo (T 115) (Plain (Einsum [(T 113,[0;1])] [0;1]));
  (*1850*) Del (T 113);
  (*1851*) SubFrom n_rdm2_f_oooo (Times (Einsum [(n_delta_oo,[0;1]); (T 2,[2;3])] [1;0;2;3]) (4) 1);
  (*1852*) AddTo n_rdm2_f_oooo (Times (Einsum [(n_delta_oo,[0;1]); (T 2,[2;3])] [2;0;1;3]) (2) 1);
  (*1853*) AddTo n_rdm2_f_oooo (Times (Einsum [(n_delta_oo,[0;1]); (T 2,[2;3])] [1;3;2;0]) (2) 1);
  (*1854*) SubFrom n_rdm2_f_oooo (Times (Einsum [(n_delta_oo,[0;1]); (T 2,[2;3])] [2;3;1;0]) (4) 1);
  (*1855*) Del (T 2);
  (*1856*) Assign (T 3) (Plain (Zeros [0;0;0;0]));
  (*1857*) AddTo (T 3) (Plain (Einsum [(n_l2,[0;1;2;3]); (n_t2,[4;5;1;0])] [2;3;5;4]));
  (*1858*) Assign (T 20) (Plain (Zeros [0;0;0;1]));
  (*1859*) AddTo (T 20) (Plain (Einsum [(n_t1,[0;1]); (T 3,[2;0;3;4])] [2;3;4;1]));
  (*1860*) Assign (T 26) (Plain (Zeros [0;0;0;1]));
  (*1861*) AddTo (T 26) (Times (Einsum [(T 20,[0;1;2;3])] [0;1;2;3]) (-4) 1);
  (*1862*) Assign (T 44) (Plain (Zeros [0;0;0;1]));
  (*1863*) AddTo (T 44) (Times (Einsum [(T 20,[0;1;2;3])] [0;1;2;3]) (2) 1);
  (*1864*) Assign (T 107) (Plain (Zeros [0;0;1;1]));
  (*1865*) AddTo (T 107) (Plain (Einsum [(n_t1,[0;1]); (T 20,[0;2;3;4])] [3;2;4;1]));
  (*1866*) Del (T 20);
  (*1867*) Assign (T 110) (Plain (Zeros [0;0;1;1]));
  (*1868*) AddTo (T 110) (Times (Einsum [(T 107,[0;1;2;3])] [0;1;2;3]) (20000000000000013) 10000000000000000);
  (*1869*) Del (T 107);
  (*1870*) Assign (T 108) (Plain (Zeros [0;0;0;0]));
  (*1871*) AddTo (T 108) (Plain (Einsum [(T 3,[0;1;2;3])] [1;0;3;2]));
  (*1872*) AddTo n_rdm2_f_oooo (Times (Einsum [(T 3,[0;1;2;3])] [1;2;0;3]) (-2) 1);
  (*1873*) AddTo n_rdm2_f_oooo (Times (Einsum [(T 3,[0;1;2;3])] [1;3;0;2]) (4) 1);
  (*1874*) Del (T 3);
  (*1875*) Assign (T 4) (Plain (Zeros [0;0;0;1]));
  (*1876*) AddTo (T 4) (Plain (Einsum [(n_t1,[0;1]); (n_l2,[2;1;3;4])] [3;4;0;2]));
  (*1877*) Assign (T 5) (Plain (Zeros [0;0;0;0]));
  (*1878*) AddTo (T 5) (Plain (Einsum [(n_t1,[0;1]); (T 4,[2;3;4;1])] [3;2;4;0]));
  (*1879*) Assign (T 30) (Plain (Zeros [0;0;0;1]));
  (*1880*) AddTo (T 30) (Plain (Einsum [(n_t1,[0;1]); (T 5,[0;2;3;4])] [2;4;3;1]));
  (*1881*) Assign (T 39) (Plain (Zeros [0;0;0;1]));
  (*1882*) SubFrom (T 39) (Plain (Einsum [(T 30,[0;1;2;3])] [0;1;2;3]));
  (*1883*) Assign (T 48) (Plain (Zeros [0;0;0;1]));
  (*1884*) AddTo (T 48) (Plain (Einsum [(T 30,[0;1;2;3])] [0;1;2;3]));
  (*1885*) Assign (T 90) (Plain (Zeros [0;0;1;1]));
  (*1886*) AddTo (T 90) (Plain (Einsum [(n_t1,[0;1]); (T 30,[0;2;3;4])] [2;3;1;4]));
  (*1887*) Del (T 30);
  (*1888*) Assign (T 92) (Plain (Zeros [0;0;1;1]));
  (*1889*) AddTo (T 92) (Plain (Einsum [(T 90,[0;1;2;3])] [0;1;2;3]));
  (*1890*) Del (T 90);
  (*1891*) AddTo (T 108) (Plain (Einsum [(T 5,[0;1;2;3])] [0;1;2;3]));
  (*1892*) Assign (T 109) (Plain (Zeros [0;0;1;1]));
  (*1893*) AddTo (T 109) (Times (Einsum [(n_t2,[0;1;2;3]); (T 108,[0;1;4;5])] [4;5;2;3]) (2) 1);
  (*1894*) Del (T 108);
  (*1895*) AddTo (T 110) (Plain (Einsum [(T 109,[0;1;2;3])] [0;1;2;3]));
  (*1896*) Del (T 109);
  (*1897*) Assign n_rdm2_f_vovo (Plain (Zeros [1;0;1;0]));
  (*1898*) AddTo n_rdm2_f_vovo (Times (Einsum [(T 110,[0;1;2;3])] [2;1;3;0]) (-1) 1);
  (*1899*) AddTo n_rdm2_f_vovo (Times (Einsum [(T 110,[0;1;2;3])] [3;1;2;0]) (2) 1);
  (*1900*) Del (T 110);
  (*1901*) AddTo n_rdm2_f_oooo (Times (Einsum [(T 5,[0;1;2;3])] [0;2;1;3]) (4) 1);
  (*1902*) SubFrom n_rdm2_f_oooo (Times (Einsum [(T 5,[0;1;2;3])] [0;3;1;2]) (2) 1);
  (*1903*) Del (T 5);
  (*1904*) Assign (T 13) (Plain (Zeros [0;0;0;1]));
  (*1905*) AddTo (T 13) (Plain (Einsum [(n_t2,[0;1;2;3]); (T 4,[4;1;5;2])] [4;5;0;3]));
  (*1906*) SubFrom (T 15) (Plain (Einsum [(T 13,[0;1;2;3])] [0;1;2;3]));
  (*1907*) Assign (T 85) (Plain (Zeros [0;0;0;1]));
  (*1908*) SubFrom (T 85) (Plain (Einsum [(T 13,[0;1;2;3])] [0;1;2;3]));
  (*1909*) Del (T 13);
  (*1910*) Assign (T 22) (Plain (Zeros [0;0;0;1]));
  (*1911*) AddTo (T 22) (Plain (Einsum [(T 4,[0;1;2;3])] [0;1;2;3]));
  (*1912*) AddTo (T 22) (Times (Einsum [(T 4,[0;1;2;3])] [1;0;2;3]) (-1) 2);
  (*1913*) Assign (T 23) (Plain (Zeros [0;1]));
  (*1914*) AddTo (T 23) (Times (Einsum [(n_t2,[0;1;2;3]); (T 22,[0;1;4;2])] [4;3]) (4) 1);
  (*1915*) Assign (T 25) (Plain (Zeros [0;1]));
  (*1916*) AddTo (T 25) (Plain (Einsum [(T 23,[0;1])] [0;1]));
  (*1917*) Del (T 23);
  (*1918*) Assign (T 100) (Plain (Zeros [0;1]));
  (*1919*) AddTo (T 100) (Times (Einsum [(n_t2,[0;1;2;3]); (T 22,[0;1;4;2])] [4;3]) (4000000000000003) 1000000000000000);
  (*1920*) Del (T 22);
  (*1921*) Assign (T 103) (Plain (Zeros [0;1]));
  (*1922*) AddTo (T 103) (Plain (Einsum [(T 100,[0;1])] [0;1]));
  (*1923*) Del (T 100);
  (*1924*) Assign (T 29) (Plain (Zeros [0;0;0;1]));
  (*1925*) AddTo (T 29) (Plain (Einsum [(n_t2,[0;1;2;3]); (T 4,[1;4;5;2])] [4;5;0;3]));
  (*1926*) SubFrom (T 39) (Plain (Einsum [(T 29,[0;1;2;3])] [0;1;2;3]));
  (*1927*) Del (T 29);
  (*1928*) Assign (T 31) (Plain (Zeros [0;0;0;1]));
  (*1929*) SubFrom (T 31) (Plain (Einsum [(T 4,[0;1;2;3])] [0;1;2;3]));
  (*1930*) AddTo (T 31) (Times (Einsum [(T 4,[0;1;2;3])] [1;0;2;3]) (2) 1);
  (*1931*) Assign (T 32) (Plain (Zeros [0;0;0;1]));
  (*1932*) AddTo (T 32) (Plain (Einsum [(n_t2,[0;1;2;3]); (T 31,[4;0;5;2])] [4;5;1;3]));
  (*1933*) AddTo (T 39) (Plain (Einsum [(T 32,[0;1;2;3])] [0;1;2;3]));
  (*1934*) Del (T 32);
  (*1935*) Assign (T 62) (Plain (Zeros [0;0;1;1]));
  (*1936*) AddTo (T 62) (Plain (Einsum [(n_t1,[0;1]); (T 31,[0;2;3;4])] [2;3;1;4]));
  (*1937*) Del (T 31);
  (*1938*) Assign n_rdm2_f_ovvo (Plain (Zeros [0;1;1;0]));
  (*1939*) SubFrom n_rdm2_f_ovvo (Times (Einsum [(T 62,[0;1;2;3])] [0;3;2;1]) (2) 1);
  (*1940*) Assign n_rdm2_f_voov (Plain (Zeros [1;0;0;1]));
  (*1941*) SubFrom n_rdm2_f_voov (Times (Einsum [(T 62,[0;1;2;3])] [2;1;0;3]) (2) 1);
  (*1942*) Del (T 62);
  (*1943*) Assign (T 45) (Plain (Zeros [0;0;0;1]));
  (*1944*) AddTo (T 45) (Plain (Einsum [(n_t2,[0;1;2;3]); (T 4,[4;1;5;3])] [4;5;0;2]));
  (*1945*) AddTo (T 48) (Plain (Einsum [(T 45,[0;1;2;3])] [0;1;2;3]));
  (*1946*) Assign (T 69) (Plain (Zeros [0;0;0;1]));
  (*1947*) AddTo (T 69) (Plain (Einsum [(T 45,[0;1;2;3])] [0;1;2;3]));
  (*1948*) Del (T 45);
  (*1949*) Assign (T 53) (Plain (Zeros [0;0;0;1]));
  (*1950*) AddTo (T 53) (Times (Einsum [(T 4,[0;1;2;3])] [0;1;2;3]) (2) 1);
  (*1951*) SubFrom (T 53) (Plain (Einsum [(T 4,[0;1;2;3])] [1;0;2;3]));
  (*1952*) Assign (T 54) (Plain (Zeros [0;0;1;1]));
  (*1953*) AddTo (T 54) (Plain (Einsum [(n_t1,[0;1]); (T 53,[0;2;3;4])] [2;3;1;4]));
  (*1954*) Del (T 53);
  (*1955*) Assign n_rdm2_f_oovv (Plain (Zeros [0;0;1;1]));
  (*1956*) SubFrom n_rdm2_f_oovv (Times (Einsum [(T 54,[0;1;2;3])] [0;1;2;3]) (2) 1);
  (*1957*) Assign n_rdm2_f_vvoo (Plain (Zeros [1;1;0;0]));
  (*1958*) SubFrom n_rdm2_f_vvoo (Times (Einsum [(T 54,[0;1;2;3])] [2;3;0;1]) (2) 1);
  (*1959*) Del (T 54);
  (*1960*) Assign (T 120) (Plain (Zeros [0;0;1;1]));
  (*1961*) AddTo (T 120) (Plain (Einsum [(n_t1,[0;1]); (T 4,[2;0;3;4])] [2;3;4;1]));
  (*1962*) Assign (T 122) (Plain (Zeros [0;0;1;1]));
  (*1963*) AddTo (T 122) (Plain (Einsum [(T 120,[0;1;2;3])] [0;1;2;3]));
  (*1964*) Del (T 120);
  (*1965*) Assign (T 132) (Plain (Zeros [0;1;1;1]));
  (*1966*) AddTo (T 132) (Plain (Einsum [(n_t2,[0;1;2;3]); (T 4,[0;1;4;5])] [4;5;2;3]));
  (*1967*) Assign (T 133) (Plain (Zeros [0;1;1;1]));
  (*1968*) AddTo (T 133) (Times (Einsum [(T 132,[0;1;2;3])] [0;1;2;3]) (2) 1);
  (*1969*) Assign (T 134) (Plain (Zeros [0;1;1;1]));
  (*1970*) AddTo (T 134) (Times (Einsum [(T 132,[0;1;2;3])] [0;1;2;3]) (4) 1);
  (*1971*) Del (T 132);
  (*1972*) Assign n_rdm2_f_ooov (Plain (Zeros [0;0;0;1]));
  (*1973*) AddTo n_rdm2_f_ooov (Times (Einsum [(T 4,[0;1;2;3])] [0;2;1;3]) (2) 1);
  (*1974*) SubFrom n_rdm2_f_ooov (Times (Einsum [(T 4,[0;1;2;3])] [1;2;0;3]) (4) 1);
  (*1975*) Assign n_rdm2_f_ovoo (Plain (Zeros [0;1;0;0]));
  (*1976*) SubFrom n_rdm2_f_ovoo (Times (Einsum [(T 4,[0;1;2;3])] [0;3;1;2]) (4) 1);
  (*1977*) AddTo n_rdm2_f_ovoo (Times (Einsum [(T 4,[0;1;2;3])] [1;3;0;2]) (2) 1);
  (*1978*) Assign (T 6) (Plain (Zeros [0;0]));
  (*1979*) AddTo (T 6) (Plain (Einsum [(n_lu12,[0;1;2;3]); (n_u12,[0;1;4;2])] [3;4]));
  (*1980*) Assign (T 9) (Plain (Zeros [0;0]));
  (*1981*) AddTo (T 9) (Plain (Einsum [(T 6,[0;1])] [0;1]));
  (*1982*) Assign (T 17) (Plain (Zeros [0;0]));
  (*1983*) AddTo (T 17) (Times (Einsum [(T 6,[0;1])] [0;1]) (1) 2);
  (*1984*) Assign (T 101) (Plain (Zeros [0;0]));
  (*1985*) AddTo (T 101) (Times (Einsum [(T 6,[0;1])] [0;1]) (49999999999999967) 100000000000000000);
  (*1986*) Del (T 6);
  (*1987*) Assign (T 7) (Plain (Zeros [0;0;1;1]));
  (*1988*) AddTo (T 7) (Plain (Einsum [(n_t2,[0;1;2;3])] [1;0;2;3]));
  (*1989*) AddTo (T 7) (Times (Einsum [(n_t2,[0;1;2;3])] [1;0;3;2]) (-1) 2);
  (*1990*) Assign (T 8) (Plain (Zeros [0;0]));
  (*1991*) AddTo (T 8) (Times (Einsum [(n_l2,[0;1;2;3]); (T 7,[2;4;1;0])] [4;3]) (4) 1);
  (*1992*) AddTo (T 9) (Plain (Einsum [(T 8,[0;1])] [1;0]));
  (*1993*) Del (T 8);
  (*1994*) AddTo n_rdm2_f_oooo (Times (Einsum [(n_delta_oo,[0;1]); (T 9,[2;3])] [1;0;2;3]) (-2) 1);
  (*1995*) AddTo n_rdm2_f_oooo (Plain (Einsum [(n_delta_oo,[0;1]); (T 9,[2;3])] [1;3;2;0]));
  (*1996*) AddTo n_rdm2_f_oooo (Plain (Einsum [(n_delta_oo,[0;1]); (T 9,[2;3])] [2;1;0;3]));
  (*1997*) AddTo n_rdm2_f_oooo (Times (Einsum [(n_delta_oo,[0;1]); (T 9,[2;3])] [2;3;0;1]) (-2) 1);
  (*1998*) Del (T 9);
  (*1999*) Assign (T 16) (Plain (Zeros [0;0]));
  (*2000*) AddTo (T 16) (Times (Einsum [(n_l2,[0;1;2;3]); (T 7,[2;4;1;0])] [4;3]) (2) 1);
  (*2001*) AddTo (T 17) (Plain (Einsum [(T 16,[0;1])] [1;0]));
  (*2002*) Assign (T 24) (Plain (Zeros [0;1]));
  (*2003*) AddTo (T 24) (Times (Einsum [(n_t1,[0;1]); (T 17,[0;2])] [2;1]) (2) 1);
  (*2004*) AddTo (T 25) (Plain (Einsum [(T 24,[0;1])] [0;1]));
  (*2005*) Del (T 24);
  (*2006*) Assign (T 99) (Plain (Zeros [0;0;1;1]));
  (*2007*) AddTo (T 99) (Times (Einsum [(T 17,[0;1]); (n_t2,[0;2;3;4])] [1;2;3;4]) (4) 1);
  (*2008*) Assign (T 104) (Plain (Zeros [0;0;1;1]));
  (*2009*) AddTo (T 104) (Plain (Einsum [(T 99,[0;1;2;3])] [1;0;3;2]));
  (*2010*) Del (T 99);
  (*2011*) Assign n_rdm2_f_oovo (Plain (Zeros [0;0;1;0]));
  (*2012*) AddTo n_rdm2_f_oovo (Times (Einsum [(n_t1,[0;1]); (T 17,[2;3])] [2;0;1;3]) (2) 1);
  (*2013*) AddTo n_rdm2_f_oovo (Times (Einsum [(n_t1,[0;1]); (T 17,[2;3])] [2;3;1;0]) (-4) 1);
  (*2014*) Assign n_rdm2_f_vooo (Plain (Zeros [1;0;0;0]));
  (*2015*) AddTo n_rdm2_f_vooo (Times (Einsum [(n_t1,[0;1]); (T 17,[2;3])] [1;0;2;3]) (-4) 1);
  (*2016*) AddTo n_rdm2_f_vooo (Times (Einsum [(n_t1,[0;1]); (T 17,[2;3])] [1;3;2;0]) (2) 1);
  (*2017*) Del (T 17);
  (*2018*) AddTo (T 101) (Plain (Einsum [(T 16,[0;1])] [1;0]));
  (*2019*) Del (T 16);
  (*2020*) Assign (T 102) (Plain (Zeros [0;1]));
  (*2021*) AddTo (T 102) (Times (Einsum [(n_t1,[0;1]); (T 101,[0;2])] [2;1]) (20000000000000013) 10000000000000000);
  (*2022*) Del (T 101);
  (*2023*) AddTo (T 103) (Plain (Einsum [(T 102,[0;1])] [0;1]));
  (*2024*) Del (T 102);
  (*2025*) Assign (T 94) (Plain (Zeros [3;3;0;1]));
  (*2026*) AddTo (T 94) (Times (Einsum [(n_lu12,[0;1;2;3]); (T 7,[3;4;5;2])] [0;1;4;5]) (2) 1);
  (*2027*) Del (T 7);
  (*2028*) Assign (T 95) (Plain (Zeros [0;0;1;1]));
  (*2029*) AddTo (T 95) (Times (Einsum [(n_u12,[0;1;2;3]); (T 94,[1;0;4;5])] [2;4;3;5]) (2) 1);
  (*2030*) Del (T 94);
  (*2031*) AddTo (T 104) (Times (Einsum [(T 95,[0;1;2;3])] [1;0;3;2]) (-1) 1);
  (*2032*) Del (T 95);
  (*2033*) Assign (T 10) (Plain (Zeros [0;0;0;1]));
  (*2034*) AddTo (T 10) (Plain (Einsum [(n_l1,[0;1]); (n_t2,[2;3;4;0])] [1;2;3;4]));
  (*2035*) AddTo (T 15) (Plain (Einsum [(T 10,[0;1;2;3])] [0;1;2;3]));
  (*2036*) AddTo (T 85) (Plain (Einsum [(T 10,[0;1;2;3])] [0;1;2;3]));
  (*2037*) Del (T 10);
  (*2038*) Assign (T 86) (Plain (Zeros [0;0;1;1]));
  (*2039*) AddTo (T 86) (Plain (Einsum [(n_t1,[0;1]); (T 85,[0;2;3;4])] [2;3;1;4]));
  (*2040*) Del (T 85);
  (*2041*) AddTo (T 87) (Plain (Einsum [(T 86,[0;1;2;3])] [0;1;2;3]));
  (*2042*) Del (T 86);
  (*2043*) Assign (T 11) (Plain (Zeros [3;0;0]));
  (*2044*) AddTo (T 11) (Plain (Einsum [(n_u11,[0;1;2]); (n_lu12,[0;3;2;4])] [3;4;1]));
  (*2045*) Assign (T 12) (Plain (Zeros [0;0;0;1]));
  (*2046*) AddTo (T 12) (Plain (Einsum [(n_u11,[0;1;2]); (T 11,[0;3;4])] [3;1;4;2]));
  (*2047*) AddTo (T 15) (Plain (Einsum [(T 12,[0;1;2;3])] [0;1;2;3]));
  (*2048*) Del (T 12);
  (*2049*) AddTo n_rdm2_f_oovo (Times (Einsum [(T 15,[0;1;2;3])] [0;1;3;2]) (2) 1);
  (*2050*) SubFrom n_rdm2_f_oovo (Times (Einsum [(T 15,[0;1;2;3])] [0;2;3;1]) (4) 1);
  (*2051*) SubFrom n_rdm2_f_vooo (Times (Einsum [(T 15,[0;1;2;3])] [3;1;0;2]) (4) 1);
  (*2052*) AddTo n_rdm2_f_vooo (Times (Einsum [(T 15,[0;1;2;3])] [3;2;0;1]) (2) 1);
  (*2053*) Del (T 15);
  (*2054*) Assign (T 36) (Plain (Zeros [3;0;0]));
  (*2055*) AddTo (T 36) (Plain (Einsum [(T 11,[0;1;2])] [0;1;2]));
  (*2056*) Assign (T 75) (Plain (Zeros [0;1]));
  (*2057*) AddTo (T 75) (Plain (Einsum [(n_u11,[0;1;2]); (T 11,[0;1;3])] [3;2]));
  (*2058*) Assign (T 76) (Plain (Zeros [0;1]));
  (*2059*) AddTo (T 76) (Plain (Einsum [(T 75,[0;1])] [0;1]));
  (*2060*) Del (T 75);
  (*2061*) Assign (T 83) (Plain (Zeros [3;0;1]));
  (*2062*) AddTo (T 83) (Plain (Einsum [(n_t1,[0;1]); (T 11,[2;0;3])] [2;3;1]));
  (*2063*) Del (T 11);
  (*2064*) Assign (T 84) (Plain (Zeros [0;0;1;1]));
  (*2065*) AddTo (T 84) (Plain (Einsum [(n_u11,[0;1;2]); (T 83,[0;3;4])] [1;3;4;2]));
  (*2066*) Del (T 83);
  (*2067*) AddTo (T 87) (Plain (Einsum [(T 84,[0;1;2;3])] [0;1;2;3]));
  (*2068*) Del (T 84);
  (*2069*) Assign (T 18) (Plain (Zeros [3;3;0;0]));
  (*2070*) AddTo (T 18) (Plain (Einsum [(n_t1,[0;1]); (n_lu12,[2;3;1;4])] [2;3;4;0]));
  (*2071*) Assign (T 19) (Plain (Zeros [0;0;0;1]));
  (*2072*) AddTo (T 19) (Plain (Einsum [(n_u12,[0;1;2;3]); (T 18,[0;1;4;5])] [4;5;2;3]));
  (*2073*) AddTo (T 26) (Times (Einsum [(T 19,[0;1;2;3])] [0;1;2;3]) (2) 1);
  (*2074*) AddTo (T 44) (Times (Einsum [(T 19,[0;1;2;3])] [0;1;2;3]) (-1) 1);
  (*2075*) AddTo n_rdm2_f_vooo (Times (Einsum [(T 44,[0;1;2;3])] [3;1;0;2]) (-1) 1);
  (*2076*) AddTo n_rdm2_f_vooo (Times (Einsum [(T 44,[0;1;2;3])] [3;2;0;1]) (2) 1);
  (*2077*) Del (T 44);
  (*2078*) Assign (T 93) (Plain (Zeros [0;0;1;1]));
  (*2079*) AddTo (T 93) (Plain (Einsum [(n_t1,[0;1]); (T 19,[0;2;3;4])] [2;3;1;4]));
  (*2080*) Del (T 19);
  (*2081*) AddTo (T 104) (Times (Einsum [(T 93,[0;1;2;3])] [0;1;2;3]) (2) 1);
  (*2082*) Del (T 93);
  (*2083*) Assign (T 21) (Plain (Zeros [0;1]));
  (*2084*) AddTo (T 21) (Plain (Einsum [(n_u12,[0;1;2;3]); (T 18,[0;1;2;4])] [4;3]));
  (*2085*) AddTo (T 25) (Plain (Einsum [(T 21,[0;1])] [0;1]));
  (*2086*) AddTo (T 26) (Times (Einsum [(n_delta_oo,[0;1]); (T 25,[2;3])] [1;0;2;3]) (2) 1);
  (*2087*) AddTo n_rdm2_f_oovo (Times (Einsum [(T 26,[0;1;2;3])] [0;1;3;2]) (-1) 1);
  (*2088*) AddTo n_rdm2_f_oovo (Times (Einsum [(T 26,[0;1;2;3])] [0;2;3;1]) (1) 2);
  (*2089*) Del (T 26);
  (*2090*) AddTo n_rdm2_f_vooo (Plain (Einsum [(n_delta_oo,[0;1]); (T 25,[2;3])] [3;1;0;2]));
  (*2091*) AddTo n_rdm2_f_vooo (Times (Einsum [(n_delta_oo,[0;1]); (T 25,[2;3])] [3;2;0;1]) (-2) 1);
  (*2092*) Del (T 25);
  (*2093*) AddTo (T 103) (Plain (Einsum [(T 21,[0;1])] [0;1]));
  (*2094*) Del (T 21);
  (*2095*) AddTo (T 104) (Times (Einsum [(n_t1,[0;1]); (T 103,[2;3])] [0;2;1;3]) (2) 1);
  (*2096*) Del (T 103);
  (*2097*) Assign (T 81) (Plain (Zeros [3;0;1]));
  (*2098*) AddTo (T 81) (Plain (Einsum [(n_u11,[0;1;2]); (T 18,[0;3;1;4])] [3;4;2]));
  (*2099*) Del (T 18);
  (*2100*) Assign (T 82) (Plain (Zeros [0;0;1;1]));
  (*2101*) AddTo (T 82) (Plain (Einsum [(n_u11,[0;1;2]); (T 81,[0;3;4])] [3;1;2;4]));
  (*2102*) Del (T 81);
  (*2103*) AddTo (T 87) (Plain (Einsum [(T 82,[0;1;2;3])] [0;1;2;3]));
  (*2104*) Del (T 82);
  (*2105*) AddTo n_rdm2_f_vovo (Times (Einsum [(T 87,[0;1;2;3])] [2;0;3;1]) (2) 1);
  (*2106*) SubFrom n_rdm2_f_vovo (Times (Einsum [(T 87,[0;1;2;3])] [3;0;2;1]) (4) 1);
  (*2107*) SubFrom n_rdm2_f_vovo (Times (Einsum [(T 87,[0;1;2;3])] [2;1;3;0]) (4) 1);
  (*2108*) AddTo n_rdm2_f_vovo (Times (Einsum [(T 87,[0;1;2;3])] [3;1;2;0]) (2) 1);
  (*2109*) Del (T 87);
  (*2110*) Assign (T 27) (Plain (Zeros [3;0;0]));
  (*2111*) AddTo (T 27) (Plain (Einsum [(n_t1,[0;1]); (n_lu11,[2;1;3])] [2;3;0]));
  (*2112*) Assign (T 28) (Plain (Zeros [0;0;0;1]));
  (*2113*) AddTo (T 28) (Plain (Einsum [(n_u11,[0;1;2]); (T 27,[0;3;4])] [3;4;1;2]));
  (*2114*) AddTo (T 39) (Plain (Einsum [(T 28,[0;1;2;3])] [0;1;2;3]));
  (*2115*) SubFrom (T 48) (Plain (Einsum [(T 28,[0;1;2;3])] [0;1;2;3]));
  (*2116*) Del (T 28);
  (*2117*) AddTo (T 36) (Plain (Einsum [(T 27,[0;1;2])] [0;1;2]));
  (*2118*) Assign (T 37) (Plain (Zeros [0;1]));
  (*2119*) AddTo (T 37) (Plain (Einsum [(n_u11,[0;1;2]); (T 36,[0;1;3])] [3;2]));
  (*2120*) Del (T 36);
  (*2121*) AddTo (T 38) (Plain (Einsum [(T 37,[0;1])] [0;1]));
  (*2122*) Del (T 37);
  (*2123*) Assign (T 71) (Plain (Zeros [3;0;1]));
  (*2124*) AddTo (T 71) (Plain (Einsum [(n_t1,[0;1]); (T 27,[2;0;3])] [2;3;1]));
  (*2125*) Assign (T 73) (Plain (Zeros [3;0;1]));
  (*2126*) AddTo (T 73) (Plain (Einsum [(T 71,[0;1;2])] [0;1;2]));
  (*2127*) Del (T 71);
  (*2128*) Assign (T 111) (Plain (Zeros [0;1]));
  (*2129*) AddTo (T 111) (Plain (Einsum [(n_u11,[0;1;2]); (T 27,[0;1;3])] [3;2]));
  (*2130*) Del (T 27);
  (*2131*) AddTo (T 114) (Plain (Einsum [(T 111,[0;1])] [0;1]));
  (*2132*) AddTo (T 115) (Plain (Einsum [(T 111,[0;1])] [0;1]));
  (*2133*) Del (T 111);
  (*2134*) Assign (T 34) (Plain (Zeros [0;0;1;1]));
  (*2135*) SubFrom (T 34) (Plain (Einsum [(n_t2,[0;1;2;3])] [1;0;2;3]));
  (*2136*) AddTo (T 34) (Times (Einsum [(n_t2,[0;1;2;3])] [1;0;3;2]) (2) 1);
  (*2137*) Assign (T 35) (Plain (Zeros [0;1]));
  (*2138*) AddTo (T 35) (Plain (Einsum [(n_l1,[0;1]); (T 34,[1;2;0;3])] [2;3]));
  (*2139*) SubFrom (T 38) (Plain (Einsum [(T 35,[0;1])] [0;1]));
  (*2140*) AddTo (T 39) (Plain (Einsum [(n_delta_oo,[0;1]); (T 38,[2;3])] [1;0;2;3]));
  (*2141*) SubFrom n_rdm2_f_oovo (Times (Einsum [(T 39,[0;1;2;3])] [0;1;3;2]) (4) 1);
  (*2142*) AddTo n_rdm2_f_oovo (Times (Einsum [(T 39,[0;1;2;3])] [0;2;3;1]) (2) 1);
  (*2143*) Del (T 39);
  (*2144*) AddTo n_rdm2_f_vooo (Times (Einsum [(n_delta_oo,[0;1]); (T 38,[2;3])] [3;1;0;2]) (2) 1);
  (*2145*) SubFrom n_rdm2_f_vooo (Times (Einsum [(n_delta_oo,[0;1]); (T 38,[2;3])] [3;2;0;1]) (4) 1);
  (*2146*) Del (T 38);
  (*2147*) SubFrom (T 76) (Plain (Einsum [(T 35,[0;1])] [0;1]));
  (*2148*) Del (T 35);
  (*2149*) AddTo (T 77) (Plain (Einsum [(n_t1,[0;1]); (T 76,[2;3])] [0;2;1;3]));
  (*2150*) Del (T 76);
  (*2151*) Assign (T 72) (Plain (Zeros [3;0;1]));
  (*2152*) AddTo (T 72) (Plain (Einsum [(n_lu11,[0;1;2]); (T 34,[2;3;1;4])] [0;3;4]));
  (*2153*) SubFrom (T 73) (Plain (Einsum [(T 72,[0;1;2])] [0;1;2]));
  (*2154*) Del (T 72);
  (*2155*) Assign (T 74) (Plain (Zeros [0;0;1;1]));
  (*2156*) AddTo (T 74) (Plain (Einsum [(n_u11,[0;1;2]); (T 73,[0;3;4])] [1;3;2;4]));
  (*2157*) Del (T 73);
  (*2158*) AddTo (T 77) (Plain (Einsum [(T 74,[0;1;2;3])] [1;0;3;2]));
  (*2159*) Del (T 74);
  (*2160*) Assign (T 121) (Plain (Zeros [0;0;1;1]));
  (*2161*) AddTo (T 121) (Plain (Einsum [(n_l2,[0;1;2;3]); (T 34,[2;4;0;5])] [4;3;5;1]));
  (*2162*) SubFrom (T 122) (Plain (Einsum [(T 121,[0;1;2;3])] [1;0;3;2]));
  (*2163*) Del (T 121);
  (*2164*) SubFrom n_rdm2_f_vvoo (Times (Einsum [(n_l2,[0;1;2;3]); (T 34,[2;4;5;1])] [5;0;3;4]) (2) 1);
  (*2165*) Del (T 34);
  (*2166*) Assign (T 40) (Plain (Zeros [0;1]));
  (*2167*) AddTo (T 40) (Plain (Einsum [(n_ls1,[0]); (n_u11,[0;1;2])] [1;2]));
  (*2168*) AddTo (T 43) (Plain (Einsum [(T 40,[0;1])] [0;1]));
  (*2169*) AddTo (T 114) (Times (Einsum [(T 40,[0;1])] [0;1]) (-1) 1);
  (*2170*) AddTo (T 115) (Times (Einsum [(T 40,[0;1])] [0;1]) (-1) 1);
  (*2171*) Del (T 40);
  (*2172*) Assign (T 41) (Plain (Zeros [0;1]));
  (*2173*) AddTo (T 41) (Plain (Einsum [(n_ls2,[0;1]); (n_u12,[0;1;2;3])] [2;3]));
  (*2174*) AddTo (T 43) (Times (Einsum [(T 41,[0;1])] [0;1]) (1) 2);
  (*2175*) AddTo (T 114) (Times (Einsum [(T 41,[0;1])] [0;1]) (-1) 2);
  (*2176*) AddTo (T 115) (Times (Einsum [(T 41,[0;1])] [0;1]) (-1) 2);
  (*2177*) Del (T 41);
  (*2178*) AddTo n_rdm2_f_vovo (Times (Einsum [(n_t1,[0;1]); (T 115,[2;3])] [3;2;1;0]) (-4) 1);
  (*2179*) AddTo n_rdm2_f_vovo (Times (Einsum [(n_t1,[0;1]); (T 115,[2;3])] [1;2;3;0]) (2) 1);
  (*2180*) Del (T 115);
  (*2181*) AddTo (T 43) (Plain (Einsum [(n_t1,[0;1])] [0;1]));
  (*2182*) AddTo n_rdm2_f_oovo (Times (Einsum [(n_delta_oo,[0;1]); (T 43,[2;3])] [1;2;3;0]) (-2) 1);
  (*2183*) AddTo n_rdm2_f_oovo (Times (Einsum [(n_delta_oo,[0;1]); (T 43,[2;3])] [1;0;3;2]) (4) 1);
  (*2184*) AddTo n_rdm2_f_vooo (Times (Einsum [(n_delta_oo,[0;1]); (T 43,[2;3])] [3;0;1;2]) (-2) 1);
  (*2185*) AddTo n_rdm2_f_vooo (Times (Einsum [(n_delta_oo,[0;1]); (T 43,[2;3])] [3;2;1;0]) (4) 1);
  (*2186*) Del (T 43);
  (*2187*) Assign (T 46) (Plain (Zeros [0;0;1;1]));
  (*2188*) AddTo (T 46) (Times (Einsum [(n_t2,[0;1;2;3])] [1;0;2;3]) (2) 1);
  (*2189*) SubFrom (T 46) (Plain (Einsum [(n_t2,[0;1;2;3])] [1;0;3;2]));
  (*2190*) Assign (T 47) (Plain (Zeros [0;0;0;1]));
  (*2191*) AddTo (T 47) (Plain (Einsum [(T 4,[0;1;2;3]); (T 46,[0;4;5;3])] [4;1;2;5]));
  (*2192*) Del (T 4);
  (*2193*) SubFrom (T 48) (Plain (Einsum [(T 47,[0;1;2;3])] [1;2;0;3]));
  (*2194*) SubFrom n_rdm2_f_vooo (Times (Einsum [(T 48,[0;1;2;3])] [3;1;0;2]) (2) 1);
  (*2195*) AddTo n_rdm2_f_vooo (Times (Einsum [(T 48,[0;1;2;3])] [3;2;0;1]) (4) 1);
  (*2196*) Del (T 48);
  (*2197*) SubFrom (T 69) (Plain (Einsum [(T 47,[0;1;2;3])] [1;2;0;3]));
  (*2198*) Del (T 47);
  (*2199*) Assign (T 70) (Plain (Zeros [0;0;1;1]));
  (*2200*) AddTo (T 70) (Plain (Einsum [(n_t1,[0;1]); (T 69,[0;2;3;4])] [2;3;1;4]));
  (*2201*) Del (T 69);
  (*2202*) SubFrom (T 77) (Plain (Einsum [(T 70,[0;1;2;3])] [0;1;2;3]));
  (*2203*) Del (T 70);
  (*2204*) SubFrom n_rdm2_f_vvoo (Times (Einsum [(n_l2,[0;1;2;3]); (T 46,[2;4;5;0])] [5;1;3;4]) (2) 1);
  (*2205*) Assign (T 49) (Plain (Zeros [0;0;1;1]));
  (*2206*) AddTo (T 49) (Plain (Einsum [(n_lu12,[0;1;2;3]); (n_u12,[0;1;4;5])] [3;4;2;5]));
  (*2207*) Assign (T 131) (Plain (Zeros [0;1;1;1]));
  (*2208*) AddTo (T 131) (Plain (Einsum [(n_t1,[0;1]); (T 49,[0;2;3;4])] [2;3;1;4]));
  (*2209*) AddTo (T 133) (Times (Einsum [(T 131,[0;1;2;3])] [0;1;2;3]) (-1) 1);
  (*2210*) Assign n_rdm2_f_vovv (Plain (Zeros [1;0;1;1]));
  (*2211*) AddTo n_rdm2_f_vovv (Plain (Einsum [(T 133,[0;1;2;3])] [2;0;3;1]));
  (*2212*) AddTo n_rdm2_f_vovv (Times (Einsum [(T 133,[0;1;2;3])] [3;0;2;1]) (-2) 1);
  (*2213*) Del (T 133);
  (*2214*) AddTo (T 134) (Times (Einsum [(T 131,[0;1;2;3])] [0;1;2;3]) (-2) 1);
  (*2215*) Del (T 131);
  (*2216*) Assign n_rdm2_f_vvvo (Plain (Zeros [1;1;1;0]));
  (*2217*) AddTo n_rdm2_f_vvvo (Times (Einsum [(T 134,[0;1;2;3])] [2;1;3;0]) (-1) 1);
  (*2218*) AddTo n_rdm2_f_vvvo (Times (Einsum [(T 134,[0;1;2;3])] [3;1;2;0]) (1) 2);
  (*2219*) Del (T 134);
  (*2220*) AddTo n_rdm2_f_oovv (Times (Einsum [(T 49,[0;1;2;3])] [0;1;3;2]) (-1) 1);
  (*2221*) AddTo n_rdm2_f_ovvo (Times (Einsum [(T 49,[0;1;2;3])] [0;2;3;1]) (2) 1);
  (*2222*) AddTo n_rdm2_f_voov (Times (Einsum [(T 49,[0;1;2;3])] [3;1;0;2]) (2) 1);
  (*2223*) AddTo n_rdm2_f_vvoo (Times (Einsum [(T 49,[0;1;2;3])] [3;2;0;1]) (-1) 1);
  (*2224*) Del (T 49);
  (*2225*) Assign (T 50) (Plain (Zeros [0;0;1;1]));
  (*2226*) AddTo (T 50) (Plain (Einsum [(n_lu11,[0;1;2]); (n_u11,[0;3;4])] [2;3;1;4]));
  (*2227*) SubFrom n_rdm2_f_oovv (Times (Einsum [(T 50,[0;1;2;3])] [0;1;3;2]) (2) 1);
  (*2228*) AddTo n_rdm2_f_ovvo (Times (Einsum [(T 50,[0;1;2;3])] [0;2;3;1]) (4) 1);
  (*2229*) AddTo n_rdm2_f_voov (Times (Einsum [(T 50,[0;1;2;3])] [3;1;0;2]) (4) 1);
  (*2230*) SubFrom n_rdm2_f_vvoo (Times (Einsum [(T 50,[0;1;2;3])] [3;2;0;1]) (2) 1);
  (*2231*) Del (T 50);
  (*2232*) Assign (T 51) (Plain (Zeros [0;0;1;1]));
  (*2233*) SubFrom (T 51) (Plain (Einsum [(n_l2,[0;1;2;3])] [3;2;0;1]));
  (*2234*) AddTo (T 51) (Times (Einsum [(n_l2,[0;1;2;3])] [3;2;1;0]) (2) 1);
  (*2235*) Assign (T 61) (Plain (Zeros [0;0;1;1]));
  (*2236*) AddTo (T 61) (Plain (Einsum [(T 46,[0;1;2;3]); (T 51,[0;4;3;5])] [1;4;2;5]));
  (*2237*) Del (T 46);
  (*2238*) AddTo n_rdm2_f_ovvo (Times (Einsum [(T 61,[0;1;2;3])] [1;3;2;0]) (2) 1);
  (*2239*) AddTo n_rdm2_f_voov (Times (Einsum [(T 61,[0;1;2;3])] [2;0;1;3]) (2) 1);
  (*2240*) Del (T 61);
  (*2241*) SubFrom n_rdm2_f_oovv (Times (Einsum [(n_t2,[0;1;2;3]); (T 51,[0;4;2;5])] [4;1;3;5]) (2) 1);
  (*2242*) Del (T 51);
  (*2243*) Assign (T 52) (Plain (Zeros [0;0;1;1]));
  (*2244*) AddTo (T 52) (Times (Einsum [(n_l2,[0;1;2;3])] [3;2;0;1]) (2) 1);
  (*2245*) SubFrom (T 52) (Plain (Einsum [(n_l2,[0;1;2;3])] [3;2;1;0]));
  (*2246*) Assign (T 67) (Plain (Zeros [0;0;1;1]));
  (*2247*) AddTo (T 67) (Plain (Einsum [(n_t2,[0;1;2;3]); (T 52,[0;4;5;2])] [4;1;5;3]));
  (*2248*) Assign (T 68) (Plain (Zeros [0;0;1;1]));
  (*2249*) AddTo (T 68) (Plain (Einsum [(n_t2,[0;1;2;3]); (T 67,[0;4;3;5])] [4;1;5;2]));
  (*2250*) AddTo (T 77) (Plain (Einsum [(T 68,[0;1;2;3])] [0;1;2;3]));
  (*2251*) Del (T 68);
  (*2252*) Assign (T 91) (Plain (Zeros [0;0;1;1]));
  (*2253*) AddTo (T 91) (Plain (Einsum [(n_t2,[0;1;2;3]); (T 67,[0;4;2;5])] [4;1;5;3]));
  (*2254*) Del (T 67);
  (*2255*) AddTo (T 92) (Times (Einsum [(T 91,[0;1;2;3])] [0;1;2;3]) (2) 1);
  (*2256*) Del (T 91);
  (*2257*) SubFrom n_rdm2_f_oovv (Times (Einsum [(n_t2,[0;1;2;3]); (T 52,[0;4;3;5])] [4;1;2;5]) (2) 1);
  (*2258*) Del (T 52);
  (*2259*) Assign (T 55) (Plain (Zeros [1;1]));
  (*2260*) AddTo (T 55) (Plain (Einsum [(n_l1,[0;1]); (n_t1,[1;2])] [0;2]));
  (*2261*) Assign (T 60) (Plain (Zeros [1;1]));
  (*2262*) AddTo (T 60) (Times (Einsum [(T 55,[0;1])] [0;1]) (1) 2);
  (*2263*) Assign (T 64) (Plain (Zeros [1;1]));
  (*2264*) AddTo (T 64) (Plain (Einsum [(T 55,[0;1])] [0;1]));
  (*2265*) Assign (T 129) (Plain (Zeros [1;1]));
  (*2266*) AddTo (T 129) (Plain (Einsum [(T 55,[0;1])] [0;1]));
  (*2267*) Del (T 55);
  (*2268*) Assign (T 56) (Plain (Zeros [1;1]));
  (*2269*) AddTo (T 56) (Plain (Einsum [(n_lu11,[0;1;2]); (n_u11,[0;2;3])] [1;3]));
  (*2270*) AddTo (T 60) (Times (Einsum [(T 56,[0;1])] [0;1]) (1) 2);
  (*2271*) AddTo (T 64) (Plain (Einsum [(T 56,[0;1])] [0;1]));
  (*2272*) Assign (T 65) (Plain (Zeros [0;0;1;1]));
  (*2273*) AddTo (T 65) (Plain (Einsum [(T 56,[0;1]); (n_t2,[2;3;0;4])] [3;2;4;1]));
  (*2274*) AddTo (T 77) (Plain (Einsum [(T 65,[0;1;2;3])] [0;1;2;3]));
  (*2275*) Del (T 65);
  (*2276*) SubFrom n_rdm2_f_vovo (Times (Einsum [(T 77,[0;1;2;3])] [2;0;3;1]) (4) 1);
  (*2277*) AddTo n_rdm2_f_vovo (Times (Einsum [(T 77,[0;1;2;3])] [3;0;2;1]) (2) 1);
  (*2278*) AddTo n_rdm2_f_vovo (Times (Einsum [(T 77,[0;1;2;3])] [2;1;3;0]) (2) 1);
  (*2279*) SubFrom n_rdm2_f_vovo (Times (Einsum [(T 77,[0;1;2;3])] [3;1;2;0]) (4) 1);
  (*2280*) Del (T 77);
  (*2281*) AddTo (T 129) (Plain (Einsum [(T 56,[0;1])] [0;1]));
  (*2282*) Del (T 56);
  (*2283*) Assign (T 130) (Plain (Zeros [0;1;1;1]));
  (*2284*) AddTo (T 130) (Plain (Einsum [(n_t1,[0;1]); (T 129,[2;3])] [0;2;1;3]));
  (*2285*) Del (T 129);
  (*2286*) Assign (T 57) (Plain (Zeros [1;1]));
  (*2287*) AddTo (T 57) (Plain (Einsum [(n_lu12,[0;1;2;3]); (n_u12,[0;1;3;4])] [2;4]));
  (*2288*) AddTo (T 60) (Times (Einsum [(T 57,[0;1])] [0;1]) (1) 4);
  (*2289*) AddTo (T 64) (Times (Einsum [(T 57,[0;1])] [0;1]) (1) 2);
  (*2290*) Assign (T 97) (Plain (Zeros [1;1]));
  (*2291*) AddTo (T 97) (Plain (Einsum [(T 57,[0;1])] [0;1]));
  (*2292*) Del (T 57);
  (*2293*) Assign (T 58) (Plain (Zeros [0;0;1;1]));
  (*2294*) AddTo (T 58) (Plain (Einsum [(n_l2,[0;1;2;3])] [3;2;0;1]));
  (*2295*) AddTo (T 58) (Times (Einsum [(n_l2,[0;1;2;3])] [3;2;1;0]) (-1) 2);
  (*2296*) Assign (T 59) (Plain (Zeros [1;1]));
  (*2297*) AddTo (T 59) (Plain (Einsum [(n_t2,[0;1;2;3]); (T 58,[0;1;4;2])] [4;3]));
  (*2298*) AddTo (T 60) (Plain (Einsum [(T 59,[0;1])] [0;1]));
  (*2299*) Del (T 59);
  (*2300*) AddTo n_rdm2_f_oovv (Times (Einsum [(n_delta_oo,[0;1]); (T 60,[2;3])] [1;0;3;2]) (8) 1);
  (*2301*) AddTo n_rdm2_f_vvoo (Times (Einsum [(n_delta_oo,[0;1]); (T 60,[2;3])] [3;2;1;0]) (8) 1);
  (*2302*) Del (T 60);
  (*2303*) Assign (T 63) (Plain (Zeros [1;1]));
  (*2304*) AddTo (T 63) (Times (Einsum [(n_t2,[0;1;2;3]); (T 58,[0;1;4;2])] [4;3]) (2) 1);
  (*2305*) AddTo (T 64) (Plain (Einsum [(T 63,[0;1])] [0;1]));
  (*2306*) Del (T 63);
  (*2307*) AddTo n_rdm2_f_ovvo (Times (Einsum [(n_delta_oo,[0;1]); (T 64,[2;3])] [1;2;3;0]) (-2) 1);
  (*2308*) AddTo n_rdm2_f_voov (Times (Einsum [(n_delta_oo,[0;1]); (T 64,[2;3])] [3;0;1;2]) (-2) 1);
  (*2309*) Del (T 64);
  (*2310*) Assign (T 96) (Plain (Zeros [1;1]));
  (*2311*) AddTo (T 96) (Times (Einsum [(n_t2,[0;1;2;3]); (T 58,[0;1;4;2])] [4;3]) (4) 1);
  (*2312*) Del (T 58);
  (*2313*) AddTo (T 97) (Plain (Einsum [(T 96,[0;1])] [0;1]));
  (*2314*) Del (T 96);
  (*2315*) Assign (T 98) (Plain (Zeros [0;0;1;1]));
  (*2316*) AddTo (T 98) (Times (Einsum [(T 97,[0;1]); (n_t2,[2;3;0;4])] [2;3;1;4]) (2) 1);
  (*2317*) AddTo (T 104) (Plain (Einsum [(T 98,[0;1;2;3])] [1;0;3;2]));
  (*2318*) Del (T 98);
  (*2319*) AddTo n_rdm2_f_vovo (Times (Einsum [(T 104,[0;1;2;3])] [2;0;3;1]) (-1) 1);
  (*2320*) AddTo n_rdm2_f_vovo (Times (Einsum [(T 104,[0;1;2;3])] [3;0;2;1]) (1) 2);
  (*2321*) AddTo n_rdm2_f_vovo (Times (Einsum [(T 104,[0;1;2;3])] [2;1;3;0]) (1) 2);
  (*2322*) AddTo n_rdm2_f_vovo (Times (Einsum [(T 104,[0;1;2;3])] [3;1;2;0]) (-1) 1);
  (*2323*) Del (T 104);
  (*2324*) AddTo n_rdm2_f_vovv (Times (Einsum [(n_t1,[0;1]); (T 97,[2;3])] [1;0;3;2]) (2) 1);
  (*2325*) AddTo n_rdm2_f_vovv (Times (Einsum [(n_t1,[0;1]); (T 97,[2;3])] [3;0;1;2]) (-1) 1);
  (*2326*) AddTo n_rdm2_f_vvvo (Times (Einsum [(n_t1,[0;1]); (T 97,[2;3])] [1;2;3;0]) (-1) 1);
  (*2327*) AddTo n_rdm2_f_vvvo (Times (Einsum [(n_t1,[0;1]); (T 97,[2;3])] [3;2;1;0]) (2) 1);
  (*2328*) Del (T 97);
  (*2329*) Assign (T 78) (Plain (Zeros [3;0;1]));
  (*2330*) AddTo (T 78) (Plain (Einsum [(n_ls2,[0;1]); (n_u11,[1;2;3])] [0;2;3]));
  (*2331*) Assign (T 79) (Plain (Zeros [0;0;1;1]));
  (*2332*) AddTo (T 79) (Plain (Einsum [(n_u11,[0;1;2]); (T 78,[0;3;4])] [3;1;4;2]));
  (*2333*) Del (T 78);
  (*2334*) SubFrom n_rdm2_f_vovo (Times (Einsum [(T 79,[0;1;2;3])] [3;0;2;1]) (2) 1);
  (*2335*) AddTo n_rdm2_f_vovo (Times (Einsum [(T 79,[0;1;2;3])] [3;1;2;0]) (4) 1);
  (*2336*) Del (T 79);
  (*2337*) Assign (T 88) (Plain (Zeros [0;0;1;1]));
  (*2338*) AddTo (T 88) (Plain (Einsum [(n_l2,[0;1;2;3]); (n_t2,[4;3;1;5])] [2;4;0;5]));
  (*2339*) Assign (T 89) (Plain (Zeros [0;0;1;1]));
  (*2340*) AddTo (T 89) (Plain (Einsum [(n_t2,[0;1;2;3]); (T 88,[1;4;2;5])] [0;4;3;5]));
  (*2341*) Del (T 88);
  (*2342*) AddTo (T 92) (Plain (Einsum [(T 89,[0;1;2;3])] [0;1;2;3]));
  (*2343*) Del (T 89);
  (*2344*) AddTo (T 92) (Plain (Einsum [(n_t2,[0;1;2;3])] [1;0;3;2]));
  (*2345*) SubFrom n_rdm2_f_vovo (Times (Einsum [(T 92,[0;1;2;3])] [3;0;2;1]) (2) 1);
  (*2346*) AddTo n_rdm2_f_vovo (Times (Einsum [(T 92,[0;1;2;3])] [2;0;3;1]) (4) 1);
  (*2347*) Del (T 92);
  (*2348*) Assign (T 105) (Plain (Zeros [0;0;1;1]));
  (*2349*) AddTo (T 105) (Plain (Einsum [(n_l2,[0;1;2;3]); (n_t2,[4;3;0;5])] [2;4;1;5]));
  (*2350*) Assign (T 106) (Plain (Zeros [0;0;1;1]));
  (*2351*) AddTo (T 106) (Plain (Einsum [(n_t2,[0;1;2;3]); (T 105,[1;4;2;5])] [0;4;3;5]));
  (*2352*) AddTo n_rdm2_f_vovo (Times (Einsum [(T 106,[0;1;2;3])] [2;1;3;0]) (4) 1);
  (*2353*) SubFrom n_rdm2_f_vovo (Times (Einsum [(T 106,[0;1;2;3])] [3;1;2;0]) (2) 1);
  (*2354*) Del (T 106);
  (*2355*) Assign (T 128) (Plain (Zeros [0;1;1;1]));
  (*2356*) AddTo (T 128) (Plain (Einsum [(n_t1,[0;1]); (T 105,[0;2;3;4])] [2;3;1;4]));
  (*2357*) Del (T 105);
  (*2358*) SubFrom (T 130) (Plain (Einsum [(T 128,[0;1;2;3])] [0;1;2;3]));
  (*2359*) Del (T 128);
  (*2360*) AddTo (T 114) (Times (Einsum [(n_t1,[0;1])] [0;1]) (-1) 1);
  (*2361*) AddTo n_rdm2_f_vovo (Times (Einsum [(n_t1,[0;1]); (T 114,[2;3])] [1;0;3;2]) (-4) 1);
  (*2362*) AddTo n_rdm2_f_vovo (Times (Einsum [(n_t1,[0;1]); (T 114,[2;3])] [3;0;1;2]) (2) 1);
  (*2363*) Del (T 114);
  (*2364*) Assign (T 116) (Plain (Zeros [0;1;1;1]));
  (*2365*) AddTo (T 116) (Plain (Einsum [(n_t1,[0;1]); (n_l2,[2;3;4;0])] [4;2;3;1]));
  (*2366*) Assign (T 136) (Plain (Zeros [1;1;1;1]));
  (*2367*) AddTo (T 136) (Plain (Einsum [(n_t1,[0;1]); (T 116,[0;2;3;4])] [3;2;4;1]));
  (*2368*) Assign n_rdm2_f_vvvv (Plain (Zeros [1;1;1;1]));
  (*2369*) SubFrom n_rdm2_f_vvvv (Times (Einsum [(T 136,[0;1;2;3])] [2;1;3;0]) (2) 1);
  (*2370*) AddTo n_rdm2_f_vvvv (Times (Einsum [(T 136,[0;1;2;3])] [3;1;2;0]) (4) 1);
  (*2371*) Del (T 136);
  (*2372*) Assign n_rdm2_f_ovvv (Plain (Zeros [0;1;1;1]));
  (*2373*) AddTo n_rdm2_f_ovvv (Times (Einsum [(T 116,[0;1;2;3])] [0;1;3;2]) (4) 1);
  (*2374*) SubFrom n_rdm2_f_ovvv (Times (Einsum [(T 116,[0;1;2;3])] [0;2;3;1]) (2) 1);
  (*2375*) Assign n_rdm2_f_vvov (Plain (Zeros [1;1;0;1]));
  (*2376*) SubFrom n_rdm2_f_vvov (Times (Einsum [(T 116,[0;1;2;3])] [3;1;0;2]) (2) 1);
  (*2377*) AddTo n_rdm2_f_vvov (Times (Einsum [(T 116,[0;1;2;3])] [3;2;0;1]) (4) 1);
  (*2378*) Del (T 116);
  (*2379*) Assign (T 117) (Plain (Zeros [3;1;1]));
  (*2380*) AddTo (T 117) (Plain (Einsum [(n_t1,[0;1]); (n_lu11,[2;3;0])] [2;3;1]));
  (*2381*) Assign (T 118) (Plain (Zeros [0;1;1;1]));
  (*2382*) AddTo (T 118) (Plain (Einsum [(n_u11,[0;1;2]); (T 117,[0;3;4])] [1;3;4;2]));
  (*2383*) Del (T 117);
  (*2384*) Assign (T 124) (Plain (Zeros [0;1;1;1]));
  (*2385*) SubFrom (T 124) (Plain (Einsum [(T 118,[0;1;2;3])] [0;1;2;3]));
  (*2386*) Del (T 118);
  (*2387*) Assign (T 119) (Plain (Zeros [0;0;1;1]));
  (*2388*) AddTo (T 119) (Plain (Einsum [(n_l2,[0;1;2;3]); (n_t2,[4;3;5;0])] [2;4;1;5]));
  (*2389*) AddTo (T 122) (Plain (Einsum [(T 119,[0;1;2;3])] [0;1;2;3]));
  (*2390*) Del (T 119);
  (*2391*) Assign (T 123) (Plain (Zeros [0;1;1;1]));
  (*2392*) AddTo (T 123) (Plain (Einsum [(n_t1,[0;1]); (T 122,[0;2;3;4])] [2;1;3;4]));
  (*2393*) Del (T 122);
  (*2394*) AddTo (T 124) (Plain (Einsum [(T 123,[0;1;2;3])] [0;2;1;3]));
  (*2395*) Del (T 123);
  (*2396*) AddTo n_rdm2_f_vovv (Times (Einsum [(T 124,[0;1;2;3])] [2;0;3;1]) (2) 1);
  (*2397*) SubFrom n_rdm2_f_vovv (Times (Einsum [(T 124,[0;1;2;3])] [3;0;2;1]) (4) 1);
  (*2398*) SubFrom n_rdm2_f_vvvo (Times (Einsum [(T 124,[0;1;2;3])] [2;1;3;0]) (4) 1);
  (*2399*) AddTo n_rdm2_f_vvvo (Times (Einsum [(T 124,[0;1;2;3])] [3;1;2;0]) (2) 1);
  (*2400*) Del (T 124);
  (*2401*) Assign (T 125) (Plain (Zeros [0;1;1;1]));
  (*2402*) AddTo (T 125) (Plain (Einsum [(n_l1,[0;1]); (n_t2,[2;1;3;4])] [2;0;3;4]));
  (*2403*) AddTo (T 130) (Plain (Einsum [(T 125,[0;1;2;3])] [0;1;2;3]));
  (*2404*) Del (T 125);
  (*2405*) Assign (T 126) (Plain (Zeros [3;1;1]));
  (*2406*) AddTo (T 126) (Plain (Einsum [(n_u11,[0;1;2]); (n_lu12,[3;0;4;1])] [3;4;2]));
  (*2407*) Assign (T 127) (Plain (Zeros [0;1;1;1]));
  (*2408*) AddTo (T 127) (Plain (Einsum [(n_u11,[0;1;2]); (T 126,[0;3;4])] [1;3;2;4]));
  (*2409*) Del (T 126);
  (*2410*) AddTo (T 130) (Plain (Einsum [(T 127,[0;1;2;3])] [0;1;2;3]));
  (*2411*) Del (T 127);
  (*2412*) AddTo n_rdm2_f_vovv (Times (Einsum [(T 130,[0;1;2;3])] [2;0;3;1]) (4) 1);
  (*2413*) SubFrom n_rdm2_f_vovv (Times (Einsum [(T 130,[0;1;2;3])] [3;0;2;1]) (2) 1);
  (*2414*) SubFrom n_rdm2_f_vvvo (Times (Einsum [(T 130,[0;1;2;3])] [2;1;3;0]) (2) 1);
  (*2415*) AddTo n_rdm2_f_vvvo (Times (Einsum [(T 130,[0;1;2;3])] [3;1;2;0]) (4) 1);
  (*2416*) Del (T 130);
  (*2417*) Assign (T 135) (Plain (Zeros [1;1;1;1]));
  (*2418*) AddTo (T 135) (Plain (Einsum [(n_l2,[0;1;2;3]); (n_t2,[2;3;4;5])] [0;1;4;5]));
  (*2419*) AddTo n_rdm2_f_vvvv (Times (Einsum [(T 135,[0;1;2;3])] [2;1;3;0]) (-2) 1);
  (*2420*) AddTo n_rdm2_f_vvvv (Times (Einsum [(T 135,[0;1;2;3])] [3;1;2;0]) (4) 1);
  (*2421*) Del (T 135);
  (*2422*) AddTo n_rdm2_f_oooo (Times (Einsum [(n_delta_oo,[0;1]); (n_delta_oo,[2;3])] [1;0;3;2]) (4) 1);
  (*2423*) SubFrom n_rdm2_f_oooo (Times (Einsum [(n_delta_oo,[0;1]); (n_delta_oo,[2;3])] [3;1;0;2]) (2) 1);
  (*2424*) AddTo n_rdm2_f_ooov (Times (Einsum [(n_delta_oo,[0;1]); (n_l1,[2;3])] [1;0;3;2]) (4) 1);
  (*2425*) SubFrom n_rdm2_f_ooov (Times (Einsum [(n_delta_oo,[0;1]); (n_l1,[2;3])] [3;0;1;2]) (2) 1);
  (*2426*) SubFrom n_rdm2_f_ovoo (Times (Einsum [(n_delta_oo,[0;1]); (n_l1,[2;3])] [1;2;3;0]) (2) 1);
  (*2427*) AddTo n_rdm2_f_ovoo (Times (Einsum [(n_delta_oo,[0;1]); (n_l1,[2;3])] [3;2;1;0]) (4) 1);
  (*2428*) Assign n_rdm2_f_ovov (Plain (Zeros [0;1;0;1]));
  (*2429*) SubFrom n_rdm2_f_ovov (Times (Einsum [(n_l2,[0;1;2;3])] [3;0;2;1]) (2) 1);
  (*2430*) AddTo n_rdm2_f_ovov (Times (Einsum [(n_l2,[0;1;2;3])] [3;1;2;0]) (4) 1);
  (*2431*) SubFrom n_rdm2_f_oovv (Times (Einsum [(n_l1,[0;1]); (n_t1,[2;3])] [1;2;3;0]) (2) 1);
  (*2432*) AddTo n_rdm2_f_ovvo (Times (Einsum [(n_l1,[0;1]); (n_t1,[2;3])] [1;0;3;2]) (4) 1);
  (*2433*) AddTo n_rdm2_f_voov (Times (Einsum [(n_l1,[0;1]); (n_t1,[2;3])] [3;2;1;0]) (4) 1);
  (*2434*) SubFrom n_rdm2_f_vvoo (Times (Einsum [(n_l1,[0;1]); (n_t1,[2;3])] [3;0;1;2]) (2) 1)]
 [(n_rdm2_f_oooo,[0;0;0;0]); (n_rdm2_f_ooov,[0;0;0;1]); (n_rdm2_f_oovo,[0;0;1;0]); (n_rdm2_f_ovoo,[0;1;0;0]); (n_rdm2_f_vooo,[1;0;0;0]); (n_rdm2_f_oovv,[0;0;1;1]); (n_rdm2_f_ovov,[0;1;0;1]); (n_rdm2_f_ovvo,[0;1;1;0]); (n_rdm2_f_voov,[1;0;0;1]); (n_rdm2_f_vovo,[1;0;1;0]); (n_rdm2_f_vvoo,[1;1;0;0]); (n_rdm2_f_ovvv,[0;1;1;1]); (n_rdm2_f_vovv,[1;0;1;1]); (n_rdm2_f_vvov,[1;1;0;1]); (n_rdm2_f_vvvo,[1;1;1;0]); (n_rdm2_f_vvvv,[1;1;1;1])].

(** ebcc/codegen/RCCSD_SD_1_2.py:2440-2460 [make_sing_b_dm]; assembly (line 2458) not translated *)
Definition RCCSD_SD_1_2_make_sing_b_dm : prog := mkprog
 [(n_g'boo,[3;0;0]); (n_g'bvo,[3;1;0]); (n_g'bov,[3;0;1]); (n_g'bvv,[3;1;1]); (n_ls1,[3]); (n_lu11,[3;1;0]); (n_u12,[3;3;0;1]); (n_s2,[3;3]); (n_s1,[3]); (n_l1,[1;0]); (n_u11,[3;0;1])]
 [(*2442*) Assign n_gc'boo (Plain (Transpose n_g'boo [0;2;1]));
  (*2442*) Assign n_gc'bov (Plain (Transpose n_g'bvo [0;2;1]));
  (*2442*) Assign n_gc'bvo (Plain (Transpose n_g'bov [0;2;1]));
  (*2442*) Assign n_gc'bvv (Plain (Transpose n_g'bvv [0;2;1]));
  (*2450*) Assign n_dm_b_cre (Plain (Zeros [3]));
  (*2451*) AddTo n_dm_b_cre (Plain (Einsum [(n_ls1,[0])] [0]));
  (*2452*) Assign n_dm_b_des (Plain (Zeros [3]));
  (*2453*) AddTo n_dm_b_des (Times (Einsum [(n_lu11,[0;1;2]); (n_u12,[3;0;2;1])] [3]) (2) 1);
  (*2454*) AddTo n_dm_b_des (Plain (Einsum [(n_ls1,[0]); (n_s2,[1;0])] [1]));
  (*2455*) AddTo n_dm_b_des (Plain (Einsum [(n_s1,[0])] [0]));
  (*2456*) AddTo n_dm_b_des (Times (Einsum [(n_l1,[0;1]); (n_u11,[2;1;0])] [2]) (2) 1)]
 [(n_dm_b_cre,[3]); (n_dm_b_des,[3])].

(** ebcc/codegen/RCCSD_SD_1_2.py:2462-2478 [make_rdm1_b] *)
Definition RCCSD_SD_1_2_make_rdm1_b : prog := mkprog
 [(n_g'boo,[3;0;0]); (n_g'bvo,[3;1;0]); (n_g'bov,[3;0;1]); (n_g'bvv,[3;1;1]); (n_lu12,[3;3;1;0]); (n_u12,[3;3;0;1]); (n_ls2,[3;3]); (n_s2,[3;3]); (n_ls1,[3]); (n_s1,[3]); (n_lu11,[3;1;0]); (n_u11,[3;0;1])]
 [(*2464*) Assign n_gc'boo (Plain (Transpose n_g'boo [0;2;1]));
  (*2464*) Assign n_gc'bov (Plain (Transpose n_g'bvo [0;2;1]));
  (*2464*) Assign n_gc'bvo (Plain (Transpose n_g'bov [0;2;1]));
  (*2464*) Assign n_gc'bvv (Plain (Transpose n_g'bvv [0;2;1]));
  (*2472*) Assign n_rdm1_b (Plain (Zeros [3;3]));
  (*2473*) AddTo n_rdm1_b (Times (Einsum [(n_lu12,[0;1;2;3]); (n_u12,[4;1;3;2])] [0;4]) (2) 1);
  (*2474*) AddTo n_rdm1_b (Plain (Einsum [(n_ls2,[0;1]); (n_s2,[2;1])] [0;2]));
  (*2475*) AddTo n_rdm1_b (Plain (Einsum [(n_ls1,[0]); (n_s1,[1])] [0;1]));
  (*2476*) AddTo n_rdm1_b (Times (Einsum [(n_lu11,[0;1;2]); (n_u11,[3;2;1])] [0;3]) (2) 1)]
 [(n_rdm1_b,[3;3])].

(** ebcc/codegen/RCCSD_SD_1_2.py:2480-2707 [make_eb_coup_rdm]; assembly (line 2702) not translated *)
Definition RCCSD_SD_1_2_make_eb_coup_rdm : prog := mkprog
 [(n_g'boo,[3;0;0]); (n_g'bvo,[3;1;0]); (n_g'bov,[3;0;1]); (n_g'bvv,[3;1;1]); (n_u11,[3;0;1]); (n_lu12,[3;3;1;0]); (n_s2,[3;3]); (n_t1,[0;1]); (n_lu11,[3;1;0]); (n_u12,[3;3;0;1]); (n_t2,[0;0;1;1]); (n_l1,[1;0]); (n_l2,[1;1;0;0]); (n_s1,[3]); (n_ls1,[3]); (n_ls2,[3;3])]
 [(*2482*) Assign n_gc'boo (Plain (Transpose n_g'boo [0;2;1]));
  (*2482*) Assign n_gc'bov (Plain (Transpose n_g'bvo [0;2;1]));
  (*2482*) Assign n_gc'bvo (Plain (Transpose n_g'bov [0;2;1]));
  (*2482*) Assign n_gc'bvv (Plain (Transpose n_g'bvv [0;2;1]));
  (*2489*) Assign n_delta_oo (Plain (Eye 0));
  (*2490*) Assign n_delta_vv (Plain (Eye 1));
  (*2493*) Assign (T 1) (Plain (Zeros [3;0;0]));
  (*2494*) AddTo (T 1) (Plain (Einsum [(n_u11,[0;1;2]); (n_lu12,[3;0;2;4])] [3;4;1]));
  (*2495*) Assign (T 6) (Plain (Zeros [3;0;0]));
  (*2496*) AddTo (T 6) (Plain (Einsum [(T 1,[0;1;2])] [0;1;2]));
  (*2497*) Assign (T 9) (Plain (Zeros [3;0;0]));
  (*2498*) AddTo (T 9) (Plain (Einsum [(n_s2,[0;1]); (T 1,[1;2;3])] [0;2;3]));
  (*2499*) Assign (T 31) (Plain (Zeros [3;0;0]));
  (*2500*) AddTo (T 31) (Plain (Einsum [(T 9,[0;1;2])] [0;1;2]));
  (*2501*) Assign n_rdm_eb_des_oo (Plain (Zeros [3;0;0]));
  (*2502*) SubFrom n_rdm_eb_des_oo (Times (Einsum [(T 9,[0;1;2])] [0;2;1]) (2) 1);
  (*2503*) Del (T 9);
  (*2504*) Assign (T 37) (Plain (Zeros [3;0;0]));
  (*2505*) AddTo (T 37) (Plain (Einsum [(T 1,[0;1;2])] [0;1;2]));
  (*2506*) Assign n_rdm_eb_cre_oo (Plain (Zeros [3;0;0]));
  (*2507*) SubFrom n_rdm_eb_cre_oo (Times (Einsum [(T 1,[0;1;2])] [0;2;1]) (2) 1);
  (*2508*) Del (T 1);
  (*2509*) Assign (T 2) (Plain (Zeros [3;0;0]));
  (*2510*) AddTo (T 2) (Plain (Einsum [(n_t1,[0;1]); (n_lu11,[2;1;3])] [2;3;0]));
  (*2511*) AddTo (T 6) (Plain (Einsum [(T 2,[0;1;2])] [0;1;2]));
  (*2512*) Assign n_rdm_eb_cre_ov (Plain (Zeros [3;0;1]));
  (*2513*) SubFrom n_rdm_eb_cre_ov (Times (Einsum [(n_t1,[0;1]); (T 6,[2;0;3])] [2;3;1]) (2) 1);
  (*2514*) Assign n_rdm_eb_des_ov (Plain (Zeros [3;0;1]));
  (*2515*) SubFrom n_rdm_eb_des_ov (Times (Einsum [(T 6,[0;1;2]); (n_u12,[0;3;1;4])] [3;2;4]) (2) 1);
  (*2516*) Del (T 6);
  (*2517*) AddTo (T 37) (Plain (Einsum [(T 2,[0;1;2])] [0;1;2]));
  (*2518*) Assign (T 39) (Plain (Zeros [0;1]));
  (*2519*) AddTo (T 39) (Times (Einsum [(n_u11,[0;1;2]); (T 37,[0;1;3])] [3;2]) (9999999999999993) 10000000000000000);
  (*2520*) Del (T 37);
  (*2521*) SubFrom n_rdm_eb_cre_oo (Times (Einsum [(T 2,[0;1;2])] [0;2;1]) (2) 1);
  (*2522*) Del (T 2);
  (*2523*) Assign (T 3) (Plain (Zeros [3;3;0;0]));
  (*2524*) AddTo (T 3) (Plain (Einsum [(n_t1,[0;1]); (n_lu12,[2;3;1;4])] [2;3;4;0]));
  (*2525*) Assign (T 4) (Plain (Zeros [3;0;1]));
  (*2526*) AddTo (T 4) (Plain (Einsum [(n_u11,[0;1;2]); (T 3,[3;0;1;4])] [3;4;2]));
  (*2527*) SubFrom n_rdm_eb_cre_ov (Times (Einsum [(T 4,[0;1;2])] [0;1;2]) (2) 1);
  (*2528*) SubFrom n_rdm_eb_des_ov (Times (Einsum [(n_s2,[0;1]); (T 4,[1;2;3])] [0;2;3]) (2) 1);
  (*2529*) Del (T 4);
  (*2530*) AddTo (T 39) (Times (Einsum [(n_u12,[0;1;2;3]); (T 3,[0;1;2;4])] [4;3]) (49999999999999967) 100000000000000000);
  (*2531*) Del (T 3);
  (*2532*) Assign (T 5) (Plain (Zeros [0;0;1;1]));
  (*2533*) SubFrom (T 5) (Plain (Einsum [(n_t2,[0;1;2;3])] [1;0;2;3]));
  (*2534*) AddTo (T 5) (Times (Einsum [(n_t2,[0;1;2;3])] [1;0;3;2]) (2) 1);
  (*2535*) AddTo n_rdm_eb_cre_ov (Times (Einsum [(n_lu11,[0;1;2]); (T 5,[2;3;1;4])] [0;3;4]) (2) 1);
  (*2536*) Assign (T 7) (Plain (Zeros [3;1;1]));
  (*2537*) AddTo (T 7) (Plain (Einsum [(n_u11,[0;1;2]); (n_lu12,[3;0;4;1])] [3;4;2]));
  (*2538*) Assign n_rdm_eb_cre_vv (Plain (Zeros [3;1;1]));
  (*2539*) AddTo n_rdm_eb_cre_vv (Times (Einsum [(T 7,[0;1;2])] [0;1;2]) (2) 1);
  (*2540*) SubFrom n_rdm_eb_des_ov (Times (Einsum [(T 7,[0;1;2]); (n_u12,[3;0;4;1])] [3;4;2]) (2) 1);
  (*2541*) Assign n_rdm_eb_des_vv (Plain (Zeros [3;1;1]));
  (*2542*) AddTo n_rdm_eb_des_vv (Times (Einsum [(n_s2,[0;1]); (T 7,[1;2;3])] [0;2;3]) (2) 1);
  (*2543*) Del (T 7);
  (*2544*) Assign (T 8) (Plain (Zeros [3;0;0]));
  (*2545*) AddTo (T 8) (Plain (Einsum [(n_lu11,[0;1;2]); (n_u12,[3;0;4;1])] [3;2;4]));
  (*2546*) AddTo (T 31) (Plain (Einsum [(T 8,[0;1;2])] [0;1;2]));
  (*2547*) SubFrom n_rdm_eb_des_oo (Times (Einsum [(T 8,[0;1;2])] [0;2;1]) (2) 1);
  (*2548*) Del (T 8);
  (*2549*) Assign (T 10) (Plain (Zeros [3;0;0]));
  (*2550*) AddTo (T 10) (Plain (Einsum [(n_l1,[0;1]); (n_u11,[2;3;0])] [2;1;3]));
  (*2551*) AddTo (T 31) (Plain (Einsum [(T 10,[0;1;2])] [0;1;2]));
  (*2552*) SubFrom n_rdm_eb_des_oo (Times (Einsum [(T 10,[0;1;2])] [0;2;1]) (2) 1);
  (*2553*) Del (T 10);
  (*2554*) Assign (T 11) (Plain (Zeros [3;0;1]));
  (*2555*) AddTo (T 11) (Plain (Einsum [(n_s2,[0;1]); (n_lu11,[1;2;3])] [0;3;2]));
  (*2556*) Assign (T 14) (Plain (Zeros [3;0;1]));
  (*2557*) AddTo (T 14) (Plain (Einsum [(T 11,[0;1;2])] [0;1;2]));
  (*2558*) Assign n_rdm_eb_des_vo (Plain (Zeros [3;1;0]));
  (*2559*) AddTo n_rdm_eb_des_vo (Times (Einsum [(T 11,[0;1;2])] [0;2;1]) (2) 1);
  (*2560*) Del (T 11);
  (*2561*) Assign (T 12) (Plain (Zeros [0;0;1;1]));
  (*2562*) AddTo (T 12) (Times (Einsum [(n_l2,[0;1;2;3])] [3;2;0;1]) (2) 1);
  (*2563*) SubFrom (T 12) (Plain (Einsum [(n_l2,[0;1;2;3])] [3;2;1;0]));
  (*2564*) Assign (T 13) (Plain (Zeros [3;0;1]));
  (*2565*) AddTo (T 13) (Plain (Einsum [(n_u11,[0;1;2]); (T 12,[1;3;4;2])] [0;3;4]));
  (*2566*) Del (T 12);
  (*2567*) AddTo (T 14) (Plain (Einsum [(T 13,[0;1;2])] [0;1;2]));
  (*2568*) Del (T 13);
  (*2569*) Assign (T 15) (Plain (Zeros [3;0;0]));
  (*2570*) AddTo (T 15) (Plain (Einsum [(n_t1,[0;1]); (T 14,[2;3;1])] [2;3;0]));
  (*2571*) AddTo (T 31) (Plain (Einsum [(T 15,[0;1;2])] [0;1;2]));
  (*2572*) SubFrom n_rdm_eb_des_ov (Times (Einsum [(n_t1,[0;1]); (T 31,[2;0;3])] [2;3;1]) (2) 1);
  (*2573*) Del (T 31);
  (*2574*) SubFrom n_rdm_eb_des_oo (Times (Einsum [(T 15,[0;1;2])] [0;2;1]) (2) 1);
  (*2575*) Del (T 15);
  (*2576*) AddTo n_rdm_eb_des_ov (Times (Einsum [(T 14,[0;1;2]); (T 5,[1;3;2;4])] [0;3;4]) (2) 1);
  (*2577*) Del (T 5);
  (*2578*) AddTo n_rdm_eb_des_vv (Times (Einsum [(n_t1,[0;1]); (T 14,[2;0;3])] [2;3;1]) (2) 1);
  (*2579*) Del (T 14);
  (*2580*) Assign (T 16) (Plain (Zeros [0;0]));
  (*2581*) AddTo (T 16) (Plain (Einsum [(n_l1,[0;1]); (n_t1,[2;0])] [1;2]));
  (*2582*) Assign (T 21) (Plain (Zeros [0;0]));
  (*2583*) AddTo (T 21) (Plain (Einsum [(T 16,[0;1])] [0;1]));
  (*2584*) Assign (T 32) (Plain (Zeros [0;0]));
  (*2585*) AddTo (T 32) (Plain (Einsum [(T 16,[0;1])] [0;1]));
  (*2586*) Assign (T 38) (Plain (Zeros [0;0]));
  (*2587*) AddTo (T 38) (Plain (Einsum [(T 16,[0;1])] [0;1]));
  (*2588*) Del (T 16);
  (*2589*) Assign (T 17) (Plain (Zeros [0;0]));
  (*2590*) AddTo (T 17) (Plain (Einsum [(n_lu11,[0;1;2]); (n_u11,[0;3;1])] [2;3]));
  (*2591*) AddTo (T 21) (Plain (Einsum [(T 17,[0;1])] [0;1]));
  (*2592*) AddTo (T 32) (Plain (Einsum [(T 17,[0;1])] [0;1]));
  (*2593*) AddTo (T 38) (Plain (Einsum [(T 17,[0;1])] [0;1]));
  (*2594*) Del (T 17);
  (*2595*) Assign (T 18) (Plain (Zeros [0;0]));
  (*2596*) AddTo (T 18) (Plain (Einsum [(n_lu12,[0;1;2;3]); (n_u12,[0;1;4;2])] [3;4]));
  (*2597*) AddTo (T 21) (Times (Einsum [(T 18,[0;1])] [0;1]) (1) 2);
  (*2598*) AddTo (T 32) (Times (Einsum [(T 18,[0;1])] [0;1]) (1) 2);
  (*2599*) AddTo (T 38) (Times (Einsum [(T 18,[0;1])] [0;1]) (1) 2);
  (*2600*) Del (T 18);
  (*2601*) Assign (T 19) (Plain (Zeros [0;0;1;1]));
  (*2602*) AddTo (T 19) (Plain (Einsum [(n_t2,[0;1;2;3])] [1;0;2;3]));
  (*2603*) AddTo (T 19) (Times (Einsum [(n_t2,[0;1;2;3])] [1;0;3;2]) (-1) 2);
  (*2604*) Assign (T 20) (Plain (Zeros [0;0]));
  (*2605*) AddTo (T 20) (Times (Einsum [(n_l2,[0;1;2;3]); (T 19,[2;4;1;0])] [3;4]) (2) 1);
  (*2606*) AddTo (T 21) (Plain (Einsum [(T 20,[0;1])] [0;1]));
  (*2607*) AddTo (T 32) (Plain (Einsum [(T 20,[0;1])] [0;1]));
  (*2608*) Del (T 20);
  (*2609*) AddTo n_rdm_eb_des_ov (Times (Einsum [(T 32,[0;1]); (n_u11,[2;0;3])] [2;1;3]) (-2) 1);
  (*2610*) Del (T 32);
  (*2611*) AddTo (T 38) (Times (Einsum [(n_l2,[0;1;2;3]); (T 19,[2;4;1;0])] [3;4]) (20000000000000013) 10000000000000000);
  (*2612*) Del (T 19);
  (*2613*) AddTo (T 39) (Times (Einsum [(n_t1,[0;1]); (T 38,[0;2])] [2;1]) (9999999999999993) 10000000000000000);
  (*2614*) Del (T 38);
  (*2615*) AddTo (T 21) (Times (Einsum [(n_delta_oo,[0;1])] [1;0]) (-1) 1);
  (*2616*) AddTo n_rdm_eb_des_oo (Times (Einsum [(n_s1,[0]); (T 21,[1;2])] [0;2;1]) (-2) 1);
  (*2617*) Del (T 21);
  (*2618*) Assign (T 22) (Plain (Zeros [3]));
  (*2619*) AddTo (T 22) (Plain (Einsum [(n_ls1,[0]); (n_s2,[1;0])] [1]));
  (*2620*) Assign (T 25) (Plain (Zeros [3]));
  (*2621*) AddTo (T 25) (Plain (Einsum [(T 22,[0])] [0]));
  (*2622*) Del (T 22);
  (*2623*) Assign (T 23) (Plain (Zeros [3]));
  (*2624*) AddTo (T 23) (Plain (Einsum [(n_l1,[0;1]); (n_u11,[2;1;0])] [2]));
  (*2625*) AddTo (T 25) (Times (Einsum [(T 23,[0])] [0]) (2) 1);
  (*2626*) Del (T 23);
  (*2627*) Assign (T 24) (Plain (Zeros [3]));
  (*2628*) AddTo (T 24) (Plain (Einsum [(n_lu11,[0;1;2]); (n_u12,[3;0;2;1])] [3]));
  (*2629*) AddTo (T 25) (Times (Einsum [(T 24,[0])] [0]) (2) 1);
  (*2630*) Del (T 24);
  (*2631*) AddTo n_rdm_eb_des_oo (Times (Einsum [(T 25,[0]); (n_delta_oo,[1;2])] [0;2;1]) (2) 1);
  (*2632*) AddTo n_rdm_eb_des_ov (Times (Einsum [(T 25,[0]); (n_t1,[1;2])] [0;1;2]) (2) 1);
  (*2633*) Del (T 25);
  (*2634*) Assign (T 26) (Plain (Zeros [3;3;3]));
  (*2635*) AddTo (T 26) (Plain (Einsum [(n_u11,[0;1;2]); (n_lu12,[3;4;2;1])] [3;4;0]));
  (*2636*) AddTo n_rdm_eb_des_ov (Times (Einsum [(T 26,[0;1;2]); (n_u12,[0;1;3;4])] [2;3;4]) (2) 1);
  (*2637*) Del (T 26);
  (*2638*) Assign (T 27) (Plain (Zeros [1;1]));
  (*2639*) AddTo (T 27) (Plain (Einsum [(n_lu11,[0;1;2]); (n_u11,[0;2;3])] [1;3]));
  (*2640*) Assign (T 30) (Plain (Zeros [1;1]));
  (*2641*) AddTo (T 30) (Plain (Einsum [(T 27,[0;1])] [0;1]));
  (*2642*) Assign (T 41) (Plain (Zeros [1;1]));
  (*2643*) AddTo (T 41) (Times (Einsum [(T 27,[0;1])] [0;1]) (2) 1);
  (*2644*) Del (T 27);
  (*2645*) Assign (T 28) (Plain (Zeros [1;1]));
  (*2646*) AddTo (T 28) (Plain (Einsum [(n_lu12,[0;1;2;3]); (n_u12,[0;1;3;4])] [2;4]));
  (*2647*) AddTo (T 30) (Times (Einsum [(T 28,[0;1])] [0;1]) (1) 2);
  (*2648*) AddTo (T 41) (Plain (Einsum [(T 28,[0;1])] [0;1]));
  (*2649*) Del (T 28);
  (*2650*) Assign (T 29) (Plain (Zeros [0;0;1;1]));
  (*2651*) AddTo (T 29) (Times (Einsum [(n_l2,[0;1;2;3])] [3;2;0;1]) (-1) 2);
  (*2652*) AddTo (T 29) (Plain (Einsum [(n_l2,[0;1;2;3])] [3;2;1;0]));
  (*2653*) AddTo (T 30) (Times (Einsum [(n_t2,[0;1;2;3]); (T 29,[0;1;4;3])] [4;2]) (2) 1);
  (*2654*) AddTo n_rdm_eb_des_ov (Times (Einsum [(T 30,[0;1]); (n_u11,[2;3;0])] [2;3;1]) (-2) 1);
  (*2655*) Del (T 30);
  (*2656*) AddTo (T 41) (Times (Einsum [(n_t2,[0;1;2;3]); (T 29,[0;1;4;3])] [4;2]) (4) 1);
  (*2657*) Del (T 29);
  (*2658*) Assign (T 33) (Plain (Zeros [3;3]));
  (*2659*) AddTo (T 33) (Plain (Einsum [(n_ls2,[0;1]); (n_s2,[2;0])] [1;2]));
  (*2660*) AddTo (T 33) (Times (Einsum [(n_lu11,[0;1;2]); (n_u11,[3;2;1])] [0;3]) (2) 1);
  (*2661*) AddTo (T 33) (Times (Einsum [(n_lu12,[0;1;2;3]); (n_u12,[4;0;3;2])] [1;4]) (2) 1);
  (*2662*) AddTo n_rdm_eb_des_ov (Times (Einsum [(T 33,[0;1]); (n_u11,[0;2;3])] [1;2;3]) (2) 1);
  (*2663*) Del (T 33);
  (*2664*) Assign (T 34) (Plain (Zeros [0;0;0;1]));
  (*2665*) AddTo (T 34) (Plain (Einsum [(n_t1,[0;1]); (n_l2,[1;2;3;4])] [4;3;0;2]));
  (*2666*) Assign (T 35) (Plain (Zeros [0;0;0;1]));
  (*2667*) AddTo (T 35) (Times (Einsum [(T 34,[0;1;2;3])] [0;1;2;3]) (-1) 2);
  (*2668*) AddTo (T 35) (Plain (Einsum [(T 34,[0;1;2;3])] [1;0;2;3]));
  (*2669*) Del (T 34);
  (*2670*) AddTo (T 39) (Times (Einsum [(n_t2,[0;1;2;3]); (T 35,[0;1;4;3])] [4;2]) (2) 1);
  (*2671*) Del (T 35);
  (*2672*) Assign (T 36) (Plain (Zeros [0;0;1;1]));
  (*2673*) AddTo (T 36) (Times (Einsum [(n_t2,[0;1;2;3])] [1;0;2;3]) (-1) 1);
  (*2674*) AddTo (T 36) (Times (Einsum [(n_t2,[0;1;2;3])] [1;0;3;2]) (2) 1);
  (*2675*) AddTo (T 39) (Times (Einsum [(n_l1,[0;1]); (T 36,[1;2;0;3])] [2;3]) (-9999999999999993) 10000000000000000);
  (*2676*) Del (T 36);
  (*2677*) AddTo (T 39) (Times (Einsum [(n_t1,[0;1])] [0;1]) (-9999999999999993) 10000000000000000);
  (*2678*) AddTo (T 39) (Times (Einsum [(n_ls1,[0]); (n_u11,[0;1;2])] [1;2]) (-9999999999999993) 10000000000000000);
  (*2679*) AddTo (T 39) (Times (Einsum [(n_ls2,[0;1]); (n_u12,[0;1;2;3])] [2;3]) (-49999999999999967) 100000000000000000);
  (*2680*) AddTo n_rdm_eb_des_ov (Times (Einsum [(n_s1,[0]); (T 39,[1;2])] [0;1;2]) (-20000000000000013) 10000000000000000);
  (*2681*) Del (T 39);
  (*2682*) Assign (T 40) (Plain (Zeros [0;0;1;1]));
  (*2683*) SubFrom (T 40) (Plain (Einsum [(n_l2,[0;1;2;3])] [3;2;0;1]));
  (*2684*) AddTo (T 40) (Times (Einsum [(n_l2,[0;1;2;3])] [3;2;1;0]) (2) 1);
  (*2685*) AddTo n_rdm_eb_des_vo (Times (Einsum [(n_u11,[0;1;2]); (T 40,[1;3;2;4])] [0;4;3]) (2) 1);
  (*2686*) Del (T 40);
  (*2687*) AddTo (T 41) (Times (Einsum [(n_l1,[0;1]); (n_t1,[1;2])] [0;2]) (2) 1);
  (*2688*) AddTo n_rdm_eb_des_vv (Plain (Einsum [(n_s1,[0]); (T 41,[1;2])] [0;1;2]));
  (*2689*) Del (T 41);
  (*2690*) AddTo n_rdm_eb_cre_oo (Times (Einsum [(n_ls1,[0]); (n_delta_oo,[1;2])] [0;2;1]) (2) 1);
  (*2691*) AddTo n_rdm_eb_cre_ov (Times (Einsum [(n_ls2,[0;1]); (n_u11,[1;2;3])] [0;2;3]) (2) 1);
  (*2692*) AddTo n_rdm_eb_cre_ov (Times (Einsum [(n_ls1,[0]); (n_t1,[1;2])] [0;1;2]) (2) 1);
  (*2693*) Assign n_rdm_eb_cre_vo (Plain (Zeros [3;1;0]));
  (*2694*) AddTo n_rdm_eb_cre_vo (Times (Einsum [(n_lu11,[0;1;2])] [0;1;2]) (2) 1);
  (*2695*) AddTo n_rdm_eb_cre_vv (Times (Einsum [(n_t1,[0;1]); (n_lu11,[2;3;0])] [2;3;1]) (2) 1);
  (*2696*) AddTo n_rdm_eb_des_ov (Times (Einsum [(n_u11,[0;1;2])] [0;1;2]) (2) 1);
  (*2697*) AddTo n_rdm_eb_des_ov (Times (Einsum [(n_ls1,[0]); (n_u12,[1;0;2;3])] [1;2;3]) (2) 1);
  (*2698*) AddTo n_rdm_eb_des_vo (Times (Einsum [(n_s1,[0]); (n_l1,[1;2])] [0;1;2]) (2) 1);
  (*2699*) AddTo n_rdm_eb_des_vv (Times (Einsum [(n_lu11,[0;1;2]); (n_u12,[3;0;2;4])] [3;1;4]) (2) 1);
  (*2700*) AddTo n_rdm_eb_des_vv (Times (Einsum [(n_l1,[0;1]); (n_u11,[2;1;3])] [2;0;3]) (2) 1)]
 [(n_rdm_eb_cre_oo,[3;0;0]); (n_rdm_eb_cre_ov,[3;0;1]); (n_rdm_eb_cre_vo,[3;1;0]); (n_rdm_eb_cre_vv,[3;1;1]); (n_rdm_eb_des_oo,[3;0;0]); (n_rdm_eb_des_ov,[3;0;1]); (n_rdm_eb_des_vo,[3;1;0]); (n_rdm_eb_des_vv,[3;1;1])].

