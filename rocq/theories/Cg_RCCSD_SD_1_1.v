(** Generated by tools/translate_codegen.py from ebcc/codegen/RCCSD_SD_1_1.py; one statement per source line
    (the number in the comment before it). *)
From Coq Require Import ZArith List.
From Verif Require Import CgModel CgNames.
Import ListNotations.

(** ebcc/codegen/RCCSD_SD_1_1.py:7-27 [energy] *)
Definition RCCSD_SD_1_1_energy : prog := mkprog
 [(n_v'ovov,[0;1;0;1]); (n_t1,[0;1]); (n_t2,[0;0;1;1]); (n_f'ov,[0;1]); (n_u11,[3;0;1]); (n_s1,[3]); (n_g'bov,[3;0;1]); (n_G,[3])]
 [(*9*) Assign (T 1) (Plain (Zeros [0;0;1;1]));
  (*10*) AddTo (T 1) (Times (Einsum [(n_v'ovov,[0;1;2;3])] [2;0;1;3]) (-1) 2);
  (*11*) AddTo (T 1) (Plain (Einsum [(n_v'ovov,[0;1;2;3])] [2;0;3;1]));
  (*12*) Assign (T 2) (Plain (Zeros [0;1]));
  (*13*) AddTo (T 2) (Plain (Einsum [(n_t1,[0;1]); (T 1,[0;2;1;3])] [2;3]));
  (*14*) Assign n_e_cc (Plain (Zeros []));
  (*15*) AddTo n_e_cc (Times (Einsum [(n_t2,[0;1;2;3]); (T 1,[0;1;2;3])] []) (2) 1);
  (*16*) Del (T 1);
  (*17*) AddTo (T 2) (Plain (Einsum [(n_f'ov,[0;1])] [0;1]));
  (*18*) AddTo n_e_cc (Times (Einsum [(n_t1,[0;1]); (T 2,[0;1])] []) (2) 1);
  (*19*) Del (T 2);
  (*20*) Assign (T 3) (Plain (Zeros [3;0;1]));
  (*21*) AddTo (T 3) (Plain (Einsum [(n_u11,[0;1;2])] [0;1;2]));
  (*22*) AddTo (T 3) (Plain (Einsum [(n_s1,[0]); (n_t1,[1;2])] [0;1;2]));
  (*23*) AddTo n_e_cc (Times (Einsum [(n_g'bov,[0;1;2]); (T 3,[0;1;2])] []) (2) 1);
  (*24*) Del (T 3);
  (*25*) AddTo n_e_cc (Plain (Einsum [(n_G,[0]); (n_s1,[0])] []))]
 [(n_e_cc,[])].

(** ebcc/codegen/RCCSD_SD_1_1.py:29-499 [update_amps] *)
Definition RCCSD_SD_1_1_update_amps : prog := mkprog
 [(n_g'boo,[3;0;0]); (n_g'bvo,[3;1;0]); (n_g'bov,[3;0;1]); (n_g'bvv,[3;1;1]); (n_t1,[0;1]); (n_v'ovov,[0;1;0;1]); (n_t2,[0;0;1;1]); (n_v'ooov,[0;0;0;1]); (n_v'ovvv,[0;1;1;1]); (n_s1,[3]); (n_u11,[3;0;1]); (n_f'ov,[0;1]); (n_v'ovvo,[0;1;1;0]); (n_v'oovv,[0;0;1;1]); (n_f'oo,[0;0]); (n_f'vv,[1;1]); (n_G,[3]); (n_s2,[3;3]); (n_v'vvvv,[1;1;1;1]); (n_v'vovv,[1;0;1;1]); (n_v'oooo,[0;0;0;0]); (n_v'oovo,[0;0;1;0]); (n_w,[3;3]); (n_f'vo,[1;0]); (n_v'vovo,[1;0;1;0])]
 [(*31*) Assign n_gc'boo (Plain (Transpose n_g'boo [0;2;1]));
  (*31*) Assign n_gc'bov (Plain (Transpose n_g'bvo [0;2;1]));
  (*31*) Assign n_gc'bvo (Plain (Transpose n_g'bov [0;2;1]));
  (*31*) Assign n_gc'bvv (Plain (Transpose n_g'bvv [0;2;1]));
  (*39*) Assign (T 1) (Plain (Zeros [0;0;0;1]));
  (*40*) AddTo (T 1) (Plain (Einsum [(n_t1,[0;1]); (n_v'ovov,[2;3;4;1])] [0;2;4;3]));
  (*41*) Assign (T 2) (Plain (Zeros [0;0;0;1]));
  (*42*) AddTo (T 2) (Times (Einsum [(T 1,[0;1;2;3])] [0;1;2;3]) (2) 1);
  (*43*) AddTo (T 2) (Times (Einsum [(T 1,[0;1;2;3])] [0;2;1;3]) (-1) 1);
  (*44*) Assign (T 35) (Plain (Zeros [0;0;0;1]));
  (*45*) AddTo (T 35) (Plain (Einsum [(n_t2,[0;1;2;3]); (T 1,[4;1;5;2])] [4;0;5;3]));
  (*46*) Assign (T 41) (Plain (Zeros [0;0;0;1]));
  (*47*) SubFrom (T 41) (Plain (Einsum [(T 35,[0;1;2;3])] [0;2;1;3]));
  (*48*) Del (T 35);
  (*49*) Assign (T 36) (Plain (Zeros [0;0;0;1]));
  (*50*) SubFrom (T 36) (Plain (Einsum [(T 1,[0;1;2;3])] [0;1;2;3]));
  (*51*) AddTo (T 36) (Times (Einsum [(T 1,[0;1;2;3])] [0;2;1;3]) (2) 1);
  (*52*) Assign (T 37) (Plain (Zeros [0;0;0;1]));
  (*53*) AddTo (T 37) (Plain (Einsum [(n_t2,[0;1;2;3]); (T 36,[4;5;0;2])] [1;4;5;3]));
  (*54*) Del (T 36);
  (*55*) AddTo (T 41) (Plain (Einsum [(T 37,[0;1;2;3])] [1;2;0;3]));
  (*56*) Del (T 37);
  (*57*) Assign (T 65) (Plain (Zeros [0;0;0;1]));
  (*58*) AddTo (T 65) (Plain (Einsum [(n_t2,[0;1;2;3]); (T 1,[4;5;1;2])] [4;0;5;3]));
  (*59*) Assign (T 68) (Plain (Zeros [0;0;0;1]));
  (*60*) SubFrom (T 68) (Plain (Einsum [(T 65,[0;1;2;3])] [2;0;1;3]));
  (*61*) Del (T 65);
  (*62*) Assign (T 87) (Plain (Zeros [0;0;0;0]));
  (*63*) AddTo (T 87) (Plain (Einsum [(n_t1,[0;1]); (T 1,[2;3;4;1])] [2;0;4;3]));
  (*64*) Del (T 1);
  (*65*) Assign (T 88) (Plain (Zeros [0;0;0;0]));
  (*66*) AddTo (T 88) (Plain (Einsum [(T 87,[0;1;2;3])] [3;2;1;0]));
  (*67*) Assign (T 89) (Plain (Zeros [0;0;0;0]));
  (*68*) AddTo (T 89) (Plain (Einsum [(T 87,[0;1;2;3])] [3;2;1;0]));
  (*69*) Del (T 87);
  (*70*) AddTo (T 2) (Times (Einsum [(n_v'ooov,[0;1;2;3])] [1;0;2;3]) (-1) 1);
  (*71*) AddTo (T 2) (Times (Einsum [(n_v'ooov,[0;1;2;3])] [1;2;0;3]) (2) 1);
  (*72*) Assign n_t1new (Plain (Zeros [0;1]));
  (*73*) AddTo n_t1new (Times (Einsum [(n_t2,[0;1;2;3]); (T 2,[4;1;0;3])] [4;2]) (-1) 1);
  (*74*) Del (T 2);
  (*75*) Assign (T 3) (Plain (Zeros [0;1;1;1]));
  (*76*) AddTo (T 3) (Times (Einsum [(n_v'ovvv,[0;1;2;3])] [0;2;1;3]) (-1) 2);
  (*77*) AddTo (T 3) (Plain (Einsum [(n_v'ovvv,[0;1;2;3])] [0;2;3;1]));
  (*78*) AddTo n_t1new (Times (Einsum [(n_t2,[0;1;2;3]); (T 3,[0;4;3;2])] [1;4]) (2) 1);
  (*79*) Del (T 3);
  (*80*) Assign (T 4) (Plain (Zeros [0;1]));
  (*81*) AddTo (T 4) (Plain (Einsum [(n_s1,[0]); (n_g'bov,[0;1;2])] [1;2]));
  (*82*) Assign (T 7) (Plain (Zeros [0;1]));
  (*83*) AddTo (T 7) (Plain (Einsum [(T 4,[0;1])] [0;1]));
  (*84*) Assign (T 19) (Plain (Zeros [0;1]));
  (*85*) AddTo (T 19) (Times (Einsum [(T 4,[0;1])] [0;1]) (1) 2);
  (*86*) Assign (T 105) (Plain (Zeros [0;1]));
  (*87*) AddTo (T 105) (Plain (Einsum [(T 4,[0;1])] [0;1]));
  (*88*) Del (T 4);
  (*89*) Assign (T 5) (Plain (Zeros [0;0;1;1]));
  (*90*) AddTo (T 5) (Times (Einsum [(n_v'ovov,[0;1;2;3])] [2;0;1;3]) (2) 1);
  (*91*) SubFrom (T 5) (Plain (Einsum [(n_v'ovov,[0;1;2;3])] [2;0;3;1]));
  (*92*) Assign (T 6) (Plain (Zeros [0;1]));
  (*93*) AddTo (T 6) (Plain (Einsum [(n_t1,[0;1]); (T 5,[0;2;3;1])] [2;3]));
  (*94*) AddTo (T 7) (Plain (Einsum [(T 6,[0;1])] [0;1]));
  (*95*) Del (T 6);
  (*96*) Assign (T 98) (Plain (Zeros [3;0;1]));
  (*97*) AddTo (T 98) (Plain (Einsum [(n_u11,[0;1;2]); (T 5,[1;3;4;2])] [0;3;4]));
  (*98*) Del (T 5);
  (*99*) Assign (T 100) (Plain (Zeros [3;0;1]));
  (*100*) AddTo (T 100) (Plain (Einsum [(T 98,[0;1;2])] [0;1;2]));
  (*101*) Assign n_s2new (Plain (Zeros [3;3]));
  (*102*) AddTo n_s2new (Times (Einsum [(n_u11,[0;1;2]); (T 98,[3;1;2])] [3;0]) (2) 1);
  (*103*) Del (T 98);
  (*104*) AddTo (T 7) (Plain (Einsum [(n_f'ov,[0;1])] [0;1]));
  (*105*) Assign (T 67) (Plain (Zeros [0;0;0;1]));
  (*106*) AddTo (T 67) (Plain (Einsum [(T 7,[0;1]); (n_t2,[2;3;1;4])] [2;3;0;4]));
  (*107*) AddTo (T 68) (Plain (Einsum [(T 67,[0;1;2;3])] [2;1;0;3]));
  (*108*) Del (T 67);
  (*109*) Assign (T 70) (Plain (Zeros [0;0]));
  (*110*) AddTo (T 70) (Plain (Einsum [(n_t1,[0;1]); (T 7,[2;1])] [0;2]));
  (*111*) Assign (T 71) (Plain (Zeros [0;0]));
  (*112*) AddTo (T 71) (Plain (Einsum [(T 70,[0;1])] [0;1]));
  (*113*) Del (T 70);
  (*114*) Assign n_s1new (Plain (Zeros [3]));
  (*115*) AddTo n_s1new (Times (Einsum [(T 7,[0;1]); (n_u11,[2;0;1])] [2]) (2) 1);
  (*116*) Assign (T 8) (Plain (Zeros [0;0;1;1]));
  (*117*) AddTo (T 8) (Times (Einsum [(n_t2,[0;1;2;3])] [1;0;2;3]) (2) 1);
  (*118*) SubFrom (T 8) (Plain (Einsum [(n_t2,[0;1;2;3])] [1;0;3;2]));
  (*119*) Assign (T 47) (Plain (Zeros [3;0;1]));
  (*120*) AddTo (T 47) (Plain (Einsum [(n_g'bov,[0;1;2]); (T 8,[1;3;4;2])] [0;3;4]));
  (*121*) Assign (T 49) (Plain (Zeros [3;0;1]));
  (*122*) AddTo (T 49) (Plain (Einsum [(T 47,[0;1;2])] [0;1;2]));
  (*123*) Del (T 47);
  (*124*) AddTo n_t1new (Plain (Einsum [(T 7,[0;1]); (T 8,[0;2;3;1])] [2;3]));
  (*125*) Del (T 7);
  (*126*) Assign (T 9) (Plain (Zeros [0;0;1;1]));
  (*127*) AddTo (T 9) (Times (Einsum [(n_v'ovvo,[0;1;2;3])] [0;3;2;1]) (2) 1);
  (*128*) SubFrom (T 9) (Plain (Einsum [(n_v'oovv,[0;1;2;3])] [0;1;2;3]));
  (*129*) AddTo n_t1new (Plain (Einsum [(n_t1,[0;1]); (T 9,[0;2;3;1])] [2;3]));
  (*130*) Assign n_u11new (Plain (Zeros [3;0;1]));
  (*131*) AddTo n_u11new (Plain (Einsum [(n_u11,[0;1;2]); (T 9,[1;3;4;2])] [0;3;4]));
  (*132*) Del (T 9);
  (*133*) Assign (T 10) (Plain (Zeros [3;0;0]));
  (*134*) AddTo (T 10) (Plain (Einsum [(n_t1,[0;1]); (n_g'bov,[2;3;1])] [2;3;0]));
  (*135*) Assign (T 11) (Plain (Zeros [3;0;0]));
  (*136*) AddTo (T 11) (Plain (Einsum [(T 10,[0;1;2])] [0;1;2]));
  (*137*) Del (T 10);
  (*138*) AddTo (T 11) (Plain (Einsum [(n_g'boo,[0;1;2])] [0;1;2]));
  (*139*) Assign (T 48) (Plain (Zeros [3;0;1]));
  (*140*) AddTo (T 48) (Plain (Einsum [(n_t1,[0;1]); (T 11,[2;0;3])] [2;3;1]));
  (*141*) SubFrom (T 49) (Plain (Einsum [(T 48,[0;1;2])] [0;1;2]));
  (*142*) Del (T 48);
  (*143*) SubFrom n_t1new (Plain (Einsum [(n_u11,[0;1;2]); (T 11,[0;1;3])] [3;2]));
  (*144*) Del (T 11);
  (*145*) Assign (T 12) (Plain (Zeros [0;0]));
  (*146*) AddTo (T 12) (Plain (Einsum [(n_s1,[0]); (n_g'boo,[0;1;2])] [1;2]));
  (*147*) Assign (T 21) (Plain (Zeros [0;0]));
  (*148*) AddTo (T 21) (Plain (Einsum [(T 12,[0;1])] [0;1]));
  (*149*) AddTo (T 71) (Plain (Einsum [(T 12,[0;1])] [1;0]));
  (*150*) Del (T 12);
  (*151*) Assign (T 13) (Plain (Zeros [0;0]));
  (*152*) AddTo (T 13) (Plain (Einsum [(n_g'bov,[0;1;2]); (n_u11,[0;3;2])] [1;3]));
  (*153*) AddTo (T 21) (Plain (Einsum [(T 13,[0;1])] [0;1]));
  (*154*) Assign (T 53) (Plain (Zeros [0;0]));
  (*155*) AddTo (T 53) (Plain (Einsum [(T 13,[0;1])] [0;1]));
  (*156*) Del (T 13);
  (*157*) Assign (T 14) (Plain (Zeros [0;0;1;1]));
  (*158*) AddTo (T 14) (Plain (Einsum [(n_v'ovov,[0;1;2;3])] [2;0;1;3]));
  (*159*) AddTo (T 14) (Times (Einsum [(n_v'ovov,[0;1;2;3])] [2;0;3;1]) (-1) 2);
  (*160*) Assign (T 15) (Plain (Zeros [0;0]));
  (*161*) AddTo (T 15) (Times (Einsum [(n_t2,[0;1;2;3]); (T 14,[0;4;3;2])] [1;4]) (2) 1);
  (*162*) AddTo (T 21) (Plain (Einsum [(T 15,[0;1])] [1;0]));
  (*163*) Del (T 15);
  (*164*) Assign (T 18) (Plain (Zeros [0;1]));
  (*165*) AddTo (T 18) (Plain (Einsum [(n_t1,[0;1]); (T 14,[0;2;3;1])] [2;3]));
  (*166*) AddTo (T 19) (Plain (Einsum [(T 18,[0;1])] [0;1]));
  (*167*) Del (T 18);
  (*168*) Assign (T 79) (Plain (Zeros [1;1]));
  (*169*) AddTo (T 79) (Plain (Einsum [(n_t2,[0;1;2;3]); (T 14,[0;1;3;4])] [2;4]));
  (*170*) Assign (T 80) (Plain (Zeros [0;0;1;1]));
  (*171*) AddTo (T 80) (Times (Einsum [(T 79,[0;1]); (n_t2,[2;3;1;4])] [2;3;4;0]) (2) 1);
  (*172*) Del (T 79);
  (*173*) Assign (T 84) (Plain (Zeros [0;0;1;1]));
  (*174*) AddTo (T 84) (Plain (Einsum [(T 80,[0;1;2;3])] [1;0;2;3]));
  (*175*) Del (T 80);
  (*176*) Assign (T 103) (Plain (Zeros [0;1]));
  (*177*) AddTo (T 103) (Times (Einsum [(n_t1,[0;1]); (T 14,[0;2;3;1])] [2;3]) (2) 1);
  (*178*) Del (T 14);
  (*179*) Assign (T 104) (Plain (Zeros [1;1]));
  (*180*) AddTo (T 104) (Times (Einsum [(n_t1,[0;1]); (T 103,[0;2])] [1;2]) (-1) 1);
  (*181*) Del (T 103);
  (*182*) Assign (T 16) (Plain (Zeros [0;0;0;1]));
  (*183*) AddTo (T 16) (Plain (Einsum [(n_v'ooov,[0;1;2;3])] [0;2;1;3]));
  (*184*) AddTo (T 16) (Times (Einsum [(n_v'ooov,[0;1;2;3])] [2;0;1;3]) (-1) 2);
  (*185*) Assign (T 17) (Plain (Zeros [0;0]));
  (*186*) AddTo (T 17) (Times (Einsum [(n_t1,[0;1]); (T 16,[2;0;3;1])] [2;3]) (2) 1);
  (*187*) Del (T 16);
  (*188*) AddTo (T 21) (Plain (Einsum [(T 17,[0;1])] [0;1]));
  (*189*) Del (T 17);
  (*190*) AddTo (T 19) (Times (Einsum [(n_f'ov,[0;1])] [0;1]) (1) 2);
  (*191*) Assign (T 20) (Plain (Zeros [0;0]));
  (*192*) AddTo (T 20) (Times (Einsum [(n_t1,[0;1]); (T 19,[2;1])] [0;2]) (2) 1);
  (*193*) Del (T 19);
  (*194*) AddTo (T 21) (Plain (Einsum [(T 20,[0;1])] [1;0]));
  (*195*) Del (T 20);
  (*196*) AddTo (T 21) (Plain (Einsum [(n_f'oo,[0;1])] [0;1]));
  (*197*) AddTo n_t1new (Times (Einsum [(n_t1,[0;1]); (T 21,[0;2])] [2;1]) (-1) 1);
  (*198*) AddTo n_u11new (Times (Einsum [(T 21,[0;1]); (n_u11,[2;0;3])] [2;1;3]) (-1) 1);
  (*199*) Del (T 21);
  (*200*) Assign (T 22) (Plain (Zeros [1;1]));
  (*201*) AddTo (T 22) (Plain (Einsum [(n_s1,[0]); (n_g'bvv,[0;1;2])] [1;2]));
  (*202*) Assign (T 25) (Plain (Zeros [1;1]));
  (*203*) AddTo (T 25) (Plain (Einsum [(T 22,[0;1])] [0;1]));
  (*204*) Assign (T 73) (Plain (Zeros [1;1]));
  (*205*) AddTo (T 73) (Plain (Einsum [(T 22,[0;1])] [0;1]));
  (*206*) AddTo (T 104) (Plain (Einsum [(T 22,[0;1])] [0;1]));
  (*207*) Del (T 22);
  (*208*) Assign (T 23) (Plain (Zeros [0;1;1;1]));
  (*209*) AddTo (T 23) (Times (Einsum [(n_v'ovvv,[0;1;2;3])] [0;2;1;3]) (2) 1);
  (*210*) SubFrom (T 23) (Plain (Einsum [(n_v'ovvv,[0;1;2;3])] [0;2;3;1]));
  (*211*) Assign (T 24) (Plain (Zeros [1;1]));
  (*212*) AddTo (T 24) (Plain (Einsum [(n_t1,[0;1]); (T 23,[0;2;1;3])] [2;3]));
  (*213*) AddTo (T 25) (Plain (Einsum [(T 24,[0;1])] [0;1]));
  (*214*) Assign (T 44) (Plain (Zeros [1;1]));
  (*215*) SubFrom (T 44) (Plain (Einsum [(T 24,[0;1])] [0;1]));
  (*216*) Del (T 24);
  (*217*) Assign (T 107) (Plain (Zeros [3;1;1]));
  (*218*) AddTo (T 107) (Plain (Einsum [(n_u11,[0;1;2]); (T 23,[1;3;2;4])] [0;3;4]));
  (*219*) Del (T 23);
  (*220*) AddTo (T 25) (Plain (Einsum [(n_f'vv,[0;1])] [0;1]));
  (*221*) AddTo n_t1new (Plain (Einsum [(n_t1,[0;1]); (T 25,[2;1])] [0;2]));
  (*222*) Del (T 25);
  (*223*) Assign (T 26) (Plain (Zeros [3]));
  (*224*) AddTo (T 26) (Plain (Einsum [(n_t1,[0;1]); (n_g'bov,[2;0;1])] [2]));
  (*225*) Assign (T 27) (Plain (Zeros [3]));
  (*226*) AddTo (T 27) (Times (Einsum [(T 26,[0])] [0]) (2) 1);
  (*227*) Del (T 26);
  (*228*) AddTo (T 27) (Plain (Einsum [(n_G,[0])] [0]));
  (*229*) AddTo n_t1new (Plain (Einsum [(T 27,[0]); (n_u11,[0;1;2])] [1;2]));
  (*230*) AddTo n_s1new (Plain (Einsum [(T 27,[0]); (n_s2,[0;1])] [1]));
  (*231*) Del (T 27);
  (*232*) Assign (T 28) (Plain (Zeros [0;1;1;1]));
  (*233*) AddTo (T 28) (Plain (Einsum [(n_t1,[0;1]); (n_v'vvvv,[2;3;4;1])] [0;2;4;3]));
  (*234*) Assign n_t2new (Plain (Zeros [0;0;1;1]));
  (*235*) AddTo n_t2new (Plain (Einsum [(n_t1,[0;1]); (T 28,[2;3;4;1])] [0;2;3;4]));
  (*236*) Del (T 28);
  (*237*) Assign (T 29) (Plain (Zeros [0;0;1;1]));
  (*238*) AddTo (T 29) (Plain (Einsum [(n_t1,[0;1]); (n_v'ovvv,[2;1;3;4])] [0;2;3;4]));
  (*239*) Assign (T 30) (Plain (Zeros [0;0;1;1]));
  (*240*) AddTo (T 30) (Plain (Einsum [(n_t2,[0;1;2;3]); (T 29,[4;1;5;2])] [4;0;3;5]));
  (*241*) Del (T 29);
  (*242*) Assign (T 55) (Plain (Zeros [0;0;1;1]));
  (*243*) AddTo (T 55) (Plain (Einsum [(T 30,[0;1;2;3])] [0;1;2;3]));
  (*244*) Del (T 30);
  (*245*) Assign (T 31) (Plain (Zeros [0;0;1;1]));
  (*246*) SubFrom (T 31) (Plain (Einsum [(n_v'ovov,[0;1;2;3])] [2;0;1;3]));
  (*247*) AddTo (T 31) (Times (Einsum [(n_v'ovov,[0;1;2;3])] [2;0;3;1]) (2) 1);
  (*248*) Assign (T 32) (Plain (Zeros [0;0;1;1]));
  (*249*) AddTo (T 32) (Plain (Einsum [(n_t2,[0;1;2;3]); (T 31,[0;4;3;5])] [1;4;2;5]));
  (*250*) Assign (T 33) (Plain (Zeros [0;0;1;1]));
  (*251*) AddTo (T 33) (Plain (Einsum [(n_t2,[0;1;2;3]); (T 32,[4;0;5;2])] [1;4;3;5]));
  (*252*) Del (T 32);
  (*253*) AddTo (T 55) (Plain (Einsum [(T 33,[0;1;2;3])] [0;1;2;3]));
  (*254*) Del (T 33);
  (*255*) Assign (T 85) (Plain (Zeros [0;0;1;1]));
  (*256*) AddTo (T 85) (Times (Einsum [(n_t2,[0;1;2;3]); (T 31,[0;4;2;5])] [1;4;3;5]) (2) 1);
  (*257*) Del (T 31);
  (*258*) Assign (T 34) (Plain (Zeros [0;0;0;1]));
  (*259*) AddTo (T 34) (Plain (Einsum [(n_t2,[0;1;2;3]); (n_v'ooov,[1;4;5;2])] [0;5;4;3]));
  (*260*) SubFrom (T 41) (Plain (Einsum [(T 34,[0;1;2;3])] [0;1;2;3]));
  (*261*) Del (T 34);
  (*262*) Assign (T 38) (Plain (Zeros [0;0;1;1]));
  (*263*) AddTo (T 38) (Plain (Einsum [(n_t1,[0;1]); (n_v'ovvv,[2;3;4;1])] [0;2;4;3]));
  (*264*) Assign (T 39) (Plain (Zeros [0;0;1;1]));
  (*265*) AddTo (T 39) (Plain (Einsum [(T 38,[0;1;2;3])] [1;0;2;3]));
  (*266*) Assign (T 57) (Plain (Zeros [0;0;1;1]));
  (*267*) AddTo (T 57) (Plain (Einsum [(n_t2,[0;1;2;3]); (T 38,[4;1;5;2])] [4;0;3;5]));
  (*268*) Del (T 38);
  (*269*) Assign (T 75) (Plain (Zeros [0;0;1;1]));
  (*270*) AddTo (T 75) (Plain (Einsum [(T 57,[0;1;2;3])] [0;1;2;3]));
  (*271*) Del (T 57);
  (*272*) AddTo (T 39) (Plain (Einsum [(n_v'ovvo,[0;1;2;3])] [0;3;2;1]));
  (*273*) Assign (T 40) (Plain (Zeros [0;0;0;1]));
  (*274*) AddTo (T 40) (Plain (Einsum [(n_t1,[0;1]); (T 39,[2;3;4;1])] [0;2;3;4]));
  (*275*) Del (T 39);
  (*276*) AddTo (T 41) (Plain (Einsum [(T 40,[0;1;2;3])] [0;1;2;3]));
  (*277*) Del (T 40);
  (*278*) Assign (T 42) (Plain (Zeros [0;0;1;1]));
  (*279*) AddTo (T 42) (Plain (Einsum [(n_t1,[0;1]); (T 41,[2;0;3;4])] [2;3;1;4]));
  (*280*) Del (T 41);
  (*281*) AddTo (T 55) (Plain (Einsum [(T 42,[0;1;2;3])] [0;1;2;3]));
  (*282*) Del (T 42);
  (*283*) Assign (T 43) (Plain (Zeros [1;1]));
  (*284*) AddTo (T 43) (Plain (Einsum [(n_g'bov,[0;1;2]); (n_u11,[0;1;3])] [2;3]));
  (*285*) AddTo (T 44) (Plain (Einsum [(T 43,[0;1])] [1;0]));
  (*286*) Assign (T 45) (Plain (Zeros [0;0;1;1]));
  (*287*) AddTo (T 45) (Plain (Einsum [(T 44,[0;1]); (n_t2,[2;3;1;4])] [2;3;4;0]));
  (*288*) Del (T 44);
  (*289*) AddTo (T 55) (Plain (Einsum [(T 45,[0;1;2;3])] [1;0;2;3]));
  (*290*) Del (T 45);
  (*291*) AddTo (T 104) (Times (Einsum [(T 43,[0;1])] [1;0]) (-1) 1);
  (*292*) Del (T 43);
  (*293*) Assign (T 46) (Plain (Zeros [3;0;1]));
  (*294*) AddTo (T 46) (Plain (Einsum [(n_t1,[0;1]); (n_g'bvv,[2;3;1])] [2;0;3]));
  (*295*) AddTo (T 49) (Plain (Einsum [(T 46,[0;1;2])] [0;1;2]));
  (*296*) Del (T 46);
  (*297*) AddTo (T 49) (Plain (Einsum [(n_g'bvo,[0;1;2])] [0;2;1]));
  (*298*) Assign (T 50) (Plain (Zeros [0;0;1;1]));
  (*299*) AddTo (T 50) (Plain (Einsum [(n_u11,[0;1;2]); (T 49,[0;3;4])] [1;3;2;4]));
  (*300*) Del (T 49);
  (*301*) SubFrom (T 55) (Plain (Einsum [(T 50,[0;1;2;3])] [1;0;3;2]));
  (*302*) Del (T 50);
  (*303*) Assign (T 51) (Plain (Zeros [0;0;0;1]));
  (*304*) AddTo (T 51) (Times (Einsum [(n_v'ooov,[0;1;2;3])] [0;2;1;3]) (2) 1);
  (*305*) SubFrom (T 51) (Plain (Einsum [(n_v'ooov,[0;1;2;3])] [2;0;1;3]));
  (*306*) Assign (T 52) (Plain (Zeros [0;0]));
  (*307*) AddTo (T 52) (Plain (Einsum [(n_t1,[0;1]); (T 51,[2;0;3;1])] [2;3]));
  (*308*) AddTo (T 53) (Plain (Einsum [(T 52,[0;1])] [0;1]));
  (*309*) Del (T 52);
  (*310*) Assign (T 54) (Plain (Zeros [0;0;1;1]));
  (*311*) AddTo (T 54) (Plain (Einsum [(T 53,[0;1]); (n_t2,[0;2;3;4])] [2;1;3;4]));
  (*312*) Del (T 53);
  (*313*) AddTo (T 55) (Plain (Einsum [(T 54,[0;1;2;3])] [0;1;3;2]));
  (*314*) Del (T 54);
  (*315*) SubFrom n_t2new (Plain (Einsum [(T 55,[0;1;2;3])] [0;1;2;3]));
  (*316*) SubFrom n_t2new (Plain (Einsum [(T 55,[0;1;2;3])] [1;0;3;2]));
  (*317*) Del (T 55);
  (*318*) Assign (T 66) (Plain (Zeros [0;0;0;1]));
  (*319*) AddTo (T 66) (Plain (Einsum [(n_t2,[0;1;2;3]); (T 51,[4;0;5;2])] [1;4;5;3]));
  (*320*) AddTo (T 68) (Plain (Einsum [(T 66,[0;1;2;3])] [1;0;2;3]));
  (*321*) Del (T 66);
  (*322*) Assign (T 106) (Plain (Zeros [3;0;0]));
  (*323*) AddTo (T 106) (Plain (Einsum [(n_u11,[0;1;2]); (T 51,[3;1;4;2])] [0;3;4]));
  (*324*) Del (T 51);
  (*325*) Assign (T 56) (Plain (Zeros [0;0;1;1]));
  (*326*) AddTo (T 56) (Plain (Einsum [(n_t1,[0;1]); (n_v'vovv,[2;3;4;1])] [0;3;2;4]));
  (*327*) SubFrom (T 75) (Plain (Einsum [(T 56,[0;1;2;3])] [0;1;2;3]));
  (*328*) Del (T 56);
  (*329*) Assign (T 58) (Plain (Zeros [0;1;1;1]));
  (*330*) SubFrom (T 58) (Plain (Einsum [(n_v'ovvv,[0;1;2;3])] [0;2;1;3]));
  (*331*) AddTo (T 58) (Times (Einsum [(n_v'ovvv,[0;1;2;3])] [0;2;3;1]) (2) 1);
  (*332*) Assign (T 59) (Plain (Zeros [0;0;1;1]));
  (*333*) AddTo (T 59) (Plain (Einsum [(n_t1,[0;1]); (T 58,[2;3;1;4])] [0;2;3;4]));
  (*334*) Del (T 58);
  (*335*) Assign (T 60) (Plain (Zeros [0;0;1;1]));
  (*336*) AddTo (T 60) (Plain (Einsum [(n_t2,[0;1;2;3]); (T 59,[4;0;5;2])] [1;4;3;5]));
  (*337*) Del (T 59);
  (*338*) SubFrom (T 75) (Plain (Einsum [(T 60,[0;1;2;3])] [1;0;2;3]));
  (*339*) Del (T 60);
  (*340*) Assign (T 61) (Plain (Zeros [0;0;0;1]));
  (*341*) AddTo (T 61) (Plain (Einsum [(n_t1,[0;1]); (n_v'oovv,[2;3;4;1])] [0;2;3;4]));
  (*342*) AddTo (T 68) (Plain (Einsum [(T 61,[0;1;2;3])] [1;0;2;3]));
  (*343*) Del (T 61);
  (*344*) Assign (T 62) (Plain (Zeros [0;0;0;1]));
  (*345*) AddTo (T 62) (Plain (Einsum [(n_t2,[0;1;2;3]); (n_v'ooov,[4;5;1;2])] [0;4;5;3]));
  (*346*) SubFrom (T 68) (Plain (Einsum [(T 62,[0;1;2;3])] [1;0;2;3]));
  (*347*) Del (T 62);
  (*348*) Assign (T 63) (Plain (Zeros [0;0;0;0]));
  (*349*) AddTo (T 63) (Plain (Einsum [(n_t1,[0;1]); (n_v'ooov,[2;3;4;1])] [0;2;4;3]));
  (*350*) Assign (T 64) (Plain (Zeros [0;0;0;1]));
  (*351*) AddTo (T 64) (Plain (Einsum [(n_t1,[0;1]); (T 63,[2;3;0;4])] [2;3;4;1]));
  (*352*) SubFrom (T 68) (Plain (Einsum [(T 64,[0;1;2;3])] [1;0;2;3]));
  (*353*) Del (T 64);
  (*354*) Assign (T 69) (Plain (Zeros [0;0;1;1]));
  (*355*) AddTo (T 69) (Plain (Einsum [(n_t1,[0;1]); (T 68,[0;2;3;4])] [2;3;1;4]));
  (*356*) Del (T 68);
  (*357*) AddTo (T 75) (Plain (Einsum [(T 69,[0;1;2;3])] [0;1;2;3]));
  (*358*) Del (T 69);
  (*359*) Assign (T 76) (Plain (Zeros [0;0;1;1]));
  (*360*) AddTo (T 76) (Plain (Einsum [(n_t2,[0;1;2;3]); (T 63,[4;0;1;5])] [4;5;2;3]));
  (*361*) Del (T 63);
  (*362*) AddTo n_t2new (Plain (Einsum [(T 76,[0;1;2;3])] [0;1;3;2]));
  (*363*) AddTo n_t2new (Plain (Einsum [(T 76,[0;1;2;3])] [1;0;2;3]));
  (*364*) Del (T 76);
  (*365*) AddTo (T 71) (Plain (Einsum [(n_f'oo,[0;1])] [1;0]));
  (*366*) Assign (T 72) (Plain (Zeros [0;0;1;1]));
  (*367*) AddTo (T 72) (Plain (Einsum [(T 71,[0;1]); (n_t2,[1;2;3;4])] [2;0;3;4]));
  (*368*) Del (T 71);
  (*369*) AddTo (T 75) (Plain (Einsum [(T 72,[0;1;2;3])] [1;0;3;2]));
  (*370*) Del (T 72);
  (*371*) AddTo (T 73) (Plain (Einsum [(n_f'vv,[0;1])] [0;1]));
  (*372*) Assign (T 74) (Plain (Zeros [0;0;1;1]));
  (*373*) AddTo (T 74) (Plain (Einsum [(T 73,[0;1]); (n_t2,[2;3;1;4])] [2;3;4;0]));
  (*374*) Del (T 73);
  (*375*) SubFrom (T 75) (Plain (Einsum [(T 74,[0;1;2;3])] [1;0;3;2]));
  (*376*) Del (T 74);
  (*377*) SubFrom n_t2new (Plain (Einsum [(T 75,[0;1;2;3])] [0;1;3;2]));
  (*378*) SubFrom n_t2new (Plain (Einsum [(T 75,[0;1;2;3])] [1;0;2;3]));
  (*379*) Del (T 75);
  (*380*) Assign (T 77) (Plain (Zeros [0;0;0;1]));
  (*381*) AddTo (T 77) (Plain (Einsum [(n_t2,[0;1;2;3]); (n_v'ovvv,[4;3;5;2])] [1;0;4;5]));
  (*382*) Assign (T 78) (Plain (Zeros [0;0;1;1]));
  (*383*) AddTo (T 78) (Plain (Einsum [(n_t1,[0;1]); (T 77,[2;3;0;4])] [2;3;1;4]));
  (*384*) Del (T 77);
  (*385*) AddTo (T 84) (Plain (Einsum [(T 78,[0;1;2;3])] [0;1;2;3]));
  (*386*) Del (T 78);
  (*387*) Assign (T 81) (Plain (Zeros [0;0;1;1]));
  (*388*) AddTo (T 81) (Times (Einsum [(n_v'ovov,[0;1;2;3])] [2;0;1;3]) (-1) 2);
  (*389*) AddTo (T 81) (Plain (Einsum [(n_v'ovov,[0;1;2;3])] [2;0;3;1]));
  (*390*) Assign (T 82) (Plain (Zeros [0;0]));
  (*391*) AddTo (T 82) (Plain (Einsum [(n_t2,[0;1;2;3]); (T 81,[0;4;2;3])] [1;4]));
  (*392*) Del (T 81);
  (*393*) Assign (T 83) (Plain (Zeros [0;0;1;1]));
  (*394*) AddTo (T 83) (Times (Einsum [(T 82,[0;1]); (n_t2,[1;2;3;4])] [2;0;3;4]) (2) 1);
  (*395*) Del (T 82);
  (*396*) AddTo (T 84) (Plain (Einsum [(T 83,[0;1;2;3])] [0;1;3;2]));
  (*397*) Del (T 83);
  (*398*) AddTo n_t2new (Times (Einsum [(T 84,[0;1;2;3])] [0;1;2;3]) (-1) 1);
  (*399*) AddTo n_t2new (Times (Einsum [(T 84,[0;1;2;3])] [1;0;3;2]) (-1) 1);
  (*400*) Del (T 84);
  (*401*) AddTo (T 85) (Times (Einsum [(n_v'ovvo,[0;1;2;3])] [3;0;2;1]) (2) 1);
  (*402*) SubFrom (T 85) (Plain (Einsum [(n_v'oovv,[0;1;2;3])] [1;0;2;3]));
  (*403*) AddTo n_t2new (Plain (Einsum [(n_t2,[0;1;2;3]); (T 85,[4;0;5;2])] [4;1;5;3]));
  (*404*) Del (T 85);
  (*405*) Assign (T 86) (Plain (Zeros [0;0;0;0]));
  (*406*) AddTo (T 86) (Plain (Einsum [(n_t2,[0;1;2;3]); (n_v'ovov,[4;3;5;2])] [0;1;5;4]));
  (*407*) AddTo (T 88) (Times (Einsum [(T 86,[0;1;2;3])] [3;2;1;0]) (9999999999999993) 10000000000000000);
  (*408*) AddTo (T 89) (Plain (Einsum [(T 86,[0;1;2;3])] [3;2;1;0]));
  (*409*) Del (T 86);
  (*410*) AddTo (T 88) (Times (Einsum [(n_v'oooo,[0;1;2;3])] [2;0;3;1]) (9999999999999993) 10000000000000000);
  (*411*) AddTo n_t2new (Plain (Einsum [(n_t2,[0;1;2;3]); (T 88,[0;1;4;5])] [4;5;2;3]));
  (*412*) Del (T 88);
  (*413*) AddTo (T 89) (Plain (Einsum [(n_v'oooo,[0;1;2;3])] [2;0;3;1]));
  (*414*) Assign (T 90) (Plain (Zeros [0;0;0;1]));
  (*415*) AddTo (T 90) (Plain (Einsum [(n_t1,[0;1]); (T 89,[0;2;3;4])] [4;3;2;1]));
  (*416*) Del (T 89);
  (*417*) AddTo (T 90) (Times (Einsum [(n_v'oovo,[0;1;2;3])] [1;3;0;2]) (-1) 1);
  (*418*) AddTo n_t2new (Plain (Einsum [(n_t1,[0;1]); (T 90,[2;3;0;4])] [2;3;1;4]));
  (*419*) Del (T 90);
  (*420*) Assign (T 91) (Plain (Zeros [0;0;1;1]));
  (*421*) SubFrom (T 91) (Plain (Einsum [(n_v'ovvo,[0;1;2;3])] [3;0;2;1]));
  (*422*) AddTo (T 91) (Plain (Einsum [(n_t2,[0;1;2;3]); (n_v'ovov,[1;2;4;5])] [0;4;3;5]));
  (*423*) AddTo n_t2new (Plain (Einsum [(n_t2,[0;1;2;3]); (T 91,[4;0;5;3])] [1;4;2;5]));
  (*424*) Del (T 91);
  (*425*) Assign (T 92) (Plain (Zeros [0;0;1;1]));
  (*426*) SubFrom (T 92) (Plain (Einsum [(n_v'oovv,[0;1;2;3])] [1;0;2;3]));
  (*427*) AddTo (T 92) (Plain (Einsum [(n_t2,[0;1;2;3]); (n_v'ovov,[1;4;5;2])] [0;5;3;4]));
  (*428*) AddTo n_t2new (Plain (Einsum [(n_t2,[0;1;2;3]); (T 92,[4;0;5;3])] [1;4;5;2]));
  (*429*) Del (T 92);
  (*430*) Assign (T 93) (Plain (Zeros [3;3]));
  (*431*) AddTo (T 93) (Plain (Einsum [(n_gc'bov,[0;1;2]); (n_u11,[3;1;2])] [0;3]));
  (*432*) Assign (T 97) (Plain (Zeros [3;3]));
  (*433*) AddTo (T 97) (Times (Einsum [(T 93,[0;1])] [0;1]) (2) 1);
  (*434*) Del (T 93);
  (*435*) Assign (T 94) (Plain (Zeros [3;3]));
  (*436*) AddTo (T 94) (Plain (Einsum [(n_g'bov,[0;1;2]); (n_u11,[3;1;2])] [0;3]));
  (*437*) Assign (T 95) (Plain (Zeros [3;3]));
  (*438*) AddTo (T 95) (Times (Einsum [(T 94,[0;1])] [0;1]) (2) 1);
  (*439*) Del (T 94);
  (*440*) AddTo (T 95) (Plain (Einsum [(n_w,[0;1])] [0;1]));
  (*441*) Assign (T 96) (Plain (Zeros [3;3]));
  (*442*) AddTo (T 96) (Plain (Einsum [(n_s2,[0;1]); (T 95,[0;2])] [1;2]));
  (*443*) AddTo (T 97) (Plain (Einsum [(T 96,[0;1])] [0;1]));
  (*444*) Del (T 96);
  (*445*) AddTo n_s2new (Plain (Einsum [(T 97,[0;1])] [0;1]));
  (*446*) AddTo n_s2new (Plain (Einsum [(T 97,[0;1])] [1;0]));
  (*447*) Del (T 97);
  (*448*) AddTo n_u11new (Plain (Einsum [(T 95,[0;1]); (n_u11,[0;2;3])] [1;2;3]));
  (*449*) Del (T 95);
  (*450*) Assign (T 99) (Plain (Zeros [3;0;1]));
  (*451*) AddTo (T 99) (Plain (Einsum [(n_s2,[0;1]); (n_g'bov,[1;2;3])] [0;2;3]));
  (*452*) AddTo (T 100) (Plain (Einsum [(T 99,[0;1;2])] [0;1;2]));
  (*453*) Del (T 99);
  (*454*) AddTo (T 100) (Plain (Einsum [(n_gc'bov,[0;1;2])] [0;1;2]));
  (*455*) AddTo (T 106) (Plain (Einsum [(n_t1,[0;1]); (T 100,[2;3;1])] [2;3;0]));
  (*456*) AddTo n_u11new (Plain (Einsum [(T 100,[0;1;2]); (T 8,[1;3;4;2])] [0;3;4]));
  (*457*) Del (T 100);
  (*458*) Del (T 8);
  (*459*) Assign (T 101) (Plain (Zeros [0;0;1;1]));
  (*460*) AddTo (T 101) (Times (Einsum [(n_v'ovov,[0;1;2;3])] [2;0;1;3]) (-1) 1);
  (*461*) AddTo (T 101) (Times (Einsum [(n_v'ovov,[0;1;2;3])] [2;0;3;1]) (2) 1);
  (*462*) AddTo (T 104) (Times (Einsum [(n_t2,[0;1;2;3]); (T 101,[0;1;4;3])] [2;4]) (-1) 1);
  (*463*) Del (T 101);
  (*464*) Assign (T 102) (Plain (Zeros [0;1;1;1]));
  (*465*) AddTo (T 102) (Plain (Einsum [(n_v'ovvv,[0;1;2;3])] [0;2;1;3]));
  (*466*) AddTo (T 102) (Times (Einsum [(n_v'ovvv,[0;1;2;3])] [0;2;3;1]) (-1) 2);
  (*467*) AddTo (T 104) (Times (Einsum [(n_t1,[0;1]); (T 102,[0;2;1;3])] [2;3]) (2) 1);
  (*468*) Del (T 102);
  (*469*) AddTo (T 104) (Plain (Einsum [(n_f'vv,[0;1])] [0;1]));
  (*470*) AddTo n_u11new (Plain (Einsum [(T 104,[0;1]); (n_u11,[2;3;1])] [2;3;0]));
  (*471*) Del (T 104);
  (*472*) AddTo (T 105) (Plain (Einsum [(n_f'ov,[0;1])] [0;1]));
  (*473*) AddTo (T 106) (Plain (Einsum [(T 105,[0;1]); (n_u11,[2;3;1])] [2;0;3]));
  (*474*) Del (T 105);
  (*475*) AddTo (T 106) (Plain (Einsum [(n_gc'boo,[0;1;2])] [0;1;2]));
  (*476*) AddTo (T 106) (Plain (Einsum [(n_s2,[0;1]); (n_g'boo,[1;2;3])] [0;2;3]));
  (*477*) SubFrom n_u11new (Plain (Einsum [(n_t1,[0;1]); (T 106,[2;0;3])] [2;3;1]));
  (*478*) Del (T 106);
  (*479*) AddTo (T 107) (Plain (Einsum [(n_gc'bvv,[0;1;2])] [0;1;2]));
  (*480*) AddTo (T 107) (Plain (Einsum [(n_s2,[0;1]); (n_g'bvv,[1;2;3])] [0;2;3]));
  (*481*) AddTo n_u11new (Plain (Einsum [(n_t1,[0;1]); (T 107,[2;3;1])] [2;0;3]));
  (*482*) Del (T 107);
  (*483*) AddTo n_t1new (Plain (Einsum [(n_s1,[0]); (n_g'bvo,[0;1;2])] [2;1]));
  (*484*) AddTo n_t1new (Plain (Einsum [(n_f'vo,[0;1])] [1;0]));
  (*485*) AddTo n_t1new (Plain (Einsum [(n_g'bvv,[0;1;2]); (n_u11,[0;3;2])] [3;1]));
  (*486*) SubFrom n_t2new (Plain (Einsum [(n_t2,[0;1;2;3]); (n_v'ovvo,[1;2;4;5])] [5;0;4;3]));
  (*487*) SubFrom n_t2new (Plain (Einsum [(n_t2,[0;1;2;3]); (n_v'oovv,[1;4;5;2])] [4;0;3;5]));
  (*488*) SubFrom n_t2new (Plain (Einsum [(n_t2,[0;1;2;3]); (n_v'oovv,[1;4;5;3])] [0;4;2;5]));
  (*489*) AddTo n_t2new (Times (Einsum [(n_t2,[0;1;2;3]); (n_v'ovvo,[1;3;4;5])] [0;5;2;4]) (2) 1);
  (*490*) AddTo n_t2new (Plain (Einsum [(n_t2,[0;1;2;3]); (n_v'vvvv,[4;2;5;3])] [1;0;5;4]));
  (*491*) AddTo n_t2new (Plain (Einsum [(n_v'vovo,[0;1;2;3])] [3;1;2;0]));
  (*492*) SubFrom n_t2new (Plain (Einsum [(n_t1,[0;1]); (n_v'oovo,[0;2;3;4])] [4;2;3;1]));
  (*493*) AddTo n_s1new (Times (Einsum [(n_t1,[0;1]); (n_gc'bov,[2;0;1])] [2]) (2) 1);
  (*494*) AddTo n_s1new (Plain (Einsum [(n_s1,[0]); (n_w,[0;1])] [1]));
  (*495*) AddTo n_s1new (Plain (Einsum [(n_G,[0])] [0]));
  (*496*) AddTo n_u11new (Plain (Einsum [(n_s2,[0;1]); (n_g'bvo,[1;2;3])] [0;3;2]));
  (*497*) AddTo n_u11new (Plain (Einsum [(n_gc'bvo,[0;1;2])] [0;2;1]))]
 [(n_t1new,[0;1]); (n_t2new,[0;0;1;1]); (n_s1new,[3]); (n_s2new,[3;3]); (n_u11new,[3;0;1])].

(** ebcc/codegen/RCCSD_SD_1_1.py:501-1349 [update_lams] *)
Definition RCCSD_SD_1_1_update_lams : prog := mkprog
 [(n_g'boo,[3;0;0]); (n_g'bvo,[3;1;0]); (n_g'bov,[3;0;1]); (n_g'bvv,[3;1;1]); (n_s1,[3]); (n_f'ov,[0;1]); (n_t2,[0;0;1;1]); (n_v'ovvv,[0;1;1;1]); (n_t1,[0;1]); (n_v'ovov,[0;1;0;1]); (n_l1,[1;0]); (n_l2,[1;1;0;0]); (n_v'ooov,[0;0;0;1]); (n_v'ovvo,[0;1;1;0]); (n_v'oovv,[0;0;1;1]); (n_v'oooo,[0;0;0;0]); (n_v'oovo,[0;0;1;0]); (n_v'vvvv,[1;1;1;1]); (n_v'vovv,[1;0;1;1]); (n_u11,[3;0;1]); (n_ls1,[3]); (n_f'oo,[0;0]); (n_f'vv,[1;1]); (n_G,[3]); (n_f'vo,[1;0]); (n_lu11,[3;1;0]); (n_s2,[3;3]); (n_w,[3;3]); (n_ls2,[3;3])]
 [(*503*) Assign n_gc'boo (Plain (Transpose n_g'boo [0;2;1]));
  (*503*) Assign n_gc'bov (Plain (Transpose n_g'bvo [0;2;1]));
  (*503*) Assign n_gc'bvo (Plain (Transpose n_g'bov [0;2;1]));
  (*503*) Assign n_gc'bvv (Plain (Transpose n_g'bvv [0;2;1]));
  (*511*) Assign (T 1) (Plain (Zeros [0;1]));
  (*512*) AddTo (T 1) (Plain (Einsum [(n_s1,[0]); (n_g'bov,[0;1;2])] [1;2]));
  (*513*) Assign (T 2) (Plain (Zeros [0;1]));
  (*514*) AddTo (T 2) (Plain (Einsum [(T 1,[0;1])] [0;1]));
  (*515*) Assign (T 58) (Plain (Zeros [0;1]));
  (*516*) AddTo (T 58) (Plain (Einsum [(T 1,[0;1])] [0;1]));
  (*517*) Assign (T 68) (Plain (Zeros [0;1]));
  (*518*) AddTo (T 68) (Times (Einsum [(T 1,[0;1])] [0;1]) (1) 2);
  (*519*) Assign (T 101) (Plain (Zeros [0;1]));
  (*520*) AddTo (T 101) (Plain (Einsum [(T 1,[0;1])] [0;1]));
  (*521*) Assign (T 137) (Plain (Zeros [0;1]));
  (*522*) AddTo (T 137) (Plain (Einsum [(T 1,[0;1])] [0;1]));
  (*523*) Del (T 1);
  (*524*) AddTo (T 2) (Plain (Einsum [(n_f'ov,[0;1])] [0;1]));
  (*525*) Assign (T 3) (Plain (Zeros [0;0;0;1]));
  (*526*) AddTo (T 3) (Times (Einsum [(T 2,[0;1]); (n_t2,[2;3;1;4])] [2;3;0;4]) (1) 4);
  (*527*) Del (T 2);
  (*528*) Assign (T 21) (Plain (Zeros [0;0;0;1]));
  (*529*) AddTo (T 21) (Plain (Einsum [(T 3,[0;1;2;3])] [1;2;0;3]));
  (*530*) AddTo (T 21) (Times (Einsum [(T 3,[0;1;2;3])] [0;2;1;3]) (-2) 1);
  (*531*) Del (T 3);
  (*532*) Assign (T 4) (Plain (Zeros [0;0;0;1]));
  (*533*) AddTo (T 4) (Plain (Einsum [(n_t2,[0;1;2;3]); (n_v'ovvv,[4;2;5;3])] [0;1;4;5]));
  (*534*) Assign (T 12) (Plain (Zeros [0;0;0;1]));
  (*535*) AddTo (T 12) (Times (Einsum [(T 4,[0;1;2;3])] [0;1;2;3]) (-1) 2);
  (*536*) Del (T 4);
  (*537*) Assign (T 5) (Plain (Zeros [0;0;1;1]));
  (*538*) AddTo (T 5) (Plain (Einsum [(n_t1,[0;1]); (n_v'ovvv,[2;1;3;4])] [0;2;3;4]));
  (*539*) Assign (T 6) (Plain (Zeros [0;0;0;1]));
  (*540*) AddTo (T 6) (Plain (Einsum [(n_t1,[0;1]); (T 5,[2;3;4;1])] [2;0;3;4]));
  (*541*) AddTo (T 12) (Times (Einsum [(T 6,[0;1;2;3])] [0;1;2;3]) (-1) 2);
  (*542*) Del (T 6);
  (*543*) Assign (T 132) (Plain (Zeros [0;0;1;1]));
  (*544*) AddTo (T 132) (Plain (Einsum [(T 5,[0;1;2;3])] [0;1;2;3]));
  (*545*) Del (T 5);
  (*546*) Assign (T 7) (Plain (Zeros [0;0;0;0]));
  (*547*) AddTo (T 7) (Plain (Einsum [(n_t2,[0;1;2;3]); (n_v'ovov,[4;3;5;2])] [0;1;5;4]));
  (*548*) Assign (T 10) (Plain (Zeros [0;0;0;0]));
  (*549*) AddTo (T 10) (Plain (Einsum [(T 7,[0;1;2;3])] [1;0;3;2]));
  (*550*) Assign (T 179) (Plain (Zeros [0;0;0;0]));
  (*551*) AddTo (T 179) (Plain (Einsum [(T 7,[0;1;2;3])] [3;2;1;0]));
  (*552*) Del (T 7);
  (*553*) Assign (T 8) (Plain (Zeros [0;0;0;1]));
  (*554*) AddTo (T 8) (Plain (Einsum [(n_t1,[0;1]); (n_v'ovov,[2;1;3;4])] [0;3;2;4]));
  (*555*) Assign (T 9) (Plain (Zeros [0;0;0;0]));
  (*556*) AddTo (T 9) (Plain (Einsum [(n_t1,[0;1]); (T 8,[2;3;4;1])] [0;2;3;4]));
  (*557*) AddTo (T 10) (Plain (Einsum [(T 9,[0;1;2;3])] [0;1;2;3]));
  (*558*) Assign (T 11) (Plain (Zeros [0;0;0;1]));
  (*559*) AddTo (T 11) (Times (Einsum [(n_t1,[0;1]); (T 10,[2;3;0;4])] [2;3;4;1]) (1) 2);
  (*560*) Del (T 10);
  (*561*) AddTo (T 12) (Plain (Einsum [(T 11,[0;1;2;3])] [1;0;2;3]));
  (*562*) Del (T 11);
  (*563*) AddTo (T 21) (Plain (Einsum [(T 12,[0;1;2;3])] [0;2;1;3]));
  (*564*) AddTo (T 21) (Times (Einsum [(T 12,[0;1;2;3])] [1;2;0;3]) (-1) 2);
  (*565*) Del (T 12);
  (*566*) AddTo (T 179) (Plain (Einsum [(T 9,[0;1;2;3])] [3;2;1;0]));
  (*567*) Del (T 9);
  (*568*) Assign (T 16) (Plain (Zeros [0;0;0;1]));
  (*569*) AddTo (T 16) (Times (Einsum [(T 8,[0;1;2;3])] [0;1;2;3]) (-1) 1);
  (*570*) AddTo (T 16) (Times (Einsum [(T 8,[0;1;2;3])] [0;2;1;3]) (2) 1);
  (*571*) Assign (T 25) (Plain (Zeros [0;0;0;1]));
  (*572*) AddTo (T 25) (Times (Einsum [(T 8,[0;1;2;3])] [0;1;2;3]) (2) 1);
  (*573*) SubFrom (T 25) (Plain (Einsum [(T 8,[0;1;2;3])] [0;2;1;3]));
  (*574*) Assign (T 26) (Plain (Zeros [0;0;0;1]));
  (*575*) SubFrom (T 26) (Plain (Einsum [(T 8,[0;1;2;3])] [0;1;2;3]));
  (*576*) AddTo (T 26) (Times (Einsum [(T 8,[0;1;2;3])] [0;2;1;3]) (2) 1);
  (*577*) Assign (T 56) (Plain (Zeros [0;0;0;1]));
  (*578*) AddTo (T 56) (Times (Einsum [(T 8,[0;1;2;3])] [1;2;0;3]) (-1) 1);
  (*579*) AddTo (T 56) (Times (Einsum [(T 8,[0;1;2;3])] [2;1;0;3]) (2) 1);
  (*580*) Assign (T 126) (Plain (Zeros [0;0;1;1]));
  (*581*) AddTo (T 126) (Plain (Einsum [(n_l1,[0;1]); (T 8,[1;2;3;4])] [2;3;0;4]));
  (*582*) Assign (T 144) (Plain (Zeros [0;0;1;1]));
  (*583*) AddTo (T 144) (Plain (Einsum [(T 126,[0;1;2;3])] [0;1;2;3]));
  (*584*) Del (T 126);
  (*585*) Assign (T 13) (Plain (Zeros [0;0;1;1]));
  (*586*) AddTo (T 13) (Plain (Einsum [(n_v'ovov,[0;1;2;3])] [2;0;1;3]));
  (*587*) AddTo (T 13) (Times (Einsum [(n_v'ovov,[0;1;2;3])] [2;0;3;1]) (-1) 2);
  (*588*) Assign (T 14) (Plain (Zeros [0;1]));
  (*589*) AddTo (T 14) (Plain (Einsum [(n_t1,[0;1]); (T 13,[0;2;3;1])] [2;3]));
  (*590*) Assign (T 15) (Plain (Zeros [0;0;0;1]));
  (*591*) AddTo (T 15) (Times (Einsum [(T 14,[0;1]); (n_t2,[2;3;1;4])] [2;3;0;4]) (1) 2);
  (*592*) AddTo (T 21) (Plain (Einsum [(T 15,[0;1;2;3])] [1;2;0;3]));
  (*593*) AddTo (T 21) (Times (Einsum [(T 15,[0;1;2;3])] [0;2;1;3]) (-2) 1);
  (*594*) Del (T 15);
  (*595*) AddTo (T 68) (Plain (Einsum [(T 14,[0;1])] [0;1]));
  (*596*) Del (T 14);
  (*597*) Assign (T 57) (Plain (Zeros [0;1]));
  (*598*) AddTo (T 57) (Times (Einsum [(n_t1,[0;1]); (T 13,[0;2;3;1])] [2;3]) (2) 1);
  (*599*) AddTo (T 58) (Plain (Einsum [(T 57,[0;1])] [0;1]));
  (*600*) Del (T 57);
  (*601*) Assign (T 176) (Plain (Zeros [0;0]));
  (*602*) AddTo (T 176) (Plain (Einsum [(n_t2,[0;1;2;3]); (T 13,[0;4;3;2])] [1;4]));
  (*603*) Del (T 13);
  (*604*) Assign (T 177) (Plain (Zeros [0;0;1;1]));
  (*605*) AddTo (T 177) (Times (Einsum [(T 176,[0;1]); (n_l2,[2;3;0;4])] [4;1;2;3]) (2) 1);
  (*606*) Del (T 176);
  (*607*) Assign (T 178) (Plain (Zeros [0;0;1;1]));
  (*608*) AddTo (T 178) (Plain (Einsum [(T 177,[0;1;2;3])] [0;1;3;2]));
  (*609*) Del (T 177);
  (*610*) AddTo (T 16) (Times (Einsum [(n_v'ooov,[0;1;2;3])] [1;0;2;3]) (2) 1);
  (*611*) AddTo (T 16) (Times (Einsum [(n_v'ooov,[0;1;2;3])] [1;2;0;3]) (-1) 1);
  (*612*) Assign (T 17) (Plain (Zeros [0;0;1;1]));
  (*613*) AddTo (T 17) (Plain (Einsum [(n_t2,[0;1;2;3])] [1;0;2;3]));
  (*614*) AddTo (T 17) (Times (Einsum [(n_t2,[0;1;2;3])] [1;0;3;2]) (-1) 2);
  (*615*) AddTo (T 21) (Times (Einsum [(T 16,[0;1;2;3]); (T 17,[2;4;5;3])] [0;1;4;5]) (-1) 2);
  (*616*) Del (T 16);
  (*617*) Assign (T 34) (Plain (Zeros [0;0]));
  (*618*) AddTo (T 34) (Times (Einsum [(n_l2,[0;1;2;3]); (T 17,[2;4;1;0])] [3;4]) (2) 1);
  (*619*) Assign (T 35) (Plain (Zeros [0;0;0;1]));
  (*620*) AddTo (T 35) (Times (Einsum [(n_t1,[0;1]); (T 34,[2;3])] [2;3;0;1]) (-1) 2);
  (*621*) Assign (T 96) (Plain (Zeros [0;0]));
  (*622*) AddTo (T 96) (Plain (Einsum [(T 34,[0;1])] [0;1]));
  (*623*) Assign (T 109) (Plain (Zeros [0;0]));
  (*624*) AddTo (T 109) (Plain (Einsum [(T 34,[0;1])] [0;1]));
  (*625*) Del (T 34);
  (*626*) Assign (T 77) (Plain (Zeros [0;1]));
  (*627*) AddTo (T 77) (Plain (Einsum [(n_v'ovvv,[0;1;2;3]); (T 17,[0;4;3;1])] [4;2]));
  (*628*) Assign (T 87) (Plain (Zeros [0;0]));
  (*629*) AddTo (T 87) (Plain (Einsum [(n_l2,[0;1;2;3]); (T 17,[2;4;1;0])] [3;4]));
  (*630*) Assign (T 88) (Plain (Zeros [0;0]));
  (*631*) AddTo (T 88) (Plain (Einsum [(T 87,[0;1])] [0;1]));
  (*632*) Assign (T 172) (Plain (Zeros [0;0;1;1]));
  (*633*) AddTo (T 172) (Times (Einsum [(T 87,[0;1]); (n_v'ovov,[1;2;3;4])] [3;0;2;4]) (2) 1);
  (*634*) Del (T 87);
  (*635*) Assign (T 173) (Plain (Zeros [0;0;1;1]));
  (*636*) AddTo (T 173) (Plain (Einsum [(T 172,[0;1;2;3])] [1;0;3;2]));
  (*637*) Del (T 172);
  (*638*) Assign (T 93) (Plain (Zeros [1;1]));
  (*639*) AddTo (T 93) (Plain (Einsum [(n_l2,[0;1;2;3]); (T 17,[2;3;4;0])] [1;4]));
  (*640*) Assign (T 94) (Plain (Zeros [1;1]));
  (*641*) AddTo (T 94) (Plain (Einsum [(T 93,[0;1])] [0;1]));
  (*642*) Assign (T 171) (Plain (Zeros [0;0;1;1]));
  (*643*) AddTo (T 171) (Times (Einsum [(T 93,[0;1]); (n_v'ovov,[2;1;3;4])] [2;3;4;0]) (2) 1);
  (*644*) AddTo (T 173) (Plain (Einsum [(T 171,[0;1;2;3])] [1;0;3;2]));
  (*645*) Del (T 171);
  (*646*) Assign n_l2new (Plain (Zeros [1;1;0;0]));
  (*647*) AddTo n_l2new (Times (Einsum [(T 173,[0;1;2;3])] [3;2;0;1]) (-1) 1);
  (*648*) AddTo n_l2new (Times (Einsum [(T 173,[0;1;2;3])] [2;3;1;0]) (-1) 1);
  (*649*) Del (T 173);
  (*650*) Assign (T 181) (Plain (Zeros [1;1]));
  (*651*) AddTo (T 181) (Plain (Einsum [(T 93,[0;1])] [0;1]));
  (*652*) Del (T 93);
  (*653*) Assign (T 180) (Plain (Zeros [0;1]));
  (*654*) AddTo (T 180) (Times (Einsum [(n_v'ovvv,[0;1;2;3]); (T 17,[0;4;3;1])] [4;2]) (2) 1);
  (*655*) Assign (T 18) (Plain (Zeros [0;0;1;1]));
  (*656*) AddTo (T 18) (Times (Einsum [(n_v'ovvo,[0;1;2;3])] [0;3;2;1]) (2) 1);
  (*657*) AddTo (T 18) (Times (Einsum [(n_v'oovv,[0;1;2;3])] [0;1;2;3]) (-1) 1);
  (*658*) AddTo (T 21) (Times (Einsum [(n_t1,[0;1]); (T 18,[2;3;4;1])] [0;2;3;4]) (-1) 4);
  (*659*) Del (T 18);
  (*660*) Assign (T 19) (Plain (Zeros [0;0;0;0]));
  (*661*) AddTo (T 19) (Plain (Einsum [(n_t1,[0;1]); (n_v'ooov,[2;3;4;1])] [0;2;4;3]));
  (*662*) Assign (T 20) (Plain (Zeros [0;0;0;0]));
  (*663*) AddTo (T 20) (Plain (Einsum [(T 19,[0;1;2;3])] [1;2;3;0]));
  (*664*) AddTo (T 20) (Times (Einsum [(T 19,[0;1;2;3])] [2;1;3;0]) (-1) 2);
  (*665*) Assign (T 28) (Plain (Zeros [0;0;0;0]));
  (*666*) SubFrom (T 28) (Plain (Einsum [(T 19,[0;1;2;3])] [0;1;2;3]));
  (*667*) AddTo (T 28) (Times (Einsum [(T 19,[0;1;2;3])] [0;2;1;3]) (2) 1);
  (*668*) Assign (T 29) (Plain (Zeros [0;0;0;1]));
  (*669*) AddTo (T 29) (Plain (Einsum [(n_t1,[0;1]); (T 28,[2;0;3;4])] [2;3;4;1]));
  (*670*) Del (T 28);
  (*671*) Assign (T 129) (Plain (Zeros [0;0;1;1]));
  (*672*) AddTo (T 129) (Plain (Einsum [(n_l2,[0;1;2;3]); (T 19,[3;4;5;2])] [4;5;1;0]));
  (*673*) Del (T 19);
  (*674*) SubFrom (T 144) (Plain (Einsum [(T 129,[0;1;2;3])] [0;1;2;3]));
  (*675*) Del (T 129);
  (*676*) AddTo (T 20) (Times (Einsum [(n_v'oooo,[0;1;2;3])] [2;0;1;3]) (-1) 2);
  (*677*) AddTo (T 20) (Plain (Einsum [(n_v'oooo,[0;1;2;3])] [2;0;3;1]));
  (*678*) AddTo (T 21) (Times (Einsum [(n_t1,[0;1]); (T 20,[0;2;3;4])] [4;2;3;1]) (1) 2);
  (*679*) Del (T 20);
  (*680*) AddTo (T 21) (Times (Einsum [(n_v'oovo,[0;1;2;3])] [1;0;3;2]) (-1) 2);
  (*681*) AddTo (T 21) (Times (Einsum [(n_v'oovo,[0;1;2;3])] [3;0;1;2]) (1) 4);
  (*682*) Assign n_l1new (Plain (Zeros [1;0]));
  (*683*) AddTo n_l1new (Times (Einsum [(n_l2,[0;1;2;3]); (T 21,[3;4;2;0])] [1;4]) (4) 1);
  (*684*) Del (T 21);
  (*685*) Assign (T 22) (Plain (Zeros [0;0;1;1]));
  (*686*) SubFrom (T 22) (Plain (Einsum [(n_t2,[0;1;2;3])] [1;0;2;3]));
  (*687*) AddTo (T 22) (Times (Einsum [(n_t2,[0;1;2;3])] [1;0;3;2]) (2) 1);
  (*688*) Assign (T 23) (Plain (Zeros [0;0;1;1]));
  (*689*) SubFrom (T 23) (Plain (Einsum [(n_l2,[0;1;2;3]); (T 22,[2;4;0;5])] [3;4;1;5]));
  (*690*) Del (T 22);
  (*691*) AddTo (T 23) (Plain (Einsum [(n_l2,[0;1;2;3]); (n_t2,[3;4;0;5])] [2;4;1;5]));
  (*692*) Assign (T 24) (Plain (Zeros [0;1;1;1]));
  (*693*) SubFrom (T 24) (Plain (Einsum [(n_v'ovvv,[0;1;2;3])] [0;2;3;1]));
  (*694*) AddTo (T 24) (Times (Einsum [(n_v'ovvv,[0;1;2;3])] [0;2;1;3]) (2) 1);
  (*695*) SubFrom n_l1new (Plain (Einsum [(T 23,[0;1;2;3]); (T 24,[1;2;3;4])] [4;0]));
  (*696*) Del (T 23);
  (*697*) Del (T 24);
  (*698*) SubFrom (T 25) (Plain (Einsum [(n_v'ooov,[0;1;2;3])] [1;0;2;3]));
  (*699*) AddTo (T 25) (Times (Einsum [(n_v'ooov,[0;1;2;3])] [1;2;0;3]) (2) 1);
  (*700*) AddTo (T 29) (Plain (Einsum [(n_t2,[0;1;2;3]); (T 25,[4;0;5;2])] [4;5;1;3]));
  (*701*) Del (T 25);
  (*702*) AddTo (T 26) (Times (Einsum [(n_v'ooov,[0;1;2;3])] [1;0;2;3]) (2) 1);
  (*703*) SubFrom (T 26) (Plain (Einsum [(n_v'ooov,[0;1;2;3])] [1;2;0;3]));
  (*704*) AddTo (T 29) (Plain (Einsum [(n_t2,[0;1;2;3]); (T 26,[4;0;5;3])] [4;5;1;2]));
  (*705*) Del (T 26);
  (*706*) Assign (T 27) (Plain (Zeros [0;0;1;1]));
  (*707*) SubFrom (T 27) (Plain (Einsum [(n_v'ovvo,[0;1;2;3])] [0;3;2;1]));
  (*708*) AddTo (T 27) (Times (Einsum [(n_v'oovv,[0;1;2;3])] [0;1;2;3]) (2) 1);
  (*709*) SubFrom (T 29) (Plain (Einsum [(n_t1,[0;1]); (T 27,[2;3;4;1])] [0;2;3;4]));
  (*710*) Del (T 27);
  (*711*) AddTo n_l1new (Plain (Einsum [(n_l2,[0;1;2;3]); (T 29,[3;4;2;1])] [0;4]));
  (*712*) Del (T 29);
  (*713*) Assign (T 30) (Plain (Zeros [0;1;1;1]));
  (*714*) AddTo (T 30) (Plain (Einsum [(n_t1,[0;1]); (n_v'vvvv,[2;1;3;4])] [0;3;2;4]));
  (*715*) Assign (T 31) (Plain (Zeros [0;1;1;1]));
  (*716*) AddTo (T 31) (Plain (Einsum [(T 30,[0;1;2;3])] [0;1;2;3]));
  (*717*) AddTo (T 31) (Times (Einsum [(T 30,[0;1;2;3])] [0;2;1;3]) (-1) 2);
  (*718*) Del (T 30);
  (*719*) AddTo (T 31) (Times (Einsum [(n_v'vovv,[0;1;2;3])] [1;0;2;3]) (-1) 2);
  (*720*) AddTo (T 31) (Plain (Einsum [(n_v'vovv,[0;1;2;3])] [1;2;0;3]));
  (*721*) AddTo n_l1new (Times (Einsum [(n_l2,[0;1;2;3]); (T 31,[2;1;0;4])] [4;3]) (2) 1);
  (*722*) Del (T 31);
  (*723*) Assign (T 32) (Plain (Zeros [0;0;0;1]));
  (*724*) AddTo (T 32) (Plain (Einsum [(n_t1,[0;1]); (n_l2,[1;2;3;4])] [4;3;0;2]));
  (*725*) Assign (T 33) (Plain (Zeros [0;0;0;1]));
  (*726*) AddTo (T 33) (Times (Einsum [(T 32,[0;1;2;3])] [0;1;2;3]) (2) 1);
  (*727*) AddTo (T 33) (Times (Einsum [(T 32,[0;1;2;3])] [1;0;2;3]) (-1) 1);
  (*728*) AddTo (T 35) (Times (Einsum [(n_t2,[0;1;2;3]); (T 33,[0;4;5;2])] [4;5;1;3]) (-1) 2);
  (*729*) Del (T 33);
  (*730*) AddTo (T 35) (Times (Einsum [(n_t2,[0;1;2;3]); (T 32,[1;4;5;2])] [4;5;0;3]) (1) 2);
  (*731*) Assign (T 37) (Plain (Zeros [0;0;0;1]));
  (*732*) SubFrom (T 37) (Plain (Einsum [(T 32,[0;1;2;3])] [0;1;2;3]));
  (*733*) AddTo (T 37) (Times (Einsum [(T 32,[0;1;2;3])] [1;0;2;3]) (2) 1);
  (*734*) Assign (T 38) (Plain (Zeros [0;0;1;1]));
  (*735*) AddTo (T 38) (Plain (Einsum [(n_t1,[0;1]); (T 37,[0;2;3;4])] [2;3;4;1]));
  (*736*) SubFrom n_l1new (Plain (Einsum [(n_v'ovvv,[0;1;2;3]); (T 38,[4;0;2;1])] [3;4]));
  (*737*) Del (T 38);
  (*738*) SubFrom n_l1new (Plain (Einsum [(n_v'ovvo,[0;1;2;3]); (T 37,[4;3;0;2])] [1;4]));
  (*739*) Del (T 37);
  (*740*) Assign (T 39) (Plain (Zeros [0;0;0;1]));
  (*741*) AddTo (T 39) (Times (Einsum [(T 32,[0;1;2;3])] [0;1;2;3]) (2) 1);
  (*742*) SubFrom (T 39) (Plain (Einsum [(T 32,[0;1;2;3])] [1;0;2;3]));
  (*743*) Assign (T 40) (Plain (Zeros [0;0;1;1]));
  (*744*) AddTo (T 40) (Plain (Einsum [(n_t1,[0;1]); (T 39,[0;2;3;4])] [2;3;4;1]));
  (*745*) SubFrom n_l1new (Plain (Einsum [(n_v'ovvv,[0;1;2;3]); (T 40,[4;0;2;3])] [1;4]));
  (*746*) Del (T 40);
  (*747*) Assign (T 158) (Plain (Zeros [0;0;1;1]));
  (*748*) AddTo (T 158) (Plain (Einsum [(T 39,[0;1;2;3]); (T 8,[1;4;2;5])] [4;0;5;3]));
  (*749*) Assign (T 170) (Plain (Zeros [0;0;1;1]));
  (*750*) SubFrom (T 170) (Plain (Einsum [(T 158,[0;1;2;3])] [1;0;3;2]));
  (*751*) Del (T 158);
  (*752*) SubFrom n_l1new (Plain (Einsum [(n_v'oovv,[0;1;2;3]); (T 39,[4;1;0;2])] [3;4]));
  (*753*) Del (T 39);
  (*754*) Assign (T 43) (Plain (Zeros [0;0;0;1]));
  (*755*) AddTo (T 43) (Plain (Einsum [(n_t2,[0;1;2;3]); (T 32,[4;1;5;2])] [4;5;0;3]));
  (*756*) Assign (T 46) (Plain (Zeros [0;0;0;1]));
  (*757*) AddTo (T 46) (Plain (Einsum [(T 43,[0;1;2;3])] [0;1;2;3]));
  (*758*) Assign (T 50) (Plain (Zeros [0;0;0;1]));
  (*759*) AddTo (T 50) (Plain (Einsum [(T 43,[0;1;2;3])] [0;1;2;3]));
  (*760*) Del (T 43);
  (*761*) Assign (T 48) (Plain (Zeros [0;0;0;0]));
  (*762*) AddTo (T 48) (Plain (Einsum [(n_t1,[0;1]); (T 32,[2;3;4;1])] [3;2;4;0]));
  (*763*) Assign (T 49) (Plain (Zeros [0;0;0;1]));
  (*764*) AddTo (T 49) (Plain (Einsum [(n_t1,[0;1]); (T 48,[0;2;3;4])] [2;4;3;1]));
  (*765*) AddTo (T 50) (Times (Einsum [(T 49,[0;1;2;3])] [0;1;2;3]) (-20000000000000013) 10000000000000000);
  (*766*) AddTo (T 50) (Plain (Einsum [(T 49,[0;1;2;3])] [0;2;1;3]));
  (*767*) Del (T 49);
  (*768*) Assign (T 52) (Plain (Zeros [0;0;0;0]));
  (*769*) AddTo (T 52) (Plain (Einsum [(T 48,[0;1;2;3])] [0;1;2;3]));
  (*770*) AddTo (T 52) (Times (Einsum [(T 48,[0;1;2;3])] [0;1;3;2]) (-1) 2);
  (*771*) AddTo n_l1new (Times (Einsum [(n_v'ooov,[0;1;2;3]); (T 52,[4;1;2;0])] [3;4]) (2) 1);
  (*772*) Del (T 52);
  (*773*) AddTo n_l2new (Plain (Einsum [(n_v'ovov,[0;1;2;3]); (T 48,[4;5;0;2])] [1;3;4;5]));
  (*774*) Del (T 48);
  (*775*) Assign (T 82) (Plain (Zeros [0;1]));
  (*776*) AddTo (T 82) (Plain (Einsum [(T 17,[0;1;2;3]); (T 32,[0;1;4;3])] [4;2]));
  (*777*) Assign (T 90) (Plain (Zeros [0;1]));
  (*778*) AddTo (T 90) (Plain (Einsum [(T 82,[0;1])] [0;1]));
  (*779*) Del (T 82);
  (*780*) Assign (T 128) (Plain (Zeros [0;0;1;1]));
  (*781*) AddTo (T 128) (Plain (Einsum [(n_v'ooov,[0;1;2;3]); (T 32,[1;4;2;5])] [4;0;5;3]));
  (*782*) SubFrom (T 144) (Plain (Einsum [(T 128,[0;1;2;3])] [0;1;2;3]));
  (*783*) Del (T 128);
  (*784*) Assign (T 130) (Plain (Zeros [0;0;1;1]));
  (*785*) AddTo (T 130) (Plain (Einsum [(T 32,[0;1;2;3]); (T 8,[0;2;4;5])] [1;4;3;5]));
  (*786*) SubFrom (T 144) (Plain (Einsum [(T 130,[0;1;2;3])] [0;1;2;3]));
  (*787*) Del (T 130);
  (*788*) Assign (T 147) (Plain (Zeros [0;0;1;1]));
  (*789*) AddTo (T 147) (Plain (Einsum [(n_v'ooov,[0;1;2;3]); (T 32,[1;4;0;5])] [4;2;5;3]));
  (*790*) AddTo (T 170) (Plain (Einsum [(T 147,[0;1;2;3])] [0;1;2;3]));
  (*791*) Del (T 147);
  (*792*) Assign (T 148) (Plain (Zeros [0;0;1;1]));
  (*793*) AddTo (T 148) (Plain (Einsum [(n_v'ovvv,[0;1;2;3]); (T 32,[4;5;0;2])] [5;4;1;3]));
  (*794*) SubFrom (T 170) (Plain (Einsum [(T 148,[0;1;2;3])] [0;1;2;3]));
  (*795*) Del (T 148);
  (*796*) Assign (T 149) (Plain (Zeros [0;0;1;1]));
  (*797*) AddTo (T 149) (Plain (Einsum [(T 32,[0;1;2;3]); (T 8,[1;2;4;5])] [0;4;3;5]));
  (*798*) Del (T 8);
  (*799*) AddTo (T 170) (Plain (Einsum [(T 149,[0;1;2;3])] [0;1;2;3]));
  (*800*) Del (T 149);
  (*801*) Assign (T 36) (Plain (Zeros [0;0;1;1]));
  (*802*) SubFrom (T 36) (Plain (Einsum [(n_v'ovov,[0;1;2;3])] [2;0;1;3]));
  (*803*) AddTo (T 36) (Times (Einsum [(n_v'ovov,[0;1;2;3])] [2;0;3;1]) (2) 1);
  (*804*) AddTo n_l1new (Times (Einsum [(T 35,[0;1;2;3]); (T 36,[2;1;3;4])] [4;0]) (2) 1);
  (*805*) Del (T 35);
  (*806*) Assign (T 41) (Plain (Zeros [0;0;1;1]));
  (*807*) AddTo (T 41) (Plain (Einsum [(n_l2,[0;1;2;3]); (n_t2,[3;4;5;0])] [2;4;1;5]));
  (*808*) Assign (T 42) (Plain (Zeros [0;1;1;1]));
  (*809*) AddTo (T 42) (Times (Einsum [(n_v'ovvv,[0;1;2;3])] [0;2;3;1]) (2) 1);
  (*810*) SubFrom (T 42) (Plain (Einsum [(n_v'ovvv,[0;1;2;3])] [0;2;1;3]));
  (*811*) Assign (T 105) (Plain (Zeros [3;1;1]));
  (*812*) AddTo (T 105) (Plain (Einsum [(n_u11,[0;1;2]); (T 42,[1;3;4;2])] [0;3;4]));
  (*813*) Assign (T 116) (Plain (Zeros [1;1]));
  (*814*) AddTo (T 116) (Plain (Einsum [(n_t1,[0;1]); (T 42,[0;2;3;1])] [2;3]));
  (*815*) Assign (T 117) (Plain (Zeros [1;1]));
  (*816*) AddTo (T 117) (Plain (Einsum [(T 116,[0;1])] [0;1]));
  (*817*) Assign (T 165) (Plain (Zeros [0;0;1;1]));
  (*818*) AddTo (T 165) (Plain (Einsum [(T 116,[0;1]); (n_l2,[0;2;3;4])] [3;4;2;1]));
  (*819*) Del (T 116);
  (*820*) AddTo (T 170) (Plain (Einsum [(T 165,[0;1;2;3])] [1;0;2;3]));
  (*821*) Del (T 165);
  (*822*) SubFrom n_l1new (Plain (Einsum [(T 41,[0;1;2;3]); (T 42,[1;2;3;4])] [4;0]));
  (*823*) Del (T 41);
  (*824*) Del (T 42);
  (*825*) Assign (T 44) (Plain (Zeros [0;0;0;0]));
  (*826*) AddTo (T 44) (Plain (Einsum [(n_l2,[0;1;2;3]); (n_t2,[4;5;0;1])] [2;3;4;5]));
  (*827*) Assign (T 45) (Plain (Zeros [0;0;0;1]));
  (*828*) AddTo (T 45) (Plain (Einsum [(n_t1,[0;1]); (T 44,[2;0;3;4])] [2;3;4;1]));
  (*829*) AddTo (T 46) (Times (Einsum [(T 45,[0;1;2;3])] [0;1;2;3]) (-1) 2);
  (*830*) AddTo (T 46) (Plain (Einsum [(T 45,[0;1;2;3])] [0;2;1;3]));
  (*831*) Del (T 45);
  (*832*) AddTo n_l1new (Times (Einsum [(n_v'ovov,[0;1;2;3]); (T 46,[4;2;0;3])] [1;4]) (2) 1);
  (*833*) Del (T 46);
  (*834*) Assign (T 51) (Plain (Zeros [0;0;0;0]));
  (*835*) AddTo (T 51) (Times (Einsum [(T 44,[0;1;2;3])] [1;0;2;3]) (-1) 2);
  (*836*) AddTo (T 51) (Plain (Einsum [(T 44,[0;1;2;3])] [1;0;3;2]));
  (*837*) AddTo n_l1new (Times (Einsum [(n_v'ooov,[0;1;2;3]); (T 51,[1;4;0;2])] [3;4]) (2) 1);
  (*838*) Del (T 51);
  (*839*) AddTo n_l2new (Plain (Einsum [(n_v'ovov,[0;1;2;3]); (T 44,[4;5;0;2])] [3;1;5;4]));
  (*840*) Del (T 44);
  (*841*) Assign (T 47) (Plain (Zeros [0;0;0;1]));
  (*842*) AddTo (T 47) (Plain (Einsum [(n_l1,[0;1]); (n_t2,[2;3;0;4])] [1;3;2;4]));
  (*843*) AddTo (T 50) (Times (Einsum [(T 47,[0;1;2;3])] [0;1;2;3]) (-1) 1);
  (*844*) AddTo (T 50) (Times (Einsum [(T 47,[0;1;2;3])] [0;2;1;3]) (2) 1);
  (*845*) Del (T 47);
  (*846*) AddTo n_l1new (Times (Einsum [(n_v'ovov,[0;1;2;3]); (T 50,[4;2;0;1])] [3;4]) (-1) 1);
  (*847*) Del (T 50);
  (*848*) Assign (T 53) (Plain (Zeros [0;1]));
  (*849*) AddTo (T 53) (Plain (Einsum [(n_s1,[0]); (n_g'bvo,[0;1;2])] [2;1]));
  (*850*) AddTo (T 77) (Times (Einsum [(T 53,[0;1])] [0;1]) (1) 2);
  (*851*) AddTo (T 180) (Plain (Einsum [(T 53,[0;1])] [0;1]));
  (*852*) Del (T 53);
  (*853*) Assign (T 54) (Plain (Zeros [0;1]));
  (*854*) AddTo (T 54) (Plain (Einsum [(n_g'bvv,[0;1;2]); (n_u11,[0;3;2])] [3;1]));
  (*855*) AddTo (T 77) (Times (Einsum [(T 54,[0;1])] [0;1]) (1) 2);
  (*856*) AddTo (T 180) (Plain (Einsum [(T 54,[0;1])] [0;1]));
  (*857*) Del (T 54);
  (*858*) Assign (T 55) (Plain (Zeros [0;1]));
  (*859*) AddTo (T 55) (Plain (Einsum [(n_t2,[0;1;2;3]); (n_v'ooov,[0;4;1;2])] [4;3]));
  (*860*) AddTo (T 77) (Times (Einsum [(T 55,[0;1])] [0;1]) (1) 2);
  (*861*) AddTo (T 180) (Plain (Einsum [(T 55,[0;1])] [0;1]));
  (*862*) Del (T 55);
  (*863*) AddTo (T 56) (Times (Einsum [(n_v'ooov,[0;1;2;3])] [0;2;1;3]) (2) 1);
  (*864*) AddTo (T 77) (Times (Einsum [(n_t2,[0;1;2;3]); (T 56,[0;1;4;3])] [4;2]) (-1) 2);
  (*865*) AddTo (T 180) (Times (Einsum [(n_t2,[0;1;2;3]); (T 56,[0;1;4;3])] [4;2]) (-1) 1);
  (*866*) Del (T 56);
  (*867*) AddTo (T 58) (Plain (Einsum [(n_f'ov,[0;1])] [0;1]));
  (*868*) AddTo (T 77) (Plain (Einsum [(T 58,[0;1]); (T 17,[0;2;3;1])] [2;3]));
  (*869*) AddTo (T 180) (Times (Einsum [(T 58,[0;1]); (T 17,[0;2;3;1])] [2;3]) (2) 1);
  (*870*) Del (T 17);
  (*871*) Assign n_lu11new (Plain (Zeros [3;1;0]));
  (*872*) AddTo n_lu11new (Times (Einsum [(n_ls1,[0]); (T 58,[1;2])] [0;2;1]) (2) 1);
  (*873*) Del (T 58);
  (*874*) Assign (T 59) (Plain (Zeros [0;0;1;1]));
  (*875*) AddTo (T 59) (Plain (Einsum [(n_v'ovvo,[0;1;2;3])] [0;3;2;1]));
  (*876*) AddTo (T 59) (Times (Einsum [(n_v'oovv,[0;1;2;3])] [0;1;2;3]) (-1) 2);
  (*877*) AddTo (T 77) (Plain (Einsum [(n_t1,[0;1]); (T 59,[0;2;3;1])] [2;3]));
  (*878*) AddTo (T 180) (Times (Einsum [(n_t1,[0;1]); (T 59,[0;2;3;1])] [2;3]) (2) 1);
  (*879*) Del (T 59);
  (*880*) Assign (T 60) (Plain (Zeros [3;0;0]));
  (*881*) AddTo (T 60) (Plain (Einsum [(n_t1,[0;1]); (n_g'bov,[2;3;1])] [2;3;0]));
  (*882*) Assign (T 61) (Plain (Zeros [3;0;0]));
  (*883*) AddTo (T 61) (Plain (Einsum [(T 60,[0;1;2])] [0;1;2]));
  (*884*) Assign (T 111) (Plain (Zeros [3;0;0]));
  (*885*) AddTo (T 111) (Plain (Einsum [(T 60,[0;1;2])] [0;1;2]));
  (*886*) Del (T 60);
  (*887*) AddTo (T 61) (Plain (Einsum [(n_g'boo,[0;1;2])] [0;1;2]));
  (*888*) AddTo (T 77) (Times (Einsum [(n_u11,[0;1;2]); (T 61,[0;1;3])] [3;2]) (-1) 2);
  (*889*) AddTo (T 180) (Times (Einsum [(n_u11,[0;1;2]); (T 61,[0;1;3])] [3;2]) (-1) 1);
  (*890*) Del (T 61);
  (*891*) Assign (T 62) (Plain (Zeros [0;0]));
  (*892*) AddTo (T 62) (Plain (Einsum [(n_s1,[0]); (n_g'boo,[0;1;2])] [1;2]));
  (*893*) Assign (T 70) (Plain (Zeros [0;0]));
  (*894*) AddTo (T 70) (Plain (Einsum [(T 62,[0;1])] [0;1]));
  (*895*) Assign (T 139) (Plain (Zeros [0;0]));
  (*896*) AddTo (T 139) (Plain (Einsum [(T 62,[0;1])] [0;1]));
  (*897*) Del (T 62);
  (*898*) Assign (T 63) (Plain (Zeros [0;0]));
  (*899*) AddTo (T 63) (Plain (Einsum [(n_g'bov,[0;1;2]); (n_u11,[0;3;2])] [1;3]));
  (*900*) AddTo (T 70) (Plain (Einsum [(T 63,[0;1])] [0;1]));
  (*901*) AddTo (T 139) (Plain (Einsum [(T 63,[0;1])] [0;1]));
  (*902*) Del (T 63);
  (*903*) Assign (T 64) (Plain (Zeros [0;0;1;1]));
  (*904*) AddTo (T 64) (Times (Einsum [(n_v'ovov,[0;1;2;3])] [2;0;1;3]) (-1) 2);
  (*905*) AddTo (T 64) (Plain (Einsum [(n_v'ovov,[0;1;2;3])] [2;0;3;1]));
  (*906*) Assign (T 65) (Plain (Zeros [0;0]));
  (*907*) AddTo (T 65) (Times (Einsum [(n_t2,[0;1;2;3]); (T 64,[0;4;2;3])] [1;4]) (2) 1);
  (*908*) AddTo (T 70) (Plain (Einsum [(T 65,[0;1])] [1;0]));
  (*909*) Del (T 65);
  (*910*) Assign (T 174) (Plain (Zeros [1;1]));
  (*911*) AddTo (T 174) (Plain (Einsum [(n_t2,[0;1;2;3]); (T 64,[0;1;4;3])] [2;4]));
  (*912*) Del (T 64);
  (*913*) Assign (T 175) (Plain (Zeros [0;0;1;1]));
  (*914*) AddTo (T 175) (Times (Einsum [(T 174,[0;1]); (n_l2,[0;2;3;4])] [3;4;2;1]) (2) 1);
  (*915*) Del (T 174);
  (*916*) AddTo (T 178) (Plain (Einsum [(T 175,[0;1;2;3])] [1;0;2;3]));
  (*917*) Del (T 175);
  (*918*) AddTo n_l2new (Times (Einsum [(T 178,[0;1;2;3])] [2;3;0;1]) (-1) 1);
  (*919*) AddTo n_l2new (Times (Einsum [(T 178,[0;1;2;3])] [3;2;1;0]) (-1) 1);
  (*920*) Del (T 178);
  (*921*) Assign (T 66) (Plain (Zeros [0;0;0;1]));
  (*922*) AddTo (T 66) (Times (Einsum [(n_v'ooov,[0;1;2;3])] [0;2;1;3]) (-1) 2);
  (*923*) AddTo (T 66) (Plain (Einsum [(n_v'ooov,[0;1;2;3])] [2;0;1;3]));
  (*924*) Assign (T 67) (Plain (Zeros [0;0]));
  (*925*) AddTo (T 67) (Times (Einsum [(n_t1,[0;1]); (T 66,[0;2;3;1])] [2;3]) (2) 1);
  (*926*) Del (T 66);
  (*927*) AddTo (T 70) (Plain (Einsum [(T 67,[0;1])] [0;1]));
  (*928*) Del (T 67);
  (*929*) AddTo (T 68) (Times (Einsum [(n_f'ov,[0;1])] [0;1]) (1) 2);
  (*930*) Assign (T 69) (Plain (Zeros [0;0]));
  (*931*) AddTo (T 69) (Times (Einsum [(n_t1,[0;1]); (T 68,[2;1])] [0;2]) (2) 1);
  (*932*) Del (T 68);
  (*933*) AddTo (T 70) (Plain (Einsum [(T 69,[0;1])] [1;0]));
  (*934*) Del (T 69);
  (*935*) AddTo (T 70) (Plain (Einsum [(n_f'oo,[0;1])] [0;1]));
  (*936*) AddTo (T 77) (Times (Einsum [(n_t1,[0;1]); (T 70,[0;2])] [2;1]) (-1) 2);
  (*937*) AddTo (T 180) (Times (Einsum [(n_t1,[0;1]); (T 70,[0;2])] [2;1]) (-1) 1);
  (*938*) AddTo n_l1new (Times (Einsum [(n_l1,[0;1]); (T 70,[2;1])] [0;2]) (-1) 1);
  (*939*) Del (T 70);
  (*940*) Assign (T 71) (Plain (Zeros [1;1]));
  (*941*) AddTo (T 71) (Plain (Einsum [(n_s1,[0]); (n_g'bvv,[0;1;2])] [1;2]));
  (*942*) Assign (T 74) (Plain (Zeros [1;1]));
  (*943*) AddTo (T 74) (Plain (Einsum [(T 71,[0;1])] [0;1]));
  (*944*) AddTo (T 117) (Plain (Einsum [(T 71,[0;1])] [0;1]));
  (*945*) Assign (T 135) (Plain (Zeros [1;1]));
  (*946*) AddTo (T 135) (Plain (Einsum [(T 71,[0;1])] [0;1]));
  (*947*) Del (T 71);
  (*948*) Assign (T 72) (Plain (Zeros [0;1;1;1]));
  (*949*) AddTo (T 72) (Plain (Einsum [(n_v'ovvv,[0;1;2;3])] [0;2;3;1]));
  (*950*) AddTo (T 72) (Times (Einsum [(n_v'ovvv,[0;1;2;3])] [0;2;1;3]) (-1) 2);
  (*951*) Assign (T 73) (Plain (Zeros [1;1]));
  (*952*) AddTo (T 73) (Times (Einsum [(n_t1,[0;1]); (T 72,[0;2;3;1])] [2;3]) (2) 1);
  (*953*) Del (T 72);
  (*954*) AddTo (T 74) (Plain (Einsum [(T 73,[0;1])] [0;1]));
  (*955*) Del (T 73);
  (*956*) AddTo (T 74) (Plain (Einsum [(n_f'vv,[0;1])] [0;1]));
  (*957*) AddTo (T 77) (Times (Einsum [(n_t1,[0;1]); (T 74,[2;1])] [0;2]) (1) 2);
  (*958*) AddTo (T 180) (Plain (Einsum [(n_t1,[0;1]); (T 74,[2;1])] [0;2]));
  (*959*) Del (T 74);
  (*960*) Assign (T 75) (Plain (Zeros [3]));
  (*961*) AddTo (T 75) (Plain (Einsum [(n_t1,[0;1]); (n_g'bov,[2;0;1])] [2]));
  (*962*) Assign (T 76) (Plain (Zeros [3]));
  (*963*) AddTo (T 76) (Times (Einsum [(T 75,[0])] [0]) (2) 1);
  (*964*) Assign (T 121) (Plain (Zeros [3]));
  (*965*) AddTo (T 121) (Times (Einsum [(T 75,[0])] [0]) (2) 1);
  (*966*) Del (T 75);
  (*967*) AddTo (T 76) (Plain (Einsum [(n_G,[0])] [0]));
  (*968*) AddTo (T 77) (Times (Einsum [(T 76,[0]); (n_u11,[0;1;2])] [1;2]) (1) 2);
  (*969*) AddTo (T 180) (Plain (Einsum [(T 76,[0]); (n_u11,[0;1;2])] [1;2]));
  (*970*) Del (T 76);
  (*971*) AddTo (T 77) (Times (Einsum [(n_f'vo,[0;1])] [1;0]) (1) 2);
  (*972*) Assign (T 78) (Plain (Zeros [0;0;1;1]));
  (*973*) AddTo (T 78) (Times (Einsum [(n_l2,[0;1;2;3])] [3;2;0;1]) (-1) 1);
  (*974*) AddTo (T 78) (Times (Einsum [(n_l2,[0;1;2;3])] [3;2;1;0]) (2) 1);
  (*975*) AddTo n_l1new (Times (Einsum [(T 77,[0;1]); (T 78,[0;2;1;3])] [3;2]) (2) 1);
  (*976*) Del (T 77);
  (*977*) Del (T 78);
  (*978*) Assign (T 79) (Plain (Zeros [0;1]));
  (*979*) AddTo (T 79) (Plain (Einsum [(n_ls1,[0]); (n_u11,[0;1;2])] [1;2]));
  (*980*) AddTo (T 90) (Times (Einsum [(T 79,[0;1])] [0;1]) (-1) 2);
  (*981*) Del (T 79);
  (*982*) Assign (T 80) (Plain (Zeros [3;0;0]));
  (*983*) AddTo (T 80) (Plain (Einsum [(n_t1,[0;1]); (n_lu11,[2;1;3])] [2;3;0]));
  (*984*) Assign (T 81) (Plain (Zeros [0;1]));
  (*985*) AddTo (T 81) (Plain (Einsum [(n_u11,[0;1;2]); (T 80,[0;1;3])] [3;2]));
  (*986*) AddTo (T 90) (Times (Einsum [(T 81,[0;1])] [0;1]) (1) 2);
  (*987*) Del (T 81);
  (*988*) Assign (T 83) (Plain (Zeros [0;0;1;1]));
  (*989*) AddTo (T 83) (Times (Einsum [(n_t2,[0;1;2;3])] [1;0;2;3]) (-1) 1);
  (*990*) AddTo (T 83) (Times (Einsum [(n_t2,[0;1;2;3])] [1;0;3;2]) (2) 1);
  (*991*) Assign (T 84) (Plain (Zeros [0;1]));
  (*992*) AddTo (T 84) (Times (Einsum [(n_l1,[0;1]); (T 83,[1;2;0;3])] [2;3]) (1) 2);
  (*993*) Del (T 83);
  (*994*) AddTo (T 90) (Times (Einsum [(T 84,[0;1])] [0;1]) (-1) 1);
  (*995*) Del (T 84);
  (*996*) Assign (T 85) (Plain (Zeros [0;0]));
  (*997*) AddTo (T 85) (Plain (Einsum [(n_l1,[0;1]); (n_t1,[2;0])] [1;2]));
  (*998*) AddTo (T 88) (Times (Einsum [(T 85,[0;1])] [0;1]) (1) 2);
  (*999*) AddTo (T 96) (Plain (Einsum [(T 85,[0;1])] [0;1]));
  (*1000*) Assign (T 141) (Plain (Zeros [0;0]));
  (*1001*) AddTo (T 141) (Plain (Einsum [(T 85,[0;1])] [0;1]));
  (*1002*) Assign (T 86) (Plain (Zeros [0;0]));
  (*1003*) AddTo (T 86) (Plain (Einsum [(n_lu11,[0;1;2]); (n_u11,[0;3;1])] [2;3]));
  (*1004*) AddTo (T 88) (Times (Einsum [(T 86,[0;1])] [0;1]) (1) 2);
  (*1005*) Assign (T 89) (Plain (Zeros [0;1]));
  (*1006*) AddTo (T 89) (Plain (Einsum [(n_t1,[0;1]); (T 88,[0;2])] [2;1]));
  (*1007*) Del (T 88);
  (*1008*) AddTo (T 90) (Plain (Einsum [(T 89,[0;1])] [0;1]));
  (*1009*) Del (T 89);
  (*1010*) AddTo (T 96) (Plain (Einsum [(T 86,[0;1])] [0;1]));
  (*1011*) Assign n_ls1new (Plain (Zeros [3]));
  (*1012*) AddTo n_ls1new (Times (Einsum [(T 96,[0;1]); (n_g'boo,[2;1;0])] [2]) (-2) 1);
  (*1013*) AddTo (T 109) (Plain (Einsum [(T 86,[0;1])] [0;1]));
  (*1014*) Assign (T 110) (Plain (Zeros [3;0;0]));
  (*1015*) AddTo (T 110) (Plain (Einsum [(n_s1,[0]); (T 109,[1;2])] [0;1;2]));
  (*1016*) AddTo n_l1new (Times (Einsum [(n_f'ov,[0;1]); (T 109,[2;0])] [1;2]) (-1) 1);
  (*1017*) Del (T 109);
  (*1018*) AddTo (T 141) (Plain (Einsum [(T 86,[0;1])] [0;1]));
  (*1019*) Assign (T 142) (Plain (Zeros [0;0;1;1]));
  (*1020*) AddTo (T 142) (Plain (Einsum [(T 141,[0;1]); (n_v'ovov,[1;2;3;4])] [3;0;2;4]));
  (*1021*) Del (T 141);
  (*1022*) AddTo (T 144) (Plain (Einsum [(T 142,[0;1;2;3])] [1;0;3;2]));
  (*1023*) Del (T 142);
  (*1024*) AddTo (T 90) (Times (Einsum [(n_t1,[0;1])] [0;1]) (-1) 2);
  (*1025*) AddTo n_l1new (Times (Einsum [(T 90,[0;1]); (T 36,[0;2;1;3])] [3;2]) (-2) 1);
  (*1026*) Del (T 36);
  (*1027*) AddTo n_ls1new (Times (Einsum [(T 90,[0;1]); (n_g'bov,[2;0;1])] [2]) (-4) 1);
  (*1028*) Del (T 90);
  (*1029*) Assign (T 91) (Plain (Zeros [1;1]));
  (*1030*) AddTo (T 91) (Plain (Einsum [(n_l1,[0;1]); (n_t1,[1;2])] [0;2]));
  (*1031*) AddTo (T 94) (Times (Einsum [(T 91,[0;1])] [0;1]) (1) 2);
  (*1032*) AddTo n_ls1new (Times (Einsum [(T 91,[0;1]); (n_g'bvv,[2;0;1])] [2]) (2) 1);
  (*1033*) Del (T 91);
  (*1034*) Assign (T 92) (Plain (Zeros [1;1]));
  (*1035*) AddTo (T 92) (Plain (Einsum [(n_lu11,[0;1;2]); (n_u11,[0;2;3])] [1;3]));
  (*1036*) AddTo (T 94) (Times (Einsum [(T 92,[0;1])] [0;1]) (1) 2);
  (*1037*) Assign (T 127) (Plain (Zeros [0;0;1;1]));
  (*1038*) AddTo (T 127) (Plain (Einsum [(T 92,[0;1]); (n_v'ovov,[2;3;4;1])] [2;4;0;3]));
  (*1039*) AddTo (T 144) (Plain (Einsum [(T 127,[0;1;2;3])] [0;1;2;3]));
  (*1040*) Del (T 127);
  (*1041*) AddTo (T 181) (Times (Einsum [(T 92,[0;1])] [0;1]) (1) 2);
  (*1042*) Del (T 92);
  (*1043*) AddTo n_ls1new (Times (Einsum [(T 181,[0;1]); (n_g'bvv,[2;0;1])] [2]) (4) 1);
  (*1044*) Del (T 181);
  (*1045*) Assign (T 95) (Plain (Zeros [0;1;1;1]));
  (*1046*) AddTo (T 95) (Times (Einsum [(n_v'ovvv,[0;1;2;3])] [0;2;3;1]) (2) 1);
  (*1047*) AddTo (T 95) (Times (Einsum [(n_v'ovvv,[0;1;2;3])] [0;2;1;3]) (-1) 1);
  (*1048*) AddTo n_l1new (Times (Einsum [(T 94,[0;1]); (T 95,[2;0;1;3])] [3;2]) (2) 1);
  (*1049*) Del (T 94);
  (*1050*) Del (T 95);
  (*1051*) Assign (T 97) (Plain (Zeros [0;0;0;1]));
  (*1052*) AddTo (T 97) (Times (Einsum [(n_v'ooov,[0;1;2;3])] [0;2;1;3]) (2) 1);
  (*1053*) AddTo (T 97) (Times (Einsum [(n_v'ooov,[0;1;2;3])] [2;0;1;3]) (-1) 1);
  (*1054*) AddTo n_l1new (Times (Einsum [(T 96,[0;1]); (T 97,[1;2;0;3])] [3;2]) (-1) 1);
  (*1055*) Del (T 97);
  (*1056*) Del (T 96);
  (*1057*) Assign (T 98) (Plain (Zeros [0;0;0;1]));
  (*1058*) SubFrom (T 98) (Plain (Einsum [(n_v'ooov,[0;1;2;3])] [0;2;1;3]));
  (*1059*) AddTo (T 98) (Times (Einsum [(n_v'ooov,[0;1;2;3])] [2;0;1;3]) (2) 1);
  (*1060*) Assign (T 104) (Plain (Zeros [3;0;0]));
  (*1061*) AddTo (T 104) (Plain (Einsum [(n_u11,[0;1;2]); (T 98,[1;3;4;2])] [0;3;4]));
  (*1062*) Assign (T 161) (Plain (Zeros [0;0]));
  (*1063*) AddTo (T 161) (Plain (Einsum [(n_t1,[0;1]); (T 98,[0;2;3;1])] [2;3]));
  (*1064*) Del (T 98);
  (*1065*) Assign (T 163) (Plain (Zeros [0;0]));
  (*1066*) AddTo (T 163) (Plain (Einsum [(T 161,[0;1])] [0;1]));
  (*1067*) Del (T 161);
  (*1068*) Assign (T 99) (Plain (Zeros [0;0;1;1]));
  (*1069*) AddTo (T 99) (Times (Einsum [(n_v'ovov,[0;1;2;3])] [2;0;1;3]) (2) 1);
  (*1070*) SubFrom (T 99) (Plain (Einsum [(n_v'ovov,[0;1;2;3])] [2;0;3;1]));
  (*1071*) Assign (T 100) (Plain (Zeros [0;1]));
  (*1072*) AddTo (T 100) (Plain (Einsum [(n_t1,[0;1]); (T 99,[0;2;3;1])] [2;3]));
  (*1073*) AddTo (T 101) (Plain (Einsum [(T 100,[0;1])] [0;1]));
  (*1074*) Assign (T 162) (Plain (Zeros [0;0]));
  (*1075*) AddTo (T 162) (Plain (Einsum [(n_t1,[0;1]); (T 100,[2;1])] [0;2]));
  (*1076*) AddTo (T 163) (Plain (Einsum [(T 162,[0;1])] [1;0]));
  (*1077*) Del (T 162);
  (*1078*) Assign (T 164) (Plain (Zeros [0;0;1;1]));
  (*1079*) AddTo (T 164) (Plain (Einsum [(T 163,[0;1]); (n_l2,[2;3;1;4])] [4;0;2;3]));
  (*1080*) Del (T 163);
  (*1081*) SubFrom (T 170) (Plain (Einsum [(T 164,[0;1;2;3])] [0;1;3;2]));
  (*1082*) Del (T 164);
  (*1083*) Assign (T 168) (Plain (Zeros [0;0;1;1]));
  (*1084*) AddTo (T 168) (Plain (Einsum [(T 100,[0;1]); (T 32,[2;3;0;4])] [2;3;4;1]));
  (*1085*) SubFrom (T 170) (Plain (Einsum [(T 168,[0;1;2;3])] [0;1;2;3]));
  (*1086*) Del (T 168);
  (*1087*) AddTo (T 170) (Plain (Einsum [(n_l1,[0;1]); (T 100,[2;3])] [1;2;0;3]));
  (*1088*) SubFrom n_l1new (Plain (Einsum [(T 86,[0;1]); (T 100,[1;2])] [2;0]));
  (*1089*) Del (T 100);
  (*1090*) Del (T 86);
  (*1091*) Assign (T 102) (Plain (Zeros [3;0;1]));
  (*1092*) AddTo (T 102) (Plain (Einsum [(n_u11,[0;1;2]); (T 99,[1;3;4;2])] [0;3;4]));
  (*1093*) Del (T 99);
  (*1094*) Assign (T 103) (Plain (Zeros [3;0;1]));
  (*1095*) AddTo (T 103) (Plain (Einsum [(T 102,[0;1;2])] [0;1;2]));
  (*1096*) Assign (T 115) (Plain (Zeros [3;0;1]));
  (*1097*) AddTo (T 115) (Plain (Einsum [(T 102,[0;1;2])] [0;1;2]));
  (*1098*) Assign (T 169) (Plain (Zeros [0;0;1;1]));
  (*1099*) AddTo (T 169) (Plain (Einsum [(n_lu11,[0;1;2]); (T 102,[0;3;4])] [2;3;1;4]));
  (*1100*) Del (T 102);
  (*1101*) AddTo (T 170) (Plain (Einsum [(T 169,[0;1;2;3])] [0;1;2;3]));
  (*1102*) Del (T 169);
  (*1103*) AddTo (T 101) (Plain (Einsum [(n_f'ov,[0;1])] [0;1]));
  (*1104*) AddTo (T 104) (Plain (Einsum [(T 101,[0;1]); (n_u11,[2;3;1])] [2;0;3]));
  (*1105*) Assign (T 120) (Plain (Zeros [3]));
  (*1106*) AddTo (T 120) (Plain (Einsum [(T 101,[0;1]); (n_u11,[2;0;1])] [2]));
  (*1107*) Assign (T 123) (Plain (Zeros [3]));
  (*1108*) AddTo (T 123) (Times (Einsum [(T 120,[0])] [0]) (2) 1);
  (*1109*) Del (T 120);
  (*1110*) SubFrom n_l1new (Plain (Einsum [(T 101,[0;1]); (T 85,[2;0])] [1;2]));
  (*1111*) Del (T 101);
  (*1112*) Del (T 85);
  (*1113*) AddTo (T 103) (Plain (Einsum [(n_gc'bov,[0;1;2])] [0;1;2]));
  (*1114*) AddTo (T 103) (Plain (Einsum [(n_s2,[0;1]); (n_g'bov,[0;2;3])] [1;2;3]));
  (*1115*) AddTo (T 104) (Plain (Einsum [(n_t1,[0;1]); (T 103,[2;3;1])] [2;3;0]));
  (*1116*) Del (T 103);
  (*1117*) AddTo (T 104) (Plain (Einsum [(n_gc'boo,[0;1;2])] [0;1;2]));
  (*1118*) AddTo (T 104) (Plain (Einsum [(n_s2,[0;1]); (n_g'boo,[0;2;3])] [1;2;3]));
  (*1119*) SubFrom n_l1new (Plain (Einsum [(n_lu11,[0;1;2]); (T 104,[0;3;2])] [1;3]));
  (*1120*) Del (T 104);
  (*1121*) AddTo (T 105) (Plain (Einsum [(n_gc'bvv,[0;1;2])] [0;1;2]));
  (*1122*) AddTo (T 105) (Plain (Einsum [(n_s2,[0;1]); (n_g'bvv,[0;2;3])] [1;2;3]));
  (*1123*) AddTo n_l1new (Plain (Einsum [(n_lu11,[0;1;2]); (T 105,[0;1;3])] [3;2]));
  (*1124*) Del (T 105);
  (*1125*) Assign (T 106) (Plain (Zeros [3;0;1]));
  (*1126*) AddTo (T 106) (Plain (Einsum [(n_s2,[0;1]); (n_lu11,[1;2;3])] [0;3;2]));
  (*1127*) Assign (T 108) (Plain (Zeros [3;0;1]));
  (*1128*) AddTo (T 108) (Plain (Einsum [(T 106,[0;1;2])] [0;1;2]));
  (*1129*) Assign (T 166) (Plain (Zeros [3;0;1]));
  (*1130*) AddTo (T 166) (Plain (Einsum [(T 106,[0;1;2])] [0;1;2]));
  (*1131*) Del (T 106);
  (*1132*) Assign (T 107) (Plain (Zeros [0;0;1;1]));
  (*1133*) AddTo (T 107) (Plain (Einsum [(n_l2,[0;1;2;3])] [3;2;0;1]));
  (*1134*) AddTo (T 107) (Times (Einsum [(n_l2,[0;1;2;3])] [3;2;1;0]) (-1) 2);
  (*1135*) AddTo (T 108) (Times (Einsum [(n_u11,[0;1;2]); (T 107,[1;3;4;2])] [0;3;4]) (2) 1);
  (*1136*) Del (T 107);
  (*1137*) AddTo (T 110) (Plain (Einsum [(n_t1,[0;1]); (T 108,[2;3;1])] [2;3;0]));
  (*1138*) Del (T 108);
  (*1139*) AddTo (T 110) (Plain (Einsum [(n_l1,[0;1]); (n_u11,[2;3;0])] [2;1;3]));
  (*1140*) AddTo n_l1new (Times (Einsum [(n_g'bov,[0;1;2]); (T 110,[0;3;1])] [2;3]) (-1) 1);
  (*1141*) Del (T 110);
  (*1142*) AddTo (T 111) (Plain (Einsum [(n_g'boo,[0;1;2])] [0;1;2]));
  (*1143*) Assign (T 187) (Plain (Zeros [3;0;1]));
  (*1144*) AddTo (T 187) (Plain (Einsum [(n_t1,[0;1]); (T 111,[2;0;3])] [2;3;1]));
  (*1145*) Assign (T 188) (Plain (Zeros [3;0;1]));
  (*1146*) SubFrom (T 188) (Plain (Einsum [(T 187,[0;1;2])] [0;1;2]));
  (*1147*) Del (T 187);
  (*1148*) Assign (T 112) (Plain (Zeros [0;0;1;1]));
  (*1149*) AddTo (T 112) (Times (Einsum [(n_l2,[0;1;2;3])] [3;2;0;1]) (2) 1);
  (*1150*) SubFrom (T 112) (Plain (Einsum [(n_l2,[0;1;2;3])] [3;2;1;0]));
  (*1151*) Assign (T 113) (Plain (Zeros [3;0;1]));
  (*1152*) AddTo (T 113) (Plain (Einsum [(n_u11,[0;1;2]); (T 112,[1;3;4;2])] [0;3;4]));
  (*1153*) Del (T 112);
  (*1154*) AddTo (T 166) (Plain (Einsum [(T 113,[0;1;2])] [0;1;2]));
  (*1155*) Assign (T 167) (Plain (Zeros [0;0;1;1]));
  (*1156*) AddTo (T 167) (Plain (Einsum [(n_g'bov,[0;1;2]); (T 166,[0;3;4])] [1;3;2;4]));
  (*1157*) Del (T 166);
  (*1158*) AddTo (T 170) (Plain (Einsum [(T 167,[0;1;2;3])] [0;1;2;3]));
  (*1159*) Del (T 167);
  (*1160*) SubFrom n_l1new (Plain (Einsum [(T 111,[0;1;2]); (T 113,[0;2;3])] [3;1]));
  (*1161*) Del (T 111);
  (*1162*) AddTo n_l1new (Plain (Einsum [(n_g'bvv,[0;1;2]); (T 113,[0;3;1])] [2;3]));
  (*1163*) Del (T 113);
  (*1164*) Assign (T 114) (Plain (Zeros [0;0;1;1]));
  (*1165*) AddTo (T 114) (Times (Einsum [(n_v'ovvo,[0;1;2;3])] [0;3;2;1]) (2) 1);
  (*1166*) SubFrom (T 114) (Plain (Einsum [(n_v'oovv,[0;1;2;3])] [0;1;2;3]));
  (*1167*) AddTo n_l1new (Plain (Einsum [(n_l1,[0;1]); (T 114,[2;1;0;3])] [3;2]));
  (*1168*) AddTo n_lu11new (Plain (Einsum [(n_lu11,[0;1;2]); (T 114,[3;2;1;4])] [0;4;3]));
  (*1169*) Del (T 114);
  (*1170*) AddTo (T 115) (Plain (Einsum [(n_gc'bov,[0;1;2])] [0;1;2]));
  (*1171*) SubFrom n_l1new (Plain (Einsum [(T 115,[0;1;2]); (T 80,[0;3;1])] [2;3]));
  (*1172*) Del (T 115);
  (*1173*) Del (T 80);
  (*1174*) AddTo (T 117) (Plain (Einsum [(n_f'vv,[0;1])] [0;1]));
  (*1175*) AddTo n_l1new (Plain (Einsum [(n_l1,[0;1]); (T 117,[0;2])] [2;1]));
  (*1176*) Del (T 117);
  (*1177*) Assign (T 118) (Plain (Zeros [3]));
  (*1178*) AddTo (T 118) (Plain (Einsum [(n_s1,[0]); (n_w,[0;1])] [1]));
  (*1179*) AddTo (T 123) (Plain (Einsum [(T 118,[0])] [0]));
  (*1180*) Del (T 118);
  (*1181*) Assign (T 119) (Plain (Zeros [3]));
  (*1182*) AddTo (T 119) (Plain (Einsum [(n_t1,[0;1]); (n_gc'bov,[2;0;1])] [2]));
  (*1183*) AddTo (T 123) (Times (Einsum [(T 119,[0])] [0]) (2) 1);
  (*1184*) Del (T 119);
  (*1185*) AddTo (T 121) (Plain (Einsum [(n_G,[0])] [0]));
  (*1186*) Assign (T 122) (Plain (Zeros [3]));
  (*1187*) AddTo (T 122) (Plain (Einsum [(T 121,[0]); (n_s2,[0;1])] [1]));
  (*1188*) AddTo (T 123) (Plain (Einsum [(T 122,[0])] [0]));
  (*1189*) Del (T 122);
  (*1190*) Assign (T 190) (Plain (Zeros [3;3]));
  (*1191*) AddTo (T 190) (Plain (Einsum [(n_ls1,[0]); (T 121,[1])] [1;0]));
  (*1192*) Del (T 121);
  (*1193*) AddTo (T 123) (Plain (Einsum [(n_G,[0])] [0]));
  (*1194*) AddTo n_l1new (Plain (Einsum [(T 123,[0]); (n_lu11,[0;1;2])] [1;2]));
  (*1195*) AddTo n_ls1new (Plain (Einsum [(T 123,[0]); (n_ls2,[0;1])] [1]));
  (*1196*) Del (T 123);
  (*1197*) Assign (T 124) (Plain (Zeros [3]));
  (*1198*) AddTo (T 124) (Plain (Einsum [(n_s1,[0])] [0]));
  (*1199*) AddTo (T 124) (Plain (Einsum [(n_ls1,[0]); (n_s2,[1;0])] [1]));
  (*1200*) AddTo (T 124) (Times (Einsum [(n_l1,[0;1]); (n_u11,[2;1;0])] [2]) (2) 1);
  (*1201*) AddTo n_l1new (Plain (Einsum [(T 124,[0]); (n_g'bov,[0;1;2])] [2;1]));
  (*1202*) Del (T 124);
  (*1203*) Assign (T 125) (Plain (Zeros [0;0;1;1]));
  (*1204*) AddTo (T 125) (Plain (Einsum [(n_l1,[0;1]); (n_v'ovvv,[2;3;0;4])] [1;2;3;4]));
  (*1205*) SubFrom (T 144) (Plain (Einsum [(T 125,[0;1;2;3])] [0;1;2;3]));
  (*1206*) Del (T 125);
  (*1207*) Assign (T 131) (Plain (Zeros [0;0;1;1]));
  (*1208*) AddTo (T 131) (Plain (Einsum [(n_t2,[0;1;2;3]); (n_v'ovov,[4;3;0;5])] [1;4;2;5]));
  (*1209*) SubFrom (T 132) (Plain (Einsum [(T 131,[0;1;2;3])] [0;1;2;3]));
  (*1210*) Del (T 131);
  (*1211*) AddTo (T 132) (Plain (Einsum [(n_v'oovv,[0;1;2;3])] [1;0;2;3]));
  (*1212*) Assign (T 133) (Plain (Zeros [0;0;1;1]));
  (*1213*) AddTo (T 133) (Plain (Einsum [(n_l2,[0;1;2;3]); (T 132,[2;4;1;5])] [3;4;0;5]));
  (*1214*) AddTo (T 144) (Plain (Einsum [(T 133,[0;1;2;3])] [0;1;2;3]));
  (*1215*) Del (T 133);
  (*1216*) Assign (T 157) (Plain (Zeros [0;0;1;1]));
  (*1217*) AddTo (T 157) (Plain (Einsum [(n_l2,[0;1;2;3]); (T 132,[2;4;0;5])] [3;4;1;5]));
  (*1218*) Del (T 132);
  (*1219*) SubFrom (T 170) (Plain (Einsum [(T 157,[0;1;2;3])] [0;1;2;3]));
  (*1220*) Del (T 157);
  (*1221*) Assign (T 134) (Plain (Zeros [1;1]));
  (*1222*) AddTo (T 134) (Plain (Einsum [(n_g'bov,[0;1;2]); (n_u11,[0;1;3])] [2;3]));
  (*1223*) SubFrom (T 135) (Plain (Einsum [(T 134,[0;1])] [1;0]));
  (*1224*) Del (T 134);
  (*1225*) AddTo (T 135) (Plain (Einsum [(n_f'vv,[0;1])] [0;1]));
  (*1226*) Assign (T 136) (Plain (Zeros [0;0;1;1]));
  (*1227*) AddTo (T 136) (Plain (Einsum [(T 135,[0;1]); (n_l2,[0;2;3;4])] [3;4;2;1]));
  (*1228*) Del (T 135);
  (*1229*) SubFrom (T 144) (Plain (Einsum [(T 136,[0;1;2;3])] [1;0;3;2]));
  (*1230*) Del (T 136);
  (*1231*) AddTo (T 137) (Plain (Einsum [(n_f'ov,[0;1])] [0;1]));
  (*1232*) Assign (T 138) (Plain (Zeros [0;0]));
  (*1233*) AddTo (T 138) (Plain (Einsum [(n_t1,[0;1]); (T 137,[2;1])] [0;2]));
  (*1234*) AddTo (T 139) (Plain (Einsum [(T 138,[0;1])] [1;0]));
  (*1235*) Del (T 138);
  (*1236*) Assign (T 143) (Plain (Zeros [0;0;1;1]));
  (*1237*) AddTo (T 143) (Plain (Einsum [(T 137,[0;1]); (T 32,[2;3;0;4])] [2;3;4;1]));
  (*1238*) AddTo (T 144) (Plain (Einsum [(T 143,[0;1;2;3])] [0;1;3;2]));
  (*1239*) Del (T 143);
  (*1240*) AddTo (T 170) (Plain (Einsum [(n_l1,[0;1]); (T 137,[2;3])] [2;1;3;0]));
  (*1241*) Del (T 137);
  (*1242*) AddTo (T 139) (Plain (Einsum [(n_f'oo,[0;1])] [0;1]));
  (*1243*) Assign (T 140) (Plain (Zeros [0;0;1;1]));
  (*1244*) AddTo (T 140) (Plain (Einsum [(T 139,[0;1]); (n_l2,[2;3;1;4])] [4;0;2;3]));
  (*1245*) Del (T 139);
  (*1246*) AddTo (T 144) (Plain (Einsum [(T 140,[0;1;2;3])] [1;0;3;2]));
  (*1247*) Del (T 140);
  (*1248*) SubFrom n_l2new (Plain (Einsum [(T 144,[0;1;2;3])] [3;2;0;1]));
  (*1249*) SubFrom n_l2new (Plain (Einsum [(T 144,[0;1;2;3])] [2;3;1;0]));
  (*1250*) Del (T 144);
  (*1251*) Assign (T 145) (Plain (Zeros [0;0;1;1]));
  (*1252*) AddTo (T 145) (Plain (Einsum [(n_gc'bov,[0;1;2]); (n_lu11,[0;3;4])] [1;4;2;3]));
  (*1253*) AddTo (T 170) (Plain (Einsum [(T 145,[0;1;2;3])] [0;1;2;3]));
  (*1254*) Del (T 145);
  (*1255*) Assign (T 146) (Plain (Zeros [0;0;1;1]));
  (*1256*) AddTo (T 146) (Plain (Einsum [(n_l1,[0;1]); (n_v'ooov,[2;1;3;4])] [2;3;0;4]));
  (*1257*) SubFrom (T 170) (Plain (Einsum [(T 146,[0;1;2;3])] [0;1;2;3]));
  (*1258*) Del (T 146);
  (*1259*) Assign (T 150) (Plain (Zeros [0;0;1;1]));
  (*1260*) SubFrom (T 150) (Plain (Einsum [(n_l2,[0;1;2;3])] [3;2;0;1]));
  (*1261*) AddTo (T 150) (Times (Einsum [(n_l2,[0;1;2;3])] [3;2;1;0]) (2) 1);
  (*1262*) AddTo n_lu11new (Plain (Einsum [(n_g'bvo,[0;1;2]); (T 150,[2;3;1;4])] [0;4;3]));
  (*1263*) Assign (T 151) (Plain (Zeros [0;0;1;1]));
  (*1264*) AddTo (T 151) (Plain (Einsum [(n_t1,[0;1]); (n_v'ovvv,[2;3;4;1])] [0;2;4;3]));
  (*1265*) Assign (T 155) (Plain (Zeros [0;0;1;1]));
  (*1266*) AddTo (T 155) (Plain (Einsum [(T 151,[0;1;2;3])] [0;1;2;3]));
  (*1267*) Del (T 151);
  (*1268*) Assign (T 152) (Plain (Zeros [0;0;1;1]));
  (*1269*) AddTo (T 152) (Plain (Einsum [(n_t2,[0;1;2;3]); (n_v'ovov,[4;2;0;5])] [1;4;3;5]));
  (*1270*) SubFrom (T 155) (Plain (Einsum [(T 152,[0;1;2;3])] [0;1;2;3]));
  (*1271*) Del (T 152);
  (*1272*) Assign (T 153) (Plain (Zeros [0;0;1;1]));
  (*1273*) AddTo (T 153) (Times (Einsum [(n_t2,[0;1;2;3])] [1;0;2;3]) (2) 1);
  (*1274*) SubFrom (T 153) (Plain (Einsum [(n_t2,[0;1;2;3])] [1;0;3;2]));
  (*1275*) Assign (T 154) (Plain (Zeros [0;0;1;1]));
  (*1276*) AddTo (T 154) (Plain (Einsum [(n_v'ovov,[0;1;2;3]); (T 153,[0;4;5;1])] [2;4;3;5]));
  (*1277*) AddTo (T 155) (Plain (Einsum [(T 154,[0;1;2;3])] [1;0;3;2]));
  (*1278*) Del (T 154);
  (*1279*) Assign (T 186) (Plain (Zeros [3;0;1]));
  (*1280*) AddTo (T 186) (Plain (Einsum [(n_g'bov,[0;1;2]); (T 153,[1;3;4;2])] [0;3;4]));
  (*1281*) Del (T 153);
  (*1282*) AddTo (T 188) (Plain (Einsum [(T 186,[0;1;2])] [0;1;2]));
  (*1283*) Del (T 186);
  (*1284*) AddTo (T 155) (Plain (Einsum [(n_v'ovvo,[0;1;2;3])] [3;0;2;1]));
  (*1285*) Assign (T 156) (Plain (Zeros [0;0;1;1]));
  (*1286*) AddTo (T 156) (Plain (Einsum [(T 150,[0;1;2;3]); (T 155,[0;4;2;5])] [1;4;3;5]));
  (*1287*) Del (T 155);
  (*1288*) Del (T 150);
  (*1289*) AddTo (T 170) (Plain (Einsum [(T 156,[0;1;2;3])] [0;1;2;3]));
  (*1290*) Del (T 156);
  (*1291*) Assign (T 159) (Plain (Zeros [0;0;0;1]));
  (*1292*) AddTo (T 159) (Times (Einsum [(n_v'ooov,[0;1;2;3])] [0;2;1;3]) (2) 1);
  (*1293*) SubFrom (T 159) (Plain (Einsum [(n_v'ooov,[0;1;2;3])] [2;0;1;3]));
  (*1294*) Assign (T 160) (Plain (Zeros [0;0;1;1]));
  (*1295*) AddTo (T 160) (Plain (Einsum [(T 159,[0;1;2;3]); (T 32,[4;2;0;5])] [4;1;5;3]));
  (*1296*) Del (T 159);
  (*1297*) Del (T 32);
  (*1298*) SubFrom (T 170) (Plain (Einsum [(T 160,[0;1;2;3])] [0;1;2;3]));
  (*1299*) Del (T 160);
  (*1300*) AddTo n_l2new (Plain (Einsum [(T 170,[0;1;2;3])] [2;3;0;1]));
  (*1301*) AddTo n_l2new (Plain (Einsum [(T 170,[0;1;2;3])] [3;2;1;0]));
  (*1302*) Del (T 170);
  (*1303*) AddTo (T 179) (Plain (Einsum [(n_v'oooo,[0;1;2;3])] [2;0;3;1]));
  (*1304*) AddTo n_l2new (Plain (Einsum [(n_l2,[0;1;2;3]); (T 179,[4;5;3;2])] [0;1;5;4]));
  (*1305*) Del (T 179);
  (*1306*) AddTo (T 180) (Plain (Einsum [(n_f'vo,[0;1])] [1;0]));
  (*1307*) AddTo n_ls1new (Times (Einsum [(T 180,[0;1]); (n_lu11,[2;1;0])] [2]) (2) 1);
  (*1308*) Del (T 180);
  (*1309*) Assign (T 182) (Plain (Zeros [3;3]));
  (*1310*) AddTo (T 182) (Plain (Einsum [(n_ls2,[0;1]); (n_w,[2;1])] [0;2]));
  (*1311*) AddTo (T 190) (Plain (Einsum [(T 182,[0;1])] [0;1]));
  (*1312*) Del (T 182);
  (*1313*) Assign (T 183) (Plain (Zeros [3;3]));
  (*1314*) AddTo (T 183) (Plain (Einsum [(n_g'bov,[0;1;2]); (n_u11,[3;1;2])] [0;3]));
  (*1315*) Assign (T 184) (Plain (Zeros [3;3]));
  (*1316*) AddTo (T 184) (Plain (Einsum [(n_ls2,[0;1]); (T 183,[2;1])] [2;0]));
  (*1317*) Del (T 183);
  (*1318*) AddTo (T 190) (Times (Einsum [(T 184,[0;1])] [0;1]) (2) 1);
  (*1319*) Del (T 184);
  (*1320*) Assign (T 185) (Plain (Zeros [3;0;1]));
  (*1321*) AddTo (T 185) (Plain (Einsum [(n_t1,[0;1]); (n_g'bvv,[2;3;1])] [2;0;3]));
  (*1322*) AddTo (T 188) (Plain (Einsum [(T 185,[0;1;2])] [0;1;2]));
  (*1323*) Del (T 185);
  (*1324*) AddTo (T 188) (Plain (Einsum [(n_g'bvo,[0;1;2])] [0;2;1]));
  (*1325*) Assign (T 189) (Plain (Zeros [3;3]));
  (*1326*) AddTo (T 189) (Plain (Einsum [(n_lu11,[0;1;2]); (T 188,[3;2;1])] [0;3]));
  (*1327*) Del (T 188);
  (*1328*) AddTo (T 190) (Times (Einsum [(T 189,[0;1])] [1;0]) (2) 1);
  (*1329*) Del (T 189);
  (*1330*) Assign n_ls2new (Plain (Zeros [3;3]));
  (*1331*) AddTo n_ls2new (Plain (Einsum [(T 190,[0;1])] [0;1]));
  (*1332*) AddTo n_ls2new (Plain (Einsum [(T 190,[0;1])] [1;0]));
  (*1333*) Del (T 190);
  (*1334*) AddTo n_l1new (Plain (Einsum [(n_f'ov,[0;1])] [1;0]));
  (*1335*) AddTo n_l1new (Plain (Einsum [(n_ls1,[0]); (n_gc'bov,[0;1;2])] [2;1]));
  (*1336*) AddTo n_l2new (Plain (Einsum [(n_l2,[0;1;2;3]); (n_v'vvvv,[1;4;0;5])] [4;5;3;2]));
  (*1337*) AddTo n_l2new (Plain (Einsum [(n_v'ovov,[0;1;2;3])] [3;1;2;0]));
  (*1338*) AddTo n_ls1new (Times (Einsum [(n_l1,[0;1]); (n_g'bvo,[2;0;1])] [2]) (2) 1);
  (*1339*) AddTo n_ls1new (Plain (Einsum [(n_ls1,[0]); (n_w,[1;0])] [1]));
  (*1340*) AddTo n_ls1new (Plain (Einsum [(n_G,[0])] [0]));
  (*1341*) SubFrom n_lu11new (Plain (Einsum [(n_f'oo,[0;1]); (n_lu11,[2;3;1])] [2;3;0]));
  (*1342*) SubFrom n_lu11new (Plain (Einsum [(n_l1,[0;1]); (n_g'boo,[2;3;1])] [2;0;3]));
  (*1343*) AddTo n_lu11new (Plain (Einsum [(n_ls2,[0;1]); (n_gc'bov,[1;2;3])] [0;3;2]));
  (*1344*) AddTo n_lu11new (Plain (Einsum [(n_w,[0;1]); (n_lu11,[1;2;3])] [0;2;3]));
  (*1345*) AddTo n_lu11new (Plain (Einsum [(n_g'bov,[0;1;2])] [0;2;1]));
  (*1346*) AddTo n_lu11new (Plain (Einsum [(n_f'vv,[0;1]); (n_lu11,[2;0;3])] [2;1;3]));
  (*1347*) AddTo n_lu11new (Plain (Einsum [(n_l1,[0;1]); (n_g'bvv,[2;0;3])] [2;3;1]))]
 [(n_l1new,[1;0]); (n_l2new,[1;1;0;0]); (n_ls1new,[3]); (n_ls2new,[3;3]); (n_lu11new,[3;1;0])].

(** ebcc/codegen/RCCSD_SD_1_1.py:1351-1422 [make_rdm1_f]; assembly (line 1420) not translated *)
Definition RCCSD_SD_1_1_make_rdm1_f : prog := mkprog
 [(n_g'boo,[3;0;0]); (n_g'bvo,[3;1;0]); (n_g'bov,[3;0;1]); (n_g'bvv,[3;1;1]); (n_l1,[1;0]); (n_t1,[0;1]); (n_lu11,[3;1;0]); (n_u11,[3;0;1]); (n_t2,[0;0;1;1]); (n_l2,[1;1;0;0]); (n_ls1,[3])]
 [(*1353*) Assign n_gc'boo (Plain (Transpose n_g'boo [0;2;1]));
  (*1353*) Assign n_gc'bov (Plain (Transpose n_g'bvo [0;2;1]));
  (*1353*) Assign n_gc'bvo (Plain (Transpose n_g'bov [0;2;1]));
  (*1353*) Assign n_gc'bvv (Plain (Transpose n_g'bvv [0;2;1]));
  (*1360*) Assign n_delta_oo (Plain (Eye 0));
  (*1361*) Assign n_delta_vv (Plain (Eye 1));
  (*1364*) Assign (T 1) (Plain (Zeros [0;0]));
  (*1365*) AddTo (T 1) (Plain (Einsum [(n_l1,[0;1]); (n_t1,[2;0])] [1;2]));
  (*1366*) Assign (T 9) (Plain (Zeros [0;0]));
  (*1367*) AddTo (T 9) (Plain (Einsum [(T 1,[0;1])] [0;1]));
  (*1368*) Assign n_rdm1_f_oo (Plain (Zeros [0;0]));
  (*1369*) SubFrom n_rdm1_f_oo (Times (Einsum [(T 1,[0;1])] [0;1]) (2) 1);
  (*1370*) Del (T 1);
  (*1371*) Assign (T 2) (Plain (Zeros [0;0]));
  (*1372*) AddTo (T 2) (Plain (Einsum [(n_lu11,[0;1;2]); (n_u11,[0;3;1])] [2;3]));
  (*1373*) AddTo (T 9) (Plain (Einsum [(T 2,[0;1])] [0;1]));
  (*1374*) SubFrom n_rdm1_f_oo (Times (Einsum [(T 2,[0;1])] [0;1]) (2) 1);
  (*1375*) Del (T 2);
  (*1376*) Assign (T 3) (Plain (Zeros [0;0;1;1]));
  (*1377*) AddTo (T 3) (Times (Einsum [(n_t2,[0;1;2;3])] [1;0;2;3]) (2) 1);
  (*1378*) AddTo (T 3) (Times (Einsum [(n_t2,[0;1;2;3])] [1;0;3;2]) (-1) 1);
  (*1379*) AddTo n_rdm1_f_oo (Times (Einsum [(n_l2,[0;1;2;3]); (T 3,[2;4;1;0])] [3;4]) (-2) 1);
  (*1380*) Del (T 3);
  (*1381*) Assign (T 4) (Plain (Zeros [3;0;0]));
  (*1382*) AddTo (T 4) (Plain (Einsum [(n_t1,[0;1]); (n_lu11,[2;1;3])] [2;3;0]));
  (*1383*) Assign n_rdm1_f_vo (Plain (Zeros [1;0]));
  (*1384*) SubFrom n_rdm1_f_vo (Times (Einsum [(n_u11,[0;1;2]); (T 4,[0;1;3])] [2;3]) (2) 1);
  (*1385*) Del (T 4);
  (*1386*) Assign (T 5) (Plain (Zeros [0;0;0;1]));
  (*1387*) AddTo (T 5) (Plain (Einsum [(n_t1,[0;1]); (n_l2,[1;2;3;4])] [4;3;0;2]));
  (*1388*) Assign (T 6) (Plain (Zeros [0;0;0;1]));
  (*1389*) AddTo (T 6) (Times (Einsum [(T 5,[0;1;2;3])] [0;1;2;3]) (-1) 1);
  (*1390*) AddTo (T 6) (Times (Einsum [(T 5,[0;1;2;3])] [1;0;2;3]) (2) 1);
  (*1391*) Del (T 5);
  (*1392*) AddTo n_rdm1_f_vo (Times (Einsum [(n_t2,[0;1;2;3]); (T 6,[1;0;4;2])] [3;4]) (-2) 1);
  (*1393*) Del (T 6);
  (*1394*) Assign (T 7) (Plain (Zeros [0;0;1;1]));
  (*1395*) AddTo (T 7) (Times (Einsum [(n_t2,[0;1;2;3])] [1;0;2;3]) (2) 1);
  (*1396*) SubFrom (T 7) (Plain (Einsum [(n_t2,[0;1;2;3])] [1;0;3;2]));
  (*1397*) AddTo n_rdm1_f_vo (Times (Einsum [(n_l1,[0;1]); (T 7,[1;2;3;0])] [3;2]) (2) 1);
  (*1398*) Del (T 7);
  (*1399*) Assign (T 8) (Plain (Zeros [0;0;1;1]));
  (*1400*) AddTo (T 8) (Times (Einsum [(n_t2,[0;1;2;3])] [1;0;2;3]) (-1) 2);
  (*1401*) AddTo (T 8) (Plain (Einsum [(n_t2,[0;1;2;3])] [1;0;3;2]));
  (*1402*) AddTo (T 9) (Times (Einsum [(n_l2,[0;1;2;3]); (T 8,[2;4;0;1])] [3;4]) (2) 1);
  (*1403*) Del (T 8);
  (*1404*) AddTo n_rdm1_f_vo (Times (Einsum [(n_t1,[0;1]); (T 9,[0;2])] [1;2]) (-2) 1);
  (*1405*) Del (T 9);
  (*1406*) Assign (T 10) (Plain (Zeros [0;0;1;1]));
  (*1407*) AddTo (T 10) (Times (Einsum [(n_l2,[0;1;2;3])] [3;2;0;1]) (-1) 2);
  (*1408*) AddTo (T 10) (Plain (Einsum [(n_l2,[0;1;2;3])] [3;2;1;0]));
  (*1409*) Assign n_rdm1_f_vv (Plain (Zeros [1;1]));
  (*1410*) AddTo n_rdm1_f_vv (Times (Einsum [(n_t2,[0;1;2;3]); (T 10,[0;1;2;4])] [3;4]) (4) 1);
  (*1411*) Del (T 10);
  (*1412*) AddTo n_rdm1_f_oo (Times (Einsum [(n_delta_oo,[0;1])] [1;0]) (2) 1);
  (*1413*) Assign n_rdm1_f_ov (Plain (Zeros [0;1]));
  (*1414*) AddTo n_rdm1_f_ov (Times (Einsum [(n_l1,[0;1])] [1;0]) (2) 1);
  (*1415*) AddTo n_rdm1_f_vo (Times (Einsum [(n_t1,[0;1])] [1;0]) (2) 1);
  (*1416*) AddTo n_rdm1_f_vo (Times (Einsum [(n_ls1,[0]); (n_u11,[0;1;2])] [2;1]) (2) 1);
  (*1417*) AddTo n_rdm1_f_vv (Times (Einsum [(n_lu11,[0;1;2]); (n_u11,[0;2;3])] [3;1]) (2) 1);
  (*1418*) AddTo n_rdm1_f_vv (Times (Einsum [(n_l1,[0;1]); (n_t1,[1;2])] [2;0]) (2) 1)]
 [(n_rdm1_f_oo,[0;0]); (n_rdm1_f_ov,[0;1]); (n_rdm1_f_vo,[1;0]); (n_rdm1_f_vv,[1;1])].

(** ebcc/codegen/RCCSD_SD_1_1.py:1424-1944 [make_rdm2_f]; assembly (line 1942) not translated *)
Definition RCCSD_SD_1_1_make_rdm2_f : prog := mkprog
 [(n_g'boo,[3;0;0]); (n_g'bvo,[3;1;0]); (n_g'bov,[3;0;1]); (n_g'bvv,[3;1;1]); (n_l2,[1;1;0;0]); (n_t2,[0;0;1;1]); (n_t1,[0;1]); (n_l1,[1;0]); (n_lu11,[3;1;0]); (n_u11,[3;0;1]); (n_ls1,[3]); (n_ls2,[3;3])]
 [(*1426*) Assign n_gc'boo (Plain (Transpose n_g'boo [0;2;1]));
  (*1426*) Assign n_gc'bov (Plain (Transpose n_g'bvo [0;2;1]));
  (*1426*) Assign n_gc'bvo (Plain (Transpose n_g'bov [0;2;1]));
  (*1426*) Assign n_gc'bvv (Plain (Transpose n_g'bvv [0;2;1]));
  (*1433*) Assign n_delta_oo (Plain (Eye 0));
  (*1434*) Assign n_delta_vv (Plain (Eye 1));
  (*1437*) Assign (T 1) (Plain (Zeros [0;0;0;0]));
  (*1438*) AddTo (T 1) (Plain (Einsum [(n_l2,[0;1;2;3]); (n_t2,[4;5;0;1])] [2;3;4;5]));
  (*1439*) Assign (T 24) (Plain (Zeros [0;0;0;1]));
  (*1440*) AddTo (T 24) (Plain (Einsum [(n_t1,[0;1]); (T 1,[2;0;3;4])] [2;3;4;1]));
  (*1441*) Assign (T 29) (Plain (Zeros [0;0;0;1]));
  (*1442*) AddTo (T 29) (Times (Einsum [(T 24,[0;1;2;3])] [0;1;2;3]) (4) 1);
  (*1443*) Assign n_rdm2_f_vooo (Plain (Zeros [1;0;0;0]));
  (*1444*) AddTo n_rdm2_f_vooo (Times (Einsum [(T 24,[0;1;2;3])] [3;1;0;2]) (-2) 1);
  (*1445*) AddTo n_rdm2_f_vooo (Times (Einsum [(T 24,[0;1;2;3])] [3;2;0;1]) (4) 1);
  (*1446*) Del (T 24);
  (*1447*) Assign n_rdm2_f_oooo (Plain (Zeros [0;0;0;0]));
  (*1448*) AddTo n_rdm2_f_oooo (Times (Einsum [(T 1,[0;1;2;3])] [1;2;0;3]) (-2) 1);
  (*1449*) AddTo n_rdm2_f_oooo (Times (Einsum [(T 1,[0;1;2;3])] [1;3;0;2]) (4) 1);
  (*1450*) Assign (T 2) (Plain (Zeros [0;0;0;1]));
  (*1451*) AddTo (T 2) (Plain (Einsum [(n_t1,[0;1]); (n_l2,[1;2;3;4])] [4;3;0;2]));
  (*1452*) Assign (T 3) (Plain (Zeros [0;0;0;0]));
  (*1453*) AddTo (T 3) (Plain (Einsum [(n_t1,[0;1]); (T 2,[2;3;4;1])] [2;3;0;4]));
  (*1454*) Assign (T 11) (Plain (Zeros [0;0;0;1]));
  (*1455*) AddTo (T 11) (Plain (Einsum [(n_t1,[0;1]); (T 3,[0;2;3;4])] [2;4;3;1]));
  (*1456*) Assign (T 19) (Plain (Zeros [0;0;0;1]));
  (*1457*) SubFrom (T 19) (Plain (Einsum [(T 11,[0;1;2;3])] [0;1;2;3]));
  (*1458*) Assign (T 36) (Plain (Zeros [0;0;0;1]));
  (*1459*) AddTo (T 36) (Plain (Einsum [(T 11,[0;1;2;3])] [0;1;2;3]));
  (*1460*) Assign (T 68) (Plain (Zeros [0;0;1;1]));
  (*1461*) AddTo (T 68) (Plain (Einsum [(n_t1,[0;1]); (T 11,[0;2;3;4])] [2;3;1;4]));
  (*1462*) Del (T 11);
  (*1463*) Assign (T 70) (Plain (Zeros [0;0;1;1]));
  (*1464*) AddTo (T 70) (Plain (Einsum [(T 68,[0;1;2;3])] [0;1;2;3]));
  (*1465*) Del (T 68);
  (*1466*) Assign (T 76) (Plain (Zeros [0;0;1;1]));
  (*1467*) AddTo (T 76) (Plain (Einsum [(n_t2,[0;1;2;3]); (T 3,[1;0;4;5])] [5;4;2;3]));
  (*1468*) Assign (T 79) (Plain (Zeros [0;0;1;1]));
  (*1469*) AddTo (T 79) (Times (Einsum [(T 76,[0;1;2;3])] [0;1;2;3]) (20000000000000013) 10000000000000000);
  (*1470*) Del (T 76);
  (*1471*) AddTo n_rdm2_f_oooo (Times (Einsum [(T 3,[0;1;2;3])] [0;2;1;3]) (4) 1);
  (*1472*) SubFrom n_rdm2_f_oooo (Times (Einsum [(T 3,[0;1;2;3])] [0;3;1;2]) (2) 1);
  (*1473*) Del (T 3);
  (*1474*) Assign (T 10) (Plain (Zeros [0;0;0;1]));
  (*1475*) AddTo (T 10) (Plain (Einsum [(n_t2,[0;1;2;3]); (T 2,[1;4;5;2])] [4;5;0;3]));
  (*1476*) SubFrom (T 19) (Plain (Einsum [(T 10,[0;1;2;3])] [0;1;2;3]));
  (*1477*) Del (T 10);
  (*1478*) Assign (T 12) (Plain (Zeros [0;0;0;1]));
  (*1479*) AddTo (T 12) (Times (Einsum [(T 2,[0;1;2;3])] [0;1;2;3]) (2) 1);
  (*1480*) SubFrom (T 12) (Plain (Einsum [(T 2,[0;1;2;3])] [1;0;2;3]));
  (*1481*) Assign (T 13) (Plain (Zeros [0;0;0;1]));
  (*1482*) AddTo (T 13) (Plain (Einsum [(n_t2,[0;1;2;3]); (T 12,[0;4;5;2])] [4;5;1;3]));
  (*1483*) AddTo (T 19) (Plain (Einsum [(T 13,[0;1;2;3])] [0;1;2;3]));
  (*1484*) Del (T 13);
  (*1485*) Assign (T 52) (Plain (Zeros [0;0;1;1]));
  (*1486*) AddTo (T 52) (Plain (Einsum [(n_t1,[0;1]); (T 12,[2;0;3;4])] [2;3;4;1]));
  (*1487*) Del (T 12);
  (*1488*) Assign n_rdm2_f_ovvo (Plain (Zeros [0;1;1;0]));
  (*1489*) SubFrom n_rdm2_f_ovvo (Times (Einsum [(T 52,[0;1;2;3])] [0;2;3;1]) (2) 1);
  (*1490*) Assign n_rdm2_f_voov (Plain (Zeros [1;0;0;1]));
  (*1491*) SubFrom n_rdm2_f_voov (Times (Einsum [(T 52,[0;1;2;3])] [3;1;0;2]) (2) 1);
  (*1492*) Del (T 52);
  (*1493*) Assign (T 21) (Plain (Zeros [0;0;0;1]));
  (*1494*) AddTo (T 21) (Plain (Einsum [(n_t2,[0;1;2;3]); (T 2,[4;1;5;2])] [4;5;0;3]));
  (*1495*) Assign (T 23) (Plain (Zeros [0;0;0;1]));
  (*1496*) SubFrom (T 23) (Plain (Einsum [(T 21,[0;1;2;3])] [0;1;2;3]));
  (*1497*) Assign (T 81) (Plain (Zeros [0;0;0;1]));
  (*1498*) SubFrom (T 81) (Plain (Einsum [(T 21,[0;1;2;3])] [0;1;2;3]));
  (*1499*) Del (T 21);
  (*1500*) Assign (T 25) (Plain (Zeros [0;0;0;1]));
  (*1501*) AddTo (T 25) (Plain (Einsum [(T 2,[0;1;2;3])] [0;1;2;3]));
  (*1502*) AddTo (T 25) (Times (Einsum [(T 2,[0;1;2;3])] [1;0;2;3]) (-1) 2);
  (*1503*) Assign (T 26) (Plain (Zeros [0;1]));
  (*1504*) AddTo (T 26) (Times (Einsum [(n_t2,[0;1;2;3]); (T 25,[1;0;4;3])] [4;2]) (2) 1);
  (*1505*) Assign (T 28) (Plain (Zeros [0;1]));
  (*1506*) AddTo (T 28) (Plain (Einsum [(T 26,[0;1])] [0;1]));
  (*1507*) Del (T 26);
  (*1508*) Assign (T 37) (Plain (Zeros [0;1]));
  (*1509*) AddTo (T 37) (Plain (Einsum [(n_t2,[0;1;2;3]); (T 25,[1;0;4;3])] [4;2]));
  (*1510*) Del (T 25);
  (*1511*) Assign (T 39) (Plain (Zeros [0;1]));
  (*1512*) AddTo (T 39) (Plain (Einsum [(T 37,[0;1])] [0;1]));
  (*1513*) Del (T 37);
  (*1514*) Assign (T 33) (Plain (Zeros [0;0;0;1]));
  (*1515*) AddTo (T 33) (Plain (Einsum [(n_t2,[0;1;2;3]); (T 2,[4;1;5;3])] [4;5;0;2]));
  (*1516*) AddTo (T 36) (Plain (Einsum [(T 33,[0;1;2;3])] [0;1;2;3]));
  (*1517*) Assign (T 59) (Plain (Zeros [0;0;0;1]));
  (*1518*) AddTo (T 59) (Plain (Einsum [(T 33,[0;1;2;3])] [0;1;2;3]));
  (*1519*) Del (T 33);
  (*1520*) Assign (T 44) (Plain (Zeros [0;0;0;1]));
  (*1521*) SubFrom (T 44) (Plain (Einsum [(T 2,[0;1;2;3])] [0;1;2;3]));
  (*1522*) AddTo (T 44) (Times (Einsum [(T 2,[0;1;2;3])] [1;0;2;3]) (2) 1);
  (*1523*) Assign (T 45) (Plain (Zeros [0;0;1;1]));
  (*1524*) AddTo (T 45) (Plain (Einsum [(n_t1,[0;1]); (T 44,[2;0;3;4])] [2;3;4;1]));
  (*1525*) Del (T 44);
  (*1526*) Assign n_rdm2_f_oovv (Plain (Zeros [0;0;1;1]));
  (*1527*) SubFrom n_rdm2_f_oovv (Times (Einsum [(T 45,[0;1;2;3])] [0;1;3;2]) (2) 1);
  (*1528*) Assign n_rdm2_f_vvoo (Plain (Zeros [1;1;0;0]));
  (*1529*) SubFrom n_rdm2_f_vvoo (Times (Einsum [(T 45,[0;1;2;3])] [3;2;0;1]) (2) 1);
  (*1530*) Del (T 45);
  (*1531*) Assign (T 93) (Plain (Zeros [0;0;1;1]));
  (*1532*) AddTo (T 93) (Plain (Einsum [(n_t1,[0;1]); (T 2,[2;0;3;4])] [2;3;4;1]));
  (*1533*) Assign (T 94) (Plain (Zeros [0;0;1;1]));
  (*1534*) AddTo (T 94) (Plain (Einsum [(T 93,[0;1;2;3])] [0;1;2;3]));
  (*1535*) Del (T 93);
  (*1536*) Assign (T 101) (Plain (Zeros [0;1;1;1]));
  (*1537*) AddTo (T 101) (Plain (Einsum [(n_t2,[0;1;2;3]); (T 2,[0;1;4;5])] [4;5;2;3]));
  (*1538*) Assign n_rdm2_f_vovv (Plain (Zeros [1;0;1;1]));
  (*1539*) AddTo n_rdm2_f_vovv (Times (Einsum [(T 101,[0;1;2;3])] [2;0;3;1]) (2) 1);
  (*1540*) AddTo n_rdm2_f_vovv (Times (Einsum [(T 101,[0;1;2;3])] [3;0;2;1]) (-4) 1);
  (*1541*) Assign n_rdm2_f_vvvo (Plain (Zeros [1;1;1;0]));
  (*1542*) AddTo n_rdm2_f_vvvo (Times (Einsum [(T 101,[0;1;2;3])] [2;1;3;0]) (-4) 1);
  (*1543*) AddTo n_rdm2_f_vvvo (Times (Einsum [(T 101,[0;1;2;3])] [3;1;2;0]) (2) 1);
  (*1544*) Del (T 101);
  (*1545*) Assign n_rdm2_f_ooov (Plain (Zeros [0;0;0;1]));
  (*1546*) AddTo n_rdm2_f_ooov (Times (Einsum [(T 2,[0;1;2;3])] [0;2;1;3]) (2) 1);
  (*1547*) SubFrom n_rdm2_f_ooov (Times (Einsum [(T 2,[0;1;2;3])] [1;2;0;3]) (4) 1);
  (*1548*) Assign n_rdm2_f_ovoo (Plain (Zeros [0;1;0;0]));
  (*1549*) SubFrom n_rdm2_f_ovoo (Times (Einsum [(T 2,[0;1;2;3])] [0;3;1;2]) (4) 1);
  (*1550*) AddTo n_rdm2_f_ovoo (Times (Einsum [(T 2,[0;1;2;3])] [1;3;0;2]) (2) 1);
  (*1551*) Assign (T 4) (Plain (Zeros [0;0]));
  (*1552*) AddTo (T 4) (Plain (Einsum [(n_l1,[0;1]); (n_t1,[2;0])] [1;2]));
  (*1553*) Assign (T 22) (Plain (Zeros [0;0]));
  (*1554*) AddTo (T 22) (Plain (Einsum [(T 4,[0;1])] [0;1]));
  (*1555*) Assign (T 31) (Plain (Zeros [0;1]));
  (*1556*) AddTo (T 31) (Plain (Einsum [(n_t1,[0;1]); (T 4,[0;2])] [2;1]));
  (*1557*) Assign (T 32) (Plain (Zeros [0;1]));
  (*1558*) SubFrom (T 32) (Plain (Einsum [(T 31,[0;1])] [0;1]));
  (*1559*) Del (T 31);
  (*1560*) Assign (T 80) (Plain (Zeros [0;0;1;1]));
  (*1561*) AddTo (T 80) (Plain (Einsum [(T 4,[0;1]); (n_t2,[2;0;3;4])] [1;2;3;4]));
  (*1562*) Assign (T 83) (Plain (Zeros [0;0;1;1]));
  (*1563*) AddTo (T 83) (Plain (Einsum [(T 80,[0;1;2;3])] [0;1;2;3]));
  (*1564*) Del (T 80);
  (*1565*) SubFrom n_rdm2_f_oooo (Times (Einsum [(n_delta_oo,[0;1]); (T 4,[2;3])] [1;0;2;3]) (4) 1);
  (*1566*) AddTo n_rdm2_f_oooo (Times (Einsum [(n_delta_oo,[0;1]); (T 4,[2;3])] [2;0;1;3]) (2) 1);
  (*1567*) AddTo n_rdm2_f_oooo (Times (Einsum [(n_delta_oo,[0;1]); (T 4,[2;3])] [1;3;2;0]) (2) 1);
  (*1568*) SubFrom n_rdm2_f_oooo (Times (Einsum [(n_delta_oo,[0;1]); (T 4,[2;3])] [2;3;1;0]) (4) 1);
  (*1569*) Del (T 4);
  (*1570*) Assign (T 5) (Plain (Zeros [0;0]));
  (*1571*) AddTo (T 5) (Plain (Einsum [(n_lu11,[0;1;2]); (n_u11,[0;3;1])] [2;3]));
  (*1572*) Assign (T 15) (Plain (Zeros [0;1]));
  (*1573*) AddTo (T 15) (Plain (Einsum [(n_t1,[0;1]); (T 5,[0;2])] [2;1]));
  (*1574*) Assign (T 18) (Plain (Zeros [0;1]));
  (*1575*) AddTo (T 18) (Plain (Einsum [(T 15,[0;1])] [0;1]));
  (*1576*) Del (T 15);
  (*1577*) AddTo (T 22) (Plain (Einsum [(T 5,[0;1])] [0;1]));
  (*1578*) AddTo (T 23) (Plain (Einsum [(n_t1,[0;1]); (T 22,[2;3])] [2;0;3;1]));
  (*1579*) Assign (T 86) (Plain (Zeros [0;1]));
  (*1580*) AddTo (T 86) (Plain (Einsum [(n_t1,[0;1]); (T 22,[0;2])] [2;1]));
  (*1581*) Del (T 22);
  (*1582*) Assign (T 87) (Plain (Zeros [0;1]));
  (*1583*) AddTo (T 87) (Plain (Einsum [(T 86,[0;1])] [0;1]));
  (*1584*) Assign (T 88) (Plain (Zeros [0;1]));
  (*1585*) AddTo (T 88) (Plain (Einsum [(T 86,[0;1])] [0;1]));
  (*1586*) Del (T 86);
  (*1587*) Assign (T 57) (Plain (Zeros [0;0;1;1]));
  (*1588*) AddTo (T 57) (Plain (Einsum [(T 5,[0;1]); (n_t2,[2;0;3;4])] [2;1;3;4]));
  (*1589*) Assign (T 65) (Plain (Zeros [0;0;1;1]));
  (*1590*) AddTo (T 65) (Plain (Einsum [(T 57,[0;1;2;3])] [0;1;2;3]));
  (*1591*) Del (T 57);
  (*1592*) SubFrom n_rdm2_f_oooo (Times (Einsum [(n_delta_oo,[0;1]); (T 5,[2;3])] [0;1;2;3]) (4) 1);
  (*1593*) AddTo n_rdm2_f_oooo (Times (Einsum [(n_delta_oo,[0;1]); (T 5,[2;3])] [0;3;2;1]) (2) 1);
  (*1594*) AddTo n_rdm2_f_oooo (Times (Einsum [(n_delta_oo,[0;1]); (T 5,[2;3])] [2;0;1;3]) (2) 1);
  (*1595*) SubFrom n_rdm2_f_oooo (Times (Einsum [(n_delta_oo,[0;1]); (T 5,[2;3])] [2;3;1;0]) (4) 1);
  (*1596*) Del (T 5);
  (*1597*) Assign (T 6) (Plain (Zeros [0;0;1;1]));
  (*1598*) AddTo (T 6) (Plain (Einsum [(n_t2,[0;1;2;3])] [1;0;2;3]));
  (*1599*) AddTo (T 6) (Times (Einsum [(n_t2,[0;1;2;3])] [1;0;3;2]) (-1) 2);
  (*1600*) Assign (T 7) (Plain (Zeros [0;0]));
  (*1601*) AddTo (T 7) (Plain (Einsum [(n_l2,[0;1;2;3]); (T 6,[2;4;1;0])] [4;3]));
  (*1602*) Del (T 6);
  (*1603*) Assign (T 27) (Plain (Zeros [0;1]));
  (*1604*) AddTo (T 27) (Times (Einsum [(n_t1,[0;1]); (T 7,[2;0])] [2;1]) (2) 1);
  (*1605*) AddTo (T 28) (Plain (Einsum [(T 27,[0;1])] [0;1]));
  (*1606*) Del (T 27);
  (*1607*) AddTo (T 29) (Times (Einsum [(n_delta_oo,[0;1]); (T 28,[2;3])] [1;0;2;3]) (-4) 1);
  (*1608*) Del (T 28);
  (*1609*) Assign n_rdm2_f_oovo (Plain (Zeros [0;0;1;0]));
  (*1610*) AddTo n_rdm2_f_oovo (Plain (Einsum [(T 29,[0;1;2;3])] [0;1;3;2]));
  (*1611*) AddTo n_rdm2_f_oovo (Times (Einsum [(T 29,[0;1;2;3])] [0;2;3;1]) (-1) 2);
  (*1612*) Del (T 29);
  (*1613*) Assign (T 38) (Plain (Zeros [0;1]));
  (*1614*) AddTo (T 38) (Plain (Einsum [(n_t1,[0;1]); (T 7,[2;0])] [2;1]));
  (*1615*) AddTo (T 39) (Plain (Einsum [(T 38,[0;1])] [0;1]));
  (*1616*) Del (T 38);
  (*1617*) Assign (T 75) (Plain (Zeros [0;0;1;1]));
  (*1618*) AddTo (T 75) (Times (Einsum [(n_t1,[0;1]); (T 39,[2;3])] [0;2;1;3]) (1600000000000001) 200000000000000);
  (*1619*) AddTo n_rdm2_f_vooo (Times (Einsum [(n_delta_oo,[0;1]); (T 39,[2;3])] [3;1;0;2]) (4) 1);
  (*1620*) AddTo n_rdm2_f_vooo (Times (Einsum [(n_delta_oo,[0;1]); (T 39,[2;3])] [3;2;0;1]) (-8) 1);
  (*1621*) Del (T 39);
  (*1622*) Assign (T 74) (Plain (Zeros [0;0;1;1]));
  (*1623*) AddTo (T 74) (Times (Einsum [(T 7,[0;1]); (n_t2,[1;2;3;4])] [0;2;3;4]) (8) 1);
  (*1624*) AddTo (T 75) (Plain (Einsum [(T 74,[0;1;2;3])] [1;0;3;2]));
  (*1625*) Del (T 74);
  (*1626*) AddTo n_rdm2_f_oooo (Times (Einsum [(n_delta_oo,[0;1]); (T 7,[2;3])] [1;0;3;2]) (-8) 1);
  (*1627*) AddTo n_rdm2_f_oooo (Times (Einsum [(n_delta_oo,[0;1]); (T 7,[2;3])] [1;2;3;0]) (4) 1);
  (*1628*) AddTo n_rdm2_f_oooo (Times (Einsum [(n_delta_oo,[0;1]); (T 7,[2;3])] [3;1;0;2]) (4) 1);
  (*1629*) AddTo n_rdm2_f_oooo (Times (Einsum [(n_delta_oo,[0;1]); (T 7,[2;3])] [3;2;0;1]) (-8) 1);
  (*1630*) AddTo n_rdm2_f_oovo (Times (Einsum [(n_t1,[0;1]); (T 7,[2;3])] [3;0;1;2]) (4) 1);
  (*1631*) AddTo n_rdm2_f_oovo (Times (Einsum [(n_t1,[0;1]); (T 7,[2;3])] [3;2;1;0]) (-8) 1);
  (*1632*) AddTo n_rdm2_f_vooo (Times (Einsum [(n_t1,[0;1]); (T 7,[2;3])] [1;0;3;2]) (-8) 1);
  (*1633*) AddTo n_rdm2_f_vooo (Times (Einsum [(n_t1,[0;1]); (T 7,[2;3])] [1;2;3;0]) (4) 1);
  (*1634*) Del (T 7);
  (*1635*) Assign (T 8) (Plain (Zeros [3;0;0]));
  (*1636*) AddTo (T 8) (Plain (Einsum [(n_t1,[0;1]); (n_lu11,[2;1;3])] [2;3;0]));
  (*1637*) Assign (T 9) (Plain (Zeros [0;0;0;1]));
  (*1638*) AddTo (T 9) (Plain (Einsum [(n_u11,[0;1;2]); (T 8,[0;3;4])] [3;4;1;2]));
  (*1639*) AddTo (T 19) (Plain (Einsum [(T 9,[0;1;2;3])] [0;1;2;3]));
  (*1640*) SubFrom (T 36) (Plain (Einsum [(T 9,[0;1;2;3])] [0;1;2;3]));
  (*1641*) Del (T 9);
  (*1642*) Assign (T 14) (Plain (Zeros [0;1]));
  (*1643*) AddTo (T 14) (Plain (Einsum [(n_u11,[0;1;2]); (T 8,[0;1;3])] [3;2]));
  (*1644*) AddTo (T 18) (Plain (Einsum [(T 14,[0;1])] [0;1]));
  (*1645*) AddTo (T 87) (Plain (Einsum [(T 14,[0;1])] [0;1]));
  (*1646*) AddTo (T 88) (Plain (Einsum [(T 14,[0;1])] [0;1]));
  (*1647*) Del (T 14);
  (*1648*) Assign (T 61) (Plain (Zeros [3;0;1]));
  (*1649*) AddTo (T 61) (Plain (Einsum [(n_t1,[0;1]); (T 8,[2;0;3])] [2;3;1]));
  (*1650*) Del (T 8);
  (*1651*) Assign (T 63) (Plain (Zeros [3;0;1]));
  (*1652*) AddTo (T 63) (Plain (Einsum [(T 61,[0;1;2])] [0;1;2]));
  (*1653*) Del (T 61);
  (*1654*) Assign (T 16) (Plain (Zeros [0;0;1;1]));
  (*1655*) SubFrom (T 16) (Plain (Einsum [(n_t2,[0;1;2;3])] [1;0;2;3]));
  (*1656*) AddTo (T 16) (Times (Einsum [(n_t2,[0;1;2;3])] [1;0;3;2]) (2) 1);
  (*1657*) Assign (T 17) (Plain (Zeros [0;1]));
  (*1658*) AddTo (T 17) (Plain (Einsum [(n_l1,[0;1]); (T 16,[1;2;0;3])] [2;3]));
  (*1659*) SubFrom (T 18) (Plain (Einsum [(T 17,[0;1])] [0;1]));
  (*1660*) AddTo (T 19) (Plain (Einsum [(n_delta_oo,[0;1]); (T 18,[2;3])] [1;0;2;3]));
  (*1661*) SubFrom n_rdm2_f_oovo (Times (Einsum [(T 19,[0;1;2;3])] [0;1;3;2]) (4) 1);
  (*1662*) AddTo n_rdm2_f_oovo (Times (Einsum [(T 19,[0;1;2;3])] [0;2;3;1]) (2) 1);
  (*1663*) Del (T 19);
  (*1664*) AddTo n_rdm2_f_vooo (Times (Einsum [(n_delta_oo,[0;1]); (T 18,[2;3])] [3;1;0;2]) (2) 1);
  (*1665*) SubFrom n_rdm2_f_vooo (Times (Einsum [(n_delta_oo,[0;1]); (T 18,[2;3])] [3;2;0;1]) (4) 1);
  (*1666*) Del (T 18);
  (*1667*) SubFrom (T 65) (Plain (Einsum [(n_t1,[0;1]); (T 17,[2;3])] [0;2;1;3]));
  (*1668*) Del (T 17);
  (*1669*) Assign (T 55) (Plain (Zeros [0;0;1;1]));
  (*1670*) AddTo (T 55) (Plain (Einsum [(n_l2,[0;1;2;3]); (T 16,[2;4;0;5])] [4;3;5;1]));
  (*1671*) SubFrom (T 94) (Plain (Einsum [(T 55,[0;1;2;3])] [1;0;3;2]));
  (*1672*) SubFrom n_rdm2_f_vvoo (Times (Einsum [(T 55,[0;1;2;3])] [2;3;1;0]) (2) 1);
  (*1673*) Del (T 55);
  (*1674*) Assign (T 62) (Plain (Zeros [3;0;1]));
  (*1675*) AddTo (T 62) (Plain (Einsum [(n_lu11,[0;1;2]); (T 16,[2;3;1;4])] [0;3;4]));
  (*1676*) SubFrom (T 63) (Plain (Einsum [(T 62,[0;1;2])] [0;1;2]));
  (*1677*) Del (T 62);
  (*1678*) Assign (T 64) (Plain (Zeros [0;0;1;1]));
  (*1679*) AddTo (T 64) (Plain (Einsum [(n_u11,[0;1;2]); (T 63,[0;3;4])] [1;3;2;4]));
  (*1680*) Del (T 63);
  (*1681*) AddTo (T 65) (Plain (Einsum [(T 64,[0;1;2;3])] [1;0;3;2]));
  (*1682*) Del (T 64);
  (*1683*) Assign (T 20) (Plain (Zeros [0;0;0;1]));
  (*1684*) AddTo (T 20) (Plain (Einsum [(n_l1,[0;1]); (n_t2,[2;3;0;4])] [1;3;2;4]));
  (*1685*) AddTo (T 23) (Plain (Einsum [(T 20,[0;1;2;3])] [0;1;2;3]));
  (*1686*) AddTo n_rdm2_f_oovo (Times (Einsum [(T 23,[0;1;2;3])] [0;1;3;2]) (2) 1);
  (*1687*) SubFrom n_rdm2_f_oovo (Times (Einsum [(T 23,[0;1;2;3])] [0;2;3;1]) (4) 1);
  (*1688*) SubFrom n_rdm2_f_vooo (Times (Einsum [(T 23,[0;1;2;3])] [3;1;0;2]) (4) 1);
  (*1689*) AddTo n_rdm2_f_vooo (Times (Einsum [(T 23,[0;1;2;3])] [3;2;0;1]) (2) 1);
  (*1690*) Del (T 23);
  (*1691*) AddTo (T 81) (Plain (Einsum [(T 20,[0;1;2;3])] [0;1;2;3]));
  (*1692*) Del (T 20);
  (*1693*) Assign (T 82) (Plain (Zeros [0;0;1;1]));
  (*1694*) AddTo (T 82) (Plain (Einsum [(n_t1,[0;1]); (T 81,[0;2;3;4])] [2;3;4;1]));
  (*1695*) Del (T 81);
  (*1696*) AddTo (T 83) (Plain (Einsum [(T 82,[0;1;2;3])] [0;1;3;2]));
  (*1697*) Del (T 82);
  (*1698*) Assign n_rdm2_f_vovo (Plain (Zeros [1;0;1;0]));
  (*1699*) AddTo n_rdm2_f_vovo (Times (Einsum [(T 83,[0;1;2;3])] [2;0;3;1]) (2) 1);
  (*1700*) SubFrom n_rdm2_f_vovo (Times (Einsum [(T 83,[0;1;2;3])] [3;0;2;1]) (4) 1);
  (*1701*) SubFrom n_rdm2_f_vovo (Times (Einsum [(T 83,[0;1;2;3])] [2;1;3;0]) (4) 1);
  (*1702*) AddTo n_rdm2_f_vovo (Times (Einsum [(T 83,[0;1;2;3])] [3;1;2;0]) (2) 1);
  (*1703*) Del (T 83);
  (*1704*) Assign (T 30) (Plain (Zeros [0;1]));
  (*1705*) AddTo (T 30) (Plain (Einsum [(n_ls1,[0]); (n_u11,[0;1;2])] [1;2]));
  (*1706*) AddTo (T 32) (Plain (Einsum [(T 30,[0;1])] [0;1]));
  (*1707*) SubFrom (T 87) (Plain (Einsum [(T 30,[0;1])] [0;1]));
  (*1708*) SubFrom (T 88) (Plain (Einsum [(T 30,[0;1])] [0;1]));
  (*1709*) Del (T 30);
  (*1710*) SubFrom n_rdm2_f_vovo (Times (Einsum [(n_t1,[0;1]); (T 88,[2;3])] [1;0;3;2]) (4) 1);
  (*1711*) AddTo n_rdm2_f_vovo (Times (Einsum [(n_t1,[0;1]); (T 88,[2;3])] [3;0;1;2]) (2) 1);
  (*1712*) Del (T 88);
  (*1713*) AddTo (T 32) (Plain (Einsum [(n_t1,[0;1])] [0;1]));
  (*1714*) SubFrom n_rdm2_f_oovo (Times (Einsum [(n_delta_oo,[0;1]); (T 32,[2;3])] [1;2;3;0]) (2) 1);
  (*1715*) AddTo n_rdm2_f_oovo (Times (Einsum [(n_delta_oo,[0;1]); (T 32,[2;3])] [1;0;3;2]) (4) 1);
  (*1716*) AddTo n_rdm2_f_vooo (Times (Einsum [(n_delta_oo,[0;1]); (T 32,[2;3])] [3;2;1;0]) (4) 1);
  (*1717*) SubFrom n_rdm2_f_vooo (Times (Einsum [(n_delta_oo,[0;1]); (T 32,[2;3])] [3;0;1;2]) (2) 1);
  (*1718*) Del (T 32);
  (*1719*) Assign (T 34) (Plain (Zeros [0;0;1;1]));
  (*1720*) AddTo (T 34) (Times (Einsum [(n_t2,[0;1;2;3])] [1;0;2;3]) (2) 1);
  (*1721*) SubFrom (T 34) (Plain (Einsum [(n_t2,[0;1;2;3])] [1;0;3;2]));
  (*1722*) Assign (T 35) (Plain (Zeros [0;0;0;1]));
  (*1723*) AddTo (T 35) (Plain (Einsum [(T 2,[0;1;2;3]); (T 34,[0;4;5;3])] [4;1;2;5]));
  (*1724*) Del (T 2);
  (*1725*) SubFrom (T 36) (Plain (Einsum [(T 35,[0;1;2;3])] [1;2;0;3]));
  (*1726*) SubFrom n_rdm2_f_vooo (Times (Einsum [(T 36,[0;1;2;3])] [3;1;0;2]) (2) 1);
  (*1727*) AddTo n_rdm2_f_vooo (Times (Einsum [(T 36,[0;1;2;3])] [3;2;0;1]) (4) 1);
  (*1728*) Del (T 36);
  (*1729*) SubFrom (T 59) (Plain (Einsum [(T 35,[0;1;2;3])] [1;2;0;3]));
  (*1730*) Del (T 35);
  (*1731*) Assign (T 60) (Plain (Zeros [0;0;1;1]));
  (*1732*) AddTo (T 60) (Plain (Einsum [(n_t1,[0;1]); (T 59,[0;2;3;4])] [2;3;4;1]));
  (*1733*) Del (T 59);
  (*1734*) SubFrom (T 65) (Plain (Einsum [(T 60,[0;1;2;3])] [0;1;3;2]));
  (*1735*) Del (T 60);
  (*1736*) SubFrom n_rdm2_f_vvoo (Times (Einsum [(n_l2,[0;1;2;3]); (T 34,[2;4;1;5])] [5;0;3;4]) (2) 1);
  (*1737*) Del (T 34);
  (*1738*) Assign (T 40) (Plain (Zeros [0;0;1;1]));
  (*1739*) AddTo (T 40) (Plain (Einsum [(n_lu11,[0;1;2]); (n_u11,[0;3;4])] [2;3;1;4]));
  (*1740*) SubFrom n_rdm2_f_oovv (Times (Einsum [(T 40,[0;1;2;3])] [0;1;3;2]) (2) 1);
  (*1741*) AddTo n_rdm2_f_ovvo (Times (Einsum [(T 40,[0;1;2;3])] [0;2;3;1]) (4) 1);
  (*1742*) AddTo n_rdm2_f_voov (Times (Einsum [(T 40,[0;1;2;3])] [3;1;0;2]) (4) 1);
  (*1743*) SubFrom n_rdm2_f_vvoo (Times (Einsum [(T 40,[0;1;2;3])] [3;2;0;1]) (2) 1);
  (*1744*) Del (T 40);
  (*1745*) Assign (T 41) (Plain (Zeros [0;0;1;1]));
  (*1746*) SubFrom (T 41) (Plain (Einsum [(n_l2,[0;1;2;3])] [3;2;0;1]));
  (*1747*) AddTo (T 41) (Times (Einsum [(n_l2,[0;1;2;3])] [3;2;1;0]) (2) 1);
  (*1748*) Assign (T 42) (Plain (Zeros [0;0;1;1]));
  (*1749*) AddTo (T 42) (Plain (Einsum [(n_t2,[0;1;2;3]); (T 41,[0;4;2;5])] [4;1;5;3]));
  (*1750*) Assign (T 58) (Plain (Zeros [0;0;1;1]));
  (*1751*) AddTo (T 58) (Plain (Einsum [(n_t2,[0;1;2;3]); (T 42,[0;4;3;5])] [4;1;5;2]));
  (*1752*) AddTo (T 65) (Plain (Einsum [(T 58,[0;1;2;3])] [0;1;2;3]));
  (*1753*) Del (T 58);
  (*1754*) Assign (T 69) (Plain (Zeros [0;0;1;1]));
  (*1755*) AddTo (T 69) (Plain (Einsum [(n_t2,[0;1;2;3]); (T 42,[0;4;2;5])] [4;1;5;3]));
  (*1756*) AddTo (T 70) (Times (Einsum [(T 69,[0;1;2;3])] [0;1;2;3]) (2) 1);
  (*1757*) Del (T 69);
  (*1758*) SubFrom n_rdm2_f_oovv (Times (Einsum [(T 42,[0;1;2;3])] [0;1;3;2]) (2) 1);
  (*1759*) Del (T 42);
  (*1760*) Assign (T 51) (Plain (Zeros [0;0;1;1]));
  (*1761*) AddTo (T 51) (Plain (Einsum [(T 16,[0;1;2;3]); (T 41,[0;4;2;5])] [1;4;3;5]));
  (*1762*) Del (T 41);
  (*1763*) Del (T 16);
  (*1764*) AddTo n_rdm2_f_ovvo (Times (Einsum [(T 51,[0;1;2;3])] [1;3;2;0]) (2) 1);
  (*1765*) AddTo n_rdm2_f_voov (Times (Einsum [(T 51,[0;1;2;3])] [2;0;1;3]) (2) 1);
  (*1766*) Del (T 51);
  (*1767*) Assign (T 43) (Plain (Zeros [0;0;1;1]));
  (*1768*) AddTo (T 43) (Times (Einsum [(n_l2,[0;1;2;3])] [3;2;0;1]) (2) 1);
  (*1769*) SubFrom (T 43) (Plain (Einsum [(n_l2,[0;1;2;3])] [3;2;1;0]));
  (*1770*) SubFrom n_rdm2_f_oovv (Times (Einsum [(n_t2,[0;1;2;3]); (T 43,[0;4;3;5])] [4;1;2;5]) (2) 1);
  (*1771*) Del (T 43);
  (*1772*) Assign (T 46) (Plain (Zeros [1;1]));
  (*1773*) AddTo (T 46) (Plain (Einsum [(n_l1,[0;1]); (n_t1,[1;2])] [0;2]));
  (*1774*) Assign (T 50) (Plain (Zeros [1;1]));
  (*1775*) AddTo (T 50) (Times (Einsum [(T 46,[0;1])] [0;1]) (1) 2);
  (*1776*) Assign (T 54) (Plain (Zeros [1;1]));
  (*1777*) AddTo (T 54) (Plain (Einsum [(T 46,[0;1])] [0;1]));
  (*1778*) Assign (T 99) (Plain (Zeros [1;1]));
  (*1779*) AddTo (T 99) (Plain (Einsum [(T 46,[0;1])] [0;1]));
  (*1780*) Del (T 46);
  (*1781*) Assign (T 47) (Plain (Zeros [1;1]));
  (*1782*) AddTo (T 47) (Plain (Einsum [(n_lu11,[0;1;2]); (n_u11,[0;2;3])] [1;3]));
  (*1783*) AddTo (T 50) (Times (Einsum [(T 47,[0;1])] [0;1]) (1) 2);
  (*1784*) AddTo (T 54) (Plain (Einsum [(T 47,[0;1])] [0;1]));
  (*1785*) Assign (T 56) (Plain (Zeros [0;0;1;1]));
  (*1786*) AddTo (T 56) (Plain (Einsum [(T 47,[0;1]); (n_t2,[2;3;4;0])] [2;3;4;1]));
  (*1787*) AddTo (T 65) (Plain (Einsum [(T 56,[0;1;2;3])] [0;1;2;3]));
  (*1788*) Del (T 56);
  (*1789*) SubFrom n_rdm2_f_vovo (Times (Einsum [(T 65,[0;1;2;3])] [2;0;3;1]) (4) 1);
  (*1790*) AddTo n_rdm2_f_vovo (Times (Einsum [(T 65,[0;1;2;3])] [3;0;2;1]) (2) 1);
  (*1791*) AddTo n_rdm2_f_vovo (Times (Einsum [(T 65,[0;1;2;3])] [2;1;3;0]) (2) 1);
  (*1792*) SubFrom n_rdm2_f_vovo (Times (Einsum [(T 65,[0;1;2;3])] [3;1;2;0]) (4) 1);
  (*1793*) Del (T 65);
  (*1794*) AddTo (T 99) (Plain (Einsum [(T 47,[0;1])] [0;1]));
  (*1795*) Del (T 47);
  (*1796*) Assign (T 100) (Plain (Zeros [0;1;1;1]));
  (*1797*) AddTo (T 100) (Plain (Einsum [(n_t1,[0;1]); (T 99,[2;3])] [0;2;1;3]));
  (*1798*) Del (T 99);
  (*1799*) Assign (T 48) (Plain (Zeros [0;0;1;1]));
  (*1800*) AddTo (T 48) (Plain (Einsum [(n_l2,[0;1;2;3])] [3;2;0;1]));
  (*1801*) AddTo (T 48) (Times (Einsum [(n_l2,[0;1;2;3])] [3;2;1;0]) (-1) 2);
  (*1802*) Assign (T 49) (Plain (Zeros [1;1]));
  (*1803*) AddTo (T 49) (Plain (Einsum [(n_t2,[0;1;2;3]); (T 48,[0;1;3;4])] [4;2]));
  (*1804*) AddTo (T 50) (Plain (Einsum [(T 49,[0;1])] [0;1]));
  (*1805*) AddTo n_rdm2_f_oovv (Times (Einsum [(n_delta_oo,[0;1]); (T 50,[2;3])] [1;0;3;2]) (8) 1);
  (*1806*) Del (T 50);
  (*1807*) Assign (T 73) (Plain (Zeros [0;0;1;1]));
  (*1808*) AddTo (T 73) (Times (Einsum [(T 49,[0;1]); (n_t2,[2;3;0;4])] [2;3;1;4]) (8) 1);
  (*1809*) AddTo (T 75) (Plain (Einsum [(T 73,[0;1;2;3])] [1;0;3;2]));
  (*1810*) Del (T 73);
  (*1811*) AddTo n_rdm2_f_vovo (Times (Einsum [(T 75,[0;1;2;3])] [2;0;3;1]) (-1) 1);
  (*1812*) AddTo n_rdm2_f_vovo (Times (Einsum [(T 75,[0;1;2;3])] [3;0;2;1]) (1) 2);
  (*1813*) AddTo n_rdm2_f_vovo (Times (Einsum [(T 75,[0;1;2;3])] [2;1;3;0]) (1) 2);
  (*1814*) AddTo n_rdm2_f_vovo (Times (Einsum [(T 75,[0;1;2;3])] [3;1;2;0]) (-1) 1);
  (*1815*) Del (T 75);
  (*1816*) AddTo n_rdm2_f_vovv (Times (Einsum [(n_t1,[0;1]); (T 49,[2;3])] [1;0;3;2]) (8) 1);
  (*1817*) AddTo n_rdm2_f_vovv (Times (Einsum [(n_t1,[0;1]); (T 49,[2;3])] [3;0;1;2]) (-4) 1);
  (*1818*) AddTo n_rdm2_f_vvvo (Times (Einsum [(n_t1,[0;1]); (T 49,[2;3])] [1;2;3;0]) (-4) 1);
  (*1819*) AddTo n_rdm2_f_vvvo (Times (Einsum [(n_t1,[0;1]); (T 49,[2;3])] [3;2;1;0]) (8) 1);
  (*1820*) Del (T 49);
  (*1821*) Assign (T 53) (Plain (Zeros [1;1]));
  (*1822*) AddTo (T 53) (Times (Einsum [(n_t2,[0;1;2;3]); (T 48,[0;1;3;4])] [4;2]) (2) 1);
  (*1823*) Del (T 48);
  (*1824*) AddTo (T 54) (Plain (Einsum [(T 53,[0;1])] [0;1]));
  (*1825*) Del (T 53);
  (*1826*) AddTo n_rdm2_f_ovvo (Times (Einsum [(n_delta_oo,[0;1]); (T 54,[2;3])] [1;2;3;0]) (-2) 1);
  (*1827*) AddTo n_rdm2_f_voov (Times (Einsum [(n_delta_oo,[0;1]); (T 54,[2;3])] [3;0;1;2]) (-2) 1);
  (*1828*) AddTo n_rdm2_f_vvoo (Times (Einsum [(n_delta_oo,[0;1]); (T 54,[2;3])] [3;2;1;0]) (4) 1);
  (*1829*) Del (T 54);
  (*1830*) Assign (T 66) (Plain (Zeros [0;0;1;1]));
  (*1831*) AddTo (T 66) (Plain (Einsum [(n_l2,[0;1;2;3]); (n_t2,[4;3;1;5])] [2;4;0;5]));
  (*1832*) Assign (T 67) (Plain (Zeros [0;0;1;1]));
  (*1833*) AddTo (T 67) (Plain (Einsum [(n_t2,[0;1;2;3]); (T 66,[1;4;2;5])] [0;4;3;5]));
  (*1834*) Del (T 66);
  (*1835*) AddTo (T 70) (Plain (Einsum [(T 67,[0;1;2;3])] [0;1;2;3]));
  (*1836*) Del (T 67);
  (*1837*) AddTo (T 70) (Plain (Einsum [(n_t2,[0;1;2;3])] [1;0;3;2]));
  (*1838*) SubFrom n_rdm2_f_vovo (Times (Einsum [(T 70,[0;1;2;3])] [3;0;2;1]) (2) 1);
  (*1839*) AddTo n_rdm2_f_vovo (Times (Einsum [(T 70,[0;1;2;3])] [2;0;3;1]) (4) 1);
  (*1840*) Del (T 70);
  (*1841*) Assign (T 71) (Plain (Zeros [0;0;1;1]));
  (*1842*) AddTo (T 71) (Plain (Einsum [(n_l2,[0;1;2;3]); (n_t2,[4;3;0;5])] [2;4;1;5]));
  (*1843*) Assign (T 72) (Plain (Zeros [0;0;1;1]));
  (*1844*) AddTo (T 72) (Plain (Einsum [(n_t2,[0;1;2;3]); (T 71,[1;4;2;5])] [0;4;3;5]));
  (*1845*) AddTo n_rdm2_f_vovo (Times (Einsum [(T 72,[0;1;2;3])] [2;1;3;0]) (4) 1);
  (*1846*) SubFrom n_rdm2_f_vovo (Times (Einsum [(T 72,[0;1;2;3])] [3;1;2;0]) (2) 1);
  (*1847*) Del (T 72);
  (*1848*) Assign (T 98) (Plain (Zeros [0;1;1;1]));
  (*1849*) AddTo (T 98) (Plain (Einsum [(n_t1,[0;1]); (T 71,[0;2;3;4])] [2;3;1;4]));
  (*1850*) Del (T 71);
  (*1851*) SubFrom (T 100) (Plain (Einsum [(T 98,[0;1;2;3])] [0;1;2;3]));
  (*1852*) Del (T 98);
  (*1853*) Assign (T 77) (Plain (Zeros [0;0;1;1]));
  (*1854*) AddTo (T 77) (Plain (Einsum [(n_t2,[0;1;2;3])] [1;0;3;2]));
  (*1855*) AddTo (T 77) (Plain (Einsum [(n_t1,[0;1]); (n_t1,[2;3])] [0;2;1;3]));
  (*1856*) Assign (T 78) (Plain (Zeros [0;0;1;1]));
  (*1857*) AddTo (T 78) (Times (Einsum [(T 1,[0;1;2;3]); (T 77,[0;1;4;5])] [2;3;4;5]) (2) 1);
  (*1858*) Del (T 1);
  (*1859*) Del (T 77);
  (*1860*) AddTo (T 79) (Plain (Einsum [(T 78,[0;1;2;3])] [1;0;3;2]));
  (*1861*) Del (T 78);
  (*1862*) AddTo n_rdm2_f_vovo (Times (Einsum [(T 79,[0;1;2;3])] [2;1;3;0]) (-1) 1);
  (*1863*) AddTo n_rdm2_f_vovo (Times (Einsum [(T 79,[0;1;2;3])] [3;1;2;0]) (2) 1);
  (*1864*) Del (T 79);
  (*1865*) Assign (T 84) (Plain (Zeros [3;0;1]));
  (*1866*) AddTo (T 84) (Plain (Einsum [(n_ls2,[0;1]); (n_u11,[1;2;3])] [0;2;3]));
  (*1867*) Assign (T 85) (Plain (Zeros [0;0;1;1]));
  (*1868*) AddTo (T 85) (Plain (Einsum [(n_u11,[0;1;2]); (T 84,[0;3;4])] [3;1;4;2]));
  (*1869*) Del (T 84);
  (*1870*) SubFrom n_rdm2_f_vovo (Times (Einsum [(T 85,[0;1;2;3])] [3;0;2;1]) (2) 1);
  (*1871*) AddTo n_rdm2_f_vovo (Times (Einsum [(T 85,[0;1;2;3])] [3;1;2;0]) (4) 1);
  (*1872*) Del (T 85);
  (*1873*) SubFrom (T 87) (Plain (Einsum [(n_t1,[0;1])] [0;1]));
  (*1874*) SubFrom n_rdm2_f_vovo (Times (Einsum [(n_t1,[0;1]); (T 87,[2;3])] [3;2;1;0]) (4) 1);
  (*1875*) AddTo n_rdm2_f_vovo (Times (Einsum [(n_t1,[0;1]); (T 87,[2;3])] [1;2;3;0]) (2) 1);
  (*1876*) Del (T 87);
  (*1877*) Assign (T 89) (Plain (Zeros [0;1;1;1]));
  (*1878*) AddTo (T 89) (Plain (Einsum [(n_t1,[0;1]); (n_l2,[2;3;4;0])] [4;2;3;1]));
  (*1879*) Assign (T 103) (Plain (Zeros [1;1;1;1]));
  (*1880*) AddTo (T 103) (Plain (Einsum [(n_t1,[0;1]); (T 89,[0;2;3;4])] [3;2;4;1]));
  (*1881*) Assign n_rdm2_f_vvvv (Plain (Zeros [1;1;1;1]));
  (*1882*) SubFrom n_rdm2_f_vvvv (Times (Einsum [(T 103,[0;1;2;3])] [2;1;3;0]) (2) 1);
  (*1883*) AddTo n_rdm2_f_vvvv (Times (Einsum [(T 103,[0;1;2;3])] [3;1;2;0]) (4) 1);
  (*1884*) Del (T 103);
  (*1885*) Assign n_rdm2_f_ovvv (Plain (Zeros [0;1;1;1]));
  (*1886*) AddTo n_rdm2_f_ovvv (Times (Einsum [(T 89,[0;1;2;3])] [0;1;3;2]) (4) 1);
  (*1887*) SubFrom n_rdm2_f_ovvv (Times (Einsum [(T 89,[0;1;2;3])] [0;2;3;1]) (2) 1);
  (*1888*) Assign n_rdm2_f_vvov (Plain (Zeros [1;1;0;1]));
  (*1889*) SubFrom n_rdm2_f_vvov (Times (Einsum [(T 89,[0;1;2;3])] [3;1;0;2]) (2) 1);
  (*1890*) AddTo n_rdm2_f_vvov (Times (Einsum [(T 89,[0;1;2;3])] [3;2;0;1]) (4) 1);
  (*1891*) Del (T 89);
  (*1892*) Assign (T 90) (Plain (Zeros [3;1;1]));
  (*1893*) AddTo (T 90) (Plain (Einsum [(n_t1,[0;1]); (n_lu11,[2;3;0])] [2;3;1]));
  (*1894*) Assign (T 91) (Plain (Zeros [0;1;1;1]));
  (*1895*) AddTo (T 91) (Plain (Einsum [(n_u11,[0;1;2]); (T 90,[0;3;4])] [1;3;4;2]));
  (*1896*) Del (T 90);
  (*1897*) Assign (T 96) (Plain (Zeros [0;1;1;1]));
  (*1898*) SubFrom (T 96) (Plain (Einsum [(T 91,[0;1;2;3])] [0;1;2;3]));
  (*1899*) Del (T 91);
  (*1900*) Assign (T 92) (Plain (Zeros [0;0;1;1]));
  (*1901*) AddTo (T 92) (Plain (Einsum [(n_l2,[0;1;2;3]); (n_t2,[4;3;5;0])] [2;4;1;5]));
  (*1902*) AddTo (T 94) (Plain (Einsum [(T 92,[0;1;2;3])] [0;1;2;3]));
  (*1903*) Del (T 92);
  (*1904*) Assign (T 95) (Plain (Zeros [0;1;1;1]));
  (*1905*) AddTo (T 95) (Plain (Einsum [(n_t1,[0;1]); (T 94,[0;2;3;4])] [2;3;4;1]));
  (*1906*) Del (T 94);
  (*1907*) AddTo (T 96) (Plain (Einsum [(T 95,[0;1;2;3])] [0;1;3;2]));
  (*1908*) Del (T 95);
  (*1909*) AddTo n_rdm2_f_vovv (Times (Einsum [(T 96,[0;1;2;3])] [2;0;3;1]) (2) 1);
  (*1910*) SubFrom n_rdm2_f_vovv (Times (Einsum [(T 96,[0;1;2;3])] [3;0;2;1]) (4) 1);
  (*1911*) SubFrom n_rdm2_f_vvvo (Times (Einsum [(T 96,[0;1;2;3])] [2;1;3;0]) (4) 1);
  (*1912*) AddTo n_rdm2_f_vvvo (Times (Einsum [(T 96,[0;1;2;3])] [3;1;2;0]) (2) 1);
  (*1913*) Del (T 96);
  (*1914*) Assign (T 97) (Plain (Zeros [0;1;1;1]));
  (*1915*) AddTo (T 97) (Plain (Einsum [(n_l1,[0;1]); (n_t2,[2;1;3;4])] [2;0;3;4]));
  (*1916*) AddTo (T 100) (Plain (Einsum [(T 97,[0;1;2;3])] [0;1;2;3]));
  (*1917*) Del (T 97);
  (*1918*) AddTo n_rdm2_f_vovv (Times (Einsum [(T 100,[0;1;2;3])] [2;0;3;1]) (4) 1);
  (*1919*) SubFrom n_rdm2_f_vovv (Times (Einsum [(T 100,[0;1;2;3])] [3;0;2;1]) (2) 1);
  (*1920*) SubFrom n_rdm2_f_vvvo (Times (Einsum [(T 100,[0;1;2;3])] [2;1;3;0]) (2) 1);
  (*1921*) AddTo n_rdm2_f_vvvo (Times (Einsum [(T 100,[0;1;2;3])] [3;1;2;0]) (4) 1);
  (*1922*) Del (T 100);
  (*1923*) Assign (T 102) (Plain (Zeros [1;1;1;1]));
  (*1924*) AddTo (T 102) (Plain (Einsum [(n_l2,[0;1;2;3]); (n_t2,[2;3;4;5])] [0;1;4;5]));
  (*1925*) AddTo n_rdm2_f_vvvv (Times (Einsum [(T 102,[0;1;2;3])] [2;1;3;0]) (-2) 1);
  (*1926*) AddTo n_rdm2_f_vvvv (Times (Einsum [(T 102,[0;1;2;3])] [3;1;2;0]) (4) 1);
  (*1927*) Del (T 102);
  (*1928*) AddTo n_rdm2_f_oooo (Times (Einsum [(n_delta_oo,[0;1]); (n_delta_oo,[2;3])] [1;0;3;2]) (4) 1);
  (*1929*) SubFrom n_rdm2_f_oooo (Times (Einsum [(n_delta_oo,[0;1]); (n_delta_oo,[2;3])] [3;1;0;2]) (2) 1);
  (*1930*) AddTo n_rdm2_f_ooov (Times (Einsum [(n_delta_oo,[0;1]); (n_l1,[2;3])] [1;0;3;2]) (4) 1);
  (*1931*) SubFrom n_rdm2_f_ooov (Times (Einsum [(n_delta_oo,[0;1]); (n_l1,[2;3])] [3;0;1;2]) (2) 1);
  (*1932*) SubFrom n_rdm2_f_ovoo (Times (Einsum [(n_delta_oo,[0;1]); (n_l1,[2;3])] [1;2;3;0]) (2) 1);
  (*1933*) AddTo n_rdm2_f_ovoo (Times (Einsum [(n_delta_oo,[0;1]); (n_l1,[2;3])] [3;2;1;0]) (4) 1);
  (*1934*) Assign n_rdm2_f_ovov (Plain (Zeros [0;1;0;1]));
  (*1935*) SubFrom n_rdm2_f_ovov (Times (Einsum [(n_l2,[0;1;2;3])] [3;0;2;1]) (2) 1);
  (*1936*) AddTo n_rdm2_f_ovov (Times (Einsum [(n_l2,[0;1;2;3])] [3;1;2;0]) (4) 1);
  (*1937*) SubFrom n_rdm2_f_oovv (Times (Einsum [(n_l1,[0;1]); (n_t1,[2;3])] [1;2;3;0]) (2) 1);
  (*1938*) AddTo n_rdm2_f_ovvo (Times (Einsum [(n_l1,[0;1]); (n_t1,[2;3])] [1;0;3;2]) (4) 1);
  (*1939*) AddTo n_rdm2_f_voov (Times (Einsum [(n_l1,[0;1]); (n_t1,[2;3])] [3;2;1;0]) (4) 1);
  (*1940*) SubFrom n_rdm2_f_vvoo (Times (Einsum [(n_l1,[0;1]); (n_t1,[2;3])] [3;0;1;2]) (2) 1)]
 [(n_rdm2_f_oooo,[0;0;0;0]); (n_rdm2_f_ooov,[0;0;0;1]); (n_rdm2_f_oovo,[0;0;1;0]); (n_rdm2_f_ovoo,[0;1;0;0]); (n_rdm2_f_vooo,[1;0;0;0]); (n_rdm2_f_oovv,[0;0;1;1]); (n_rdm2_f_ovov,[0;1;0;1]); (n_rdm2_f_ovvo,[0;1;1;0]); (n_rdm2_f_voov,[1;0;0;1]); (n_rdm2_f_vovo,[1;0;1;0]); (n_rdm2_f_vvoo,[1;1;0;0]); (n_rdm2_f_ovvv,[0;1;1;1]); (n_rdm2_f_vovv,[1;0;1;1]); (n_rdm2_f_vvov,[1;1;0;1]); (n_rdm2_f_vvvo,[1;1;1;0]); (n_rdm2_f_vvvv,[1;1;1;1])].

(** ebcc/codegen/RCCSD_SD_1_1.py:1946-1965 [make_sing_b_dm]; assembly (line 1963) not translated *)
Definition RCCSD_SD_1_1_make_sing_b_dm : prog := mkprog
 [(n_g'boo,[3;0;0]); (n_g'bvo,[3;1;0]); (n_g'bov,[3;0;1]); (n_g'bvv,[3;1;1]); (n_ls1,[3]); (n_s1,[3]); (n_l1,[1;0]); (n_u11,[3;0;1]); (n_s2,[3;3])]
 [(*1948*) Assign n_gc'boo (Plain (Transpose n_g'boo [0;2;1]));
  (*1948*) Assign n_gc'bov (Plain (Transpose n_g'bvo [0;2;1]));
  (*1948*) Assign n_gc'bvo (Plain (Transpose n_g'bov [0;2;1]));
  (*1948*) Assign n_gc'bvv (Plain (Transpose n_g'bvv [0;2;1]));
  (*1956*) Assign n_dm_b_cre (Plain (Zeros [3]));
  (*1957*) AddTo n_dm_b_cre (Plain (Einsum [(n_ls1,[0])] [0]));
  (*1958*) Assign n_dm_b_des (Plain (Zeros [3]));
  (*1959*) AddTo n_dm_b_des (Plain (Einsum [(n_s1,[0])] [0]));
  (*1960*) AddTo n_dm_b_des (Times (Einsum [(n_l1,[0;1]); (n_u11,[2;1;0])] [2]) (2) 1);
  (*1961*) AddTo n_dm_b_des (Plain (Einsum [(n_ls1,[0]); (n_s2,[1;0])] [1]))]
 [(n_dm_b_cre,[3]); (n_dm_b_des,[3])].

(** ebcc/codegen/RCCSD_SD_1_1.py:1967-1982 [make_rdm1_b] *)
Definition RCCSD_SD_1_1_make_rdm1_b : prog := mkprog
 [(n_g'boo,[3;0;0]); (n_g'bvo,[3;1;0]); (n_g'bov,[3;0;1]); (n_g'bvv,[3;1;1]); (n_ls1,[3]); (n_s1,[3]); (n_ls2,[3;3]); (n_s2,[3;3]); (n_lu11,[3;1;0]); (n_u11,[3;0;1])]
 [(*1969*) Assign n_gc'boo (Plain (Transpose n_g'boo [0;2;1]));
  (*1969*) Assign n_gc'bov (Plain (Transpose n_g'bvo [0;2;1]));
  (*1969*) Assign n_gc'bvo (Plain (Transpose n_g'bov [0;2;1]));
  (*1969*) Assign n_gc'bvv (Plain (Transpose n_g'bvv [0;2;1]));
  (*1977*) Assign n_rdm1_b (Plain (Zeros [3;3]));
  (*1978*) AddTo n_rdm1_b (Plain (Einsum [(n_ls1,[0]); (n_s1,[1])] [0;1]));
  (*1979*) AddTo n_rdm1_b (Plain (Einsum [(n_ls2,[0;1]); (n_s2,[2;1])] [0;2]));
  (*1980*) AddTo n_rdm1_b (Times (Einsum [(n_lu11,[0;1;2]); (n_u11,[3;2;1])] [0;3]) (2) 1)]
 [(n_rdm1_b,[3;3])].

(** ebcc/codegen/RCCSD_SD_1_1.py:1984-2149 [make_eb_coup_rdm]; assembly (line 2144) not translated *)
Definition RCCSD_SD_1_1_make_eb_coup_rdm : prog := mkprog
 [(n_g'boo,[3;0;0]); (n_g'bvo,[3;1;0]); (n_g'bov,[3;0;1]); (n_g'bvv,[3;1;1]); (n_t1,[0;1]); (n_lu11,[3;1;0]); (n_u11,[3;0;1]); (n_t2,[0;0;1;1]); (n_l1,[1;0]); (n_s2,[3;3]); (n_l2,[1;1;0;0]); (n_s1,[3]); (n_ls1,[3]); (n_ls2,[3;3])]
 [(*1986*) Assign n_gc'boo (Plain (Transpose n_g'boo [0;2;1]));
  (*1986*) Assign n_gc'bov (Plain (Transpose n_g'bvo [0;2;1]));
  (*1986*) Assign n_gc'bvo (Plain (Transpose n_g'bov [0;2;1]));
  (*1986*) Assign n_gc'bvv (Plain (Transpose n_g'bvv [0;2;1]));
  (*1993*) Assign n_delta_oo (Plain (Eye 0));
  (*1994*) Assign n_delta_vv (Plain (Eye 1));
  (*1997*) Assign (T 1) (Plain (Zeros [3;0;0]));
  (*1998*) AddTo (T 1) (Plain (Einsum [(n_t1,[0;1]); (n_lu11,[2;1;3])] [2;3;0]));
  (*1999*) Assign (T 28) (Plain (Zeros [0;1]));
  (*2000*) AddTo (T 28) (Plain (Einsum [(n_u11,[0;1;2]); (T 1,[0;1;3])] [3;2]));
  (*2001*) Assign n_rdm_eb_cre_oo (Plain (Zeros [3;0;0]));
  (*2002*) SubFrom n_rdm_eb_cre_oo (Times (Einsum [(T 1,[0;1;2])] [0;2;1]) (2) 1);
  (*2003*) Assign n_rdm_eb_cre_ov (Plain (Zeros [3;0;1]));
  (*2004*) SubFrom n_rdm_eb_cre_ov (Times (Einsum [(n_t1,[0;1]); (T 1,[2;0;3])] [2;3;1]) (2) 1);
  (*2005*) Del (T 1);
  (*2006*) Assign (T 2) (Plain (Zeros [0;0;1;1]));
  (*2007*) AddTo (T 2) (Times (Einsum [(n_t2,[0;1;2;3])] [1;0;2;3]) (2) 1);
  (*2008*) SubFrom (T 2) (Plain (Einsum [(n_t2,[0;1;2;3])] [1;0;3;2]));
  (*2009*) AddTo n_rdm_eb_cre_ov (Times (Einsum [(n_lu11,[0;1;2]); (T 2,[2;3;4;1])] [0;3;4]) (2) 1);
  (*2010*) Assign (T 3) (Plain (Zeros [3;0;0]));
  (*2011*) AddTo (T 3) (Plain (Einsum [(n_l1,[0;1]); (n_u11,[2;3;0])] [2;1;3]));
  (*2012*) Assign (T 22) (Plain (Zeros [3;0;0]));
  (*2013*) AddTo (T 22) (Plain (Einsum [(T 3,[0;1;2])] [0;1;2]));
  (*2014*) Assign n_rdm_eb_des_oo (Plain (Zeros [3;0;0]));
  (*2015*) SubFrom n_rdm_eb_des_oo (Times (Einsum [(T 3,[0;1;2])] [0;2;1]) (2) 1);
  (*2016*) Del (T 3);
  (*2017*) Assign (T 4) (Plain (Zeros [3;0;1]));
  (*2018*) AddTo (T 4) (Plain (Einsum [(n_s2,[0;1]); (n_lu11,[1;2;3])] [0;3;2]));
  (*2019*) Assign (T 7) (Plain (Zeros [3;0;1]));
  (*2020*) AddTo (T 7) (Plain (Einsum [(T 4,[0;1;2])] [0;1;2]));
  (*2021*) Assign n_rdm_eb_des_vo (Plain (Zeros [3;1;0]));
  (*2022*) AddTo n_rdm_eb_des_vo (Times (Einsum [(T 4,[0;1;2])] [0;2;1]) (2) 1);
  (*2023*) Del (T 4);
  (*2024*) Assign (T 5) (Plain (Zeros [0;0;1;1]));
  (*2025*) AddTo (T 5) (Times (Einsum [(n_l2,[0;1;2;3])] [3;2;0;1]) (2) 1);
  (*2026*) SubFrom (T 5) (Plain (Einsum [(n_l2,[0;1;2;3])] [3;2;1;0]));
  (*2027*) Assign (T 6) (Plain (Zeros [3;0;1]));
  (*2028*) AddTo (T 6) (Plain (Einsum [(n_u11,[0;1;2]); (T 5,[1;3;4;2])] [0;3;4]));
  (*2029*) Del (T 5);
  (*2030*) AddTo (T 7) (Plain (Einsum [(T 6,[0;1;2])] [0;1;2]));
  (*2031*) Assign (T 8) (Plain (Zeros [3;0;0]));
  (*2032*) AddTo (T 8) (Plain (Einsum [(n_t1,[0;1]); (T 7,[2;3;1])] [2;0;3]));
  (*2033*) AddTo (T 22) (Plain (Einsum [(T 8,[0;1;2])] [0;2;1]));
  (*2034*) Assign n_rdm_eb_des_ov (Plain (Zeros [3;0;1]));
  (*2035*) SubFrom n_rdm_eb_des_ov (Times (Einsum [(n_t1,[0;1]); (T 22,[2;0;3])] [2;3;1]) (2) 1);
  (*2036*) Del (T 22);
  (*2037*) SubFrom n_rdm_eb_des_oo (Times (Einsum [(T 8,[0;1;2])] [0;1;2]) (2) 1);
  (*2038*) Del (T 8);
  (*2039*) AddTo n_rdm_eb_des_ov (Times (Einsum [(T 7,[0;1;2]); (T 2,[1;3;4;2])] [0;3;4]) (2) 1);
  (*2040*) Del (T 2);
  (*2041*) Assign n_rdm_eb_des_vv (Plain (Zeros [3;1;1]));
  (*2042*) AddTo n_rdm_eb_des_vv (Times (Einsum [(n_t1,[0;1]); (T 7,[2;0;3])] [2;3;1]) (2) 1);
  (*2043*) Del (T 7);
  (*2044*) AddTo n_rdm_eb_des_vo (Times (Einsum [(T 6,[0;1;2])] [0;2;1]) (2) 1);
  (*2045*) Del (T 6);
  (*2046*) Assign (T 9) (Plain (Zeros [0;0]));
  (*2047*) AddTo (T 9) (Plain (Einsum [(n_l1,[0;1]); (n_t1,[2;0])] [1;2]));
  (*2048*) Assign (T 12) (Plain (Zeros [0;0]));
  (*2049*) AddTo (T 12) (Plain (Einsum [(T 9,[0;1])] [0;1]));
  (*2050*) Assign (T 21) (Plain (Zeros [0;0]));
  (*2051*) AddTo (T 21) (Times (Einsum [(T 9,[0;1])] [0;1]) (1) 2);
  (*2052*) Assign (T 27) (Plain (Zeros [0;0]));
  (*2053*) AddTo (T 27) (Times (Einsum [(T 9,[0;1])] [0;1]) (49999999999999967) 100000000000000000);
  (*2054*) Del (T 9);
  (*2055*) Assign (T 10) (Plain (Zeros [0;0]));
  (*2056*) AddTo (T 10) (Plain (Einsum [(n_lu11,[0;1;2]); (n_u11,[0;3;1])] [2;3]));
  (*2057*) AddTo (T 12) (Plain (Einsum [(T 10,[0;1])] [0;1]));
  (*2058*) AddTo (T 21) (Times (Einsum [(T 10,[0;1])] [0;1]) (1) 2);
  (*2059*) AddTo (T 27) (Times (Einsum [(T 10,[0;1])] [0;1]) (49999999999999967) 100000000000000000);
  (*2060*) Del (T 10);
  (*2061*) Assign (T 11) (Plain (Zeros [0;0;1;1]));
  (*2062*) AddTo (T 11) (Times (Einsum [(n_t2,[0;1;2;3])] [1;0;2;3]) (-1) 2);
  (*2063*) AddTo (T 11) (Plain (Einsum [(n_t2,[0;1;2;3])] [1;0;3;2]));
  (*2064*) AddTo (T 12) (Times (Einsum [(n_l2,[0;1;2;3]); (T 11,[2;4;0;1])] [3;4]) (2) 1);
  (*2065*) Assign (T 20) (Plain (Zeros [0;0]));
  (*2066*) AddTo (T 20) (Plain (Einsum [(n_l2,[0;1;2;3]); (T 11,[2;4;0;1])] [3;4]));
  (*2067*) Del (T 11);
  (*2068*) AddTo (T 21) (Plain (Einsum [(T 20,[0;1])] [0;1]));
  (*2069*) AddTo n_rdm_eb_des_ov (Times (Einsum [(T 21,[0;1]); (n_u11,[2;0;3])] [2;1;3]) (-4) 1);
  (*2070*) Del (T 21);
  (*2071*) AddTo (T 27) (Plain (Einsum [(T 20,[0;1])] [0;1]));
  (*2072*) Del (T 20);
  (*2073*) AddTo (T 28) (Times (Einsum [(n_t1,[0;1]); (T 27,[0;2])] [2;1]) (20000000000000013) 10000000000000000);
  (*2074*) Del (T 27);
  (*2075*) AddTo (T 12) (Times (Einsum [(n_delta_oo,[0;1])] [1;0]) (-1) 1);
  (*2076*) AddTo n_rdm_eb_des_oo (Times (Einsum [(n_s1,[0]); (T 12,[1;2])] [0;2;1]) (-2) 1);
  (*2077*) Del (T 12);
  (*2078*) Assign (T 13) (Plain (Zeros [3]));
  (*2079*) AddTo (T 13) (Plain (Einsum [(n_ls1,[0]); (n_s2,[1;0])] [1]));
  (*2080*) Assign (T 15) (Plain (Zeros [3]));
  (*2081*) AddTo (T 15) (Plain (Einsum [(T 13,[0])] [0]));
  (*2082*) Del (T 13);
  (*2083*) Assign (T 14) (Plain (Zeros [3]));
  (*2084*) AddTo (T 14) (Plain (Einsum [(n_l1,[0;1]); (n_u11,[2;1;0])] [2]));
  (*2085*) AddTo (T 15) (Times (Einsum [(T 14,[0])] [0]) (2) 1);
  (*2086*) Del (T 14);
  (*2087*) AddTo n_rdm_eb_des_oo (Times (Einsum [(T 15,[0]); (n_delta_oo,[1;2])] [0;2;1]) (2) 1);
  (*2088*) AddTo n_rdm_eb_des_ov (Times (Einsum [(T 15,[0]); (n_t1,[1;2])] [0;1;2]) (2) 1);
  (*2089*) Del (T 15);
  (*2090*) Assign (T 16) (Plain (Zeros [1;1]));
  (*2091*) AddTo (T 16) (Plain (Einsum [(n_lu11,[0;1;2]); (n_u11,[0;2;3])] [1;3]));
  (*2092*) Assign (T 19) (Plain (Zeros [1;1]));
  (*2093*) AddTo (T 19) (Plain (Einsum [(T 16,[0;1])] [0;1]));
  (*2094*) Assign (T 29) (Plain (Zeros [1;1]));
  (*2095*) AddTo (T 29) (Plain (Einsum [(T 16,[0;1])] [0;1]));
  (*2096*) Del (T 16);
  (*2097*) Assign (T 17) (Plain (Zeros [0;0;1;1]));
  (*2098*) AddTo (T 17) (Times (Einsum [(n_l2,[0;1;2;3])] [3;2;0;1]) (-1) 2);
  (*2099*) AddTo (T 17) (Plain (Einsum [(n_l2,[0;1;2;3])] [3;2;1;0]));
  (*2100*) Assign (T 18) (Plain (Zeros [1;1]));
  (*2101*) AddTo (T 18) (Times (Einsum [(n_t2,[0;1;2;3]); (T 17,[0;1;2;4])] [4;3]) (2) 1);
  (*2102*) Del (T 17);
  (*2103*) AddTo (T 19) (Plain (Einsum [(T 18,[0;1])] [0;1]));
  (*2104*) AddTo n_rdm_eb_des_ov (Times (Einsum [(T 19,[0;1]); (n_u11,[2;3;0])] [2;3;1]) (-2) 1);
  (*2105*) Del (T 19);
  (*2106*) AddTo (T 29) (Plain (Einsum [(T 18,[0;1])] [0;1]));
  (*2107*) Del (T 18);
  (*2108*) Assign (T 23) (Plain (Zeros [3;3]));
  (*2109*) AddTo (T 23) (Plain (Einsum [(n_ls2,[0;1]); (n_s2,[2;0])] [1;2]));
  (*2110*) AddTo (T 23) (Times (Einsum [(n_lu11,[0;1;2]); (n_u11,[3;2;1])] [0;3]) (2) 1);
  (*2111*) AddTo n_rdm_eb_des_ov (Times (Einsum [(T 23,[0;1]); (n_u11,[0;2;3])] [1;2;3]) (2) 1);
  (*2112*) Del (T 23);
  (*2113*) Assign (T 24) (Plain (Zeros [0;0;0;1]));
  (*2114*) AddTo (T 24) (Plain (Einsum [(n_t1,[0;1]); (n_l2,[1;2;3;4])] [4;3;0;2]));
  (*2115*) Assign (T 25) (Plain (Zeros [0;0;0;1]));
  (*2116*) AddTo (T 25) (Times (Einsum [(T 24,[0;1;2;3])] [0;1;2;3]) (-1) 2);
  (*2117*) AddTo (T 25) (Plain (Einsum [(T 24,[0;1;2;3])] [1;0;2;3]));
  (*2118*) Del (T 24);
  (*2119*) AddTo (T 28) (Times (Einsum [(n_t2,[0;1;2;3]); (T 25,[1;0;4;2])] [4;3]) (20000000000000013) 10000000000000000);
  (*2120*) Del (T 25);
  (*2121*) Assign (T 26) (Plain (Zeros [0;0;1;1]));
  (*2122*) AddTo (T 26) (Times (Einsum [(n_t2,[0;1;2;3])] [1;0;2;3]) (2) 1);
  (*2123*) AddTo (T 26) (Times (Einsum [(n_t2,[0;1;2;3])] [1;0;3;2]) (-1) 1);
  (*2124*) AddTo (T 28) (Times (Einsum [(n_l1,[0;1]); (T 26,[1;2;3;0])] [2;3]) (-1) 1);
  (*2125*) Del (T 26);
  (*2126*) AddTo (T 28) (Times (Einsum [(n_t1,[0;1])] [0;1]) (-1) 1);
  (*2127*) AddTo (T 28) (Times (Einsum [(n_ls1,[0]); (n_u11,[0;1;2])] [1;2]) (-1) 1);
  (*2128*) AddTo n_rdm_eb_des_ov (Times (Einsum [(n_s1,[0]); (T 28,[1;2])] [0;1;2]) (-2) 1);
  (*2129*) Del (T 28);
  (*2130*) AddTo (T 29) (Plain (Einsum [(n_l1,[0;1]); (n_t1,[1;2])] [0;2]));
  (*2131*) AddTo n_rdm_eb_des_vv (Times (Einsum [(n_s1,[0]); (T 29,[1;2])] [0;1;2]) (2) 1);
  (*2132*) Del (T 29);
  (*2133*) AddTo n_rdm_eb_cre_oo (Times (Einsum [(n_ls1,[0]); (n_delta_oo,[1;2])] [0;2;1]) (2) 1);
  (*2134*) AddTo n_rdm_eb_cre_ov (Times (Einsum [(n_ls1,[0]); (n_t1,[1;2])] [0;1;2]) (2) 1);
  (*2135*) AddTo n_rdm_eb_cre_ov (Times (Einsum [(n_ls2,[0;1]); (n_u11,[1;2;3])] [0;2;3]) (2) 1);
  (*2136*) Assign n_rdm_eb_cre_vo (Plain (Zeros [3;1;0]));
  (*2137*) AddTo n_rdm_eb_cre_vo (Times (Einsum [(n_lu11,[0;1;2])] [0;1;2]) (2) 1);
  (*2138*) Assign n_rdm_eb_cre_vv (Plain (Zeros [3;1;1]));
  (*2139*) AddTo n_rdm_eb_cre_vv (Times (Einsum [(n_t1,[0;1]); (n_lu11,[2;3;0])] [2;3;1]) (2) 1);
  (*2140*) AddTo n_rdm_eb_des_ov (Times (Einsum [(n_u11,[0;1;2])] [0;1;2]) (2) 1);
  (*2141*) AddTo n_rdm_eb_des_vo (Times (Einsum [(n_s1,[0]); (n_l1,[1;2])] [0;1;2]) (2) 1);
  (*2142*) AddTo n_rdm_eb_des_vv (Times (Einsum [(n_l1,[0;1]); (n_u11,[2;1;3])] [2;0;3]) (2) 1)]
 [(n_rdm_eb_cre_oo,[3;0;0]); (n_rdm_eb_cre_ov,[3;0;1]); (n_rdm_eb_cre_vo,[3;1;0]); (n_rdm_eb_cre_vv,[3;1;1]); (n_rdm_eb_des_oo,[3;0;0]); (n_rdm_eb_des_ov,[3;0;1]); (n_rdm_eb_des_vo,[3;1;0]); (n_rdm_eb_des_vv,[3;1;1])].

