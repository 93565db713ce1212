(** Generated by tools/translate_codegen.py from ebcc/codegen/GCCSD_SD_1_2.py; one statement per source line
    (the number in the comment before it). *)
From Coq Require Import ZArith List.
From Verif Require Import CgModel CgNames.
Import ListNotations.

(** ebcc/codegen/GCCSD_SD_1_2.py:7-23 [energy] *)
Definition GCCSD_SD_1_2_energy : prog := mkprog
 [(n_t2,[0;0;1;1]); (n_t1,[0;1]); (n_v'oovv,[0;0;1;1]); (n_u11,[3;0;1]); (n_s1,[3]); (n_g'bov,[3;0;1]); (n_f'ov,[0;1]); (n_G,[3])]
 [(*9*) Assign (T 1) (Plain (Zeros [0;0;1;1]));
  (*10*) AddTo (T 1) (Plain (Einsum [(n_t2,[0;1;2;3])] [1;0;3;2]));
  (*11*) AddTo (T 1) (Times (Einsum [(n_t1,[0;1]); (n_t1,[2;3])] [0;2;1;3]) (2) 1);
  (*12*) Assign n_e_cc (Plain (Zeros []));
  (*13*) AddTo n_e_cc (Times (Einsum [(n_v'oovv,[0;1;2;3]); (T 1,[0;1;2;3])] []) (1) 4);
  (*14*) Del (T 1);
  (*15*) Assign (T 2) (Plain (Zeros [3;0;1]));
  (*16*) AddTo (T 2) (Plain (Einsum [(n_u11,[0;1;2])] [0;1;2]));
  (*17*) AddTo (T 2) (Plain (Einsum [(n_s1,[0]); (n_t1,[1;2])] [0;1;2]));
  (*18*) AddTo n_e_cc (Plain (Einsum [(n_g'bov,[0;1;2]); (T 2,[0;1;2])] []));
  (*19*) Del (T 2);
  (*20*) AddTo n_e_cc (Plain (Einsum [(n_f'ov,[0;1]); (n_t1,[0;1])] []));
  (*21*) AddTo n_e_cc (Plain (Einsum [(n_G,[0]); (n_s1,[0])] []))]
 [(n_e_cc,[])].

(** ebcc/codegen/GCCSD_SD_1_2.py:25-523 [update_amps] *)
Definition GCCSD_SD_1_2_update_amps : prog := mkprog
 [(n_g'boo,[3;0;0]); (n_g'bvo,[3;1;0]); (n_g'bov,[3;0;1]); (n_g'bvv,[3;1;1]); (n_t1,[0;1]); (n_v'oovv,[0;0;1;1]); (n_t2,[0;0;1;1]); (n_v'ooov,[0;0;0;1]); (n_s1,[3]); (n_f'ov,[0;1]); (n_u11,[3;0;1]); (n_u12,[3;3;0;1]); (n_f'oo,[0;0]); (n_v'ovvv,[0;1;1;1]); (n_f'vv,[1;1]); (n_G,[3]); (n_s2,[3;3]); (n_v'vvvv,[1;1;1;1]); (n_v'vvov,[1;1;0;1]); (n_v'ovov,[0;1;0;1]); (n_v'oooo,[0;0;0;0]); (n_v'ovoo,[0;1;0;0]); (n_w,[3;3]); (n_f'vo,[1;0]); (n_v'vvoo,[1;1;0;0])]
 [(*27*) Assign n_gc'boo (Plain (Transpose n_g'boo [0;2;1]));
  (*27*) Assign n_gc'bov (Plain (Transpose n_g'bvo [0;2;1]));
  (*27*) Assign n_gc'bvo (Plain (Transpose n_g'bov [0;2;1]));
  (*27*) Assign n_gc'bvv (Plain (Transpose n_g'bvv [0;2;1]));
  (*35*) Assign (T 1) (Plain (Zeros [0;0;0;1]));
  (*36*) AddTo (T 1) (Plain (Einsum [(n_t1,[0;1]); (n_v'oovv,[2;3;4;1])] [0;2;3;4]));
  (*37*) Assign (T 2) (Plain (Zeros [0;0;0;1]));
  (*38*) AddTo (T 2) (Times (Einsum [(T 1,[0;1;2;3])] [0;2;1;3]) (-1) 1);
  (*39*) Assign (T 41) (Plain (Zeros [0;0;0;1]));
  (*40*) AddTo (T 41) (Plain (Einsum [(n_t2,[0;1;2;3]); (T 1,[4;1;5;3])] [4;0;5;2]));
  (*41*) Assign (T 42) (Plain (Zeros [0;0;0;1]));
  (*42*) SubFrom (T 42) (Plain (Einsum [(T 41,[0;1;2;3])] [0;2;1;3]));
  (*43*) Del (T 41);
  (*44*) Assign (T 66) (Plain (Zeros [0;0;0;0]));
  (*45*) AddTo (T 66) (Plain (Einsum [(n_t1,[0;1]); (T 1,[2;3;4;1])] [2;0;4;3]));
  (*46*) Assign (T 67) (Plain (Zeros [0;0;0;0]));
  (*47*) AddTo (T 67) (Times (Einsum [(T 66,[0;1;2;3])] [2;3;1;0]) (-20000000000000013) 10000000000000000);
  (*48*) Assign (T 68) (Plain (Zeros [0;0;0;0]));
  (*49*) AddTo (T 68) (Times (Einsum [(T 66,[0;1;2;3])] [2;3;1;0]) (-1) 1);
  (*50*) Del (T 66);
  (*51*) Assign (T 111) (Plain (Zeros [0;0;0;1]));
  (*52*) AddTo (T 111) (Plain (Einsum [(T 1,[0;1;2;3])] [2;1;0;3]));
  (*53*) Del (T 1);
  (*54*) AddTo (T 2) (Plain (Einsum [(n_v'ooov,[0;1;2;3])] [2;1;0;3]));
  (*55*) Assign n_t1new (Plain (Zeros [0;1]));
  (*56*) AddTo n_t1new (Times (Einsum [(n_t2,[0;1;2;3]); (T 2,[4;0;1;2])] [4;3]) (-1) 2);
  (*57*) Del (T 2);
  (*58*) Assign (T 3) (Plain (Zeros [0;1]));
  (*59*) AddTo (T 3) (Plain (Einsum [(n_s1,[0]); (n_g'bov,[0;1;2])] [1;2]));
  (*60*) Assign (T 5) (Plain (Zeros [0;1]));
  (*61*) AddTo (T 5) (Plain (Einsum [(T 3,[0;1])] [0;1]));
  (*62*) Assign (T 12) (Plain (Zeros [0;1]));
  (*63*) AddTo (T 12) (Plain (Einsum [(T 3,[0;1])] [0;1]));
  (*64*) Assign (T 82) (Plain (Zeros [0;1]));
  (*65*) AddTo (T 82) (Plain (Einsum [(T 3,[0;1])] [0;1]));
  (*66*) Del (T 3);
  (*67*) Assign (T 4) (Plain (Zeros [0;1]));
  (*68*) AddTo (T 4) (Plain (Einsum [(n_t1,[0;1]); (n_v'oovv,[2;0;3;1])] [2;3]));
  (*69*) AddTo (T 5) (Plain (Einsum [(T 4,[0;1])] [0;1]));
  (*70*) AddTo (T 12) (Plain (Einsum [(T 4,[0;1])] [0;1]));
  (*71*) Assign (T 78) (Plain (Zeros [1;1]));
  (*72*) AddTo (T 78) (Times (Einsum [(n_t1,[0;1]); (T 4,[0;2])] [1;2]) (2) 1);
  (*73*) Del (T 4);
  (*74*) AddTo (T 5) (Plain (Einsum [(n_f'ov,[0;1])] [0;1]));
  (*75*) Assign (T 25) (Plain (Zeros [0;0]));
  (*76*) AddTo (T 25) (Plain (Einsum [(n_t1,[0;1]); (T 5,[2;1])] [0;2]));
  (*77*) Assign (T 26) (Plain (Zeros [0;0]));
  (*78*) AddTo (T 26) (Plain (Einsum [(T 25,[0;1])] [0;1]));
  (*79*) Del (T 25);
  (*80*) Assign (T 49) (Plain (Zeros [0;0;0;1]));
  (*81*) AddTo (T 49) (Plain (Einsum [(T 5,[0;1]); (n_t2,[2;3;1;4])] [2;3;0;4]));
  (*82*) Assign (T 50) (Plain (Zeros [0;0;0;1]));
  (*83*) AddTo (T 50) (Plain (Einsum [(T 49,[0;1;2;3])] [2;1;0;3]));
  (*84*) Del (T 49);
  (*85*) Assign (T 92) (Plain (Zeros [3;0;0]));
  (*86*) AddTo (T 92) (Plain (Einsum [(T 5,[0;1]); (n_u11,[2;3;1])] [2;3;0]));
  (*87*) Assign (T 95) (Plain (Zeros [3;0;0]));
  (*88*) AddTo (T 95) (Plain (Einsum [(T 92,[0;1;2])] [0;2;1]));
  (*89*) Del (T 92);
  (*90*) Assign (T 112) (Plain (Zeros [3;3;0;0]));
  (*91*) AddTo (T 112) (Plain (Einsum [(T 5,[0;1]); (n_u12,[2;3;4;1])] [3;2;0;4]));
  (*92*) AddTo n_t1new (Plain (Einsum [(T 5,[0;1]); (n_t2,[0;2;1;3])] [2;3]));
  (*93*) Assign n_s1new (Plain (Zeros [3]));
  (*94*) AddTo n_s1new (Plain (Einsum [(T 5,[0;1]); (n_u11,[2;0;1])] [2]));
  (*95*) Assign n_s2new (Plain (Zeros [3;3]));
  (*96*) AddTo n_s2new (Plain (Einsum [(T 5,[0;1]); (n_u12,[2;3;0;1])] [3;2]));
  (*97*) Del (T 5);
  (*98*) Assign (T 6) (Plain (Zeros [3;0;0]));
  (*99*) AddTo (T 6) (Plain (Einsum [(n_t1,[0;1]); (n_g'bov,[2;3;1])] [2;3;0]));
  (*100*) Assign (T 7) (Plain (Zeros [3;0;0]));
  (*101*) AddTo (T 7) (Plain (Einsum [(T 6,[0;1;2])] [0;1;2]));
  (*102*) Del (T 6);
  (*103*) AddTo (T 7) (Plain (Einsum [(n_g'boo,[0;1;2])] [0;1;2]));
  (*104*) Assign (T 36) (Plain (Zeros [3;0;1]));
  (*105*) AddTo (T 36) (Plain (Einsum [(n_t1,[0;1]); (T 7,[2;0;3])] [2;3;1]));
  (*106*) Assign (T 37) (Plain (Zeros [3;0;1]));
  (*107*) SubFrom (T 37) (Plain (Einsum [(T 36,[0;1;2])] [0;1;2]));
  (*108*) Del (T 36);
  (*109*) SubFrom n_t1new (Plain (Einsum [(n_u11,[0;1;2]); (T 7,[0;1;3])] [3;2]));
  (*110*) Assign n_u11new (Plain (Zeros [3;0;1]));
  (*111*) SubFrom n_u11new (Plain (Einsum [(T 7,[0;1;2]); (n_u12,[0;3;1;4])] [3;2;4]));
  (*112*) Del (T 7);
  (*113*) Assign (T 8) (Plain (Zeros [0;0]));
  (*114*) AddTo (T 8) (Plain (Einsum [(n_s1,[0]); (n_g'boo,[0;1;2])] [1;2]));
  (*115*) Assign (T 14) (Plain (Zeros [0;0]));
  (*116*) AddTo (T 14) (Plain (Einsum [(T 8,[0;1])] [0;1]));
  (*117*) AddTo (T 26) (Plain (Einsum [(T 8,[0;1])] [1;0]));
  (*118*) Assign (T 84) (Plain (Zeros [0;0]));
  (*119*) AddTo (T 84) (Times (Einsum [(T 8,[0;1])] [0;1]) (2) 1);
  (*120*) Del (T 8);
  (*121*) Assign (T 9) (Plain (Zeros [0;0]));
  (*122*) AddTo (T 9) (Plain (Einsum [(n_g'bov,[0;1;2]); (n_u11,[0;3;2])] [1;3]));
  (*123*) AddTo (T 14) (Plain (Einsum [(T 9,[0;1])] [0;1]));
  (*124*) Assign (T 28) (Plain (Zeros [0;0]));
  (*125*) AddTo (T 28) (Plain (Einsum [(T 9,[0;1])] [0;1]));
  (*126*) AddTo (T 84) (Times (Einsum [(T 9,[0;1])] [0;1]) (2) 1);
  (*127*) Del (T 9);
  (*128*) Assign (T 10) (Plain (Zeros [0;0]));
  (*129*) SubFrom (T 10) (Plain (Einsum [(n_t1,[0;1]); (n_v'ooov,[0;2;3;1])] [2;3]));
  (*130*) AddTo (T 14) (Plain (Einsum [(T 10,[0;1])] [0;1]));
  (*131*) AddTo (T 28) (Plain (Einsum [(T 10,[0;1])] [0;1]));
  (*132*) Assign (T 29) (Plain (Zeros [0;0;1;1]));
  (*133*) AddTo (T 29) (Plain (Einsum [(T 28,[0;1]); (n_t2,[0;2;3;4])] [2;1;3;4]));
  (*134*) Del (T 28);
  (*135*) Assign (T 30) (Plain (Zeros [0;0;1;1]));
  (*136*) SubFrom (T 30) (Plain (Einsum [(T 29,[0;1;2;3])] [0;1;3;2]));
  (*137*) Del (T 29);
  (*138*) AddTo (T 84) (Times (Einsum [(T 10,[0;1])] [0;1]) (2) 1);
  (*139*) Del (T 10);
  (*140*) Assign (T 11) (Plain (Zeros [0;0]));
  (*141*) SubFrom (T 11) (Plain (Einsum [(n_t2,[0;1;2;3]); (n_v'oovv,[1;4;2;3])] [0;4]));
  (*142*) AddTo (T 14) (Times (Einsum [(T 11,[0;1])] [1;0]) (1) 2);
  (*143*) Assign (T 62) (Plain (Zeros [0;0;1;1]));
  (*144*) AddTo (T 62) (Plain (Einsum [(T 11,[0;1]); (n_t2,[2;1;3;4])] [2;0;3;4]));
  (*145*) Assign (T 63) (Plain (Zeros [0;0;1;1]));
  (*146*) AddTo (T 63) (Times (Einsum [(T 62,[0;1;2;3])] [0;1;3;2]) (-1) 2);
  (*147*) Del (T 62);
  (*148*) AddTo (T 84) (Plain (Einsum [(T 11,[0;1])] [1;0]));
  (*149*) Del (T 11);
  (*150*) AddTo (T 12) (Plain (Einsum [(n_f'ov,[0;1])] [0;1]));
  (*151*) Assign (T 13) (Plain (Zeros [0;0]));
  (*152*) AddTo (T 13) (Plain (Einsum [(n_t1,[0;1]); (T 12,[2;1])] [0;2]));
  (*153*) AddTo (T 14) (Plain (Einsum [(T 13,[0;1])] [1;0]));
  (*154*) Del (T 13);
  (*155*) AddTo (T 84) (Times (Einsum [(n_t1,[0;1]); (T 12,[2;1])] [2;0]) (2) 1);
  (*156*) Del (T 12);
  (*157*) AddTo (T 14) (Plain (Einsum [(n_f'oo,[0;1])] [0;1]));
  (*158*) AddTo n_t1new (Times (Einsum [(n_t1,[0;1]); (T 14,[0;2])] [2;1]) (-1) 1);
  (*159*) Assign n_u12new (Plain (Zeros [3;3;0;1]));
  (*160*) AddTo n_u12new (Times (Einsum [(T 14,[0;1]); (n_u12,[2;3;0;4])] [3;2;1;4]) (-1) 1);
  (*161*) Del (T 14);
  (*162*) Assign (T 15) (Plain (Zeros [1;1]));
  (*163*) AddTo (T 15) (Plain (Einsum [(n_s1,[0]); (n_g'bvv,[0;1;2])] [1;2]));
  (*164*) Assign (T 17) (Plain (Zeros [1;1]));
  (*165*) AddTo (T 17) (Plain (Einsum [(T 15,[0;1])] [0;1]));
  (*166*) Assign (T 45) (Plain (Zeros [0;0;1;1]));
  (*167*) AddTo (T 45) (Plain (Einsum [(T 15,[0;1]); (n_t2,[2;3;4;1])] [2;3;0;4]));
  (*168*) Assign (T 55) (Plain (Zeros [0;0;1;1]));
  (*169*) AddTo (T 55) (Plain (Einsum [(T 45,[0;1;2;3])] [0;1;2;3]));
  (*170*) Del (T 45);
  (*171*) AddTo (T 78) (Times (Einsum [(T 15,[0;1])] [0;1]) (-2) 1);
  (*172*) Assign (T 110) (Plain (Zeros [1;1]));
  (*173*) AddTo (T 110) (Times (Einsum [(T 15,[0;1])] [0;1]) (-2) 1);
  (*174*) Del (T 15);
  (*175*) Assign (T 16) (Plain (Zeros [1;1]));
  (*176*) SubFrom (T 16) (Plain (Einsum [(n_t1,[0;1]); (n_v'ovvv,[0;2;1;3])] [2;3]));
  (*177*) SubFrom (T 17) (Plain (Einsum [(T 16,[0;1])] [0;1]));
  (*178*) Assign (T 53) (Plain (Zeros [1;1]));
  (*179*) AddTo (T 53) (Plain (Einsum [(T 16,[0;1])] [0;1]));
  (*180*) AddTo (T 78) (Times (Einsum [(T 16,[0;1])] [0;1]) (2) 1);
  (*181*) AddTo (T 110) (Times (Einsum [(T 16,[0;1])] [0;1]) (2) 1);
  (*182*) Del (T 16);
  (*183*) AddTo (T 17) (Plain (Einsum [(n_f'vv,[0;1])] [0;1]));
  (*184*) AddTo n_t1new (Plain (Einsum [(n_t1,[0;1]); (T 17,[2;1])] [0;2]));
  (*185*) Del (T 17);
  (*186*) Assign (T 18) (Plain (Zeros [3]));
  (*187*) AddTo (T 18) (Plain (Einsum [(n_t1,[0;1]); (n_g'bov,[2;0;1])] [2]));
  (*188*) Assign (T 19) (Plain (Zeros [3]));
  (*189*) AddTo (T 19) (Plain (Einsum [(T 18,[0])] [0]));
  (*190*) Del (T 18);
  (*191*) AddTo (T 19) (Plain (Einsum [(n_G,[0])] [0]));
  (*192*) AddTo n_t1new (Plain (Einsum [(T 19,[0]); (n_u11,[0;1;2])] [1;2]));
  (*193*) AddTo n_s1new (Plain (Einsum [(T 19,[0]); (n_s2,[0;1])] [1]));
  (*194*) AddTo n_u11new (Plain (Einsum [(T 19,[0]); (n_u12,[0;1;2;3])] [1;2;3]));
  (*195*) Del (T 19);
  (*196*) Assign (T 20) (Plain (Zeros [0;1;1;1]));
  (*197*) AddTo (T 20) (Plain (Einsum [(n_t1,[0;1]); (n_v'vvvv,[2;3;4;1])] [0;2;3;4]));
  (*198*) Assign n_t2new (Plain (Zeros [0;0;1;1]));
  (*199*) SubFrom n_t2new (Plain (Einsum [(n_t1,[0;1]); (T 20,[2;3;4;1])] [0;2;4;3]));
  (*200*) Del (T 20);
  (*201*) Assign (T 21) (Plain (Zeros [0;0;1;1]));
  (*202*) AddTo (T 21) (Plain (Einsum [(n_t1,[0;1]); (n_v'vvov,[2;3;4;1])] [0;4;2;3]));
  (*203*) AddTo (T 30) (Plain (Einsum [(T 21,[0;1;2;3])] [0;1;3;2]));
  (*204*) Del (T 21);
  (*205*) Assign (T 22) (Plain (Zeros [0;0;0;0]));
  (*206*) AddTo (T 22) (Plain (Einsum [(n_t1,[0;1]); (n_v'ooov,[2;3;4;1])] [0;2;3;4]));
  (*207*) Assign (T 23) (Plain (Zeros [0;0;0;1]));
  (*208*) AddTo (T 23) (Plain (Einsum [(n_t1,[0;1]); (T 22,[2;3;0;4])] [2;3;4;1]));
  (*209*) Assign (T 24) (Plain (Zeros [0;0;1;1]));
  (*210*) SubFrom (T 24) (Plain (Einsum [(n_t1,[0;1]); (T 23,[2;0;3;4])] [2;3;4;1]));
  (*211*) Del (T 23);
  (*212*) AddTo (T 30) (Plain (Einsum [(T 24,[0;1;2;3])] [0;1;3;2]));
  (*213*) Del (T 24);
  (*214*) Assign (T 61) (Plain (Zeros [0;0;1;1]));
  (*215*) AddTo (T 61) (Plain (Einsum [(n_t2,[0;1;2;3]); (T 22,[4;0;1;5])] [4;5;2;3]));
  (*216*) Del (T 22);
  (*217*) AddTo (T 63) (Times (Einsum [(T 61,[0;1;2;3])] [0;1;3;2]) (-1) 2);
  (*218*) Del (T 61);
  (*219*) AddTo n_t2new (Times (Einsum [(T 63,[0;1;2;3])] [0;1;2;3]) (-1) 1);
  (*220*) AddTo n_t2new (Plain (Einsum [(T 63,[0;1;2;3])] [1;0;2;3]));
  (*221*) Del (T 63);
  (*222*) AddTo (T 26) (Plain (Einsum [(n_f'oo,[0;1])] [1;0]));
  (*223*) Assign (T 27) (Plain (Zeros [0;0;1;1]));
  (*224*) AddTo (T 27) (Plain (Einsum [(T 26,[0;1]); (n_t2,[1;2;3;4])] [2;0;3;4]));
  (*225*) Del (T 26);
  (*226*) AddTo (T 30) (Plain (Einsum [(T 27,[0;1;2;3])] [1;0;3;2]));
  (*227*) Del (T 27);
  (*228*) AddTo n_t2new (Plain (Einsum [(T 30,[0;1;2;3])] [0;1;2;3]));
  (*229*) SubFrom n_t2new (Plain (Einsum [(T 30,[0;1;2;3])] [1;0;2;3]));
  (*230*) Del (T 30);
  (*231*) Assign (T 31) (Plain (Zeros [0;0;1;1]));
  (*232*) AddTo (T 31) (Plain (Einsum [(n_t2,[0;1;2;3]); (n_v'ovov,[1;4;5;3])] [0;5;2;4]));
  (*233*) Assign (T 44) (Plain (Zeros [0;0;1;1]));
  (*234*) SubFrom (T 44) (Plain (Einsum [(T 31,[0;1;2;3])] [0;1;2;3]));
  (*235*) Del (T 31);
  (*236*) Assign (T 32) (Plain (Zeros [0;0;1;1]));
  (*237*) AddTo (T 32) (Plain (Einsum [(n_t1,[0;1]); (n_v'ovvv,[2;3;4;1])] [0;2;3;4]));
  (*238*) Assign (T 33) (Plain (Zeros [0;0;1;1]));
  (*239*) SubFrom (T 33) (Plain (Einsum [(n_t2,[0;1;2;3]); (T 32,[4;1;5;3])] [4;0;2;5]));
  (*240*) AddTo (T 44) (Plain (Einsum [(T 33,[0;1;2;3])] [0;1;2;3]));
  (*241*) Del (T 33);
  (*242*) Assign (T 48) (Plain (Zeros [0;0;0;1]));
  (*243*) SubFrom (T 48) (Plain (Einsum [(n_t1,[0;1]); (T 32,[2;3;4;1])] [2;0;3;4]));
  (*244*) AddTo (T 50) (Plain (Einsum [(T 48,[0;1;2;3])] [2;1;0;3]));
  (*245*) Del (T 48);
  (*246*) Assign (T 51) (Plain (Zeros [0;0;1;1]));
  (*247*) AddTo (T 51) (Plain (Einsum [(n_t1,[0;1]); (T 50,[0;2;3;4])] [2;3;1;4]));
  (*248*) Del (T 50);
  (*249*) AddTo (T 55) (Plain (Einsum [(T 51,[0;1;2;3])] [1;0;2;3]));
  (*250*) Del (T 51);
  (*251*) Assign (T 109) (Plain (Zeros [0;0;1;1]));
  (*252*) SubFrom (T 109) (Plain (Einsum [(T 32,[0;1;2;3])] [1;0;2;3]));
  (*253*) Del (T 32);
  (*254*) Assign (T 34) (Plain (Zeros [3;0;1]));
  (*255*) AddTo (T 34) (Plain (Einsum [(n_t1,[0;1]); (n_g'bvv,[2;3;1])] [2;0;3]));
  (*256*) AddTo (T 37) (Plain (Einsum [(T 34,[0;1;2])] [0;1;2]));
  (*257*) Del (T 34);
  (*258*) Assign (T 35) (Plain (Zeros [3;0;1]));
  (*259*) AddTo (T 35) (Plain (Einsum [(n_g'bov,[0;1;2]); (n_t2,[3;1;4;2])] [0;3;4]));
  (*260*) AddTo (T 37) (Plain (Einsum [(T 35,[0;1;2])] [0;1;2]));
  (*261*) Del (T 35);
  (*262*) AddTo (T 37) (Plain (Einsum [(n_g'bvo,[0;1;2])] [0;2;1]));
  (*263*) Assign (T 38) (Plain (Zeros [0;0;1;1]));
  (*264*) AddTo (T 38) (Plain (Einsum [(n_u11,[0;1;2]); (T 37,[0;3;4])] [1;3;2;4]));
  (*265*) Del (T 37);
  (*266*) AddTo (T 44) (Plain (Einsum [(T 38,[0;1;2;3])] [1;0;3;2]));
  (*267*) Del (T 38);
  (*268*) Assign (T 39) (Plain (Zeros [0;0;0;1]));
  (*269*) AddTo (T 39) (Plain (Einsum [(n_t1,[0;1]); (n_v'ovov,[2;3;4;1])] [0;2;4;3]));
  (*270*) AddTo (T 42) (Plain (Einsum [(T 39,[0;1;2;3])] [0;1;2;3]));
  (*271*) Del (T 39);
  (*272*) Assign (T 40) (Plain (Zeros [0;0;0;1]));
  (*273*) SubFrom (T 40) (Plain (Einsum [(n_t2,[0;1;2;3]); (n_v'ooov,[1;4;5;3])] [0;4;5;2]));
  (*274*) AddTo (T 42) (Plain (Einsum [(T 40,[0;1;2;3])] [0;1;2;3]));
  (*275*) Del (T 40);
  (*276*) Assign (T 43) (Plain (Zeros [0;0;1;1]));
  (*277*) AddTo (T 43) (Plain (Einsum [(n_t1,[0;1]); (T 42,[2;0;3;4])] [2;3;1;4]));
  (*278*) Del (T 42);
  (*279*) AddTo (T 44) (Plain (Einsum [(T 43,[0;1;2;3])] [0;1;2;3]));
  (*280*) Del (T 43);
  (*281*) AddTo n_t2new (Plain (Einsum [(T 44,[0;1;2;3])] [0;1;2;3]));
  (*282*) SubFrom n_t2new (Plain (Einsum [(T 44,[0;1;2;3])] [0;1;3;2]));
  (*283*) SubFrom n_t2new (Plain (Einsum [(T 44,[0;1;2;3])] [1;0;2;3]));
  (*284*) AddTo n_t2new (Plain (Einsum [(T 44,[0;1;2;3])] [1;0;3;2]));
  (*285*) Del (T 44);
  (*286*) Assign (T 46) (Plain (Zeros [0;0;1;1]));
  (*287*) AddTo (T 46) (Plain (Einsum [(n_t2,[0;1;2;3]); (n_v'oovv,[1;4;3;5])] [0;4;2;5]));
  (*288*) Assign (T 47) (Plain (Zeros [0;0;1;1]));
  (*289*) AddTo (T 47) (Plain (Einsum [(n_t2,[0;1;2;3]); (T 46,[4;1;5;3])] [4;0;5;2]));
  (*290*) Del (T 46);
  (*291*) SubFrom (T 55) (Plain (Einsum [(T 47,[0;1;2;3])] [0;1;2;3]));
  (*292*) Del (T 47);
  (*293*) Assign (T 52) (Plain (Zeros [1;1]));
  (*294*) AddTo (T 52) (Plain (Einsum [(n_g'bov,[0;1;2]); (n_u11,[0;1;3])] [2;3]));
  (*295*) AddTo (T 53) (Plain (Einsum [(T 52,[0;1])] [1;0]));
  (*296*) Assign (T 54) (Plain (Zeros [0;0;1;1]));
  (*297*) AddTo (T 54) (Plain (Einsum [(T 53,[0;1]); (n_t2,[2;3;1;4])] [2;3;4;0]));
  (*298*) Del (T 53);
  (*299*) AddTo (T 55) (Plain (Einsum [(T 54,[0;1;2;3])] [1;0;2;3]));
  (*300*) Del (T 54);
  (*301*) SubFrom n_t2new (Plain (Einsum [(T 55,[0;1;2;3])] [0;1;2;3]));
  (*302*) AddTo n_t2new (Plain (Einsum [(T 55,[0;1;2;3])] [0;1;3;2]));
  (*303*) Del (T 55);
  (*304*) AddTo (T 78) (Times (Einsum [(T 52,[0;1])] [1;0]) (2) 1);
  (*305*) AddTo (T 110) (Times (Einsum [(T 52,[0;1])] [1;0]) (2) 1);
  (*306*) Del (T 52);
  (*307*) Assign (T 56) (Plain (Zeros [0;0;0;1]));
  (*308*) AddTo (T 56) (Plain (Einsum [(n_t2,[0;1;2;3]); (n_v'ovvv,[4;5;2;3])] [0;1;4;5]));
  (*309*) Assign (T 57) (Plain (Zeros [0;0;1;1]));
  (*310*) AddTo (T 57) (Plain (Einsum [(n_t1,[0;1]); (T 56,[2;3;0;4])] [2;3;1;4]));
  (*311*) Del (T 56);
  (*312*) Assign (T 60) (Plain (Zeros [0;0;1;1]));
  (*313*) AddTo (T 60) (Times (Einsum [(T 57,[0;1;2;3])] [0;1;2;3]) (1) 2);
  (*314*) Del (T 57);
  (*315*) Assign (T 58) (Plain (Zeros [1;1]));
  (*316*) SubFrom (T 58) (Plain (Einsum [(n_t2,[0;1;2;3]); (n_v'oovv,[0;1;3;4])] [2;4]));
  (*317*) Assign (T 59) (Plain (Zeros [0;0;1;1]));
  (*318*) AddTo (T 59) (Plain (Einsum [(T 58,[0;1]); (n_t2,[2;3;4;1])] [2;3;4;0]));
  (*319*) AddTo (T 60) (Times (Einsum [(T 59,[0;1;2;3])] [0;1;2;3]) (1) 2);
  (*320*) Del (T 59);
  (*321*) AddTo n_t2new (Times (Einsum [(T 60,[0;1;2;3])] [0;1;2;3]) (-1) 1);
  (*322*) AddTo n_t2new (Plain (Einsum [(T 60,[0;1;2;3])] [0;1;3;2]));
  (*323*) Del (T 60);
  (*324*) AddTo (T 78) (Plain (Einsum [(T 58,[0;1])] [0;1]));
  (*325*) AddTo (T 110) (Plain (Einsum [(T 58,[0;1])] [0;1]));
  (*326*) Del (T 58);
  (*327*) Assign (T 64) (Plain (Zeros [0;0;1;1]));
  (*328*) AddTo (T 64) (Plain (Einsum [(n_f'vv,[0;1]); (n_t2,[2;3;4;1])] [2;3;0;4]));
  (*329*) AddTo n_t2new (Plain (Einsum [(T 64,[0;1;2;3])] [1;0;2;3]));
  (*330*) SubFrom n_t2new (Plain (Einsum [(T 64,[0;1;2;3])] [1;0;3;2]));
  (*331*) Del (T 64);
  (*332*) Assign (T 65) (Plain (Zeros [0;0;0;0]));
  (*333*) AddTo (T 65) (Plain (Einsum [(n_t2,[0;1;2;3]); (n_v'oovv,[4;5;2;3])] [0;1;4;5]));
  (*334*) AddTo (T 67) (Plain (Einsum [(T 65,[0;1;2;3])] [3;2;1;0]));
  (*335*) AddTo (T 68) (Times (Einsum [(T 65,[0;1;2;3])] [3;2;1;0]) (5000000000000003) 10000000000000000);
  (*336*) Del (T 65);
  (*337*) AddTo (T 67) (Times (Einsum [(n_v'oooo,[0;1;2;3])] [1;0;3;2]) (2) 1);
  (*338*) AddTo n_t2new (Times (Einsum [(n_t2,[0;1;2;3]); (T 67,[0;1;4;5])] [5;4;3;2]) (1) 4);
  (*339*) Del (T 67);
  (*340*) AddTo (T 68) (Plain (Einsum [(n_v'oooo,[0;1;2;3])] [1;0;3;2]));
  (*341*) Assign (T 69) (Plain (Zeros [0;0;0;1]));
  (*342*) AddTo (T 69) (Plain (Einsum [(n_t1,[0;1]); (T 68,[0;2;3;4])] [4;3;2;1]));
  (*343*) Del (T 68);
  (*344*) AddTo (T 69) (Plain (Einsum [(n_v'ovoo,[0;1;2;3])] [3;2;0;1]));
  (*345*) AddTo n_t2new (Plain (Einsum [(n_t1,[0;1]); (T 69,[2;3;0;4])] [2;3;1;4]));
  (*346*) Del (T 69);
  (*347*) Assign (T 70) (Plain (Zeros [3;0;1]));
  (*348*) AddTo (T 70) (Plain (Einsum [(n_u11,[0;1;2]); (n_v'oovv,[1;3;2;4])] [0;3;4]));
  (*349*) Assign (T 77) (Plain (Zeros [3;0;1]));
  (*350*) AddTo (T 77) (Plain (Einsum [(T 70,[0;1;2])] [0;1;2]));
  (*351*) Assign (T 98) (Plain (Zeros [3;1;1]));
  (*352*) AddTo (T 98) (Plain (Einsum [(n_t1,[0;1]); (T 70,[2;0;3])] [2;1;3]));
  (*353*) Assign (T 99) (Plain (Zeros [3;1;1]));
  (*354*) AddTo (T 99) (Plain (Einsum [(T 98,[0;1;2])] [0;2;1]));
  (*355*) Del (T 98);
  (*356*) Assign (T 103) (Plain (Zeros [3;0;0]));
  (*357*) AddTo (T 103) (Plain (Einsum [(n_t1,[0;1]); (T 70,[2;3;1])] [2;0;3]));
  (*358*) Assign (T 104) (Plain (Zeros [3;0;0]));
  (*359*) AddTo (T 104) (Plain (Einsum [(T 103,[0;1;2])] [0;2;1]));
  (*360*) Del (T 103);
  (*361*) AddTo n_s2new (Plain (Einsum [(n_u11,[0;1;2]); (T 70,[3;1;2])] [0;3]));
  (*362*) Del (T 70);
  (*363*) Assign (T 71) (Plain (Zeros [3;3]));
  (*364*) AddTo (T 71) (Plain (Einsum [(n_gc'bov,[0;1;2]); (n_u11,[3;1;2])] [0;3]));
  (*365*) Assign (T 75) (Plain (Zeros [3;3]));
  (*366*) AddTo (T 75) (Plain (Einsum [(T 71,[0;1])] [0;1]));
  (*367*) Del (T 71);
  (*368*) Assign (T 72) (Plain (Zeros [3;3]));
  (*369*) AddTo (T 72) (Plain (Einsum [(n_g'bov,[0;1;2]); (n_u11,[3;1;2])] [0;3]));
  (*370*) Assign (T 73) (Plain (Zeros [3;3]));
  (*371*) AddTo (T 73) (Plain (Einsum [(T 72,[0;1])] [1;0]));
  (*372*) Assign (T 91) (Plain (Zeros [3;3;0;1]));
  (*373*) AddTo (T 91) (Plain (Einsum [(T 72,[0;1]); (n_u12,[2;0;3;4])] [1;2;3;4]));
  (*374*) Del (T 72);
  (*375*) Assign (T 108) (Plain (Zeros [3;3;0;1]));
  (*376*) SubFrom (T 108) (Plain (Einsum [(T 91,[0;1;2;3])] [0;1;2;3]));
  (*377*) Del (T 91);
  (*378*) AddTo (T 73) (Plain (Einsum [(n_w,[0;1])] [0;1]));
  (*379*) Assign (T 74) (Plain (Zeros [3;3]));
  (*380*) AddTo (T 74) (Plain (Einsum [(n_s2,[0;1]); (T 73,[2;0])] [1;2]));
  (*381*) AddTo (T 75) (Plain (Einsum [(T 74,[0;1])] [0;1]));
  (*382*) Del (T 74);
  (*383*) AddTo n_s2new (Plain (Einsum [(T 75,[0;1])] [0;1]));
  (*384*) AddTo n_s2new (Plain (Einsum [(T 75,[0;1])] [1;0]));
  (*385*) Del (T 75);
  (*386*) AddTo n_u11new (Plain (Einsum [(T 73,[0;1]); (n_u11,[1;2;3])] [0;2;3]));
  (*387*) Del (T 73);
  (*388*) Assign (T 76) (Plain (Zeros [3;0;1]));
  (*389*) AddTo (T 76) (Plain (Einsum [(n_s2,[0;1]); (n_g'bov,[1;2;3])] [0;2;3]));
  (*390*) AddTo (T 77) (Plain (Einsum [(T 76,[0;1;2])] [0;1;2]));
  (*391*) Assign (T 93) (Plain (Zeros [3;0;1]));
  (*392*) AddTo (T 93) (Plain (Einsum [(T 76,[0;1;2])] [0;1;2]));
  (*393*) Del (T 76);
  (*394*) AddTo (T 77) (Plain (Einsum [(n_gc'bov,[0;1;2])] [0;1;2]));
  (*395*) Assign (T 83) (Plain (Zeros [3;0;0]));
  (*396*) AddTo (T 83) (Plain (Einsum [(n_t1,[0;1]); (T 77,[2;3;1])] [2;3;0]));
  (*397*) AddTo n_u11new (Plain (Einsum [(T 77,[0;1;2]); (n_t2,[1;3;2;4])] [0;3;4]));
  (*398*) Del (T 77);
  (*399*) AddTo (T 78) (Times (Einsum [(n_f'vv,[0;1])] [0;1]) (-2) 1);
  (*400*) AddTo n_u11new (Times (Einsum [(T 78,[0;1]); (n_u11,[2;3;1])] [2;3;0]) (-1) 2);
  (*401*) Del (T 78);
  (*402*) Assign (T 79) (Plain (Zeros [3;0;0]));
  (*403*) AddTo (T 79) (Plain (Einsum [(n_s2,[0;1]); (n_g'boo,[1;2;3])] [0;2;3]));
  (*404*) AddTo (T 83) (Plain (Einsum [(T 79,[0;1;2])] [0;1;2]));
  (*405*) AddTo (T 95) (Plain (Einsum [(T 79,[0;1;2])] [0;1;2]));
  (*406*) Del (T 79);
  (*407*) Assign (T 80) (Plain (Zeros [3;0;0]));
  (*408*) AddTo (T 80) (Plain (Einsum [(n_g'bov,[0;1;2]); (n_u12,[3;0;4;2])] [3;1;4]));
  (*409*) AddTo (T 83) (Plain (Einsum [(T 80,[0;1;2])] [0;1;2]));
  (*410*) AddTo (T 104) (Plain (Einsum [(T 80,[0;1;2])] [0;1;2]));
  (*411*) Del (T 80);
  (*412*) Assign (T 81) (Plain (Zeros [3;0;0]));
  (*413*) SubFrom (T 81) (Plain (Einsum [(n_u11,[0;1;2]); (n_v'ooov,[1;3;4;2])] [0;3;4]));
  (*414*) AddTo (T 83) (Plain (Einsum [(T 81,[0;1;2])] [0;1;2]));
  (*415*) AddTo (T 104) (Plain (Einsum [(T 81,[0;1;2])] [0;1;2]));
  (*416*) Del (T 81);
  (*417*) Assign (T 105) (Plain (Zeros [3;3;0;1]));
  (*418*) AddTo (T 105) (Plain (Einsum [(n_u11,[0;1;2]); (T 104,[3;1;4])] [0;3;4;2]));
  (*419*) Del (T 104);
  (*420*) AddTo (T 108) (Plain (Einsum [(T 105,[0;1;2;3])] [0;1;2;3]));
  (*421*) Del (T 105);
  (*422*) AddTo (T 82) (Plain (Einsum [(n_f'ov,[0;1])] [0;1]));
  (*423*) AddTo (T 83) (Plain (Einsum [(T 82,[0;1]); (n_u11,[2;3;1])] [2;0;3]));
  (*424*) Del (T 82);
  (*425*) AddTo (T 83) (Plain (Einsum [(n_gc'boo,[0;1;2])] [0;1;2]));
  (*426*) SubFrom n_u11new (Plain (Einsum [(n_t1,[0;1]); (T 83,[2;0;3])] [2;3;1]));
  (*427*) Del (T 83);
  (*428*) AddTo (T 84) (Times (Einsum [(n_f'oo,[0;1])] [0;1]) (2) 1);
  (*429*) AddTo n_u11new (Times (Einsum [(T 84,[0;1]); (n_u11,[2;0;3])] [2;1;3]) (-1) 2);
  (*430*) Del (T 84);
  (*431*) Assign (T 85) (Plain (Zeros [3;1;1]));
  (*432*) AddTo (T 85) (Plain (Einsum [(n_s2,[0;1]); (n_g'bvv,[1;2;3])] [0;2;3]));
  (*433*) Assign (T 87) (Plain (Zeros [3;1;1]));
  (*434*) AddTo (T 87) (Plain (Einsum [(T 85,[0;1;2])] [0;1;2]));
  (*435*) Assign (T 101) (Plain (Zeros [3;1;1]));
  (*436*) AddTo (T 101) (Plain (Einsum [(T 85,[0;1;2])] [0;1;2]));
  (*437*) Del (T 85);
  (*438*) Assign (T 86) (Plain (Zeros [3;1;1]));
  (*439*) SubFrom (T 86) (Plain (Einsum [(n_u11,[0;1;2]); (n_v'ovvv,[1;3;2;4])] [0;3;4]));
  (*440*) SubFrom (T 87) (Plain (Einsum [(T 86,[0;1;2])] [0;1;2]));
  (*441*) AddTo (T 99) (Plain (Einsum [(T 86,[0;1;2])] [0;2;1]));
  (*442*) Del (T 86);
  (*443*) AddTo (T 87) (Plain (Einsum [(n_gc'bvv,[0;1;2])] [0;1;2]));
  (*444*) AddTo n_u11new (Plain (Einsum [(n_t1,[0;1]); (T 87,[2;3;1])] [2;0;3]));
  (*445*) Del (T 87);
  (*446*) Assign (T 88) (Plain (Zeros [3;3;0;1]));
  (*447*) AddTo (T 88) (Plain (Einsum [(n_u12,[0;1;2;3]); (n_v'oovv,[2;4;3;5])] [0;1;4;5]));
  (*448*) AddTo n_u12new (Plain (Einsum [(n_t2,[0;1;2;3]); (T 88,[4;5;1;3])] [5;4;0;2]));
  (*449*) Del (T 88);
  (*450*) Assign (T 89) (Plain (Zeros [3;3;3]));
  (*451*) AddTo (T 89) (Plain (Einsum [(n_g'bov,[0;1;2]); (n_u12,[3;4;1;2])] [0;3;4]));
  (*452*) AddTo n_u12new (Plain (Einsum [(n_u11,[0;1;2]); (T 89,[0;3;4])] [4;3;1;2]));
  (*453*) Del (T 89);
  (*454*) Assign (T 90) (Plain (Zeros [3;3;0;1]));
  (*455*) AddTo (T 90) (Plain (Einsum [(n_w,[0;1]); (n_u12,[2;1;3;4])] [2;0;3;4]));
  (*456*) SubFrom (T 108) (Plain (Einsum [(T 90,[0;1;2;3])] [0;1;2;3]));
  (*457*) Del (T 90);
  (*458*) AddTo (T 93) (Plain (Einsum [(n_gc'bov,[0;1;2])] [0;1;2]));
  (*459*) Assign (T 94) (Plain (Zeros [3;0;0]));
  (*460*) AddTo (T 94) (Plain (Einsum [(n_t1,[0;1]); (T 93,[2;3;1])] [2;0;3]));
  (*461*) AddTo (T 95) (Plain (Einsum [(T 94,[0;1;2])] [0;2;1]));
  (*462*) Del (T 94);
  (*463*) Assign (T 106) (Plain (Zeros [3;3;0;0]));
  (*464*) AddTo (T 106) (Plain (Einsum [(n_u11,[0;1;2]); (T 93,[3;4;2])] [0;3;1;4]));
  (*465*) Del (T 93);
  (*466*) Assign (T 107) (Plain (Zeros [3;3;0;1]));
  (*467*) AddTo (T 107) (Plain (Einsum [(n_t1,[0;1]); (T 106,[2;3;4;0])] [3;2;4;1]));
  (*468*) Del (T 106);
  (*469*) AddTo (T 108) (Plain (Einsum [(T 107,[0;1;2;3])] [0;1;2;3]));
  (*470*) Del (T 107);
  (*471*) AddTo (T 95) (Plain (Einsum [(n_gc'boo,[0;1;2])] [0;1;2]));
  (*472*) Assign (T 96) (Plain (Zeros [3;3;0;1]));
  (*473*) AddTo (T 96) (Plain (Einsum [(n_u11,[0;1;2]); (T 95,[3;1;4])] [0;3;4;2]));
  (*474*) Del (T 95);
  (*475*) AddTo (T 108) (Plain (Einsum [(T 96,[0;1;2;3])] [1;0;2;3]));
  (*476*) Del (T 96);
  (*477*) Assign (T 97) (Plain (Zeros [3;1;1]));
  (*478*) AddTo (T 97) (Plain (Einsum [(n_g'bov,[0;1;2]); (n_u12,[3;0;1;4])] [3;2;4]));
  (*479*) AddTo (T 99) (Plain (Einsum [(T 97,[0;1;2])] [0;1;2]));
  (*480*) Del (T 97);
  (*481*) Assign (T 100) (Plain (Zeros [3;3;0;1]));
  (*482*) AddTo (T 100) (Plain (Einsum [(n_u11,[0;1;2]); (T 99,[3;2;4])] [0;3;1;4]));
  (*483*) Del (T 99);
  (*484*) AddTo (T 108) (Plain (Einsum [(T 100,[0;1;2;3])] [0;1;2;3]));
  (*485*) Del (T 100);
  (*486*) AddTo (T 101) (Plain (Einsum [(n_gc'bvv,[0;1;2])] [0;1;2]));
  (*487*) Assign (T 102) (Plain (Zeros [3;3;0;1]));
  (*488*) AddTo (T 102) (Plain (Einsum [(n_u11,[0;1;2]); (T 101,[3;4;2])] [0;3;1;4]));
  (*489*) Del (T 101);
  (*490*) SubFrom (T 108) (Plain (Einsum [(T 102,[0;1;2;3])] [1;0;2;3]));
  (*491*) Del (T 102);
  (*492*) SubFrom n_u12new (Plain (Einsum [(T 108,[0;1;2;3])] [0;1;2;3]));
  (*493*) SubFrom n_u12new (Plain (Einsum [(T 108,[0;1;2;3])] [1;0;2;3]));
  (*494*) Del (T 108);
  (*495*) AddTo (T 109) (Plain (Einsum [(n_v'ovov,[0;1;2;3])] [0;2;1;3]));
  (*496*) SubFrom n_u12new (Plain (Einsum [(n_u12,[0;1;2;3]); (T 109,[2;4;5;3])] [1;0;4;5]));
  (*497*) Del (T 109);
  (*498*) AddTo (T 110) (Times (Einsum [(n_f'vv,[0;1])] [0;1]) (-2) 1);
  (*499*) AddTo n_u12new (Times (Einsum [(T 110,[0;1]); (n_u12,[2;3;4;1])] [3;2;4;0]) (-1) 2);
  (*500*) Del (T 110);
  (*501*) SubFrom (T 111) (Plain (Einsum [(n_v'ooov,[0;1;2;3])] [1;0;2;3]));
  (*502*) SubFrom (T 112) (Plain (Einsum [(n_u12,[0;1;2;3]); (T 111,[2;4;5;3])] [1;0;4;5]));
  (*503*) Del (T 111);
  (*504*) SubFrom n_u12new (Plain (Einsum [(n_t1,[0;1]); (T 112,[2;3;0;4])] [3;2;4;1]));
  (*505*) Del (T 112);
  (*506*) AddTo n_t1new (Plain (Einsum [(n_s1,[0]); (n_g'bvo,[0;1;2])] [2;1]));
  (*507*) AddTo n_t1new (Plain (Einsum [(n_f'vo,[0;1])] [1;0]));
  (*508*) AddTo n_t1new (Times (Einsum [(n_t2,[0;1;2;3]); (n_v'ovvv,[1;4;2;3])] [0;4]) (-1) 2);
  (*509*) SubFrom n_t1new (Plain (Einsum [(n_t1,[0;1]); (n_v'ovov,[0;2;3;1])] [3;2]));
  (*510*) AddTo n_t1new (Plain (Einsum [(n_g'bvv,[0;1;2]); (n_u11,[0;3;2])] [3;1]));
  (*511*) SubFrom n_t2new (Plain (Einsum [(n_t1,[0;1]); (n_v'ovoo,[0;2;3;4])] [4;3;2;1]));
  (*512*) AddTo n_t2new (Plain (Einsum [(n_v'vvoo,[0;1;2;3])] [3;2;1;0]));
  (*513*) AddTo n_t2new (Times (Einsum [(n_t2,[0;1;2;3]); (n_v'vvvv,[4;5;2;3])] [1;0;5;4]) (1) 2);
  (*514*) AddTo n_s1new (Plain (Einsum [(n_s1,[0]); (n_w,[1;0])] [1]));
  (*515*) AddTo n_s1new (Plain (Einsum [(n_t1,[0;1]); (n_gc'bov,[2;0;1])] [2]));
  (*516*) AddTo n_s1new (Plain (Einsum [(n_G,[0])] [0]));
  (*517*) AddTo n_s1new (Plain (Einsum [(n_g'bov,[0;1;2]); (n_u12,[3;0;1;2])] [3]));
  (*518*) AddTo n_u11new (Plain (Einsum [(n_s2,[0;1]); (n_g'bvo,[1;2;3])] [0;3;2]));
  (*519*) AddTo n_u11new (Plain (Einsum [(n_gc'bvo,[0;1;2])] [0;2;1]));
  (*520*) SubFrom n_u11new (Plain (Einsum [(n_u11,[0;1;2]); (n_v'ovov,[1;3;4;2])] [0;4;3]));
  (*521*) AddTo n_u11new (Plain (Einsum [(n_g'bvv,[0;1;2]); (n_u12,[3;0;4;2])] [3;4;1]))]
 [(n_t1new,[0;1]); (n_t2new,[0;0;1;1]); (n_s1new,[3]); (n_s2new,[3;3]); (n_u11new,[3;0;1]); (n_u12new,[3;3;0;1])].

(** ebcc/codegen/GCCSD_SD_1_2.py:525-1324 [update_lams] *)
Definition GCCSD_SD_1_2_update_lams : prog := mkprog
 [(n_g'boo,[3;0;0]); (n_g'bvo,[3;1;0]); (n_g'bov,[3;0;1]); (n_g'bvv,[3;1;1]); (n_l2,[1;1;0;0]); (n_t2,[0;0;1;1]); (n_v'ooov,[0;0;0;1]); (n_t1,[0;1]); (n_v'oovv,[0;0;1;1]); (n_v'ovvv,[0;1;1;1]); (n_l1,[1;0]); (n_s1,[3]); (n_f'ov,[0;1]); (n_u12,[3;3;0;1]); (n_u11,[3;0;1]); (n_ls1,[3]); (n_ls2,[3;3]); (n_v'oooo,[0;0;0;0]); (n_v'ovov,[0;1;0;1]); (n_v'ovoo,[0;1;0;0]); (n_lu12,[3;3;1;0]); (n_v'vvov,[1;1;0;1]); (n_v'vvvv,[1;1;1;1]); (n_s2,[3;3]); (n_lu11,[3;1;0]); (n_f'oo,[0;0]); (n_f'vv,[1;1]); (n_G,[3]); (n_f'vo,[1;0]); (n_w,[3;3])]
 [(*527*) Assign n_gc'boo (Plain (Transpose n_g'boo [0;2;1]));
  (*527*) Assign n_gc'bov (Plain (Transpose n_g'bvo [0;2;1]));
  (*527*) Assign n_gc'bvo (Plain (Transpose n_g'bov [0;2;1]));
  (*527*) Assign n_gc'bvv (Plain (Transpose n_g'bvv [0;2;1]));
  (*535*) Assign (T 1) (Plain (Zeros [0;0;0;0]));
  (*536*) AddTo (T 1) (Plain (Einsum [(n_l2,[0;1;2;3]); (n_t2,[4;5;0;1])] [2;3;4;5]));
  (*537*) Assign (T 16) (Plain (Zeros [0;0;0;0]));
  (*538*) AddTo (T 16) (Times (Einsum [(T 1,[0;1;2;3])] [1;0;3;2]) (-1) 1);
  (*539*) Assign (T 135) (Plain (Zeros [0;0;0;0]));
  (*540*) AddTo (T 135) (Times (Einsum [(T 1,[0;1;2;3])] [1;0;3;2]) (-1) 2);
  (*541*) Assign n_l1new (Plain (Zeros [1;0]));
  (*542*) AddTo n_l1new (Times (Einsum [(n_v'ooov,[0;1;2;3]); (T 1,[4;2;0;1])] [3;4]) (-1) 4);
  (*543*) Del (T 1);
  (*544*) Assign (T 2) (Plain (Zeros [0;0;0;1]));
  (*545*) AddTo (T 2) (Plain (Einsum [(n_t1,[0;1]); (n_l2,[2;1;3;4])] [3;4;0;2]));
  (*546*) Assign (T 3) (Plain (Zeros [0;0;0;0]));
  (*547*) AddTo (T 3) (Plain (Einsum [(n_t1,[0;1]); (T 2,[2;3;4;1])] [2;3;0;4]));
  (*548*) AddTo (T 16) (Times (Einsum [(T 3,[0;1;2;3])] [0;1;3;2]) (20000000000000013) 10000000000000000);
  (*549*) Assign (T 17) (Plain (Zeros [0;0;0;1]));
  (*550*) AddTo (T 17) (Times (Einsum [(n_t1,[0;1]); (T 16,[0;2;3;4])] [2;4;3;1]) (-1) 2);
  (*551*) Del (T 16);
  (*552*) AddTo (T 135) (Plain (Einsum [(T 3,[0;1;2;3])] [0;1;3;2]));
  (*553*) Assign n_l2new (Plain (Zeros [1;1;0;0]));
  (*554*) AddTo n_l2new (Times (Einsum [(n_v'oovv,[0;1;2;3]); (T 135,[4;5;0;1])] [3;2;5;4]) (-1) 2);
  (*555*) Del (T 135);
  (*556*) AddTo n_l1new (Times (Einsum [(n_v'ooov,[0;1;2;3]); (T 3,[4;2;1;0])] [3;4]) (1) 2);
  (*557*) Del (T 3);
  (*558*) AddTo (T 17) (Times (Einsum [(n_t2,[0;1;2;3]); (T 2,[4;1;5;3])] [4;5;0;2]) (2) 1);
  (*559*) Assign (T 48) (Plain (Zeros [0;1]));
  (*560*) AddTo (T 48) (Plain (Einsum [(n_t2,[0;1;2;3]); (T 2,[0;1;4;2])] [4;3]));
  (*561*) Assign (T 57) (Plain (Zeros [0;1]));
  (*562*) AddTo (T 57) (Times (Einsum [(T 48,[0;1])] [0;1]) (1) 2);
  (*563*) Assign (T 150) (Plain (Zeros [0;1]));
  (*564*) AddTo (T 150) (Plain (Einsum [(T 48,[0;1])] [0;1]));
  (*565*) Del (T 48);
  (*566*) AddTo n_l2new (Plain (Einsum [(n_v'ovvv,[0;1;2;3]); (T 2,[4;5;0;1])] [3;2;5;4]));
  (*567*) Assign (T 4) (Plain (Zeros [0;0;0;1]));
  (*568*) AddTo (T 4) (Plain (Einsum [(n_t1,[0;1]); (n_v'oovv,[2;3;4;1])] [0;2;3;4]));
  (*569*) Assign (T 5) (Plain (Zeros [0;0;0;1]));
  (*570*) AddTo (T 5) (Times (Einsum [(T 4,[0;1;2;3])] [0;2;1;3]) (-1) 1);
  (*571*) Assign (T 10) (Plain (Zeros [0;0;0;1]));
  (*572*) AddTo (T 10) (Times (Einsum [(T 4,[0;1;2;3])] [2;1;0;3]) (5000000000000003) 10000000000000000);
  (*573*) Assign (T 21) (Plain (Zeros [0;0;0;1]));
  (*574*) AddTo (T 21) (Plain (Einsum [(T 4,[0;1;2;3])] [2;1;0;3]));
  (*575*) Assign (T 90) (Plain (Zeros [0;0;1;1]));
  (*576*) SubFrom (T 90) (Plain (Einsum [(n_l1,[0;1]); (T 4,[1;2;3;4])] [3;2;0;4]));
  (*577*) Assign (T 99) (Plain (Zeros [0;0;1;1]));
  (*578*) AddTo (T 99) (Plain (Einsum [(T 90,[0;1;2;3])] [0;1;2;3]));
  (*579*) Del (T 90);
  (*580*) Assign (T 105) (Plain (Zeros [0;0;0;1]));
  (*581*) SubFrom (T 105) (Plain (Einsum [(T 4,[0;1;2;3])] [0;2;1;3]));
  (*582*) Assign (T 133) (Plain (Zeros [0;0;0;1]));
  (*583*) AddTo (T 133) (Times (Einsum [(T 4,[0;1;2;3])] [2;1;0;3]) (1) 2);
  (*584*) AddTo (T 5) (Plain (Einsum [(n_v'ooov,[0;1;2;3])] [2;1;0;3]));
  (*585*) Assign (T 14) (Plain (Zeros [0;0;0;1]));
  (*586*) AddTo (T 14) (Plain (Einsum [(n_t2,[0;1;2;3]); (T 5,[4;0;5;2])] [5;4;1;3]));
  (*587*) Assign (T 43) (Plain (Zeros [0;1]));
  (*588*) AddTo (T 43) (Plain (Einsum [(n_t2,[0;1;2;3]); (T 5,[4;0;1;2])] [4;3]));
  (*589*) Assign (T 143) (Plain (Zeros [0;1]));
  (*590*) AddTo (T 143) (Times (Einsum [(n_t2,[0;1;2;3]); (T 5,[4;0;1;2])] [4;3]) (1) 2);
  (*591*) Del (T 5);
  (*592*) Assign (T 149) (Plain (Zeros [0;1]));
  (*593*) AddTo (T 149) (Plain (Einsum [(T 143,[0;1])] [0;1]));
  (*594*) Del (T 143);
  (*595*) Assign (T 6) (Plain (Zeros [0;1]));
  (*596*) AddTo (T 6) (Plain (Einsum [(n_s1,[0]); (n_g'bov,[0;1;2])] [1;2]));
  (*597*) Assign (T 8) (Plain (Zeros [0;1]));
  (*598*) AddTo (T 8) (Plain (Einsum [(T 6,[0;1])] [0;1]));
  (*599*) Assign (T 65) (Plain (Zeros [0;1]));
  (*600*) AddTo (T 65) (Plain (Einsum [(T 6,[0;1])] [0;1]));
  (*601*) Assign (T 97) (Plain (Zeros [0;1]));
  (*602*) AddTo (T 97) (Plain (Einsum [(T 6,[0;1])] [0;1]));
  (*603*) Del (T 6);
  (*604*) Assign (T 7) (Plain (Zeros [0;1]));
  (*605*) AddTo (T 7) (Plain (Einsum [(n_t1,[0;1]); (n_v'oovv,[2;0;3;1])] [2;3]));
  (*606*) AddTo (T 8) (Plain (Einsum [(T 7,[0;1])] [0;1]));
  (*607*) AddTo (T 65) (Plain (Einsum [(T 7,[0;1])] [0;1]));
  (*608*) Assign (T 93) (Plain (Zeros [0;0;1;1]));
  (*609*) SubFrom (T 93) (Plain (Einsum [(T 7,[0;1]); (T 2,[2;3;0;4])] [3;2;4;1]));
  (*610*) SubFrom (T 99) (Plain (Einsum [(T 93,[0;1;2;3])] [0;1;2;3]));
  (*611*) Del (T 93);
  (*612*) Assign (T 108) (Plain (Zeros [0;0;1;1]));
  (*613*) AddTo (T 108) (Plain (Einsum [(n_l1,[0;1]); (T 7,[2;3])] [1;2;0;3]));
  (*614*) Assign (T 115) (Plain (Zeros [0;0]));
  (*615*) AddTo (T 115) (Plain (Einsum [(n_t1,[0;1]); (T 7,[2;1])] [0;2]));
  (*616*) Del (T 7);
  (*617*) Assign (T 116) (Plain (Zeros [0;0]));
  (*618*) AddTo (T 116) (Plain (Einsum [(T 115,[0;1])] [1;0]));
  (*619*) Del (T 115);
  (*620*) AddTo (T 8) (Plain (Einsum [(n_f'ov,[0;1])] [0;1]));
  (*621*) AddTo (T 14) (Times (Einsum [(T 8,[0;1]); (n_t2,[2;3;1;4])] [0;3;2;4]) (-1) 2);
  (*622*) Assign (T 25) (Plain (Zeros [3;3;0;0]));
  (*623*) AddTo (T 25) (Times (Einsum [(T 8,[0;1]); (n_u12,[2;3;4;1])] [3;2;0;4]) (1) 2);
  (*624*) Assign (T 36) (Plain (Zeros [0;0]));
  (*625*) AddTo (T 36) (Plain (Einsum [(n_t1,[0;1]); (T 8,[2;1])] [0;2]));
  (*626*) Assign (T 37) (Plain (Zeros [0;0]));
  (*627*) AddTo (T 37) (Plain (Einsum [(T 36,[0;1])] [1;0]));
  (*628*) Del (T 36);
  (*629*) AddTo (T 43) (Times (Einsum [(T 8,[0;1]); (n_t2,[0;2;1;3])] [2;3]) (-2) 1);
  (*630*) Assign (T 75) (Plain (Zeros [3;3]));
  (*631*) AddTo (T 75) (Plain (Einsum [(T 8,[0;1]); (n_u12,[2;3;0;1])] [3;2]));
  (*632*) Assign (T 138) (Plain (Zeros [3;0;0]));
  (*633*) AddTo (T 138) (Plain (Einsum [(T 8,[0;1]); (n_u11,[2;3;1])] [2;0;3]));
  (*634*) Assign (T 144) (Plain (Zeros [0;1]));
  (*635*) AddTo (T 144) (Plain (Einsum [(T 8,[0;1]); (n_t2,[0;2;1;3])] [2;3]));
  (*636*) AddTo (T 149) (Times (Einsum [(T 144,[0;1])] [0;1]) (-1) 1);
  (*637*) Del (T 144);
  (*638*) Assign n_lu11new (Plain (Zeros [3;1;0]));
  (*639*) AddTo n_lu11new (Times (Einsum [(n_ls1,[0]); (T 8,[1;2])] [0;2;1]) (2) 1);
  (*640*) Assign n_lu12new (Plain (Zeros [3;3;1;0]));
  (*641*) AddTo n_lu12new (Times (Einsum [(n_ls2,[0;1]); (T 8,[2;3])] [1;0;3;2]) (2) 1);
  (*642*) Del (T 8);
  (*643*) Assign (T 9) (Plain (Zeros [0;0;0;0]));
  (*644*) AddTo (T 9) (Plain (Einsum [(n_t2,[0;1;2;3]); (n_v'oovv,[4;5;2;3])] [0;1;4;5]));
  (*645*) Assign (T 11) (Plain (Zeros [0;0;0;0]));
  (*646*) AddTo (T 11) (Plain (Einsum [(T 9,[0;1;2;3])] [3;2;1;0]));
  (*647*) Assign (T 134) (Plain (Zeros [0;0;0;0]));
  (*648*) AddTo (T 134) (Plain (Einsum [(T 9,[0;1;2;3])] [3;2;1;0]));
  (*649*) Del (T 9);
  (*650*) AddTo (T 10) (Times (Einsum [(n_v'ooov,[0;1;2;3])] [1;0;2;3]) (-1) 1);
  (*651*) AddTo (T 11) (Times (Einsum [(n_t1,[0;1]); (T 10,[2;3;4;1])] [3;2;4;0]) (-4) 1);
  (*652*) Del (T 10);
  (*653*) AddTo (T 11) (Times (Einsum [(n_v'oooo,[0;1;2;3])] [1;0;3;2]) (2) 1);
  (*654*) AddTo (T 14) (Times (Einsum [(n_t1,[0;1]); (T 11,[0;2;3;4])] [2;4;3;1]) (-1) 4);
  (*655*) Del (T 11);
  (*656*) Assign (T 12) (Plain (Zeros [0;0;1;1]));
  (*657*) AddTo (T 12) (Plain (Einsum [(n_t1,[0;1]); (n_v'ovvv,[2;3;4;1])] [0;2;3;4]));
  (*658*) Assign (T 13) (Plain (Zeros [0;0;1;1]));
  (*659*) AddTo (T 13) (Times (Einsum [(T 12,[0;1;2;3])] [1;0;2;3]) (-1) 2);
  (*660*) Assign (T 20) (Plain (Zeros [0;0;1;1]));
  (*661*) SubFrom (T 20) (Plain (Einsum [(T 12,[0;1;2;3])] [1;0;2;3]));
  (*662*) Assign (T 103) (Plain (Zeros [0;0;1;1]));
  (*663*) AddTo (T 103) (Plain (Einsum [(T 12,[0;1;2;3])] [0;1;2;3]));
  (*664*) Del (T 12);
  (*665*) AddTo (T 13) (Plain (Einsum [(n_v'ovov,[0;1;2;3])] [0;2;1;3]));
  (*666*) AddTo (T 14) (Times (Einsum [(n_t1,[0;1]); (T 13,[2;3;4;1])] [2;0;3;4]) (-1) 1);
  (*667*) Del (T 13);
  (*668*) AddTo (T 14) (Times (Einsum [(n_v'ovoo,[0;1;2;3])] [0;3;2;1]) (-1) 2);
  (*669*) AddTo (T 14) (Times (Einsum [(n_t2,[0;1;2;3]); (n_v'ovvv,[4;5;2;3])] [4;1;0;5]) (-1) 4);
  (*670*) AddTo n_l1new (Plain (Einsum [(n_l2,[0;1;2;3]); (T 14,[4;2;3;0])] [1;4]));
  (*671*) Del (T 14);
  (*672*) Assign (T 15) (Plain (Zeros [3;3;0;0]));
  (*673*) AddTo (T 15) (Plain (Einsum [(n_t1,[0;1]); (n_lu12,[2;3;1;4])] [2;3;4;0]));
  (*674*) AddTo (T 17) (Times (Einsum [(n_u12,[0;1;2;3]); (T 15,[0;1;4;5])] [4;5;2;3]) (-1) 1);
  (*675*) Assign (T 47) (Plain (Zeros [0;1]));
  (*676*) AddTo (T 47) (Plain (Einsum [(n_u12,[0;1;2;3]); (T 15,[0;1;2;4])] [4;3]));
  (*677*) AddTo (T 57) (Times (Einsum [(T 47,[0;1])] [0;1]) (1) 2);
  (*678*) AddTo (T 150) (Plain (Einsum [(T 47,[0;1])] [0;1]));
  (*679*) Del (T 47);
  (*680*) Assign (T 156) (Plain (Zeros [3;0;1]));
  (*681*) AddTo (T 156) (Plain (Einsum [(n_u11,[0;1;2]); (T 15,[3;0;1;4])] [3;4;2]));
  (*682*) Assign (T 157) (Plain (Zeros [3;3]));
  (*683*) AddTo (T 157) (Plain (Einsum [(n_g'bov,[0;1;2]); (T 156,[3;1;2])] [0;3]));
  (*684*) Del (T 156);
  (*685*) Assign (T 163) (Plain (Zeros [3;3]));
  (*686*) SubFrom (T 163) (Plain (Einsum [(T 157,[0;1])] [0;1]));
  (*687*) Del (T 157);
  (*688*) AddTo n_lu12new (Plain (Einsum [(n_v'ooov,[0;1;2;3]); (T 15,[4;5;2;1])] [5;4;3;0]));
  (*689*) SubFrom n_lu12new (Plain (Einsum [(T 15,[0;1;2;3]); (T 4,[2;4;3;5])] [1;0;5;4]));
  (*690*) Del (T 4);
  (*691*) AddTo (T 17) (Times (Einsum [(n_l1,[0;1]); (n_t2,[2;3;4;0])] [1;3;2;4]) (-1) 1);
  (*692*) AddTo n_l1new (Times (Einsum [(n_v'oovv,[0;1;2;3]); (T 17,[4;0;1;2])] [3;4]) (-1) 2);
  (*693*) Del (T 17);
  (*694*) Assign (T 18) (Plain (Zeros [0;0;1;1]));
  (*695*) AddTo (T 18) (Plain (Einsum [(n_lu12,[0;1;2;3]); (n_u12,[0;1;4;5])] [3;4;2;5]));
  (*696*) AddTo (T 18) (Times (Einsum [(n_l2,[0;1;2;3]); (n_t2,[4;2;5;1])] [3;4;0;5]) (-2) 1);
  (*697*) AddTo n_l1new (Times (Einsum [(n_v'ovvv,[0;1;2;3]); (T 18,[4;0;1;2])] [3;4]) (1) 2);
  (*698*) Del (T 18);
  (*699*) Assign (T 19) (Plain (Zeros [0;1;1;1]));
  (*700*) AddTo (T 19) (Times (Einsum [(n_v'vvov,[0;1;2;3])] [2;1;0;3]) (-1) 1);
  (*701*) AddTo (T 19) (Plain (Einsum [(n_t1,[0;1]); (n_v'vvvv,[2;3;4;1])] [0;3;2;4]));
  (*702*) AddTo n_l1new (Times (Einsum [(n_l2,[0;1;2;3]); (T 19,[2;0;1;4])] [4;3]) (1) 2);
  (*703*) Del (T 19);
  (*704*) AddTo (T 20) (Plain (Einsum [(n_v'ovov,[0;1;2;3])] [0;2;1;3]));
  (*705*) AddTo n_l1new (Plain (Einsum [(T 2,[0;1;2;3]); (T 20,[2;0;3;4])] [4;1]));
  (*706*) SubFrom n_lu12new (Plain (Einsum [(n_lu12,[0;1;2;3]); (T 20,[4;3;2;5])] [1;0;5;4]));
  (*707*) Del (T 20);
  (*708*) AddTo (T 21) (Times (Einsum [(n_v'ooov,[0;1;2;3])] [1;0;2;3]) (-1) 1);
  (*709*) AddTo (T 25) (Times (Einsum [(n_u12,[0;1;2;3]); (T 21,[2;4;5;3])] [1;0;4;5]) (-1) 2);
  (*710*) Del (T 21);
  (*711*) Assign (T 22) (Plain (Zeros [3;0;1]));
  (*712*) AddTo (T 22) (Plain (Einsum [(n_s2,[0;1]); (n_g'bov,[0;2;3])] [1;2;3]));
  (*713*) Assign (T 24) (Plain (Zeros [3;0;1]));
  (*714*) AddTo (T 24) (Plain (Einsum [(T 22,[0;1;2])] [0;1;2]));
  (*715*) Del (T 22);
  (*716*) Assign (T 23) (Plain (Zeros [3;0;1]));
  (*717*) AddTo (T 23) (Plain (Einsum [(n_u11,[0;1;2]); (n_v'oovv,[3;1;4;2])] [0;3;4]));
  (*718*) AddTo (T 24) (Plain (Einsum [(T 23,[0;1;2])] [0;1;2]));
  (*719*) Assign (T 66) (Plain (Zeros [3;0;1]));
  (*720*) AddTo (T 66) (Plain (Einsum [(T 23,[0;1;2])] [0;1;2]));
  (*721*) Assign (T 72) (Plain (Zeros [3;0;1]));
  (*722*) AddTo (T 72) (Times (Einsum [(T 23,[0;1;2])] [0;1;2]) (1) 2);
  (*723*) Assign (T 101) (Plain (Zeros [0;0;1;1]));
  (*724*) AddTo (T 101) (Plain (Einsum [(n_lu11,[0;1;2]); (T 23,[0;3;4])] [2;3;1;4]));
  (*725*) AddTo (T 108) (Plain (Einsum [(T 101,[0;1;2;3])] [0;1;2;3]));
  (*726*) Del (T 101);
  (*727*) Assign (T 137) (Plain (Zeros [3;0;1]));
  (*728*) AddTo (T 137) (Plain (Einsum [(T 23,[0;1;2])] [0;1;2]));
  (*729*) Del (T 23);
  (*730*) AddTo (T 24) (Plain (Einsum [(n_gc'bov,[0;1;2])] [0;1;2]));
  (*731*) AddTo (T 25) (Plain (Einsum [(n_u11,[0;1;2]); (T 24,[3;4;2])] [0;3;4;1]));
  (*732*) AddTo n_l1new (Times (Einsum [(n_lu12,[0;1;2;3]); (T 25,[0;1;4;3])] [2;4]) (-1) 1);
  (*733*) Del (T 25);
  (*734*) Assign (T 142) (Plain (Zeros [3;0;1]));
  (*735*) AddTo (T 142) (Plain (Einsum [(T 24,[0;1;2]); (n_t2,[1;3;2;4])] [0;3;4]));
  (*736*) Del (T 24);
  (*737*) Assign (T 26) (Plain (Zeros [0;1]));
  (*738*) AddTo (T 26) (Plain (Einsum [(n_s1,[0]); (n_g'bvo,[0;1;2])] [2;1]));
  (*739*) AddTo (T 43) (Times (Einsum [(T 26,[0;1])] [0;1]) (-2) 1);
  (*740*) AddTo (T 149) (Times (Einsum [(T 26,[0;1])] [0;1]) (-1) 1);
  (*741*) Del (T 26);
  (*742*) Assign (T 27) (Plain (Zeros [0;1]));
  (*743*) AddTo (T 27) (Plain (Einsum [(n_g'bvv,[0;1;2]); (n_u11,[0;3;2])] [3;1]));
  (*744*) AddTo (T 43) (Times (Einsum [(T 27,[0;1])] [0;1]) (-2) 1);
  (*745*) AddTo (T 149) (Times (Einsum [(T 27,[0;1])] [0;1]) (-1) 1);
  (*746*) Del (T 27);
  (*747*) Assign (T 28) (Plain (Zeros [0;1]));
  (*748*) AddTo (T 28) (Plain (Einsum [(n_t1,[0;1]); (n_v'ovov,[0;2;3;1])] [3;2]));
  (*749*) AddTo (T 43) (Times (Einsum [(T 28,[0;1])] [0;1]) (2) 1);
  (*750*) AddTo (T 149) (Plain (Einsum [(T 28,[0;1])] [0;1]));
  (*751*) Del (T 28);
  (*752*) Assign (T 29) (Plain (Zeros [0;1]));
  (*753*) SubFrom (T 29) (Plain (Einsum [(n_t2,[0;1;2;3]); (n_v'ovvv,[0;4;2;3])] [1;4]));
  (*754*) AddTo (T 43) (Plain (Einsum [(T 29,[0;1])] [0;1]));
  (*755*) AddTo (T 149) (Times (Einsum [(T 29,[0;1])] [0;1]) (1) 2);
  (*756*) Del (T 29);
  (*757*) Assign (T 30) (Plain (Zeros [3;0;0]));
  (*758*) AddTo (T 30) (Plain (Einsum [(n_t1,[0;1]); (n_g'bov,[2;3;1])] [2;3;0]));
  (*759*) Assign (T 31) (Plain (Zeros [3;0;0]));
  (*760*) AddTo (T 31) (Plain (Einsum [(T 30,[0;1;2])] [0;1;2]));
  (*761*) Assign (T 67) (Plain (Zeros [3;0;0]));
  (*762*) AddTo (T 67) (Plain (Einsum [(T 30,[0;1;2])] [0;1;2]));
  (*763*) Del (T 30);
  (*764*) AddTo (T 31) (Plain (Einsum [(n_g'boo,[0;1;2])] [0;1;2]));
  (*765*) AddTo (T 43) (Times (Einsum [(n_u11,[0;1;2]); (T 31,[0;1;3])] [3;2]) (2) 1);
  (*766*) AddTo (T 138) (Plain (Einsum [(n_s2,[0;1]); (T 31,[0;2;3])] [1;2;3]));
  (*767*) AddTo (T 142) (Times (Einsum [(T 31,[0;1;2]); (n_u12,[0;3;1;4])] [3;2;4]) (-1) 1);
  (*768*) Assign (T 145) (Plain (Zeros [0;1]));
  (*769*) AddTo (T 145) (Plain (Einsum [(n_u11,[0;1;2]); (T 31,[0;1;3])] [3;2]));
  (*770*) Del (T 31);
  (*771*) AddTo (T 149) (Plain (Einsum [(T 145,[0;1])] [0;1]));
  (*772*) Del (T 145);
  (*773*) Assign (T 32) (Plain (Zeros [0;0]));
  (*774*) AddTo (T 32) (Plain (Einsum [(n_s1,[0]); (n_g'boo,[0;1;2])] [1;2]));
  (*775*) AddTo (T 37) (Plain (Einsum [(T 32,[0;1])] [0;1]));
  (*776*) Assign (T 111) (Plain (Zeros [0;0]));
  (*777*) AddTo (T 111) (Plain (Einsum [(T 32,[0;1])] [0;1]));
  (*778*) Del (T 32);
  (*779*) Assign (T 33) (Plain (Zeros [0;0]));
  (*780*) AddTo (T 33) (Plain (Einsum [(n_g'bov,[0;1;2]); (n_u11,[0;3;2])] [1;3]));
  (*781*) AddTo (T 37) (Plain (Einsum [(T 33,[0;1])] [0;1]));
  (*782*) AddTo (T 111) (Plain (Einsum [(T 33,[0;1])] [0;1]));
  (*783*) Del (T 33);
  (*784*) Assign (T 34) (Plain (Zeros [0;0]));
  (*785*) AddTo (T 34) (Plain (Einsum [(n_t1,[0;1]); (n_v'ooov,[2;0;3;1])] [2;3]));
  (*786*) AddTo (T 37) (Plain (Einsum [(T 34,[0;1])] [0;1]));
  (*787*) AddTo (T 116) (Plain (Einsum [(T 34,[0;1])] [0;1]));
  (*788*) Del (T 34);
  (*789*) Assign (T 117) (Plain (Zeros [0;0;1;1]));
  (*790*) AddTo (T 117) (Plain (Einsum [(T 116,[0;1]); (n_l2,[2;3;1;4])] [4;0;2;3]));
  (*791*) Del (T 116);
  (*792*) Assign (T 118) (Plain (Zeros [0;0;1;1]));
  (*793*) SubFrom (T 118) (Plain (Einsum [(T 117,[0;1;2;3])] [0;1;3;2]));
  (*794*) Del (T 117);
  (*795*) Assign (T 35) (Plain (Zeros [0;0]));
  (*796*) AddTo (T 35) (Plain (Einsum [(n_t2,[0;1;2;3]); (n_v'oovv,[0;4;2;3])] [1;4]));
  (*797*) AddTo (T 37) (Times (Einsum [(T 35,[0;1])] [1;0]) (1) 2);
  (*798*) Assign (T 122) (Plain (Zeros [0;0;1;1]));
  (*799*) AddTo (T 122) (Plain (Einsum [(T 35,[0;1]); (n_l2,[2;3;4;0])] [4;1;2;3]));
  (*800*) Del (T 35);
  (*801*) Assign (T 125) (Plain (Zeros [0;0;1;1]));
  (*802*) AddTo (T 125) (Times (Einsum [(T 122,[0;1;2;3])] [0;1;3;2]) (-1) 2);
  (*803*) Del (T 122);
  (*804*) AddTo (T 37) (Plain (Einsum [(n_f'oo,[0;1])] [0;1]));
  (*805*) AddTo (T 43) (Times (Einsum [(n_t1,[0;1]); (T 37,[0;2])] [2;1]) (2) 1);
  (*806*) AddTo (T 142) (Times (Einsum [(T 37,[0;1]); (n_u11,[2;0;3])] [2;1;3]) (-1) 1);
  (*807*) Assign (T 146) (Plain (Zeros [0;1]));
  (*808*) AddTo (T 146) (Plain (Einsum [(n_t1,[0;1]); (T 37,[0;2])] [2;1]));
  (*809*) AddTo (T 149) (Plain (Einsum [(T 146,[0;1])] [0;1]));
  (*810*) Del (T 146);
  (*811*) AddTo n_l1new (Times (Einsum [(n_l1,[0;1]); (T 37,[2;1])] [0;2]) (-1) 1);
  (*812*) AddTo n_lu12new (Times (Einsum [(T 37,[0;1]); (n_lu12,[2;3;4;1])] [3;2;4;0]) (-1) 1);
  (*813*) Del (T 37);
  (*814*) Assign (T 38) (Plain (Zeros [1;1]));
  (*815*) AddTo (T 38) (Plain (Einsum [(n_s1,[0]); (n_g'bvv,[0;1;2])] [1;2]));
  (*816*) Assign (T 40) (Plain (Zeros [1;1]));
  (*817*) AddTo (T 40) (Plain (Einsum [(T 38,[0;1])] [0;1]));
  (*818*) Assign (T 81) (Plain (Zeros [1;1]));
  (*819*) AddTo (T 81) (Plain (Einsum [(T 38,[0;1])] [0;1]));
  (*820*) Assign (T 95) (Plain (Zeros [1;1]));
  (*821*) AddTo (T 95) (Plain (Einsum [(T 38,[0;1])] [0;1]));
  (*822*) Assign (T 136) (Plain (Zeros [1;1]));
  (*823*) AddTo (T 136) (Times (Einsum [(T 38,[0;1])] [0;1]) (-1) 1);
  (*824*) Del (T 38);
  (*825*) Assign (T 39) (Plain (Zeros [1;1]));
  (*826*) AddTo (T 39) (Plain (Einsum [(n_t1,[0;1]); (n_v'ovvv,[0;2;3;1])] [2;3]));
  (*827*) AddTo (T 40) (Times (Einsum [(T 39,[0;1])] [0;1]) (-1) 1);
  (*828*) SubFrom (T 81) (Plain (Einsum [(T 39,[0;1])] [0;1]));
  (*829*) Assign (T 92) (Plain (Zeros [0;0;1;1]));
  (*830*) SubFrom (T 92) (Plain (Einsum [(T 39,[0;1]); (n_l2,[2;0;3;4])] [4;3;2;1]));
  (*831*) SubFrom (T 99) (Plain (Einsum [(T 92,[0;1;2;3])] [0;1;2;3]));
  (*832*) Del (T 92);
  (*833*) AddTo (T 136) (Plain (Einsum [(T 39,[0;1])] [0;1]));
  (*834*) Del (T 39);
  (*835*) AddTo (T 40) (Plain (Einsum [(n_f'vv,[0;1])] [0;1]));
  (*836*) AddTo (T 43) (Times (Einsum [(n_t1,[0;1]); (T 40,[2;1])] [0;2]) (-2) 1);
  (*837*) Assign (T 147) (Plain (Zeros [0;1]));
  (*838*) AddTo (T 147) (Plain (Einsum [(n_t1,[0;1]); (T 40,[2;1])] [0;2]));
  (*839*) Del (T 40);
  (*840*) AddTo (T 149) (Times (Einsum [(T 147,[0;1])] [0;1]) (-1) 1);
  (*841*) Del (T 147);
  (*842*) Assign (T 41) (Plain (Zeros [3]));
  (*843*) AddTo (T 41) (Plain (Einsum [(n_t1,[0;1]); (n_g'bov,[2;0;1])] [2]));
  (*844*) Assign (T 42) (Plain (Zeros [3]));
  (*845*) AddTo (T 42) (Plain (Einsum [(T 41,[0])] [0]));
  (*846*) Assign (T 86) (Plain (Zeros [3]));
  (*847*) AddTo (T 86) (Plain (Einsum [(T 41,[0])] [0]));
  (*848*) Del (T 41);
  (*849*) AddTo (T 42) (Plain (Einsum [(n_G,[0])] [0]));
  (*850*) AddTo (T 43) (Times (Einsum [(T 42,[0]); (n_u11,[0;1;2])] [1;2]) (-2) 1);
  (*851*) AddTo (T 142) (Plain (Einsum [(T 42,[0]); (n_u12,[0;1;2;3])] [1;2;3]));
  (*852*) Assign (T 148) (Plain (Zeros [0;1]));
  (*853*) AddTo (T 148) (Plain (Einsum [(T 42,[0]); (n_u11,[0;1;2])] [1;2]));
  (*854*) Del (T 42);
  (*855*) AddTo (T 149) (Times (Einsum [(T 148,[0;1])] [0;1]) (-1) 1);
  (*856*) Del (T 148);
  (*857*) AddTo (T 43) (Times (Einsum [(n_f'vo,[0;1])] [1;0]) (-2) 1);
  (*858*) AddTo n_l1new (Times (Einsum [(T 43,[0;1]); (n_l2,[1;2;0;3])] [2;3]) (-1) 2);
  (*859*) Del (T 43);
  (*860*) Assign (T 44) (Plain (Zeros [0;1]));
  (*861*) AddTo (T 44) (Plain (Einsum [(n_ls1,[0]); (n_u11,[0;1;2])] [1;2]));
  (*862*) AddTo (T 57) (Times (Einsum [(T 44,[0;1])] [0;1]) (-1) 1);
  (*863*) AddTo (T 150) (Times (Einsum [(T 44,[0;1])] [0;1]) (-2) 1);
  (*864*) Del (T 44);
  (*865*) Assign (T 45) (Plain (Zeros [0;1]));
  (*866*) AddTo (T 45) (Plain (Einsum [(n_ls2,[0;1]); (n_u12,[0;1;2;3])] [2;3]));
  (*867*) AddTo (T 57) (Times (Einsum [(T 45,[0;1])] [0;1]) (-1) 2);
  (*868*) AddTo (T 150) (Times (Einsum [(T 45,[0;1])] [0;1]) (-1) 1);
  (*869*) Del (T 45);
  (*870*) Assign (T 46) (Plain (Zeros [0;1]));
  (*871*) AddTo (T 46) (Plain (Einsum [(n_l1,[0;1]); (n_t2,[2;1;3;0])] [2;3]));
  (*872*) AddTo (T 57) (Times (Einsum [(T 46,[0;1])] [0;1]) (-1) 1);
  (*873*) AddTo (T 150) (Times (Einsum [(T 46,[0;1])] [0;1]) (-2) 1);
  (*874*) Del (T 46);
  (*875*) Assign (T 49) (Plain (Zeros [3;0;0]));
  (*876*) AddTo (T 49) (Plain (Einsum [(n_t1,[0;1]); (n_lu11,[2;1;3])] [2;3;0]));
  (*877*) Assign (T 51) (Plain (Zeros [3;0;0]));
  (*878*) AddTo (T 51) (Plain (Einsum [(T 49,[0;1;2])] [0;1;2]));
  (*879*) Assign (T 70) (Plain (Zeros [3;0;0]));
  (*880*) AddTo (T 70) (Plain (Einsum [(T 49,[0;1;2])] [0;1;2]));
  (*881*) Assign (T 50) (Plain (Zeros [3;0;0]));
  (*882*) AddTo (T 50) (Plain (Einsum [(n_u11,[0;1;2]); (n_lu12,[0;3;2;4])] [3;4;1]));
  (*883*) AddTo (T 51) (Plain (Einsum [(T 50,[0;1;2])] [0;1;2]));
  (*884*) AddTo (T 57) (Plain (Einsum [(n_u11,[0;1;2]); (T 51,[0;1;3])] [3;2]));
  (*885*) AddTo (T 150) (Times (Einsum [(n_u11,[0;1;2]); (T 51,[0;1;3])] [3;2]) (2) 1);
  (*886*) Del (T 51);
  (*887*) AddTo (T 70) (Plain (Einsum [(T 50,[0;1;2])] [0;1;2]));
  (*888*) Assign (T 71) (Plain (Zeros [3;0;0]));
  (*889*) AddTo (T 71) (Plain (Einsum [(n_s2,[0;1]); (T 70,[0;2;3])] [1;2;3]));
  (*890*) Assign (T 171) (Plain (Zeros [3;3;0;1]));
  (*891*) AddTo (T 171) (Plain (Einsum [(n_g'bov,[0;1;2]); (T 70,[3;4;1])] [0;3;4;2]));
  (*892*) Assign (T 172) (Plain (Zeros [3;3;0;1]));
  (*893*) AddTo (T 172) (Plain (Einsum [(T 171,[0;1;2;3])] [0;1;2;3]));
  (*894*) Del (T 171);
  (*895*) Assign (T 52) (Plain (Zeros [0;0]));
  (*896*) AddTo (T 52) (Plain (Einsum [(n_l1,[0;1]); (n_t1,[2;0])] [1;2]));
  (*897*) Assign (T 56) (Plain (Zeros [0;0]));
  (*898*) AddTo (T 56) (Times (Einsum [(T 52,[0;1])] [0;1]) (2) 1);
  (*899*) Assign (T 80) (Plain (Zeros [0;0]));
  (*900*) AddTo (T 80) (Plain (Einsum [(T 52,[0;1])] [0;1]));
  (*901*) Assign (T 113) (Plain (Zeros [0;0]));
  (*902*) AddTo (T 113) (Plain (Einsum [(T 52,[0;1])] [0;1]));
  (*903*) Del (T 52);
  (*904*) Assign (T 53) (Plain (Zeros [0;0]));
  (*905*) AddTo (T 53) (Plain (Einsum [(n_lu11,[0;1;2]); (n_u11,[0;3;1])] [2;3]));
  (*906*) AddTo (T 56) (Times (Einsum [(T 53,[0;1])] [0;1]) (2) 1);
  (*907*) AddTo (T 80) (Plain (Einsum [(T 53,[0;1])] [0;1]));
  (*908*) AddTo (T 113) (Plain (Einsum [(T 53,[0;1])] [0;1]));
  (*909*) Del (T 53);
  (*910*) Assign (T 114) (Plain (Zeros [0;0;1;1]));
  (*911*) AddTo (T 114) (Plain (Einsum [(T 113,[0;1]); (n_v'oovv,[1;2;3;4])] [2;0;3;4]));
  (*912*) Del (T 113);
  (*913*) AddTo (T 118) (Plain (Einsum [(T 114,[0;1;2;3])] [1;0;3;2]));
  (*914*) Del (T 114);
  (*915*) Assign (T 54) (Plain (Zeros [0;0]));
  (*916*) AddTo (T 54) (Plain (Einsum [(n_lu12,[0;1;2;3]); (n_u12,[0;1;4;2])] [3;4]));
  (*917*) AddTo (T 56) (Plain (Einsum [(T 54,[0;1])] [0;1]));
  (*918*) AddTo (T 80) (Times (Einsum [(T 54,[0;1])] [0;1]) (1) 2);
  (*919*) Assign (T 123) (Plain (Zeros [0;0]));
  (*920*) AddTo (T 123) (Plain (Einsum [(T 54,[0;1])] [0;1]));
  (*921*) Del (T 54);
  (*922*) Assign (T 55) (Plain (Zeros [0;0]));
  (*923*) AddTo (T 55) (Plain (Einsum [(n_l2,[0;1;2;3]); (n_t2,[2;4;0;1])] [3;4]));
  (*924*) AddTo (T 56) (Plain (Einsum [(T 55,[0;1])] [0;1]));
  (*925*) AddTo (T 57) (Times (Einsum [(n_t1,[0;1]); (T 56,[0;2])] [2;1]) (1) 2);
  (*926*) AddTo (T 150) (Plain (Einsum [(n_t1,[0;1]); (T 56,[0;2])] [2;1]));
  (*927*) AddTo n_l1new (Times (Einsum [(T 56,[0;1]); (n_v'ooov,[1;2;0;3])] [3;2]) (-1) 2);
  (*928*) Assign n_ls1new (Plain (Zeros [3]));
  (*929*) AddTo n_ls1new (Times (Einsum [(T 56,[0;1]); (n_g'boo,[2;1;0])] [2]) (-1) 2);
  (*930*) Del (T 56);
  (*931*) AddTo (T 80) (Times (Einsum [(T 55,[0;1])] [0;1]) (1) 2);
  (*932*) AddTo (T 123) (Plain (Einsum [(T 55,[0;1])] [0;1]));
  (*933*) Del (T 55);
  (*934*) Assign (T 124) (Plain (Zeros [0;0;1;1]));
  (*935*) AddTo (T 124) (Times (Einsum [(T 123,[0;1]); (n_v'oovv,[1;2;3;4])] [2;0;3;4]) (1) 2);
  (*936*) Del (T 123);
  (*937*) AddTo (T 125) (Times (Einsum [(T 124,[0;1;2;3])] [1;0;3;2]) (-1) 1);
  (*938*) Del (T 124);
  (*939*) AddTo n_l2new (Times (Einsum [(T 125,[0;1;2;3])] [2;3;0;1]) (-1) 1);
  (*940*) AddTo n_l2new (Plain (Einsum [(T 125,[0;1;2;3])] [2;3;1;0]));
  (*941*) Del (T 125);
  (*942*) AddTo (T 57) (Times (Einsum [(n_t1,[0;1])] [0;1]) (-1) 1);
  (*943*) AddTo n_l1new (Times (Einsum [(T 57,[0;1]); (n_v'oovv,[0;2;1;3])] [3;2]) (-1) 1);
  (*944*) Del (T 57);
  (*945*) Assign (T 58) (Plain (Zeros [1;1]));
  (*946*) AddTo (T 58) (Plain (Einsum [(n_l1,[0;1]); (n_t1,[1;2])] [0;2]));
  (*947*) Assign (T 62) (Plain (Zeros [1;1]));
  (*948*) AddTo (T 62) (Plain (Einsum [(T 58,[0;1])] [0;1]));
  (*949*) AddTo n_ls1new (Plain (Einsum [(T 58,[0;1]); (n_g'bvv,[2;0;1])] [2]));
  (*950*) Del (T 58);
  (*951*) Assign (T 59) (Plain (Zeros [1;1]));
  (*952*) AddTo (T 59) (Plain (Einsum [(n_lu11,[0;1;2]); (n_u11,[0;2;3])] [1;3]));
  (*953*) AddTo (T 62) (Plain (Einsum [(T 59,[0;1])] [0;1]));
  (*954*) Assign (T 91) (Plain (Zeros [0;0;1;1]));
  (*955*) SubFrom (T 91) (Plain (Einsum [(T 59,[0;1]); (n_v'oovv,[2;3;4;1])] [3;2;0;4]));
  (*956*) AddTo (T 99) (Plain (Einsum [(T 91,[0;1;2;3])] [0;1;2;3]));
  (*957*) Del (T 91);
  (*958*) Assign (T 151) (Plain (Zeros [1;1]));
  (*959*) AddTo (T 151) (Times (Einsum [(T 59,[0;1])] [0;1]) (2) 1);
  (*960*) Del (T 59);
  (*961*) Assign (T 60) (Plain (Zeros [1;1]));
  (*962*) AddTo (T 60) (Plain (Einsum [(n_lu12,[0;1;2;3]); (n_u12,[0;1;3;4])] [2;4]));
  (*963*) AddTo (T 62) (Times (Einsum [(T 60,[0;1])] [0;1]) (1) 2);
  (*964*) Assign (T 128) (Plain (Zeros [1;1]));
  (*965*) AddTo (T 128) (Plain (Einsum [(T 60,[0;1])] [0;1]));
  (*966*) AddTo (T 151) (Plain (Einsum [(T 60,[0;1])] [0;1]));
  (*967*) Del (T 60);
  (*968*) Assign (T 61) (Plain (Zeros [1;1]));
  (*969*) SubFrom (T 61) (Plain (Einsum [(n_l2,[0;1;2;3]); (n_t2,[2;3;1;4])] [0;4]));
  (*970*) AddTo (T 62) (Times (Einsum [(T 61,[0;1])] [0;1]) (1) 2);
  (*971*) AddTo n_l1new (Times (Einsum [(T 62,[0;1]); (n_v'ovvv,[2;0;1;3])] [3;2]) (-1) 1);
  (*972*) Del (T 62);
  (*973*) AddTo (T 128) (Plain (Einsum [(T 61,[0;1])] [0;1]));
  (*974*) Assign (T 129) (Plain (Zeros [0;0;1;1]));
  (*975*) AddTo (T 129) (Times (Einsum [(T 128,[0;1]); (n_v'oovv,[2;3;1;4])] [2;3;4;0]) (1) 2);
  (*976*) Del (T 128);
  (*977*) Assign (T 130) (Plain (Zeros [0;0;1;1]));
  (*978*) AddTo (T 130) (Times (Einsum [(T 129,[0;1;2;3])] [1;0;3;2]) (-1) 1);
  (*979*) Del (T 129);
  (*980*) AddTo (T 151) (Plain (Einsum [(T 61,[0;1])] [0;1]));
  (*981*) Del (T 61);
  (*982*) AddTo n_ls1new (Times (Einsum [(T 151,[0;1]); (n_g'bvv,[2;0;1])] [2]) (1) 2);
  (*983*) Del (T 151);
  (*984*) Assign (T 63) (Plain (Zeros [3;0;0]));
  (*985*) AddTo (T 63) (Plain (Einsum [(n_g'bov,[0;1;2]); (n_u12,[0;3;4;2])] [3;1;4]));
  (*986*) Assign (T 68) (Plain (Zeros [3;0;0]));
  (*987*) AddTo (T 68) (Plain (Einsum [(T 63,[0;1;2])] [0;1;2]));
  (*988*) AddTo (T 138) (Plain (Einsum [(T 63,[0;1;2])] [0;1;2]));
  (*989*) Del (T 63);
  (*990*) Assign (T 64) (Plain (Zeros [3;0;0]));
  (*991*) AddTo (T 64) (Plain (Einsum [(n_u11,[0;1;2]); (n_v'ooov,[3;1;4;2])] [0;3;4]));
  (*992*) AddTo (T 68) (Plain (Einsum [(T 64,[0;1;2])] [0;1;2]));
  (*993*) AddTo (T 138) (Plain (Einsum [(T 64,[0;1;2])] [0;1;2]));
  (*994*) Del (T 64);
  (*995*) AddTo (T 65) (Plain (Einsum [(n_f'ov,[0;1])] [0;1]));
  (*996*) AddTo (T 68) (Plain (Einsum [(T 65,[0;1]); (n_u11,[2;3;1])] [2;0;3]));
  (*997*) Assign (T 85) (Plain (Zeros [3]));
  (*998*) AddTo (T 85) (Plain (Einsum [(T 65,[0;1]); (n_u11,[2;0;1])] [2]));
  (*999*) Assign (T 88) (Plain (Zeros [3]));
  (*1000*) AddTo (T 88) (Plain (Einsum [(T 85,[0])] [0]));
  (*1001*) Del (T 85);
  (*1002*) AddTo n_l1new (Times (Einsum [(T 65,[0;1]); (T 80,[2;0])] [1;2]) (-1) 1);
  (*1003*) Del (T 80);
  (*1004*) SubFrom n_lu12new (Plain (Einsum [(T 65,[0;1]); (T 15,[2;3;4;0])] [3;2;1;4]));
  (*1005*) Del (T 65);
  (*1006*) Del (T 15);
  (*1007*) AddTo (T 66) (Plain (Einsum [(n_gc'bov,[0;1;2])] [0;1;2]));
  (*1008*) AddTo (T 68) (Plain (Einsum [(n_t1,[0;1]); (T 66,[2;3;1])] [2;3;0]));
  (*1009*) SubFrom n_l1new (Plain (Einsum [(T 66,[0;1;2]); (T 70,[0;3;1])] [2;3]));
  (*1010*) Del (T 66);
  (*1011*) Del (T 70);
  (*1012*) AddTo (T 67) (Plain (Einsum [(n_g'boo,[0;1;2])] [0;1;2]));
  (*1013*) AddTo (T 68) (Plain (Einsum [(n_s2,[0;1]); (T 67,[0;2;3])] [1;2;3]));
  (*1014*) Assign (T 161) (Plain (Zeros [3;3]));
  (*1015*) AddTo (T 161) (Plain (Einsum [(T 49,[0;1;2]); (T 67,[3;2;1])] [0;3]));
  (*1016*) Del (T 49);
  (*1017*) SubFrom (T 163) (Plain (Einsum [(T 161,[0;1])] [1;0]));
  (*1018*) Del (T 161);
  (*1019*) Assign (T 162) (Plain (Zeros [3;3]));
  (*1020*) AddTo (T 162) (Plain (Einsum [(T 50,[0;1;2]); (T 67,[3;2;1])] [0;3]));
  (*1021*) Del (T 50);
  (*1022*) SubFrom (T 163) (Plain (Einsum [(T 162,[0;1])] [1;0]));
  (*1023*) Del (T 162);
  (*1024*) Assign (T 170) (Plain (Zeros [3;3;0;1]));
  (*1025*) AddTo (T 170) (Plain (Einsum [(n_lu11,[0;1;2]); (T 67,[3;4;2])] [0;3;4;1]));
  (*1026*) AddTo (T 172) (Plain (Einsum [(T 170,[0;1;2;3])] [1;0;2;3]));
  (*1027*) Del (T 170);
  (*1028*) AddTo (T 68) (Plain (Einsum [(n_gc'boo,[0;1;2])] [0;1;2]));
  (*1029*) SubFrom n_l1new (Plain (Einsum [(n_lu11,[0;1;2]); (T 68,[0;3;2])] [1;3]));
  (*1030*) Del (T 68);
  (*1031*) Assign (T 69) (Plain (Zeros [3;0;1]));
  (*1032*) AddTo (T 69) (Plain (Einsum [(n_u11,[0;1;2]); (n_l2,[3;2;4;1])] [0;4;3]));
  (*1033*) AddTo (T 71) (Plain (Einsum [(n_t1,[0;1]); (T 69,[2;3;1])] [2;3;0]));
  (*1034*) Assign (T 77) (Plain (Zeros [3;0;1]));
  (*1035*) AddTo (T 77) (Plain (Einsum [(T 69,[0;1;2])] [0;1;2]));
  (*1036*) SubFrom n_l1new (Plain (Einsum [(T 67,[0;1;2]); (T 69,[0;2;3])] [3;1]));
  (*1037*) Del (T 67);
  (*1038*) Del (T 69);
  (*1039*) AddTo (T 71) (Plain (Einsum [(n_l1,[0;1]); (n_u11,[2;3;0])] [2;1;3]));
  (*1040*) AddTo (T 71) (Plain (Einsum [(n_lu11,[0;1;2]); (n_u12,[0;3;4;1])] [3;2;4]));
  (*1041*) SubFrom n_l1new (Plain (Einsum [(n_g'bov,[0;1;2]); (T 71,[0;3;1])] [2;3]));
  (*1042*) Del (T 71);
  (*1043*) AddTo (T 72) (Plain (Einsum [(n_gc'bov,[0;1;2])] [0;1;2]));
  (*1044*) AddTo (T 75) (Times (Einsum [(n_u11,[0;1;2]); (T 72,[3;1;2])] [3;0]) (2) 1);
  (*1045*) Del (T 72);
  (*1046*) Assign (T 73) (Plain (Zeros [3;3]));
  (*1047*) AddTo (T 73) (Plain (Einsum [(n_g'bov,[0;1;2]); (n_u11,[3;1;2])] [0;3]));
  (*1048*) Assign (T 74) (Plain (Zeros [3;3]));
  (*1049*) AddTo (T 74) (Plain (Einsum [(T 73,[0;1])] [1;0]));
  (*1050*) Assign (T 153) (Plain (Zeros [3;3]));
  (*1051*) AddTo (T 153) (Plain (Einsum [(n_ls2,[0;1]); (T 73,[2;1])] [2;0]));
  (*1052*) AddTo (T 163) (Plain (Einsum [(T 153,[0;1])] [0;1]));
  (*1053*) Del (T 153);
  (*1054*) Assign (T 169) (Plain (Zeros [3;3;0;1]));
  (*1055*) AddTo (T 169) (Plain (Einsum [(T 73,[0;1]); (n_lu12,[1;2;3;4])] [0;2;4;3]));
  (*1056*) Del (T 73);
  (*1057*) SubFrom (T 172) (Plain (Einsum [(T 169,[0;1;2;3])] [0;1;2;3]));
  (*1058*) Del (T 169);
  (*1059*) AddTo (T 74) (Plain (Einsum [(n_w,[0;1])] [0;1]));
  (*1060*) AddTo (T 75) (Times (Einsum [(n_s2,[0;1]); (T 74,[2;0])] [1;2]) (2) 1);
  (*1061*) AddTo n_l1new (Times (Einsum [(T 75,[0;1]); (n_lu12,[1;0;2;3])] [2;3]) (1) 2);
  (*1062*) Del (T 75);
  (*1063*) AddTo (T 142) (Plain (Einsum [(T 74,[0;1]); (n_u11,[1;2;3])] [0;2;3]));
  (*1064*) Del (T 74);
  (*1065*) Assign (T 76) (Plain (Zeros [3;0;1]));
  (*1066*) AddTo (T 76) (Plain (Einsum [(n_s2,[0;1]); (n_lu11,[1;2;3])] [0;3;2]));
  (*1067*) AddTo (T 77) (Plain (Einsum [(T 76,[0;1;2])] [0;1;2]));
  (*1068*) Del (T 76);
  (*1069*) Assign (T 107) (Plain (Zeros [0;0;1;1]));
  (*1070*) AddTo (T 107) (Plain (Einsum [(n_g'bov,[0;1;2]); (T 77,[0;3;4])] [1;3;2;4]));
  (*1071*) AddTo (T 108) (Plain (Einsum [(T 107,[0;1;2;3])] [0;1;2;3]));
  (*1072*) Del (T 107);
  (*1073*) AddTo n_l1new (Plain (Einsum [(n_g'bvv,[0;1;2]); (T 77,[0;3;1])] [2;3]));
  (*1074*) Del (T 77);
  (*1075*) Assign (T 78) (Plain (Zeros [3;1;1]));
  (*1076*) AddTo (T 78) (Plain (Einsum [(n_u11,[0;1;2]); (n_v'ovvv,[1;3;4;2])] [0;3;4]));
  (*1077*) Assign (T 79) (Plain (Zeros [3;1;1]));
  (*1078*) SubFrom (T 79) (Plain (Einsum [(T 78,[0;1;2])] [0;1;2]));
  (*1079*) Assign (T 139) (Plain (Zeros [3;1;1]));
  (*1080*) AddTo (T 139) (Times (Einsum [(T 78,[0;1;2])] [0;1;2]) (-1) 1);
  (*1081*) Del (T 78);
  (*1082*) AddTo (T 79) (Plain (Einsum [(n_gc'bvv,[0;1;2])] [0;1;2]));
  (*1083*) AddTo n_l1new (Plain (Einsum [(n_lu11,[0;1;2]); (T 79,[0;1;3])] [3;2]));
  (*1084*) Del (T 79);
  (*1085*) AddTo (T 81) (Plain (Einsum [(n_f'vv,[0;1])] [0;1]));
  (*1086*) AddTo n_l1new (Plain (Einsum [(n_l1,[0;1]); (T 81,[0;2])] [2;1]));
  (*1087*) Del (T 81);
  (*1088*) Assign (T 82) (Plain (Zeros [3]));
  (*1089*) AddTo (T 82) (Plain (Einsum [(n_s1,[0]); (n_w,[1;0])] [1]));
  (*1090*) AddTo (T 88) (Plain (Einsum [(T 82,[0])] [0]));
  (*1091*) Del (T 82);
  (*1092*) Assign (T 83) (Plain (Zeros [3]));
  (*1093*) AddTo (T 83) (Plain (Einsum [(n_t1,[0;1]); (n_gc'bov,[2;0;1])] [2]));
  (*1094*) AddTo (T 88) (Plain (Einsum [(T 83,[0])] [0]));
  (*1095*) Del (T 83);
  (*1096*) Assign (T 84) (Plain (Zeros [3]));
  (*1097*) AddTo (T 84) (Plain (Einsum [(n_g'bov,[0;1;2]); (n_u12,[0;3;1;2])] [3]));
  (*1098*) AddTo (T 88) (Plain (Einsum [(T 84,[0])] [0]));
  (*1099*) Del (T 84);
  (*1100*) AddTo (T 86) (Plain (Einsum [(n_G,[0])] [0]));
  (*1101*) Assign (T 87) (Plain (Zeros [3]));
  (*1102*) AddTo (T 87) (Plain (Einsum [(T 86,[0]); (n_s2,[0;1])] [1]));
  (*1103*) AddTo (T 88) (Plain (Einsum [(T 87,[0])] [0]));
  (*1104*) Del (T 87);
  (*1105*) AddTo (T 163) (Plain (Einsum [(n_ls1,[0]); (T 86,[1])] [1;0]));
  (*1106*) Del (T 86);
  (*1107*) AddTo (T 88) (Plain (Einsum [(n_G,[0])] [0]));
  (*1108*) AddTo n_l1new (Plain (Einsum [(T 88,[0]); (n_lu11,[0;1;2])] [1;2]));
  (*1109*) AddTo n_ls1new (Plain (Einsum [(T 88,[0]); (n_ls2,[0;1])] [1]));
  (*1110*) Del (T 88);
  (*1111*) Assign (T 89) (Plain (Zeros [3]));
  (*1112*) AddTo (T 89) (Plain (Einsum [(n_s1,[0])] [0]));
  (*1113*) AddTo (T 89) (Plain (Einsum [(n_ls1,[0]); (n_s2,[1;0])] [1]));
  (*1114*) AddTo (T 89) (Plain (Einsum [(n_l1,[0;1]); (n_u11,[2;1;0])] [2]));
  (*1115*) AddTo (T 89) (Plain (Einsum [(n_lu11,[0;1;2]); (n_u12,[0;3;2;1])] [3]));
  (*1116*) AddTo n_l1new (Plain (Einsum [(T 89,[0]); (n_g'bov,[0;1;2])] [2;1]));
  (*1117*) Del (T 89);
  (*1118*) Assign (T 94) (Plain (Zeros [1;1]));
  (*1119*) AddTo (T 94) (Plain (Einsum [(n_g'bov,[0;1;2]); (n_u11,[0;1;3])] [2;3]));
  (*1120*) SubFrom (T 95) (Plain (Einsum [(T 94,[0;1])] [1;0]));
  (*1121*) Assign (T 96) (Plain (Zeros [0;0;1;1]));
  (*1122*) AddTo (T 96) (Plain (Einsum [(T 95,[0;1]); (n_l2,[0;2;3;4])] [3;4;2;1]));
  (*1123*) Del (T 95);
  (*1124*) SubFrom (T 99) (Plain (Einsum [(T 96,[0;1;2;3])] [1;0;3;2]));
  (*1125*) Del (T 96);
  (*1126*) AddTo (T 136) (Plain (Einsum [(T 94,[0;1])] [1;0]));
  (*1127*) Del (T 94);
  (*1128*) AddTo (T 97) (Plain (Einsum [(n_f'ov,[0;1])] [0;1]));
  (*1129*) Assign (T 98) (Plain (Zeros [0;0;1;1]));
  (*1130*) AddTo (T 98) (Plain (Einsum [(T 97,[0;1]); (T 2,[2;3;0;4])] [2;3;4;1]));
  (*1131*) SubFrom (T 99) (Plain (Einsum [(T 98,[0;1;2;3])] [1;0;3;2]));
  (*1132*) Del (T 98);
  (*1133*) AddTo n_l2new (Plain (Einsum [(T 99,[0;1;2;3])] [2;3;0;1]));
  (*1134*) SubFrom n_l2new (Plain (Einsum [(T 99,[0;1;2;3])] [3;2;0;1]));
  (*1135*) Del (T 99);
  (*1136*) AddTo (T 108) (Plain (Einsum [(n_l1,[0;1]); (T 97,[2;3])] [2;1;3;0]));
  (*1137*) Assign (T 110) (Plain (Zeros [0;0]));
  (*1138*) AddTo (T 110) (Plain (Einsum [(n_t1,[0;1]); (T 97,[2;1])] [0;2]));
  (*1139*) Del (T 97);
  (*1140*) AddTo (T 111) (Plain (Einsum [(T 110,[0;1])] [1;0]));
  (*1141*) Del (T 110);
  (*1142*) Assign (T 100) (Plain (Zeros [0;0;1;1]));
  (*1143*) AddTo (T 100) (Plain (Einsum [(n_gc'bov,[0;1;2]); (n_lu11,[0;3;4])] [1;4;2;3]));
  (*1144*) AddTo (T 108) (Plain (Einsum [(T 100,[0;1;2;3])] [0;1;2;3]));
  (*1145*) Del (T 100);
  (*1146*) Assign (T 102) (Plain (Zeros [0;0;1;1]));
  (*1147*) SubFrom (T 102) (Plain (Einsum [(n_t2,[0;1;2;3]); (n_v'oovv,[0;4;5;2])] [1;4;3;5]));
  (*1148*) AddTo (T 103) (Plain (Einsum [(T 102,[0;1;2;3])] [0;1;2;3]));
  (*1149*) Del (T 102);
  (*1150*) SubFrom (T 103) (Plain (Einsum [(n_v'ovov,[0;1;2;3])] [2;0;1;3]));
  (*1151*) Assign (T 104) (Plain (Zeros [0;0;1;1]));
  (*1152*) AddTo (T 104) (Plain (Einsum [(n_l2,[0;1;2;3]); (T 103,[2;4;0;5])] [3;4;1;5]));
  (*1153*) Del (T 103);
  (*1154*) AddTo (T 108) (Plain (Einsum [(T 104,[0;1;2;3])] [0;1;2;3]));
  (*1155*) Del (T 104);
  (*1156*) AddTo (T 105) (Plain (Einsum [(n_v'ooov,[0;1;2;3])] [2;1;0;3]));
  (*1157*) Assign (T 106) (Plain (Zeros [0;0;1;1]));
  (*1158*) AddTo (T 106) (Plain (Einsum [(T 2,[0;1;2;3]); (T 105,[0;2;4;5])] [1;4;3;5]));
  (*1159*) Del (T 105);
  (*1160*) Del (T 2);
  (*1161*) SubFrom (T 108) (Plain (Einsum [(T 106,[0;1;2;3])] [0;1;2;3]));
  (*1162*) Del (T 106);
  (*1163*) AddTo n_l2new (Plain (Einsum [(T 108,[0;1;2;3])] [2;3;0;1]));
  (*1164*) SubFrom n_l2new (Plain (Einsum [(T 108,[0;1;2;3])] [3;2;0;1]));
  (*1165*) SubFrom n_l2new (Plain (Einsum [(T 108,[0;1;2;3])] [2;3;1;0]));
  (*1166*) AddTo n_l2new (Plain (Einsum [(T 108,[0;1;2;3])] [3;2;1;0]));
  (*1167*) Del (T 108);
  (*1168*) Assign (T 109) (Plain (Zeros [0;0;1;1]));
  (*1169*) AddTo (T 109) (Plain (Einsum [(n_l1,[0;1]); (n_v'ovvv,[2;0;3;4])] [1;2;3;4]));
  (*1170*) AddTo (T 118) (Plain (Einsum [(T 109,[0;1;2;3])] [0;1;3;2]));
  (*1171*) Del (T 109);
  (*1172*) AddTo (T 111) (Plain (Einsum [(n_f'oo,[0;1])] [0;1]));
  (*1173*) Assign (T 112) (Plain (Zeros [0;0;1;1]));
  (*1174*) AddTo (T 112) (Plain (Einsum [(T 111,[0;1]); (n_l2,[2;3;1;4])] [4;0;2;3]));
  (*1175*) Del (T 111);
  (*1176*) AddTo (T 118) (Plain (Einsum [(T 112,[0;1;2;3])] [1;0;3;2]));
  (*1177*) Del (T 112);
  (*1178*) AddTo n_l2new (Plain (Einsum [(T 118,[0;1;2;3])] [2;3;0;1]));
  (*1179*) SubFrom n_l2new (Plain (Einsum [(T 118,[0;1;2;3])] [2;3;1;0]));
  (*1180*) Del (T 118);
  (*1181*) Assign (T 119) (Plain (Zeros [0;0;1;1]));
  (*1182*) AddTo (T 119) (Plain (Einsum [(n_l1,[0;1]); (n_v'ooov,[2;3;1;4])] [2;3;0;4]));
  (*1183*) Assign (T 121) (Plain (Zeros [0;0;1;1]));
  (*1184*) SubFrom (T 121) (Plain (Einsum [(T 119,[0;1;2;3])] [1;0;2;3]));
  (*1185*) Del (T 119);
  (*1186*) Assign (T 120) (Plain (Zeros [0;0;1;1]));
  (*1187*) AddTo (T 120) (Plain (Einsum [(n_f'vv,[0;1]); (n_l2,[2;0;3;4])] [3;4;1;2]));
  (*1188*) SubFrom (T 121) (Plain (Einsum [(T 120,[0;1;2;3])] [1;0;2;3]));
  (*1189*) Del (T 120);
  (*1190*) SubFrom n_l2new (Plain (Einsum [(T 121,[0;1;2;3])] [2;3;0;1]));
  (*1191*) AddTo n_l2new (Plain (Einsum [(T 121,[0;1;2;3])] [3;2;0;1]));
  (*1192*) Del (T 121);
  (*1193*) Assign (T 126) (Plain (Zeros [1;1]));
  (*1194*) AddTo (T 126) (Plain (Einsum [(n_t2,[0;1;2;3]); (n_v'oovv,[0;1;2;4])] [3;4]));
  (*1195*) Assign (T 127) (Plain (Zeros [0;0;1;1]));
  (*1196*) SubFrom (T 127) (Plain (Einsum [(T 126,[0;1]); (n_l2,[2;0;3;4])] [4;3;2;1]));
  (*1197*) AddTo (T 130) (Times (Einsum [(T 127,[0;1;2;3])] [0;1;2;3]) (1) 2);
  (*1198*) Del (T 127);
  (*1199*) AddTo n_l2new (Times (Einsum [(T 130,[0;1;2;3])] [2;3;0;1]) (-1) 1);
  (*1200*) AddTo n_l2new (Plain (Einsum [(T 130,[0;1;2;3])] [3;2;0;1]));
  (*1201*) Del (T 130);
  (*1202*) AddTo (T 136) (Times (Einsum [(T 126,[0;1])] [0;1]) (1) 2);
  (*1203*) Del (T 126);
  (*1204*) Assign (T 131) (Plain (Zeros [3;3;0;1]));
  (*1205*) AddTo (T 131) (Plain (Einsum [(n_u12,[0;1;2;3]); (n_v'oovv,[2;4;3;5])] [0;1;4;5]));
  (*1206*) Assign (T 132) (Plain (Zeros [0;0;1;1]));
  (*1207*) AddTo (T 132) (Plain (Einsum [(n_lu12,[0;1;2;3]); (T 131,[0;1;4;5])] [3;4;2;5]));
  (*1208*) Del (T 131);
  (*1209*) AddTo n_l2new (Times (Einsum [(T 132,[0;1;2;3])] [2;3;0;1]) (1) 2);
  (*1210*) AddTo n_l2new (Times (Einsum [(T 132,[0;1;2;3])] [3;2;0;1]) (-1) 2);
  (*1211*) AddTo n_l2new (Times (Einsum [(T 132,[0;1;2;3])] [2;3;1;0]) (-1) 2);
  (*1212*) AddTo n_l2new (Times (Einsum [(T 132,[0;1;2;3])] [3;2;1;0]) (1) 2);
  (*1213*) Del (T 132);
  (*1214*) AddTo (T 133) (Times (Einsum [(n_v'ooov,[0;1;2;3])] [1;0;2;3]) (-1) 1);
  (*1215*) AddTo (T 134) (Times (Einsum [(n_t1,[0;1]); (T 133,[2;3;4;1])] [3;2;4;0]) (-4) 1);
  (*1216*) Del (T 133);
  (*1217*) AddTo (T 134) (Times (Einsum [(n_v'oooo,[0;1;2;3])] [1;0;3;2]) (2) 1);
  (*1218*) AddTo n_l2new (Times (Einsum [(n_l2,[0;1;2;3]); (T 134,[4;5;2;3])] [1;0;5;4]) (1) 4);
  (*1219*) Del (T 134);
  (*1220*) AddTo (T 136) (Times (Einsum [(n_f'vv,[0;1])] [0;1]) (-1) 1);
  (*1221*) AddTo (T 142) (Times (Einsum [(T 136,[0;1]); (n_u11,[2;3;1])] [2;3;0]) (-1) 1);
  (*1222*) AddTo n_lu12new (Times (Einsum [(T 136,[0;1]); (n_lu12,[2;3;0;4])] [3;2;1;4]) (-1) 1);
  (*1223*) Del (T 136);
  (*1224*) AddTo (T 137) (Plain (Einsum [(n_gc'bov,[0;1;2])] [0;1;2]));
  (*1225*) AddTo (T 138) (Plain (Einsum [(n_t1,[0;1]); (T 137,[2;3;1])] [2;3;0]));
  (*1226*) Del (T 137);
  (*1227*) AddTo (T 138) (Plain (Einsum [(n_gc'boo,[0;1;2])] [0;1;2]));
  (*1228*) AddTo (T 142) (Times (Einsum [(n_t1,[0;1]); (T 138,[2;0;3])] [2;3;1]) (-1) 1);
  (*1229*) Del (T 138);
  (*1230*) AddTo (T 139) (Plain (Einsum [(n_gc'bvv,[0;1;2])] [0;1;2]));
  (*1231*) AddTo (T 142) (Plain (Einsum [(n_t1,[0;1]); (T 139,[2;3;1])] [2;0;3]));
  (*1232*) Del (T 139);
  (*1233*) Assign (T 140) (Plain (Zeros [3;0;1]));
  (*1234*) AddTo (T 140) (Plain (Einsum [(n_t1,[0;1]); (n_g'bvv,[2;3;1])] [2;0;3]));
  (*1235*) Assign (T 141) (Plain (Zeros [3;0;1]));
  (*1236*) AddTo (T 141) (Plain (Einsum [(T 140,[0;1;2])] [0;1;2]));
  (*1237*) Assign (T 159) (Plain (Zeros [3;0;1]));
  (*1238*) AddTo (T 159) (Plain (Einsum [(T 140,[0;1;2])] [0;1;2]));
  (*1239*) Del (T 140);
  (*1240*) AddTo (T 141) (Plain (Einsum [(n_g'bvo,[0;1;2])] [0;2;1]));
  (*1241*) AddTo (T 142) (Plain (Einsum [(n_s2,[0;1]); (T 141,[0;2;3])] [1;2;3]));
  (*1242*) Del (T 141);
  (*1243*) AddTo (T 142) (Plain (Einsum [(n_gc'bvo,[0;1;2])] [0;2;1]));
  (*1244*) AddTo (T 142) (Plain (Einsum [(n_g'bvv,[0;1;2]); (n_u12,[0;3;4;2])] [3;4;1]));
  (*1245*) AddTo (T 142) (Times (Einsum [(n_u11,[0;1;2]); (n_v'ovov,[1;3;4;2])] [0;4;3]) (-1) 1);
  (*1246*) AddTo n_ls1new (Plain (Einsum [(T 142,[0;1;2]); (n_lu12,[0;3;2;1])] [3]));
  (*1247*) Del (T 142);
  (*1248*) AddTo (T 149) (Times (Einsum [(n_f'vo,[0;1])] [1;0]) (-1) 1);
  (*1249*) AddTo n_ls1new (Times (Einsum [(T 149,[0;1]); (n_lu11,[2;1;0])] [2]) (-1) 1);
  (*1250*) Assign n_ls2new (Plain (Zeros [3;3]));
  (*1251*) AddTo n_ls2new (Times (Einsum [(T 149,[0;1]); (n_lu12,[2;3;1;0])] [3;2]) (-1) 1);
  (*1252*) Del (T 149);
  (*1253*) AddTo (T 150) (Times (Einsum [(n_t1,[0;1])] [0;1]) (-2) 1);
  (*1254*) AddTo n_ls1new (Times (Einsum [(T 150,[0;1]); (n_g'bov,[2;0;1])] [2]) (-1) 2);
  (*1255*) Del (T 150);
  (*1256*) Assign (T 152) (Plain (Zeros [3;3]));
  (*1257*) AddTo (T 152) (Plain (Einsum [(n_ls2,[0;1]); (n_w,[1;2])] [0;2]));
  (*1258*) AddTo (T 163) (Plain (Einsum [(T 152,[0;1])] [0;1]));
  (*1259*) Del (T 152);
  (*1260*) Assign (T 154) (Plain (Zeros [3;1;1]));
  (*1261*) AddTo (T 154) (Plain (Einsum [(n_u11,[0;1;2]); (n_lu12,[0;3;4;1])] [3;4;2]));
  (*1262*) Assign (T 155) (Plain (Zeros [3;3]));
  (*1263*) AddTo (T 155) (Plain (Einsum [(n_g'bvv,[0;1;2]); (T 154,[3;1;2])] [0;3]));
  (*1264*) AddTo (T 163) (Plain (Einsum [(T 155,[0;1])] [0;1]));
  (*1265*) Del (T 155);
  (*1266*) Assign (T 168) (Plain (Zeros [3;3;0;1]));
  (*1267*) AddTo (T 168) (Plain (Einsum [(n_g'bov,[0;1;2]); (T 154,[3;4;2])] [0;3;1;4]));
  (*1268*) Del (T 154);
  (*1269*) AddTo (T 172) (Plain (Einsum [(T 168,[0;1;2;3])] [0;1;2;3]));
  (*1270*) Del (T 168);
  (*1271*) Assign (T 158) (Plain (Zeros [3;0;1]));
  (*1272*) AddTo (T 158) (Plain (Einsum [(n_g'bov,[0;1;2]); (n_t2,[3;1;4;2])] [0;3;4]));
  (*1273*) AddTo (T 159) (Plain (Einsum [(T 158,[0;1;2])] [0;1;2]));
  (*1274*) Del (T 158);
  (*1275*) AddTo (T 159) (Plain (Einsum [(n_g'bvo,[0;1;2])] [0;2;1]));
  (*1276*) Assign (T 160) (Plain (Zeros [3;3]));
  (*1277*) AddTo (T 160) (Plain (Einsum [(n_lu11,[0;1;2]); (T 159,[3;2;1])] [0;3]));
  (*1278*) Del (T 159);
  (*1279*) AddTo (T 163) (Plain (Einsum [(T 160,[0;1])] [1;0]));
  (*1280*) Del (T 160);
  (*1281*) AddTo n_ls2new (Plain (Einsum [(T 163,[0;1])] [0;1]));
  (*1282*) AddTo n_ls2new (Plain (Einsum [(T 163,[0;1])] [1;0]));
  (*1283*) Del (T 163);
  (*1284*) Assign (T 164) (Plain (Zeros [3;3;0;1]));
  (*1285*) AddTo (T 164) (Plain (Einsum [(n_lu12,[0;1;2;3]); (n_t2,[3;4;2;5])] [0;1;4;5]));
  (*1286*) AddTo n_lu12new (Plain (Einsum [(n_v'oovv,[0;1;2;3]); (T 164,[4;5;0;2])] [5;4;3;1]));
  (*1287*) Del (T 164);
  (*1288*) Assign (T 165) (Plain (Zeros [3;3;3]));
  (*1289*) AddTo (T 165) (Plain (Einsum [(n_u11,[0;1;2]); (n_lu12,[3;4;2;1])] [3;4;0]));
  (*1290*) AddTo n_lu12new (Plain (Einsum [(n_g'bov,[0;1;2]); (T 165,[3;4;0])] [4;3;2;1]));
  (*1291*) Del (T 165);
  (*1292*) Assign (T 166) (Plain (Zeros [3;3;0;1]));
  (*1293*) AddTo (T 166) (Plain (Einsum [(n_w,[0;1]); (n_lu12,[0;2;3;4])] [2;1;4;3]));
  (*1294*) SubFrom (T 172) (Plain (Einsum [(T 166,[0;1;2;3])] [0;1;2;3]));
  (*1295*) Del (T 166);
  (*1296*) Assign (T 167) (Plain (Zeros [3;3;0;1]));
  (*1297*) AddTo (T 167) (Plain (Einsum [(n_g'bvv,[0;1;2]); (n_lu11,[3;1;4])] [0;3;4;2]));
  (*1298*) SubFrom (T 172) (Plain (Einsum [(T 167,[0;1;2;3])] [0;1;2;3]));
  (*1299*) Del (T 167);
  (*1300*) SubFrom n_lu12new (Plain (Einsum [(T 172,[0;1;2;3])] [0;1;3;2]));
  (*1301*) SubFrom n_lu12new (Plain (Einsum [(T 172,[0;1;2;3])] [1;0;3;2]));
  (*1302*) Del (T 172);
  (*1303*) AddTo n_l1new (Plain (Einsum [(n_ls1,[0]); (n_gc'bov,[0;1;2])] [2;1]));
  (*1304*) SubFrom n_l1new (Plain (Einsum [(n_l1,[0;1]); (n_v'ovov,[2;0;1;3])] [3;2]));
  (*1305*) AddTo n_l1new (Plain (Einsum [(n_f'ov,[0;1])] [1;0]));
  (*1306*) AddTo n_l2new (Times (Einsum [(n_l2,[0;1;2;3]); (n_v'vvvv,[0;1;4;5])] [5;4;3;2]) (1) 2);
  (*1307*) AddTo n_l2new (Plain (Einsum [(n_v'oovv,[0;1;2;3])] [3;2;1;0]));
  (*1308*) AddTo n_ls1new (Plain (Einsum [(n_l1,[0;1]); (n_g'bvo,[2;0;1])] [2]));
  (*1309*) AddTo n_ls1new (Plain (Einsum [(n_G,[0])] [0]));
  (*1310*) AddTo n_ls1new (Plain (Einsum [(n_ls1,[0]); (n_w,[0;1])] [1]));
  (*1311*) SubFrom n_lu11new (Plain (Einsum [(n_gc'boo,[0;1;2]); (n_lu12,[3;0;4;2])] [3;4;1]));
  (*1312*) AddTo n_lu11new (Plain (Einsum [(n_g'bov,[0;1;2])] [0;2;1]));
  (*1313*) AddTo n_lu11new (Plain (Einsum [(n_g'bvo,[0;1;2]); (n_l2,[3;1;4;2])] [0;3;4]));
  (*1314*) SubFrom n_lu11new (Plain (Einsum [(n_lu11,[0;1;2]); (n_v'ovov,[3;1;2;4])] [0;4;3]));
  (*1315*) AddTo n_lu11new (Plain (Einsum [(n_gc'bvv,[0;1;2]); (n_lu12,[3;0;1;4])] [3;2;4]));
  (*1316*) AddTo n_lu11new (Plain (Einsum [(n_f'vv,[0;1]); (n_lu11,[2;0;3])] [2;1;3]));
  (*1317*) AddTo n_lu11new (Plain (Einsum [(n_l1,[0;1]); (n_g'bvv,[2;0;3])] [2;3;1]));
  (*1318*) SubFrom n_lu11new (Plain (Einsum [(n_f'oo,[0;1]); (n_lu11,[2;3;1])] [2;3;0]));
  (*1319*) SubFrom n_lu11new (Plain (Einsum [(n_l1,[0;1]); (n_g'boo,[2;3;1])] [2;0;3]));
  (*1320*) AddTo n_lu11new (Plain (Einsum [(n_G,[0]); (n_lu12,[1;0;2;3])] [1;2;3]));
  (*1321*) AddTo n_lu11new (Plain (Einsum [(n_ls2,[0;1]); (n_gc'bov,[1;2;3])] [0;3;2]));
  (*1322*) AddTo n_lu11new (Plain (Einsum [(n_w,[0;1]); (n_lu11,[0;2;3])] [1;2;3]))]
 [(n_l1new,[1;0]); (n_l2new,[1;1;0;0]); (n_ls1new,[3]); (n_ls2new,[3;3]); (n_lu11new,[3;1;0]); (n_lu12new,[3;3;1;0])].

(** ebcc/codegen/GCCSD_SD_1_2.py:1326-1392 [make_rdm1_f]; assembly (line 1390) not translated *)
Definition GCCSD_SD_1_2_make_rdm1_f : prog := mkprog
 [(n_g'boo,[3;0;0]); (n_g'bvo,[3;1;0]); (n_g'bov,[3;0;1]); (n_g'bvv,[3;1;1]); (n_lu11,[3;1;0]); (n_u11,[3;0;1]); (n_l1,[1;0]); (n_t1,[0;1]); (n_l2,[1;1;0;0]); (n_t2,[0;0;1;1]); (n_lu12,[3;3;1;0]); (n_u12,[3;3;0;1]); (n_ls1,[3]); (n_ls2,[3;3])]
 [(*1328*) Assign n_gc'boo (Plain (Transpose n_g'boo [0;2;1]));
  (*1328*) Assign n_gc'bov (Plain (Transpose n_g'bvo [0;2;1]));
  (*1328*) Assign n_gc'bvo (Plain (Transpose n_g'bov [0;2;1]));
  (*1328*) Assign n_gc'bvv (Plain (Transpose n_g'bvv [0;2;1]));
  (*1335*) Assign n_delta_oo (Plain (Eye 0));
  (*1336*) Assign n_delta_vv (Plain (Eye 1));
  (*1339*) Assign (T 1) (Plain (Zeros [0;0]));
  (*1340*) AddTo (T 1) (Plain (Einsum [(n_lu11,[0;1;2]); (n_u11,[0;3;1])] [2;3]));
  (*1341*) Assign (T 8) (Plain (Zeros [0;0]));
  (*1342*) AddTo (T 8) (Times (Einsum [(T 1,[0;1])] [0;1]) (2) 1);
  (*1343*) Assign n_rdm1_f_oo (Plain (Zeros [0;0]));
  (*1344*) SubFrom n_rdm1_f_oo (Plain (Einsum [(T 1,[0;1])] [0;1]));
  (*1345*) Del (T 1);
  (*1346*) Assign (T 2) (Plain (Zeros [0;0]));
  (*1347*) AddTo (T 2) (Plain (Einsum [(n_l1,[0;1]); (n_t1,[2;0])] [1;2]));
  (*1348*) AddTo (T 8) (Times (Einsum [(T 2,[0;1])] [0;1]) (2) 1);
  (*1349*) SubFrom n_rdm1_f_oo (Plain (Einsum [(T 2,[0;1])] [0;1]));
  (*1350*) Del (T 2);
  (*1351*) Assign (T 3) (Plain (Zeros [0;0]));
  (*1352*) AddTo (T 3) (Plain (Einsum [(n_l2,[0;1;2;3]); (n_t2,[4;3;0;1])] [2;4]));
  (*1353*) AddTo (T 8) (Plain (Einsum [(T 3,[0;1])] [0;1]));
  (*1354*) AddTo n_rdm1_f_oo (Times (Einsum [(T 3,[0;1])] [0;1]) (-1) 2);
  (*1355*) Del (T 3);
  (*1356*) Assign (T 4) (Plain (Zeros [0;0]));
  (*1357*) AddTo (T 4) (Plain (Einsum [(n_lu12,[0;1;2;3]); (n_u12,[0;1;4;2])] [3;4]));
  (*1358*) AddTo (T 8) (Plain (Einsum [(T 4,[0;1])] [0;1]));
  (*1359*) Assign n_rdm1_f_vo (Plain (Zeros [1;0]));
  (*1360*) AddTo n_rdm1_f_vo (Times (Einsum [(n_t1,[0;1]); (T 8,[0;2])] [1;2]) (-1) 2);
  (*1361*) Del (T 8);
  (*1362*) AddTo n_rdm1_f_oo (Times (Einsum [(T 4,[0;1])] [0;1]) (-1) 2);
  (*1363*) Del (T 4);
  (*1364*) Assign (T 5) (Plain (Zeros [3;3;0;0]));
  (*1365*) AddTo (T 5) (Plain (Einsum [(n_t1,[0;1]); (n_lu12,[2;3;1;4])] [2;3;4;0]));
  (*1366*) AddTo n_rdm1_f_vo (Times (Einsum [(n_u12,[0;1;2;3]); (T 5,[0;1;2;4])] [3;4]) (-1) 2);
  (*1367*) Del (T 5);
  (*1368*) Assign (T 6) (Plain (Zeros [0;0;0;1]));
  (*1369*) AddTo (T 6) (Plain (Einsum [(n_t1,[0;1]); (n_l2,[2;1;3;4])] [3;4;0;2]));
  (*1370*) AddTo n_rdm1_f_vo (Times (Einsum [(n_t2,[0;1;2;3]); (T 6,[0;1;4;3])] [2;4]) (1) 2);
  (*1371*) Del (T 6);
  (*1372*) Assign (T 7) (Plain (Zeros [3;0;0]));
  (*1373*) AddTo (T 7) (Plain (Einsum [(n_t1,[0;1]); (n_lu11,[2;1;3])] [2;3;0]));
  (*1374*) AddTo (T 7) (Plain (Einsum [(n_u11,[0;1;2]); (n_lu12,[0;3;2;4])] [3;4;1]));
  (*1375*) SubFrom n_rdm1_f_vo (Plain (Einsum [(n_u11,[0;1;2]); (T 7,[0;1;3])] [2;3]));
  (*1376*) Del (T 7);
  (*1377*) AddTo n_rdm1_f_oo (Plain (Einsum [(n_delta_oo,[0;1])] [1;0]));
  (*1378*) Assign n_rdm1_f_ov (Plain (Zeros [0;1]));
  (*1379*) AddTo n_rdm1_f_ov (Plain (Einsum [(n_l1,[0;1])] [1;0]));
  (*1380*) AddTo n_rdm1_f_vo (Plain (Einsum [(n_l1,[0;1]); (n_t2,[2;1;3;0])] [3;2]));
  (*1381*) AddTo n_rdm1_f_vo (Plain (Einsum [(n_t1,[0;1])] [1;0]));
  (*1382*) AddTo n_rdm1_f_vo (Plain (Einsum [(n_ls1,[0]); (n_u11,[0;1;2])] [2;1]));
  (*1383*) AddTo n_rdm1_f_vo (Times (Einsum [(n_ls2,[0;1]); (n_u12,[0;1;2;3])] [3;2]) (1) 2);
  (*1384*) Assign n_rdm1_f_vv (Plain (Zeros [1;1]));
  (*1385*) AddTo n_rdm1_f_vv (Plain (Einsum [(n_l1,[0;1]); (n_t1,[1;2])] [2;0]));
  (*1386*) AddTo n_rdm1_f_vv (Plain (Einsum [(n_lu11,[0;1;2]); (n_u11,[0;2;3])] [3;1]));
  (*1387*) AddTo n_rdm1_f_vv (Times (Einsum [(n_l2,[0;1;2;3]); (n_t2,[2;3;4;0])] [4;1]) (-1) 2);
  (*1388*) AddTo n_rdm1_f_vv (Times (Einsum [(n_lu12,[0;1;2;3]); (n_u12,[0;1;3;4])] [4;2]) (1) 2)]
 [(n_rdm1_f_oo,[0;0]); (n_rdm1_f_ov,[0;1]); (n_rdm1_f_vo,[1;0]); (n_rdm1_f_vv,[1;1])].

(** ebcc/codegen/GCCSD_SD_1_2.py:1394-1892 [make_rdm2_f]; assembly (line 1888) not translated *)
Definition GCCSD_SD_1_2_make_rdm2_f : prog := mkprog
 [(n_g'boo,[3;0;0]); (n_g'bvo,[3;1;0]); (n_g'bov,[3;0;1]); (n_g'bvv,[3;1;1]); (n_l2,[1;1;0;0]); (n_t2,[0;0;1;1]); (n_t1,[0;1]); (n_lu11,[3;1;0]); (n_u11,[3;0;1]); (n_lu12,[3;3;1;0]); (n_u12,[3;3;0;1]); (n_l1,[1;0]); (n_ls1,[3]); (n_ls2,[3;3])]
 [(*1396*) Assign n_gc'boo (Plain (Transpose n_g'boo [0;2;1]));
  (*1396*) Assign n_gc'bov (Plain (Transpose n_g'bvo [0;2;1]));
  (*1396*) Assign n_gc'bvo (Plain (Transpose n_g'bov [0;2;1]));
  (*1396*) Assign n_gc'bvv (Plain (Transpose n_g'bvv [0;2;1]));
  (*1403*) Assign n_delta_oo (Plain (Eye 0));
  (*1404*) Assign n_delta_vv (Plain (Eye 1));
  (*1407*) Assign (T 1) (Plain (Zeros [0;0;0;0]));
  (*1408*) AddTo (T 1) (Plain (Einsum [(n_l2,[0;1;2;3]); (n_t2,[4;5;0;1])] [2;3;4;5]));
  (*1409*) Assign (T 29) (Plain (Zeros [0;0;0;0]));
  (*1410*) AddTo (T 29) (Times (Einsum [(T 1,[0;1;2;3])] [1;0;3;2]) (-1) 1);
  (*1411*) Assign (T 78) (Plain (Zeros [0;0;0;0]));
  (*1412*) AddTo (T 78) (Times (Einsum [(T 1,[0;1;2;3])] [1;0;3;2]) (-1) 1);
  (*1413*) Assign (T 79) (Plain (Zeros [0;0;0;0]));
  (*1414*) AddTo (T 79) (Times (Einsum [(T 1,[0;1;2;3])] [1;0;3;2]) (-1) 1);
  (*1415*) Assign n_rdm2_f_oooo (Plain (Zeros [0;0;0;0]));
  (*1416*) AddTo n_rdm2_f_oooo (Times (Einsum [(T 1,[0;1;2;3])] [1;0;3;2]) (1) 2);
  (*1417*) Del (T 1);
  (*1418*) Assign (T 2) (Plain (Zeros [0;0;0;1]));
  (*1419*) AddTo (T 2) (Plain (Einsum [(n_t1,[0;1]); (n_l2,[2;1;3;4])] [3;4;0;2]));
  (*1420*) Assign (T 3) (Plain (Zeros [0;0;0;0]));
  (*1421*) AddTo (T 3) (Plain (Einsum [(n_t1,[0;1]); (T 2,[2;3;4;1])] [2;3;0;4]));
  (*1422*) AddTo (T 29) (Times (Einsum [(T 3,[0;1;2;3])] [0;1;3;2]) (2) 1);
  (*1423*) Assign (T 30) (Plain (Zeros [0;0;0;1]));
  (*1424*) AddTo (T 30) (Times (Einsum [(n_t1,[0;1]); (T 29,[0;2;3;4])] [2;3;4;1]) (1) 2);
  (*1425*) Del (T 29);
  (*1426*) Assign n_rdm2_f_ovoo (Plain (Zeros [0;1;0;0]));
  (*1427*) AddTo n_rdm2_f_ovoo (Times (Einsum [(T 30,[0;1;2;3])] [0;3;2;1]) (-1) 1);
  (*1428*) Assign n_rdm2_f_vooo (Plain (Zeros [1;0;0;0]));
  (*1429*) AddTo n_rdm2_f_vooo (Plain (Einsum [(T 30,[0;1;2;3])] [3;0;2;1]));
  (*1430*) Del (T 30);
  (*1431*) AddTo (T 78) (Times (Einsum [(T 3,[0;1;2;3])] [0;1;3;2]) (20000000000000013) 10000000000000000);
  (*1432*) Assign n_rdm2_f_vvoo (Plain (Zeros [1;1;0;0]));
  (*1433*) AddTo n_rdm2_f_vvoo (Times (Einsum [(n_t2,[0;1;2;3]); (T 78,[0;1;4;5])] [3;2;5;4]) (-1) 4);
  (*1434*) Del (T 78);
  (*1435*) AddTo (T 79) (Times (Einsum [(T 3,[0;1;2;3])] [0;1;3;2]) (19999999999999987) 10000000000000000);
  (*1436*) Assign (T 80) (Plain (Zeros [0;0;0;1]));
  (*1437*) AddTo (T 80) (Times (Einsum [(n_t1,[0;1]); (T 79,[0;2;3;4])] [2;4;3;1]) (-1) 1);
  (*1438*) Del (T 79);
  (*1439*) AddTo n_rdm2_f_vvoo (Times (Einsum [(n_t1,[0;1]); (T 80,[0;2;3;4])] [4;1;3;2]) (5000000000000003) 10000000000000000);
  (*1440*) Del (T 80);
  (*1441*) SubFrom n_rdm2_f_oooo (Plain (Einsum [(T 3,[0;1;2;3])] [0;1;3;2]));
  (*1442*) Del (T 3);
  (*1443*) Assign (T 14) (Plain (Zeros [0;0;0;1]));
  (*1444*) SubFrom (T 14) (Plain (Einsum [(n_t2,[0;1;2;3]); (T 2,[4;1;5;3])] [4;5;0;2]));
  (*1445*) Assign (T 21) (Plain (Zeros [0;0;0;1]));
  (*1446*) AddTo (T 21) (Plain (Einsum [(T 14,[0;1;2;3])] [0;1;2;3]));
  (*1447*) Assign (T 35) (Plain (Zeros [0;0;0;1]));
  (*1448*) SubFrom (T 35) (Plain (Einsum [(T 14,[0;1;2;3])] [0;1;2;3]));
  (*1449*) Assign (T 61) (Plain (Zeros [0;0;1;1]));
  (*1450*) AddTo (T 61) (Plain (Einsum [(n_t1,[0;1]); (T 14,[0;2;3;4])] [2;3;1;4]));
  (*1451*) Del (T 14);
  (*1452*) Assign (T 68) (Plain (Zeros [0;0;1;1]));
  (*1453*) SubFrom (T 68) (Plain (Einsum [(T 61,[0;1;2;3])] [0;1;2;3]));
  (*1454*) Del (T 61);
  (*1455*) Assign (T 25) (Plain (Zeros [0;1]));
  (*1456*) SubFrom (T 25) (Plain (Einsum [(n_t2,[0;1;2;3]); (T 2,[0;1;4;3])] [4;2]));
  (*1457*) Assign (T 27) (Plain (Zeros [0;1]));
  (*1458*) AddTo (T 27) (Plain (Einsum [(T 25,[0;1])] [0;1]));
  (*1459*) Assign (T 54) (Plain (Zeros [0;1]));
  (*1460*) AddTo (T 54) (Plain (Einsum [(T 25,[0;1])] [0;1]));
  (*1461*) Del (T 25);
  (*1462*) Assign (T 38) (Plain (Zeros [0;0;1;1]));
  (*1463*) AddTo (T 38) (Plain (Einsum [(n_t1,[0;1]); (T 2,[2;0;3;4])] [2;3;4;1]));
  (*1464*) Assign (T 89) (Plain (Zeros [0;1;1;1]));
  (*1465*) SubFrom (T 89) (Plain (Einsum [(n_t1,[0;1]); (T 38,[0;2;3;4])] [2;3;4;1]));
  (*1466*) Assign n_rdm2_f_vvov (Plain (Zeros [1;1;0;1]));
  (*1467*) SubFrom n_rdm2_f_vvov (Plain (Einsum [(T 89,[0;1;2;3])] [3;2;0;1]));
  (*1468*) Assign n_rdm2_f_vvvo (Plain (Zeros [1;1;1;0]));
  (*1469*) AddTo n_rdm2_f_vvvo (Plain (Einsum [(T 89,[0;1;2;3])] [3;2;1;0]));
  (*1470*) Del (T 89);
  (*1471*) Assign n_rdm2_f_ovov (Plain (Zeros [0;1;0;1]));
  (*1472*) AddTo n_rdm2_f_ovov (Plain (Einsum [(T 38,[0;1;2;3])] [0;3;1;2]));
  (*1473*) Assign n_rdm2_f_ovvo (Plain (Zeros [0;1;1;0]));
  (*1474*) SubFrom n_rdm2_f_ovvo (Plain (Einsum [(T 38,[0;1;2;3])] [0;3;2;1]));
  (*1475*) Assign n_rdm2_f_voov (Plain (Zeros [1;0;0;1]));
  (*1476*) SubFrom n_rdm2_f_voov (Plain (Einsum [(T 38,[0;1;2;3])] [3;0;1;2]));
  (*1477*) Assign n_rdm2_f_vovo (Plain (Zeros [1;0;1;0]));
  (*1478*) AddTo n_rdm2_f_vovo (Plain (Einsum [(T 38,[0;1;2;3])] [3;0;2;1]));
  (*1479*) Del (T 38);
  (*1480*) Assign (T 88) (Plain (Zeros [0;1;1;1]));
  (*1481*) AddTo (T 88) (Plain (Einsum [(n_t2,[0;1;2;3]); (T 2,[0;1;4;5])] [4;5;2;3]));
  (*1482*) AddTo n_rdm2_f_vvov (Times (Einsum [(T 88,[0;1;2;3])] [2;3;0;1]) (1) 2);
  (*1483*) AddTo n_rdm2_f_vvvo (Times (Einsum [(T 88,[0;1;2;3])] [2;3;1;0]) (-1) 2);
  (*1484*) Del (T 88);
  (*1485*) Assign n_rdm2_f_ooov (Plain (Zeros [0;0;0;1]));
  (*1486*) SubFrom n_rdm2_f_ooov (Plain (Einsum [(T 2,[0;1;2;3])] [1;0;2;3]));
  (*1487*) Assign n_rdm2_f_oovo (Plain (Zeros [0;0;1;0]));
  (*1488*) AddTo n_rdm2_f_oovo (Plain (Einsum [(T 2,[0;1;2;3])] [1;0;3;2]));
  (*1489*) Del (T 2);
  (*1490*) Assign (T 4) (Plain (Zeros [0;0]));
  (*1491*) AddTo (T 4) (Plain (Einsum [(n_lu11,[0;1;2]); (n_u11,[0;3;1])] [2;3]));
  (*1492*) Assign (T 16) (Plain (Zeros [0;1]));
  (*1493*) AddTo (T 16) (Plain (Einsum [(n_t1,[0;1]); (T 4,[0;2])] [2;1]));
  (*1494*) Assign (T 19) (Plain (Zeros [0;1]));
  (*1495*) AddTo (T 19) (Plain (Einsum [(T 16,[0;1])] [0;1]));
  (*1496*) Del (T 16);
  (*1497*) Assign (T 20) (Plain (Zeros [0;0]));
  (*1498*) AddTo (T 20) (Plain (Einsum [(T 4,[0;1])] [0;1]));
  (*1499*) Assign (T 76) (Plain (Zeros [0;0;1;1]));
  (*1500*) AddTo (T 76) (Plain (Einsum [(T 4,[0;1]); (n_t2,[2;0;3;4])] [2;1;3;4]));
  (*1501*) Assign (T 77) (Plain (Zeros [0;0;1;1]));
  (*1502*) AddTo (T 77) (Plain (Einsum [(T 76,[0;1;2;3])] [0;1;3;2]));
  (*1503*) Del (T 76);
  (*1504*) Assign (T 82) (Plain (Zeros [0;0]));
  (*1505*) AddTo (T 82) (Plain (Einsum [(T 4,[0;1])] [0;1]));
  (*1506*) SubFrom n_rdm2_f_oooo (Plain (Einsum [(n_delta_oo,[0;1]); (T 4,[2;3])] [0;2;1;3]));
  (*1507*) AddTo n_rdm2_f_oooo (Plain (Einsum [(n_delta_oo,[0;1]); (T 4,[2;3])] [0;2;3;1]));
  (*1508*) AddTo n_rdm2_f_oooo (Plain (Einsum [(n_delta_oo,[0;1]); (T 4,[2;3])] [2;1;0;3]));
  (*1509*) SubFrom n_rdm2_f_oooo (Plain (Einsum [(n_delta_oo,[0;1]); (T 4,[2;3])] [2;1;3;0]));
  (*1510*) Del (T 4);
  (*1511*) Assign (T 5) (Plain (Zeros [0;0]));
  (*1512*) AddTo (T 5) (Plain (Einsum [(n_lu12,[0;1;2;3]); (n_u12,[0;1;4;2])] [3;4]));
  (*1513*) Assign (T 7) (Plain (Zeros [0;0]));
  (*1514*) AddTo (T 7) (Plain (Einsum [(T 5,[0;1])] [0;1]));
  (*1515*) Assign (T 52) (Plain (Zeros [0;0]));
  (*1516*) AddTo (T 52) (Plain (Einsum [(T 5,[0;1])] [0;1]));
  (*1517*) Del (T 5);
  (*1518*) Assign (T 6) (Plain (Zeros [0;0]));
  (*1519*) AddTo (T 6) (Plain (Einsum [(n_l2,[0;1;2;3]); (n_t2,[4;3;0;1])] [2;4]));
  (*1520*) AddTo (T 7) (Plain (Einsum [(T 6,[0;1])] [0;1]));
  (*1521*) Assign (T 26) (Plain (Zeros [0;1]));
  (*1522*) AddTo (T 26) (Plain (Einsum [(n_t1,[0;1]); (T 7,[0;2])] [2;1]));
  (*1523*) AddTo (T 27) (Plain (Einsum [(T 26,[0;1])] [0;1]));
  (*1524*) Del (T 26);
  (*1525*) Assign (T 28) (Plain (Zeros [0;0;0;1]));
  (*1526*) AddTo (T 28) (Times (Einsum [(n_t1,[0;1]); (T 7,[2;3])] [2;0;3;1]) (-1) 2);
  (*1527*) Assign (T 36) (Plain (Zeros [0;0;0;1]));
  (*1528*) AddTo (T 36) (Times (Einsum [(n_t1,[0;1]); (T 7,[2;3])] [2;0;3;1]) (1) 2);
  (*1529*) Assign (T 56) (Plain (Zeros [0;0;1;1]));
  (*1530*) AddTo (T 56) (Times (Einsum [(T 7,[0;1]); (n_t2,[0;2;3;4])] [1;2;3;4]) (1) 2);
  (*1531*) AddTo n_rdm2_f_vvoo (Plain (Einsum [(T 56,[0;1;2;3])] [2;3;1;0]));
  (*1532*) AddTo n_rdm2_f_vvoo (Times (Einsum [(T 56,[0;1;2;3])] [2;3;0;1]) (-1) 1);
  (*1533*) Del (T 56);
  (*1534*) AddTo n_rdm2_f_oooo (Times (Einsum [(n_delta_oo,[0;1]); (T 7,[2;3])] [1;2;0;3]) (-1) 2);
  (*1535*) AddTo n_rdm2_f_oooo (Times (Einsum [(n_delta_oo,[0;1]); (T 7,[2;3])] [1;2;3;0]) (1) 2);
  (*1536*) AddTo n_rdm2_f_oooo (Times (Einsum [(n_delta_oo,[0;1]); (T 7,[2;3])] [2;0;1;3]) (1) 2);
  (*1537*) AddTo n_rdm2_f_oooo (Times (Einsum [(n_delta_oo,[0;1]); (T 7,[2;3])] [2;0;3;1]) (-1) 2);
  (*1538*) Del (T 7);
  (*1539*) AddTo (T 52) (Plain (Einsum [(T 6,[0;1])] [0;1]));
  (*1540*) Del (T 6);
  (*1541*) Assign (T 53) (Plain (Zeros [0;1]));
  (*1542*) AddTo (T 53) (Plain (Einsum [(n_t1,[0;1]); (T 52,[0;2])] [2;1]));
  (*1543*) Del (T 52);
  (*1544*) AddTo (T 54) (Plain (Einsum [(T 53,[0;1])] [0;1]));
  (*1545*) Del (T 53);
  (*1546*) Assign (T 8) (Plain (Zeros [0;0]));
  (*1547*) AddTo (T 8) (Plain (Einsum [(n_l1,[0;1]); (n_t1,[2;0])] [1;2]));
  (*1548*) AddTo (T 20) (Plain (Einsum [(T 8,[0;1])] [0;1]));
  (*1549*) SubFrom (T 21) (Plain (Einsum [(n_t1,[0;1]); (T 20,[2;3])] [2;0;3;1]));
  (*1550*) AddTo (T 35) (Plain (Einsum [(n_t1,[0;1]); (T 20,[2;3])] [2;0;3;1]));
  (*1551*) Del (T 20);
  (*1552*) Assign (T 33) (Plain (Zeros [0;1]));
  (*1553*) AddTo (T 33) (Plain (Einsum [(n_t1,[0;1]); (T 8,[0;2])] [2;1]));
  (*1554*) Assign (T 34) (Plain (Zeros [0;1]));
  (*1555*) AddTo (T 34) (Times (Einsum [(T 33,[0;1])] [0;1]) (-1) 1);
  (*1556*) Del (T 33);
  (*1557*) Assign (T 75) (Plain (Zeros [0;0;1;1]));
  (*1558*) AddTo (T 75) (Plain (Einsum [(T 8,[0;1]); (n_t2,[2;0;3;4])] [1;2;3;4]));
  (*1559*) SubFrom (T 77) (Plain (Einsum [(T 75,[0;1;2;3])] [0;1;3;2]));
  (*1560*) Del (T 75);
  (*1561*) SubFrom n_rdm2_f_vvoo (Plain (Einsum [(T 77,[0;1;2;3])] [3;2;0;1]));
  (*1562*) AddTo n_rdm2_f_vvoo (Plain (Einsum [(T 77,[0;1;2;3])] [3;2;1;0]));
  (*1563*) Del (T 77);
  (*1564*) AddTo (T 82) (Plain (Einsum [(T 8,[0;1])] [0;1]));
  (*1565*) Assign (T 83) (Plain (Zeros [0;1]));
  (*1566*) AddTo (T 83) (Plain (Einsum [(n_t1,[0;1]); (T 82,[0;2])] [2;1]));
  (*1567*) Assign (T 84) (Plain (Zeros [0;1]));
  (*1568*) AddTo (T 84) (Plain (Einsum [(T 83,[0;1])] [0;1]));
  (*1569*) Del (T 83);
  (*1570*) Assign (T 85) (Plain (Zeros [0;1]));
  (*1571*) AddTo (T 85) (Times (Einsum [(n_t1,[0;1]); (T 82,[0;2])] [2;1]) (2) 1);
  (*1572*) Del (T 82);
  (*1573*) Assign (T 86) (Plain (Zeros [0;1]));
  (*1574*) AddTo (T 86) (Plain (Einsum [(T 85,[0;1])] [0;1]));
  (*1575*) Del (T 85);
  (*1576*) SubFrom n_rdm2_f_oooo (Plain (Einsum [(n_delta_oo,[0;1]); (T 8,[2;3])] [1;2;0;3]));
  (*1577*) AddTo n_rdm2_f_oooo (Plain (Einsum [(n_delta_oo,[0;1]); (T 8,[2;3])] [2;1;0;3]));
  (*1578*) AddTo n_rdm2_f_oooo (Plain (Einsum [(n_delta_oo,[0;1]); (T 8,[2;3])] [1;2;3;0]));
  (*1579*) SubFrom n_rdm2_f_oooo (Plain (Einsum [(n_delta_oo,[0;1]); (T 8,[2;3])] [2;1;3;0]));
  (*1580*) Del (T 8);
  (*1581*) Assign (T 9) (Plain (Zeros [0;0;0;1]));
  (*1582*) AddTo (T 9) (Plain (Einsum [(n_l1,[0;1]); (n_t2,[2;3;4;0])] [1;2;3;4]));
  (*1583*) Assign (T 71) (Plain (Zeros [0;0;1;1]));
  (*1584*) AddTo (T 71) (Plain (Einsum [(n_t1,[0;1]); (T 9,[0;2;3;4])] [2;3;1;4]));
  (*1585*) Assign (T 74) (Plain (Zeros [0;0;1;1]));
  (*1586*) AddTo (T 74) (Plain (Einsum [(T 71,[0;1;2;3])] [0;1;2;3]));
  (*1587*) Del (T 71);
  (*1588*) SubFrom n_rdm2_f_ovoo (Plain (Einsum [(T 9,[0;1;2;3])] [0;3;2;1]));
  (*1589*) AddTo n_rdm2_f_vooo (Plain (Einsum [(T 9,[0;1;2;3])] [3;0;2;1]));
  (*1590*) Del (T 9);
  (*1591*) Assign (T 10) (Plain (Zeros [3;0;0]));
  (*1592*) AddTo (T 10) (Plain (Einsum [(n_t1,[0;1]); (n_lu11,[2;1;3])] [2;3;0]));
  (*1593*) Assign (T 11) (Plain (Zeros [0;0;0;1]));
  (*1594*) AddTo (T 11) (Plain (Einsum [(n_u11,[0;1;2]); (T 10,[0;3;4])] [3;4;1;2]));
  (*1595*) AddTo (T 21) (Plain (Einsum [(T 11,[0;1;2;3])] [0;1;2;3]));
  (*1596*) SubFrom (T 35) (Plain (Einsum [(T 11,[0;1;2;3])] [0;1;2;3]));
  (*1597*) Del (T 11);
  (*1598*) Assign (T 17) (Plain (Zeros [3;0;0]));
  (*1599*) AddTo (T 17) (Plain (Einsum [(T 10,[0;1;2])] [0;1;2]));
  (*1600*) Assign (T 63) (Plain (Zeros [3;0;1]));
  (*1601*) AddTo (T 63) (Plain (Einsum [(n_t1,[0;1]); (T 10,[2;0;3])] [2;3;1]));
  (*1602*) Assign (T 64) (Plain (Zeros [3;0;1]));
  (*1603*) SubFrom (T 64) (Plain (Einsum [(T 63,[0;1;2])] [0;1;2]));
  (*1604*) Del (T 63);
  (*1605*) Assign (T 81) (Plain (Zeros [0;1]));
  (*1606*) AddTo (T 81) (Plain (Einsum [(n_u11,[0;1;2]); (T 10,[0;1;3])] [3;2]));
  (*1607*) Del (T 10);
  (*1608*) AddTo (T 84) (Plain (Einsum [(T 81,[0;1])] [0;1]));
  (*1609*) AddTo (T 86) (Times (Einsum [(T 81,[0;1])] [0;1]) (2) 1);
  (*1610*) Del (T 81);
  (*1611*) Assign (T 12) (Plain (Zeros [3;0;0]));
  (*1612*) AddTo (T 12) (Plain (Einsum [(n_u11,[0;1;2]); (n_lu12,[0;3;2;4])] [3;4;1]));
  (*1613*) Assign (T 13) (Plain (Zeros [0;0;0;1]));
  (*1614*) AddTo (T 13) (Plain (Einsum [(n_u11,[0;1;2]); (T 12,[0;3;4])] [3;1;4;2]));
  (*1615*) SubFrom (T 21) (Plain (Einsum [(T 13,[0;1;2;3])] [0;1;2;3]));
  (*1616*) AddTo (T 35) (Plain (Einsum [(T 13,[0;1;2;3])] [0;1;2;3]));
  (*1617*) Del (T 13);
  (*1618*) SubFrom n_rdm2_f_vooo (Plain (Einsum [(T 35,[0;1;2;3])] [3;0;1;2]));
  (*1619*) AddTo n_rdm2_f_vooo (Plain (Einsum [(T 35,[0;1;2;3])] [3;0;2;1]));
  (*1620*) Del (T 35);
  (*1621*) AddTo (T 17) (Plain (Einsum [(T 12,[0;1;2])] [0;1;2]));
  (*1622*) Assign (T 18) (Plain (Zeros [0;1]));
  (*1623*) AddTo (T 18) (Plain (Einsum [(n_u11,[0;1;2]); (T 17,[0;1;3])] [3;2]));
  (*1624*) Del (T 17);
  (*1625*) AddTo (T 19) (Plain (Einsum [(T 18,[0;1])] [0;1]));
  (*1626*) Del (T 18);
  (*1627*) Assign (T 59) (Plain (Zeros [3;0;1]));
  (*1628*) AddTo (T 59) (Plain (Einsum [(n_t1,[0;1]); (T 12,[2;0;3])] [2;3;1]));
  (*1629*) Assign (T 60) (Plain (Zeros [0;0;1;1]));
  (*1630*) AddTo (T 60) (Plain (Einsum [(n_u11,[0;1;2]); (T 59,[0;3;4])] [1;3;4;2]));
  (*1631*) Del (T 59);
  (*1632*) AddTo (T 68) (Plain (Einsum [(T 60,[0;1;2;3])] [0;1;2;3]));
  (*1633*) Del (T 60);
  (*1634*) Assign (T 66) (Plain (Zeros [0;1]));
  (*1635*) AddTo (T 66) (Plain (Einsum [(n_u11,[0;1;2]); (T 12,[0;1;3])] [3;2]));
  (*1636*) Del (T 12);
  (*1637*) Assign (T 67) (Plain (Zeros [0;1]));
  (*1638*) SubFrom (T 67) (Plain (Einsum [(T 66,[0;1])] [0;1]));
  (*1639*) Del (T 66);
  (*1640*) Assign (T 15) (Plain (Zeros [0;1]));
  (*1641*) AddTo (T 15) (Plain (Einsum [(n_l1,[0;1]); (n_t2,[2;1;3;0])] [2;3]));
  (*1642*) SubFrom (T 19) (Plain (Einsum [(T 15,[0;1])] [0;1]));
  (*1643*) AddTo (T 21) (Plain (Einsum [(n_delta_oo,[0;1]); (T 19,[2;3])] [1;0;2;3]));
  (*1644*) SubFrom n_rdm2_f_ovoo (Plain (Einsum [(T 21,[0;1;2;3])] [0;3;1;2]));
  (*1645*) AddTo n_rdm2_f_ovoo (Plain (Einsum [(T 21,[0;1;2;3])] [0;3;2;1]));
  (*1646*) Del (T 21);
  (*1647*) AddTo n_rdm2_f_vooo (Plain (Einsum [(n_delta_oo,[0;1]); (T 19,[2;3])] [3;0;1;2]));
  (*1648*) SubFrom n_rdm2_f_vooo (Plain (Einsum [(n_delta_oo,[0;1]); (T 19,[2;3])] [3;0;2;1]));
  (*1649*) Del (T 19);
  (*1650*) AddTo (T 67) (Plain (Einsum [(T 15,[0;1])] [0;1]));
  (*1651*) Del (T 15);
  (*1652*) AddTo (T 68) (Plain (Einsum [(n_t1,[0;1]); (T 67,[2;3])] [0;2;1;3]));
  (*1653*) Del (T 67);
  (*1654*) Assign (T 22) (Plain (Zeros [3;3;0;0]));
  (*1655*) AddTo (T 22) (Plain (Einsum [(n_t1,[0;1]); (n_lu12,[2;3;1;4])] [2;3;4;0]));
  (*1656*) Assign (T 23) (Plain (Zeros [0;0;0;1]));
  (*1657*) AddTo (T 23) (Plain (Einsum [(n_u12,[0;1;2;3]); (T 22,[0;1;4;5])] [4;5;2;3]));
  (*1658*) AddTo (T 28) (Times (Einsum [(T 23,[0;1;2;3])] [0;1;2;3]) (1) 2);
  (*1659*) AddTo (T 36) (Times (Einsum [(T 23,[0;1;2;3])] [0;1;2;3]) (-1) 2);
  (*1660*) AddTo n_rdm2_f_vooo (Times (Einsum [(T 36,[0;1;2;3])] [3;0;1;2]) (-1) 1);
  (*1661*) AddTo n_rdm2_f_vooo (Plain (Einsum [(T 36,[0;1;2;3])] [3;0;2;1]));
  (*1662*) Del (T 36);
  (*1663*) Assign (T 51) (Plain (Zeros [0;0;1;1]));
  (*1664*) AddTo (T 51) (Plain (Einsum [(n_t1,[0;1]); (T 23,[0;2;3;4])] [2;3;1;4]));
  (*1665*) Del (T 23);
  (*1666*) Assign (T 55) (Plain (Zeros [0;0;1;1]));
  (*1667*) AddTo (T 55) (Times (Einsum [(T 51,[0;1;2;3])] [0;1;2;3]) (1) 2);
  (*1668*) Del (T 51);
  (*1669*) Assign (T 24) (Plain (Zeros [0;1]));
  (*1670*) AddTo (T 24) (Plain (Einsum [(n_u12,[0;1;2;3]); (T 22,[0;1;2;4])] [4;3]));
  (*1671*) AddTo (T 27) (Plain (Einsum [(T 24,[0;1])] [0;1]));
  (*1672*) AddTo (T 28) (Times (Einsum [(n_delta_oo,[0;1]); (T 27,[2;3])] [1;0;2;3]) (1) 2);
  (*1673*) AddTo n_rdm2_f_ovoo (Times (Einsum [(T 28,[0;1;2;3])] [0;3;1;2]) (-1) 1);
  (*1674*) AddTo n_rdm2_f_ovoo (Plain (Einsum [(T 28,[0;1;2;3])] [0;3;2;1]));
  (*1675*) Del (T 28);
  (*1676*) AddTo n_rdm2_f_vooo (Times (Einsum [(n_delta_oo,[0;1]); (T 27,[2;3])] [3;0;1;2]) (1) 2);
  (*1677*) AddTo n_rdm2_f_vooo (Times (Einsum [(n_delta_oo,[0;1]); (T 27,[2;3])] [3;0;2;1]) (-1) 2);
  (*1678*) Del (T 27);
  (*1679*) AddTo (T 54) (Plain (Einsum [(T 24,[0;1])] [0;1]));
  (*1680*) Del (T 24);
  (*1681*) AddTo (T 55) (Times (Einsum [(n_t1,[0;1]); (T 54,[2;3])] [0;2;1;3]) (1) 2);
  (*1682*) Del (T 54);
  (*1683*) Assign (T 57) (Plain (Zeros [3;0;1]));
  (*1684*) AddTo (T 57) (Plain (Einsum [(n_u11,[0;1;2]); (T 22,[0;3;1;4])] [3;4;2]));
  (*1685*) Del (T 22);
  (*1686*) Assign (T 58) (Plain (Zeros [0;0;1;1]));
  (*1687*) AddTo (T 58) (Plain (Einsum [(n_u11,[0;1;2]); (T 57,[0;3;4])] [3;1;2;4]));
  (*1688*) Del (T 57);
  (*1689*) AddTo (T 68) (Plain (Einsum [(T 58,[0;1;2;3])] [0;1;2;3]));
  (*1690*) Del (T 58);
  (*1691*) Assign (T 31) (Plain (Zeros [0;1]));
  (*1692*) AddTo (T 31) (Plain (Einsum [(n_ls1,[0]); (n_u11,[0;1;2])] [1;2]));
  (*1693*) AddTo (T 34) (Plain (Einsum [(T 31,[0;1])] [0;1]));
  (*1694*) AddTo (T 84) (Times (Einsum [(T 31,[0;1])] [0;1]) (-1) 1);
  (*1695*) AddTo (T 86) (Times (Einsum [(T 31,[0;1])] [0;1]) (-2) 1);
  (*1696*) Del (T 31);
  (*1697*) Assign (T 32) (Plain (Zeros [0;1]));
  (*1698*) AddTo (T 32) (Plain (Einsum [(n_ls2,[0;1]); (n_u12,[0;1;2;3])] [2;3]));
  (*1699*) AddTo (T 34) (Times (Einsum [(T 32,[0;1])] [0;1]) (1) 2);
  (*1700*) AddTo (T 84) (Times (Einsum [(T 32,[0;1])] [0;1]) (-1) 2);
  (*1701*) AddTo (T 86) (Times (Einsum [(T 32,[0;1])] [0;1]) (-1) 1);
  (*1702*) Del (T 32);
  (*1703*) AddTo n_rdm2_f_vvoo (Times (Einsum [(n_t1,[0;1]); (T 86,[2;3])] [3;1;0;2]) (1) 2);
  (*1704*) AddTo n_rdm2_f_vvoo (Times (Einsum [(n_t1,[0;1]); (T 86,[2;3])] [1;3;0;2]) (-1) 2);
  (*1705*) Del (T 86);
  (*1706*) AddTo (T 34) (Plain (Einsum [(n_t1,[0;1])] [0;1]));
  (*1707*) AddTo n_rdm2_f_ovoo (Times (Einsum [(n_delta_oo,[0;1]); (T 34,[2;3])] [1;3;2;0]) (-1) 1);
  (*1708*) AddTo n_rdm2_f_ovoo (Plain (Einsum [(n_delta_oo,[0;1]); (T 34,[2;3])] [1;3;0;2]));
  (*1709*) AddTo n_rdm2_f_vooo (Times (Einsum [(n_delta_oo,[0;1]); (T 34,[2;3])] [3;1;0;2]) (-1) 1);
  (*1710*) AddTo n_rdm2_f_vooo (Plain (Einsum [(n_delta_oo,[0;1]); (T 34,[2;3])] [3;1;2;0]));
  (*1711*) Del (T 34);
  (*1712*) Assign (T 37) (Plain (Zeros [0;0;1;1]));
  (*1713*) SubFrom (T 37) (Plain (Einsum [(n_l2,[0;1;2;3]); (n_t2,[4;3;5;0])] [2;4;1;5]));
  (*1714*) Assign (T 73) (Plain (Zeros [0;0;1;1]));
  (*1715*) AddTo (T 73) (Plain (Einsum [(n_t2,[0;1;2;3]); (T 37,[1;4;3;5])] [0;4;2;5]));
  (*1716*) AddTo (T 74) (Plain (Einsum [(T 73,[0;1;2;3])] [0;1;2;3]));
  (*1717*) Del (T 73);
  (*1718*) Assign (T 95) (Plain (Zeros [0;1;1;1]));
  (*1719*) AddTo (T 95) (Plain (Einsum [(n_t1,[0;1]); (T 37,[0;2;3;4])] [2;3;1;4]));
  (*1720*) Assign (T 97) (Plain (Zeros [0;1;1;1]));
  (*1721*) SubFrom (T 97) (Plain (Einsum [(T 95,[0;1;2;3])] [0;1;2;3]));
  (*1722*) Del (T 95);
  (*1723*) SubFrom n_rdm2_f_ovov (Plain (Einsum [(T 37,[0;1;2;3])] [0;3;1;2]));
  (*1724*) AddTo n_rdm2_f_ovvo (Plain (Einsum [(T 37,[0;1;2;3])] [0;3;2;1]));
  (*1725*) AddTo n_rdm2_f_voov (Plain (Einsum [(T 37,[0;1;2;3])] [3;0;1;2]));
  (*1726*) SubFrom n_rdm2_f_vovo (Plain (Einsum [(T 37,[0;1;2;3])] [3;0;2;1]));
  (*1727*) Del (T 37);
  (*1728*) Assign (T 39) (Plain (Zeros [0;0;1;1]));
  (*1729*) AddTo (T 39) (Plain (Einsum [(n_lu11,[0;1;2]); (n_u11,[0;3;4])] [2;3;1;4]));
  (*1730*) SubFrom n_rdm2_f_ovov (Plain (Einsum [(T 39,[0;1;2;3])] [0;3;1;2]));
  (*1731*) AddTo n_rdm2_f_ovvo (Plain (Einsum [(T 39,[0;1;2;3])] [0;3;2;1]));
  (*1732*) AddTo n_rdm2_f_voov (Plain (Einsum [(T 39,[0;1;2;3])] [3;0;1;2]));
  (*1733*) SubFrom n_rdm2_f_vovo (Plain (Einsum [(T 39,[0;1;2;3])] [3;0;2;1]));
  (*1734*) Del (T 39);
  (*1735*) Assign (T 40) (Plain (Zeros [0;0;1;1]));
  (*1736*) AddTo (T 40) (Plain (Einsum [(n_lu12,[0;1;2;3]); (n_u12,[0;1;4;5])] [3;4;2;5]));
  (*1737*) Assign (T 98) (Plain (Zeros [0;1;1;1]));
  (*1738*) AddTo (T 98) (Plain (Einsum [(n_t1,[0;1]); (T 40,[0;2;3;4])] [2;3;1;4]));
  (*1739*) Assign (T 99) (Plain (Zeros [0;1;1;1]));
  (*1740*) AddTo (T 99) (Times (Einsum [(T 98,[0;1;2;3])] [0;1;2;3]) (-1) 2);
  (*1741*) Del (T 98);
  (*1742*) AddTo n_rdm2_f_ovov (Times (Einsum [(T 40,[0;1;2;3])] [0;3;1;2]) (-1) 2);
  (*1743*) AddTo n_rdm2_f_ovvo (Times (Einsum [(T 40,[0;1;2;3])] [0;3;2;1]) (1) 2);
  (*1744*) AddTo n_rdm2_f_voov (Times (Einsum [(T 40,[0;1;2;3])] [3;0;1;2]) (1) 2);
  (*1745*) AddTo n_rdm2_f_vovo (Times (Einsum [(T 40,[0;1;2;3])] [3;0;2;1]) (-1) 2);
  (*1746*) Del (T 40);
  (*1747*) Assign (T 41) (Plain (Zeros [1;1]));
  (*1748*) AddTo (T 41) (Plain (Einsum [(n_l1,[0;1]); (n_t1,[1;2])] [0;2]));
  (*1749*) Assign (T 45) (Plain (Zeros [1;1]));
  (*1750*) AddTo (T 45) (Times (Einsum [(T 41,[0;1])] [0;1]) (2) 1);
  (*1751*) Assign (T 46) (Plain (Zeros [1;1]));
  (*1752*) AddTo (T 46) (Plain (Einsum [(T 41,[0;1])] [0;1]));
  (*1753*) Assign (T 96) (Plain (Zeros [1;1]));
  (*1754*) AddTo (T 96) (Plain (Einsum [(T 41,[0;1])] [0;1]));
  (*1755*) Del (T 41);
  (*1756*) Assign (T 42) (Plain (Zeros [1;1]));
  (*1757*) AddTo (T 42) (Plain (Einsum [(n_lu11,[0;1;2]); (n_u11,[0;2;3])] [1;3]));
  (*1758*) AddTo (T 45) (Times (Einsum [(T 42,[0;1])] [0;1]) (2) 1);
  (*1759*) AddTo (T 46) (Plain (Einsum [(T 42,[0;1])] [0;1]));
  (*1760*) Assign (T 72) (Plain (Zeros [0;0;1;1]));
  (*1761*) AddTo (T 72) (Plain (Einsum [(T 42,[0;1]); (n_t2,[2;3;4;0])] [2;3;4;1]));
  (*1762*) SubFrom (T 74) (Plain (Einsum [(T 72,[0;1;2;3])] [0;1;2;3]));
  (*1763*) Del (T 72);
  (*1764*) SubFrom n_rdm2_f_vvoo (Plain (Einsum [(T 74,[0;1;2;3])] [2;3;1;0]));
  (*1765*) AddTo n_rdm2_f_vvoo (Plain (Einsum [(T 74,[0;1;2;3])] [3;2;1;0]));
  (*1766*) Del (T 74);
  (*1767*) AddTo (T 96) (Plain (Einsum [(T 42,[0;1])] [0;1]));
  (*1768*) Del (T 42);
  (*1769*) AddTo (T 97) (Plain (Einsum [(n_t1,[0;1]); (T 96,[2;3])] [0;2;1;3]));
  (*1770*) Del (T 96);
  (*1771*) Assign (T 43) (Plain (Zeros [1;1]));
  (*1772*) AddTo (T 43) (Plain (Einsum [(n_lu12,[0;1;2;3]); (n_u12,[0;1;3;4])] [2;4]));
  (*1773*) AddTo (T 45) (Plain (Einsum [(T 43,[0;1])] [0;1]));
  (*1774*) AddTo (T 46) (Times (Einsum [(T 43,[0;1])] [0;1]) (1) 2);
  (*1775*) Assign (T 47) (Plain (Zeros [1;1]));
  (*1776*) AddTo (T 47) (Plain (Einsum [(T 43,[0;1])] [0;1]));
  (*1777*) Del (T 43);
  (*1778*) Assign (T 44) (Plain (Zeros [1;1]));
  (*1779*) SubFrom (T 44) (Plain (Einsum [(n_l2,[0;1;2;3]); (n_t2,[2;3;4;0])] [1;4]));
  (*1780*) AddTo (T 45) (Plain (Einsum [(T 44,[0;1])] [0;1]));
  (*1781*) AddTo n_rdm2_f_ovov (Times (Einsum [(n_delta_oo,[0;1]); (T 45,[2;3])] [1;3;0;2]) (1) 2);
  (*1782*) AddTo n_rdm2_f_voov (Times (Einsum [(n_delta_oo,[0;1]); (T 45,[2;3])] [3;1;0;2]) (-1) 2);
  (*1783*) Del (T 45);
  (*1784*) AddTo (T 46) (Times (Einsum [(T 44,[0;1])] [0;1]) (1) 2);
  (*1785*) AddTo n_rdm2_f_ovvo (Times (Einsum [(n_delta_oo,[0;1]); (T 46,[2;3])] [1;3;2;0]) (-1) 1);
  (*1786*) AddTo n_rdm2_f_vovo (Plain (Einsum [(n_delta_oo,[0;1]); (T 46,[2;3])] [3;1;2;0]));
  (*1787*) Del (T 46);
  (*1788*) AddTo (T 47) (Plain (Einsum [(T 44,[0;1])] [0;1]));
  (*1789*) Del (T 44);
  (*1790*) Assign (T 48) (Plain (Zeros [0;0;1;1]));
  (*1791*) AddTo (T 48) (Times (Einsum [(T 47,[0;1]); (n_t2,[2;3;0;4])] [2;3;1;4]) (1) 2);
  (*1792*) AddTo n_rdm2_f_vvoo (Plain (Einsum [(T 48,[0;1;2;3])] [3;2;0;1]));
  (*1793*) AddTo n_rdm2_f_vvoo (Times (Einsum [(T 48,[0;1;2;3])] [2;3;0;1]) (-1) 1);
  (*1794*) Del (T 48);
  (*1795*) AddTo (T 99) (Times (Einsum [(n_t1,[0;1]); (T 47,[2;3])] [0;2;1;3]) (1) 2);
  (*1796*) Del (T 47);
  (*1797*) AddTo n_rdm2_f_vvov (Plain (Einsum [(T 99,[0;1;2;3])] [2;3;0;1]));
  (*1798*) AddTo n_rdm2_f_vvov (Times (Einsum [(T 99,[0;1;2;3])] [3;2;0;1]) (-1) 1);
  (*1799*) AddTo n_rdm2_f_vvvo (Times (Einsum [(T 99,[0;1;2;3])] [2;3;1;0]) (-1) 1);
  (*1800*) AddTo n_rdm2_f_vvvo (Plain (Einsum [(T 99,[0;1;2;3])] [3;2;1;0]));
  (*1801*) Del (T 99);
  (*1802*) Assign (T 49) (Plain (Zeros [3;3;0;1]));
  (*1803*) AddTo (T 49) (Plain (Einsum [(n_lu12,[0;1;2;3]); (n_t2,[4;3;5;2])] [0;1;4;5]));
  (*1804*) Assign (T 50) (Plain (Zeros [0;0;1;1]));
  (*1805*) AddTo (T 50) (Plain (Einsum [(n_u12,[0;1;2;3]); (T 49,[0;1;4;5])] [4;2;5;3]));
  (*1806*) Del (T 49);
  (*1807*) AddTo (T 55) (Times (Einsum [(T 50,[0;1;2;3])] [0;1;2;3]) (-1) 2);
  (*1808*) Del (T 50);
  (*1809*) AddTo n_rdm2_f_vvoo (Times (Einsum [(T 55,[0;1;2;3])] [2;3;0;1]) (-1) 1);
  (*1810*) AddTo n_rdm2_f_vvoo (Plain (Einsum [(T 55,[0;1;2;3])] [3;2;0;1]));
  (*1811*) AddTo n_rdm2_f_vvoo (Plain (Einsum [(T 55,[0;1;2;3])] [2;3;1;0]));
  (*1812*) AddTo n_rdm2_f_vvoo (Times (Einsum [(T 55,[0;1;2;3])] [3;2;1;0]) (-1) 1);
  (*1813*) Del (T 55);
  (*1814*) Assign (T 62) (Plain (Zeros [3;0;1]));
  (*1815*) AddTo (T 62) (Plain (Einsum [(n_lu11,[0;1;2]); (n_t2,[3;2;4;1])] [0;3;4]));
  (*1816*) AddTo (T 64) (Plain (Einsum [(T 62,[0;1;2])] [0;1;2]));
  (*1817*) Del (T 62);
  (*1818*) Assign (T 65) (Plain (Zeros [0;0;1;1]));
  (*1819*) AddTo (T 65) (Plain (Einsum [(n_u11,[0;1;2]); (T 64,[0;3;4])] [3;1;4;2]));
  (*1820*) Del (T 64);
  (*1821*) AddTo (T 68) (Plain (Einsum [(T 65,[0;1;2;3])] [0;1;2;3]));
  (*1822*) Del (T 65);
  (*1823*) AddTo n_rdm2_f_vvoo (Plain (Einsum [(T 68,[0;1;2;3])] [2;3;0;1]));
  (*1824*) SubFrom n_rdm2_f_vvoo (Plain (Einsum [(T 68,[0;1;2;3])] [3;2;0;1]));
  (*1825*) SubFrom n_rdm2_f_vvoo (Plain (Einsum [(T 68,[0;1;2;3])] [2;3;1;0]));
  (*1826*) AddTo n_rdm2_f_vvoo (Plain (Einsum [(T 68,[0;1;2;3])] [3;2;1;0]));
  (*1827*) Del (T 68);
  (*1828*) Assign (T 69) (Plain (Zeros [3;0;1]));
  (*1829*) AddTo (T 69) (Plain (Einsum [(n_ls2,[0;1]); (n_u11,[1;2;3])] [0;2;3]));
  (*1830*) Assign (T 70) (Plain (Zeros [0;0;1;1]));
  (*1831*) AddTo (T 70) (Plain (Einsum [(n_u11,[0;1;2]); (T 69,[0;3;4])] [3;1;4;2]));
  (*1832*) Del (T 69);
  (*1833*) SubFrom n_rdm2_f_vvoo (Plain (Einsum [(T 70,[0;1;2;3])] [3;2;0;1]));
  (*1834*) AddTo n_rdm2_f_vvoo (Plain (Einsum [(T 70,[0;1;2;3])] [3;2;1;0]));
  (*1835*) Del (T 70);
  (*1836*) AddTo (T 84) (Times (Einsum [(n_t1,[0;1])] [0;1]) (-1) 1);
  (*1837*) AddTo n_rdm2_f_vvoo (Plain (Einsum [(n_t1,[0;1]); (T 84,[2;3])] [1;3;2;0]));
  (*1838*) AddTo n_rdm2_f_vvoo (Times (Einsum [(n_t1,[0;1]); (T 84,[2;3])] [3;1;2;0]) (-1) 1);
  (*1839*) Del (T 84);
  (*1840*) Assign (T 87) (Plain (Zeros [0;1;1;1]));
  (*1841*) AddTo (T 87) (Plain (Einsum [(n_t1,[0;1]); (n_l2,[2;3;4;0])] [4;2;3;1]));
  (*1842*) Assign n_rdm2_f_ovvv (Plain (Zeros [0;1;1;1]));
  (*1843*) SubFrom n_rdm2_f_ovvv (Plain (Einsum [(T 87,[0;1;2;3])] [0;3;2;1]));
  (*1844*) Assign n_rdm2_f_vovv (Plain (Zeros [1;0;1;1]));
  (*1845*) AddTo n_rdm2_f_vovv (Plain (Einsum [(T 87,[0;1;2;3])] [3;0;2;1]));
  (*1846*) Assign n_rdm2_f_vvvv (Plain (Zeros [1;1;1;1]));
  (*1847*) SubFrom n_rdm2_f_vvvv (Plain (Einsum [(n_t1,[0;1]); (T 87,[0;2;3;4])] [1;4;3;2]));
  (*1848*) Del (T 87);
  (*1849*) Assign (T 90) (Plain (Zeros [0;1;1;1]));
  (*1850*) AddTo (T 90) (Plain (Einsum [(n_l1,[0;1]); (n_t2,[2;1;3;4])] [2;0;3;4]));
  (*1851*) SubFrom n_rdm2_f_vvov (Plain (Einsum [(T 90,[0;1;2;3])] [3;2;0;1]));
  (*1852*) AddTo n_rdm2_f_vvvo (Plain (Einsum [(T 90,[0;1;2;3])] [3;2;1;0]));
  (*1853*) Del (T 90);
  (*1854*) Assign (T 91) (Plain (Zeros [3;1;1]));
  (*1855*) AddTo (T 91) (Plain (Einsum [(n_t1,[0;1]); (n_lu11,[2;3;0])] [2;3;1]));
  (*1856*) Assign (T 92) (Plain (Zeros [0;1;1;1]));
  (*1857*) AddTo (T 92) (Plain (Einsum [(n_u11,[0;1;2]); (T 91,[0;3;4])] [1;3;4;2]));
  (*1858*) Del (T 91);
  (*1859*) SubFrom (T 97) (Plain (Einsum [(T 92,[0;1;2;3])] [0;1;2;3]));
  (*1860*) Del (T 92);
  (*1861*) Assign (T 93) (Plain (Zeros [3;1;1]));
  (*1862*) AddTo (T 93) (Plain (Einsum [(n_u11,[0;1;2]); (n_lu12,[3;0;4;1])] [3;4;2]));
  (*1863*) Assign (T 94) (Plain (Zeros [0;1;1;1]));
  (*1864*) AddTo (T 94) (Plain (Einsum [(n_u11,[0;1;2]); (T 93,[0;3;4])] [1;3;2;4]));
  (*1865*) Del (T 93);
  (*1866*) AddTo (T 97) (Plain (Einsum [(T 94,[0;1;2;3])] [0;1;2;3]));
  (*1867*) Del (T 94);
  (*1868*) AddTo n_rdm2_f_vvov (Plain (Einsum [(T 97,[0;1;2;3])] [2;3;0;1]));
  (*1869*) SubFrom n_rdm2_f_vvov (Plain (Einsum [(T 97,[0;1;2;3])] [3;2;0;1]));
  (*1870*) SubFrom n_rdm2_f_vvvo (Plain (Einsum [(T 97,[0;1;2;3])] [2;3;1;0]));
  (*1871*) AddTo n_rdm2_f_vvvo (Plain (Einsum [(T 97,[0;1;2;3])] [3;2;1;0]));
  (*1872*) Del (T 97);
  (*1873*) AddTo n_rdm2_f_oooo (Plain (Einsum [(n_delta_oo,[0;1]); (n_delta_oo,[2;3])] [1;3;0;2]));
  (*1874*) SubFrom n_rdm2_f_oooo (Plain (Einsum [(n_delta_oo,[0;1]); (n_delta_oo,[2;3])] [3;0;1;2]));
  (*1875*) AddTo n_rdm2_f_ooov (Plain (Einsum [(n_delta_oo,[0;1]); (n_l1,[2;3])] [1;3;0;2]));
  (*1876*) SubFrom n_rdm2_f_ooov (Plain (Einsum [(n_delta_oo,[0;1]); (n_l1,[2;3])] [3;1;0;2]));
  (*1877*) SubFrom n_rdm2_f_oovo (Plain (Einsum [(n_delta_oo,[0;1]); (n_l1,[2;3])] [1;3;2;0]));
  (*1878*) AddTo n_rdm2_f_oovo (Plain (Einsum [(n_delta_oo,[0;1]); (n_l1,[2;3])] [3;1;2;0]));
  (*1879*) Assign n_rdm2_f_oovv (Plain (Zeros [0;0;1;1]));
  (*1880*) AddTo n_rdm2_f_oovv (Plain (Einsum [(n_l2,[0;1;2;3])] [3;2;1;0]));
  (*1881*) SubFrom n_rdm2_f_ovov (Plain (Einsum [(n_l1,[0;1]); (n_t1,[2;3])] [1;3;2;0]));
  (*1882*) AddTo n_rdm2_f_ovvo (Plain (Einsum [(n_l1,[0;1]); (n_t1,[2;3])] [1;3;0;2]));
  (*1883*) AddTo n_rdm2_f_voov (Plain (Einsum [(n_l1,[0;1]); (n_t1,[2;3])] [3;1;2;0]));
  (*1884*) SubFrom n_rdm2_f_vovo (Plain (Einsum [(n_l1,[0;1]); (n_t1,[2;3])] [3;1;0;2]));
  (*1885*) AddTo n_rdm2_f_vvoo (Plain (Einsum [(n_t2,[0;1;2;3])] [3;2;1;0]));
  (*1886*) AddTo n_rdm2_f_vvvv (Times (Einsum [(n_l2,[0;1;2;3]); (n_t2,[2;3;4;5])] [5;4;1;0]) (1) 2)]
 [(n_rdm2_f_oooo,[0;0;0;0]); (n_rdm2_f_ooov,[0;0;0;1]); (n_rdm2_f_oovo,[0;0;1;0]); (n_rdm2_f_ovoo,[0;1;0;0]); (n_rdm2_f_vooo,[1;0;0;0]); (n_rdm2_f_oovv,[0;0;1;1]); (n_rdm2_f_ovov,[0;1;0;1]); (n_rdm2_f_ovvo,[0;1;1;0]); (n_rdm2_f_voov,[1;0;0;1]); (n_rdm2_f_vovo,[1;0;1;0]); (n_rdm2_f_vvoo,[1;1;0;0]); (n_rdm2_f_ovvv,[0;1;1;1]); (n_rdm2_f_vovv,[1;0;1;1]); (n_rdm2_f_vvov,[1;1;0;1]); (n_rdm2_f_vvvo,[1;1;1;0]); (n_rdm2_f_vvvv,[1;1;1;1])].

(** ebcc/codegen/GCCSD_SD_1_2.py:1894-1914 [make_sing_b_dm]; assembly (line 1912) not translated *)
Definition GCCSD_SD_1_2_make_sing_b_dm : prog := mkprog
 [(n_g'boo,[3;0;0]); (n_g'bvo,[3;1;0]); (n_g'bov,[3;0;1]); (n_g'bvv,[3;1;1]); (n_ls1,[3]); (n_lu11,[3;1;0]); (n_u12,[3;3;0;1]); (n_l1,[1;0]); (n_u11,[3;0;1]); (n_s2,[3;3]); (n_s1,[3])]
 [(*1896*) Assign n_gc'boo (Plain (Transpose n_g'boo [0;2;1]));
  (*1896*) Assign n_gc'bov (Plain (Transpose n_g'bvo [0;2;1]));
  (*1896*) Assign n_gc'bvo (Plain (Transpose n_g'bov [0;2;1]));
  (*1896*) Assign n_gc'bvv (Plain (Transpose n_g'bvv [0;2;1]));
  (*1904*) Assign n_dm_b_cre (Plain (Zeros [3]));
  (*1905*) AddTo n_dm_b_cre (Plain (Einsum [(n_ls1,[0])] [0]));
  (*1906*) Assign n_dm_b_des (Plain (Zeros [3]));
  (*1907*) AddTo n_dm_b_des (Plain (Einsum [(n_lu11,[0;1;2]); (n_u12,[3;0;2;1])] [3]));
  (*1908*) AddTo n_dm_b_des (Plain (Einsum [(n_l1,[0;1]); (n_u11,[2;1;0])] [2]));
  (*1909*) AddTo n_dm_b_des (Plain (Einsum [(n_ls1,[0]); (n_s2,[1;0])] [1]));
  (*1910*) AddTo n_dm_b_des (Plain (Einsum [(n_s1,[0])] [0]))]
 [(n_dm_b_cre,[3]); (n_dm_b_des,[3])].

(** ebcc/codegen/GCCSD_SD_1_2.py:1916-1932 [make_rdm1_b] *)
Definition GCCSD_SD_1_2_make_rdm1_b : prog := mkprog
 [(n_g'boo,[3;0;0]); (n_g'bvo,[3;1;0]); (n_g'bov,[3;0;1]); (n_g'bvv,[3;1;1]); (n_ls1,[3]); (n_s1,[3]); (n_lu11,[3;1;0]); (n_u11,[3;0;1]); (n_ls2,[3;3]); (n_s2,[3;3]); (n_lu12,[3;3;1;0]); (n_u12,[3;3;0;1])]
 [(*1918*) Assign n_gc'boo (Plain (Transpose n_g'boo [0;2;1]));
  (*1918*) Assign n_gc'bov (Plain (Transpose n_g'bvo [0;2;1]));
  (*1918*) Assign n_gc'bvo (Plain (Transpose n_g'bov [0;2;1]));
  (*1918*) Assign n_gc'bvv (Plain (Transpose n_g'bvv [0;2;1]));
  (*1926*) Assign n_rdm1_b (Plain (Zeros [3;3]));
  (*1927*) AddTo n_rdm1_b (Plain (Einsum [(n_ls1,[0]); (n_s1,[1])] [0;1]));
  (*1928*) AddTo n_rdm1_b (Plain (Einsum [(n_lu11,[0;1;2]); (n_u11,[3;2;1])] [0;3]));
  (*1929*) AddTo n_rdm1_b (Plain (Einsum [(n_ls2,[0;1]); (n_s2,[2;1])] [0;2]));
  (*1930*) AddTo n_rdm1_b (Plain (Einsum [(n_lu12,[0;1;2;3]); (n_u12,[4;1;3;2])] [0;4]))]
 [(n_rdm1_b,[3;3])].

(** ebcc/codegen/GCCSD_SD_1_2.py:1934-2136 [make_eb_coup_rdm]; assembly (line 2131) not translated *)
Definition GCCSD_SD_1_2_make_eb_coup_rdm : prog := mkprog
 [(n_g'boo,[3;0;0]); (n_g'bvo,[3;1;0]); (n_g'bov,[3;0;1]); (n_g'bvv,[3;1;1]); (n_u11,[3;0;1]); (n_lu12,[3;3;1;0]); (n_s2,[3;3]); (n_t1,[0;1]); (n_lu11,[3;1;0]); (n_u12,[3;3;0;1]); (n_l1,[1;0]); (n_l2,[1;1;0;0]); (n_t2,[0;0;1;1]); (n_s1,[3]); (n_ls1,[3]); (n_ls2,[3;3])]
 [(*1936*) Assign n_gc'boo (Plain (Transpose n_g'boo [0;2;1]));
  (*1936*) Assign n_gc'bov (Plain (Transpose n_g'bvo [0;2;1]));
  (*1936*) Assign n_gc'bvo (Plain (Transpose n_g'bov [0;2;1]));
  (*1936*) Assign n_gc'bvv (Plain (Transpose n_g'bvv [0;2;1]));
  (*1943*) Assign n_delta_oo (Plain (Eye 0));
  (*1944*) Assign n_delta_vv (Plain (Eye 1));
  (*1947*) Assign (T 1) (Plain (Zeros [3;0;0]));
  (*1948*) AddTo (T 1) (Plain (Einsum [(n_u11,[0;1;2]); (n_lu12,[3;0;2;4])] [3;4;1]));
  (*1949*) Assign (T 5) (Plain (Zeros [3;0;0]));
  (*1950*) AddTo (T 5) (Plain (Einsum [(T 1,[0;1;2])] [0;1;2]));
  (*1951*) Assign (T 9) (Plain (Zeros [3;0;0]));
  (*1952*) AddTo (T 9) (Plain (Einsum [(n_s2,[0;1]); (T 1,[1;2;3])] [0;2;3]));
  (*1953*) Assign (T 28) (Plain (Zeros [3;0;0]));
  (*1954*) AddTo (T 28) (Plain (Einsum [(T 9,[0;1;2])] [0;1;2]));
  (*1955*) Assign n_rdm_eb_des_oo (Plain (Zeros [3;0;0]));
  (*1956*) SubFrom n_rdm_eb_des_oo (Plain (Einsum [(T 9,[0;1;2])] [0;2;1]));
  (*1957*) Del (T 9);
  (*1958*) Assign (T 32) (Plain (Zeros [3;0;0]));
  (*1959*) AddTo (T 32) (Plain (Einsum [(T 1,[0;1;2])] [0;1;2]));
  (*1960*) Assign n_rdm_eb_cre_oo (Plain (Zeros [3;0;0]));
  (*1961*) SubFrom n_rdm_eb_cre_oo (Plain (Einsum [(T 1,[0;1;2])] [0;2;1]));
  (*1962*) Del (T 1);
  (*1963*) Assign (T 2) (Plain (Zeros [3;0;0]));
  (*1964*) AddTo (T 2) (Plain (Einsum [(n_t1,[0;1]); (n_lu11,[2;1;3])] [2;3;0]));
  (*1965*) AddTo (T 5) (Plain (Einsum [(T 2,[0;1;2])] [0;1;2]));
  (*1966*) Assign n_rdm_eb_cre_ov (Plain (Zeros [3;0;1]));
  (*1967*) SubFrom n_rdm_eb_cre_ov (Plain (Einsum [(n_t1,[0;1]); (T 5,[2;0;3])] [2;3;1]));
  (*1968*) Assign n_rdm_eb_des_ov (Plain (Zeros [3;0;1]));
  (*1969*) SubFrom n_rdm_eb_des_ov (Plain (Einsum [(T 5,[0;1;2]); (n_u12,[0;3;1;4])] [3;2;4]));
  (*1970*) Del (T 5);
  (*1971*) AddTo (T 32) (Plain (Einsum [(T 2,[0;1;2])] [0;1;2]));
  (*1972*) Assign (T 34) (Plain (Zeros [0;1]));
  (*1973*) AddTo (T 34) (Plain (Einsum [(n_u11,[0;1;2]); (T 32,[0;1;3])] [3;2]));
  (*1974*) Del (T 32);
  (*1975*) SubFrom n_rdm_eb_cre_oo (Plain (Einsum [(T 2,[0;1;2])] [0;2;1]));
  (*1976*) Del (T 2);
  (*1977*) Assign (T 3) (Plain (Zeros [3;3;0;0]));
  (*1978*) AddTo (T 3) (Plain (Einsum [(n_t1,[0;1]); (n_lu12,[2;3;1;4])] [2;3;4;0]));
  (*1979*) Assign (T 4) (Plain (Zeros [3;0;1]));
  (*1980*) AddTo (T 4) (Plain (Einsum [(n_u11,[0;1;2]); (T 3,[3;0;1;4])] [3;4;2]));
  (*1981*) SubFrom n_rdm_eb_cre_ov (Plain (Einsum [(T 4,[0;1;2])] [0;1;2]));
  (*1982*) SubFrom n_rdm_eb_des_ov (Plain (Einsum [(n_s2,[0;1]); (T 4,[1;2;3])] [0;2;3]));
  (*1983*) Del (T 4);
  (*1984*) AddTo (T 34) (Times (Einsum [(n_u12,[0;1;2;3]); (T 3,[0;1;2;4])] [4;3]) (1) 2);
  (*1985*) Del (T 3);
  (*1986*) Assign (T 6) (Plain (Zeros [3;1;1]));
  (*1987*) AddTo (T 6) (Plain (Einsum [(n_u11,[0;1;2]); (n_lu12,[3;0;4;1])] [3;4;2]));
  (*1988*) Assign n_rdm_eb_cre_vv (Plain (Zeros [3;1;1]));
  (*1989*) AddTo n_rdm_eb_cre_vv (Plain (Einsum [(T 6,[0;1;2])] [0;1;2]));
  (*1990*) SubFrom n_rdm_eb_des_ov (Plain (Einsum [(T 6,[0;1;2]); (n_u12,[3;0;4;1])] [3;4;2]));
  (*1991*) Assign n_rdm_eb_des_vv (Plain (Zeros [3;1;1]));
  (*1992*) AddTo n_rdm_eb_des_vv (Plain (Einsum [(n_s2,[0;1]); (T 6,[1;2;3])] [0;2;3]));
  (*1993*) Del (T 6);
  (*1994*) Assign (T 7) (Plain (Zeros [3;0;0]));
  (*1995*) AddTo (T 7) (Plain (Einsum [(n_lu11,[0;1;2]); (n_u12,[3;0;4;1])] [3;2;4]));
  (*1996*) AddTo (T 28) (Plain (Einsum [(T 7,[0;1;2])] [0;1;2]));
  (*1997*) SubFrom n_rdm_eb_des_oo (Plain (Einsum [(T 7,[0;1;2])] [0;2;1]));
  (*1998*) Del (T 7);
  (*1999*) Assign (T 8) (Plain (Zeros [3;0;0]));
  (*2000*) AddTo (T 8) (Plain (Einsum [(n_l1,[0;1]); (n_u11,[2;3;0])] [2;1;3]));
  (*2001*) AddTo (T 28) (Plain (Einsum [(T 8,[0;1;2])] [0;1;2]));
  (*2002*) SubFrom n_rdm_eb_des_oo (Plain (Einsum [(T 8,[0;1;2])] [0;2;1]));
  (*2003*) Del (T 8);
  (*2004*) Assign (T 10) (Plain (Zeros [3;0;1]));
  (*2005*) AddTo (T 10) (Plain (Einsum [(n_s2,[0;1]); (n_lu11,[1;2;3])] [0;3;2]));
  (*2006*) Assign (T 12) (Plain (Zeros [3;0;1]));
  (*2007*) AddTo (T 12) (Plain (Einsum [(T 10,[0;1;2])] [0;1;2]));
  (*2008*) Assign n_rdm_eb_des_vo (Plain (Zeros [3;1;0]));
  (*2009*) AddTo n_rdm_eb_des_vo (Plain (Einsum [(T 10,[0;1;2])] [0;2;1]));
  (*2010*) Del (T 10);
  (*2011*) Assign (T 11) (Plain (Zeros [3;0;1]));
  (*2012*) SubFrom (T 11) (Plain (Einsum [(n_u11,[0;1;2]); (n_l2,[2;3;4;1])] [0;4;3]));
  (*2013*) AddTo (T 12) (Plain (Einsum [(T 11,[0;1;2])] [0;1;2]));
  (*2014*) Assign (T 13) (Plain (Zeros [3;0;0]));
  (*2015*) AddTo (T 13) (Plain (Einsum [(n_t1,[0;1]); (T 12,[2;3;1])] [2;0;3]));
  (*2016*) AddTo (T 28) (Plain (Einsum [(T 13,[0;1;2])] [0;2;1]));
  (*2017*) SubFrom n_rdm_eb_des_ov (Plain (Einsum [(n_t1,[0;1]); (T 28,[2;0;3])] [2;3;1]));
  (*2018*) Del (T 28);
  (*2019*) SubFrom n_rdm_eb_des_oo (Plain (Einsum [(T 13,[0;1;2])] [0;1;2]));
  (*2020*) Del (T 13);
  (*2021*) AddTo n_rdm_eb_des_ov (Plain (Einsum [(T 12,[0;1;2]); (n_t2,[1;3;2;4])] [0;3;4]));
  (*2022*) AddTo n_rdm_eb_des_vv (Plain (Einsum [(n_t1,[0;1]); (T 12,[2;0;3])] [2;3;1]));
  (*2023*) Del (T 12);
  (*2024*) AddTo n_rdm_eb_des_vo (Plain (Einsum [(T 11,[0;1;2])] [0;2;1]));
  (*2025*) Del (T 11);
  (*2026*) Assign (T 14) (Plain (Zeros [0;0]));
  (*2027*) AddTo (T 14) (Plain (Einsum [(n_l1,[0;1]); (n_t1,[2;0])] [1;2]));
  (*2028*) Assign (T 18) (Plain (Zeros [0;0]));
  (*2029*) AddTo (T 18) (Plain (Einsum [(T 14,[0;1])] [0;1]));
  (*2030*) Assign (T 29) (Plain (Zeros [0;0]));
  (*2031*) AddTo (T 29) (Plain (Einsum [(T 14,[0;1])] [0;1]));
  (*2032*) Assign (T 33) (Plain (Zeros [0;0]));
  (*2033*) AddTo (T 33) (Times (Einsum [(T 14,[0;1])] [0;1]) (2) 1);
  (*2034*) Del (T 14);
  (*2035*) Assign (T 15) (Plain (Zeros [0;0]));
  (*2036*) AddTo (T 15) (Plain (Einsum [(n_lu11,[0;1;2]); (n_u11,[0;3;1])] [2;3]));
  (*2037*) AddTo (T 18) (Plain (Einsum [(T 15,[0;1])] [0;1]));
  (*2038*) AddTo (T 29) (Plain (Einsum [(T 15,[0;1])] [0;1]));
  (*2039*) AddTo (T 33) (Times (Einsum [(T 15,[0;1])] [0;1]) (2) 1);
  (*2040*) Del (T 15);
  (*2041*) Assign (T 16) (Plain (Zeros [0;0]));
  (*2042*) AddTo (T 16) (Plain (Einsum [(n_lu12,[0;1;2;3]); (n_u12,[0;1;4;2])] [3;4]));
  (*2043*) AddTo (T 18) (Times (Einsum [(T 16,[0;1])] [0;1]) (1) 2);
  (*2044*) AddTo (T 29) (Times (Einsum [(T 16,[0;1])] [0;1]) (1) 2);
  (*2045*) AddTo (T 33) (Plain (Einsum [(T 16,[0;1])] [0;1]));
  (*2046*) Del (T 16);
  (*2047*) Assign (T 17) (Plain (Zeros [0;0]));
  (*2048*) AddTo (T 17) (Plain (Einsum [(n_l2,[0;1;2;3]); (n_t2,[4;3;0;1])] [2;4]));
  (*2049*) AddTo (T 18) (Times (Einsum [(T 17,[0;1])] [0;1]) (1) 2);
  (*2050*) AddTo (T 29) (Times (Einsum [(T 17,[0;1])] [0;1]) (1) 2);
  (*2051*) AddTo n_rdm_eb_des_ov (Times (Einsum [(T 29,[0;1]); (n_u11,[2;0;3])] [2;1;3]) (-1) 1);
  (*2052*) Del (T 29);
  (*2053*) AddTo (T 33) (Plain (Einsum [(T 17,[0;1])] [0;1]));
  (*2054*) Del (T 17);
  (*2055*) AddTo (T 34) (Times (Einsum [(n_t1,[0;1]); (T 33,[0;2])] [2;1]) (1) 2);
  (*2056*) Del (T 33);
  (*2057*) AddTo (T 18) (Times (Einsum [(n_delta_oo,[0;1])] [1;0]) (-1) 1);
  (*2058*) AddTo n_rdm_eb_des_oo (Times (Einsum [(n_s1,[0]); (T 18,[1;2])] [0;2;1]) (-1) 1);
  (*2059*) Del (T 18);
  (*2060*) Assign (T 19) (Plain (Zeros [3]));
  (*2061*) AddTo (T 19) (Plain (Einsum [(n_ls1,[0]); (n_s2,[1;0])] [1]));
  (*2062*) Assign (T 22) (Plain (Zeros [3]));
  (*2063*) AddTo (T 22) (Plain (Einsum [(T 19,[0])] [0]));
  (*2064*) Del (T 19);
  (*2065*) Assign (T 20) (Plain (Zeros [3]));
  (*2066*) AddTo (T 20) (Plain (Einsum [(n_l1,[0;1]); (n_u11,[2;1;0])] [2]));
  (*2067*) AddTo (T 22) (Plain (Einsum [(T 20,[0])] [0]));
  (*2068*) Del (T 20);
  (*2069*) Assign (T 21) (Plain (Zeros [3]));
  (*2070*) AddTo (T 21) (Plain (Einsum [(n_lu11,[0;1;2]); (n_u12,[3;0;2;1])] [3]));
  (*2071*) AddTo (T 22) (Plain (Einsum [(T 21,[0])] [0]));
  (*2072*) Del (T 21);
  (*2073*) AddTo n_rdm_eb_des_oo (Plain (Einsum [(T 22,[0]); (n_delta_oo,[1;2])] [0;2;1]));
  (*2074*) AddTo n_rdm_eb_des_ov (Plain (Einsum [(T 22,[0]); (n_t1,[1;2])] [0;1;2]));
  (*2075*) Del (T 22);
  (*2076*) Assign (T 23) (Plain (Zeros [3;3;3]));
  (*2077*) AddTo (T 23) (Plain (Einsum [(n_u11,[0;1;2]); (n_lu12,[3;4;2;1])] [3;4;0]));
  (*2078*) AddTo n_rdm_eb_des_ov (Times (Einsum [(T 23,[0;1;2]); (n_u12,[0;1;3;4])] [2;3;4]) (1) 2);
  (*2079*) Del (T 23);
  (*2080*) Assign (T 24) (Plain (Zeros [1;1]));
  (*2081*) AddTo (T 24) (Plain (Einsum [(n_lu11,[0;1;2]); (n_u11,[0;2;3])] [1;3]));
  (*2082*) Assign (T 27) (Plain (Zeros [1;1]));
  (*2083*) AddTo (T 27) (Plain (Einsum [(T 24,[0;1])] [0;1]));
  (*2084*) Assign (T 35) (Plain (Zeros [1;1]));
  (*2085*) AddTo (T 35) (Plain (Einsum [(T 24,[0;1])] [0;1]));
  (*2086*) Del (T 24);
  (*2087*) Assign (T 25) (Plain (Zeros [1;1]));
  (*2088*) AddTo (T 25) (Plain (Einsum [(n_lu12,[0;1;2;3]); (n_u12,[0;1;3;4])] [2;4]));
  (*2089*) AddTo (T 27) (Times (Einsum [(T 25,[0;1])] [0;1]) (1) 2);
  (*2090*) AddTo (T 35) (Times (Einsum [(T 25,[0;1])] [0;1]) (1) 2);
  (*2091*) Del (T 25);
  (*2092*) Assign (T 26) (Plain (Zeros [1;1]));
  (*2093*) SubFrom (T 26) (Plain (Einsum [(n_l2,[0;1;2;3]); (n_t2,[2;3;4;0])] [1;4]));
  (*2094*) AddTo (T 27) (Times (Einsum [(T 26,[0;1])] [0;1]) (1) 2);
  (*2095*) AddTo n_rdm_eb_des_ov (Times (Einsum [(T 27,[0;1]); (n_u11,[2;3;0])] [2;3;1]) (-1) 1);
  (*2096*) Del (T 27);
  (*2097*) AddTo (T 35) (Times (Einsum [(T 26,[0;1])] [0;1]) (1) 2);
  (*2098*) Del (T 26);
  (*2099*) Assign (T 30) (Plain (Zeros [3;3]));
  (*2100*) AddTo (T 30) (Plain (Einsum [(n_ls2,[0;1]); (n_s2,[2;0])] [1;2]));
  (*2101*) AddTo (T 30) (Plain (Einsum [(n_lu11,[0;1;2]); (n_u11,[3;2;1])] [0;3]));
  (*2102*) AddTo (T 30) (Plain (Einsum [(n_lu12,[0;1;2;3]); (n_u12,[4;0;3;2])] [1;4]));
  (*2103*) AddTo n_rdm_eb_des_ov (Plain (Einsum [(T 30,[0;1]); (n_u11,[0;2;3])] [1;2;3]));
  (*2104*) Del (T 30);
  (*2105*) Assign (T 31) (Plain (Zeros [0;0;0;1]));
  (*2106*) AddTo (T 31) (Plain (Einsum [(n_t1,[0;1]); (n_l2,[2;1;3;4])] [3;4;0;2]));
  (*2107*) AddTo (T 34) (Times (Einsum [(n_t2,[0;1;2;3]); (T 31,[0;1;4;3])] [4;2]) (-5000000000000003) 10000000000000000);
  (*2108*) Del (T 31);
  (*2109*) AddTo (T 34) (Times (Einsum [(n_t1,[0;1])] [0;1]) (-1) 1);
  (*2110*) AddTo (T 34) (Times (Einsum [(n_ls1,[0]); (n_u11,[0;1;2])] [1;2]) (-1) 1);
  (*2111*) AddTo (T 34) (Times (Einsum [(n_ls2,[0;1]); (n_u12,[0;1;2;3])] [2;3]) (-1) 2);
  (*2112*) AddTo (T 34) (Times (Einsum [(n_l1,[0;1]); (n_t2,[2;1;3;0])] [2;3]) (-1) 1);
  (*2113*) AddTo n_rdm_eb_des_ov (Times (Einsum [(n_s1,[0]); (T 34,[1;2])] [0;1;2]) (-1) 1);
  (*2114*) Del (T 34);
  (*2115*) AddTo (T 35) (Plain (Einsum [(n_l1,[0;1]); (n_t1,[1;2])] [0;2]));
  (*2116*) AddTo n_rdm_eb_des_vv (Plain (Einsum [(n_s1,[0]); (T 35,[1;2])] [0;1;2]));
  (*2117*) Del (T 35);
  (*2118*) AddTo n_rdm_eb_cre_oo (Plain (Einsum [(n_ls1,[0]); (n_delta_oo,[1;2])] [0;2;1]));
  (*2119*) AddTo n_rdm_eb_cre_ov (Plain (Einsum [(n_ls1,[0]); (n_t1,[1;2])] [0;1;2]));
  (*2120*) AddTo n_rdm_eb_cre_ov (Plain (Einsum [(n_ls2,[0;1]); (n_u11,[1;2;3])] [0;2;3]));
  (*2121*) AddTo n_rdm_eb_cre_ov (Plain (Einsum [(n_lu11,[0;1;2]); (n_t2,[3;2;4;1])] [0;3;4]));
  (*2122*) Assign n_rdm_eb_cre_vo (Plain (Zeros [3;1;0]));
  (*2123*) AddTo n_rdm_eb_cre_vo (Plain (Einsum [(n_lu11,[0;1;2])] [0;1;2]));
  (*2124*) AddTo n_rdm_eb_cre_vv (Plain (Einsum [(n_t1,[0;1]); (n_lu11,[2;3;0])] [2;3;1]));
  (*2125*) AddTo n_rdm_eb_des_ov (Plain (Einsum [(n_u11,[0;1;2])] [0;1;2]));
  (*2126*) AddTo n_rdm_eb_des_ov (Plain (Einsum [(n_ls1,[0]); (n_u12,[1;0;2;3])] [1;2;3]));
  (*2127*) AddTo n_rdm_eb_des_vo (Plain (Einsum [(n_s1,[0]); (n_l1,[1;2])] [0;1;2]));
  (*2128*) AddTo n_rdm_eb_des_vv (Plain (Einsum [(n_l1,[0;1]); (n_u11,[2;1;3])] [2;0;3]));
  (*2129*) AddTo n_rdm_eb_des_vv (Plain (Einsum [(n_lu11,[0;1;2]); (n_u12,[3;0;2;4])] [3;1;4]))]
 [(n_rdm_eb_cre_oo,[3;0;0]); (n_rdm_eb_cre_ov,[3;0;1]); (n_rdm_eb_cre_vo,[3;1;0]); (n_rdm_eb_cre_vv,[3;1;1]); (n_rdm_eb_des_oo,[3;0;0]); (n_rdm_eb_des_ov,[3;0;1]); (n_rdm_eb_des_vo,[3;1;0]); (n_rdm_eb_des_vv,[3;1;1])].

