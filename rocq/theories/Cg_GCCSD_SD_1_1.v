(** Generated by tools/translate_codegen.py from ebcc/codegen/GCCSD_SD_1_1.py; one statement per source line
    (the number in the comment before it). *)
From Coq Require Import ZArith List.
From Verif Require Import CgModel CgNames.
Import ListNotations.

(** ebcc/codegen/GCCSD_SD_1_1.py:7-23 [energy] *)
Definition GCCSD_SD_1_1_energy : prog := mkprog
 [(n_t2,[0;0;1;1]); (n_t1,[0;1]); (n_v'oovv,[0;0;1;1]); (n_u11,[3;0;1]); (n_s1,[3]); (n_g'bov,[3;0;1]); (n_f'ov,[0;1]); (n_G,[3])]
 [(*9*) Assign (T 1) (Plain (Zeros [0;0;1;1]));
  (*10*) AddTo (T 1) (Plain (Einsum [(n_t2,[0;1;2;3])] [1;0;3;2]));
  (*11*) AddTo (T 1) (Times (Einsum [(n_t1,[0;1]); (n_t1,[2;3])] [0;2;1;3]) (2) 1);
  (*12*) Assign n_e_cc (Plain (Zeros []));
  (*13*) AddTo n_e_cc (Times (Einsum [(n_v'oovv,[0;1;2;3]); (T 1,[0;1;2;3])] []) (1) 4);
  (*14*) Del (T 1);
  (*15*) Assign (T 2) (Plain (Zeros [3;0;1]));
  (*16*) AddTo (T 2) (Plain (Einsum [(n_u11,[0;1;2])] [0;1;2]));
  (*17*) AddTo (T 2) (Plain (Einsum [(n_s1,[0]); (n_t1,[1;2])] [0;1;2]));
  (*18*) AddTo n_e_cc (Plain (Einsum [(n_g'bov,[0;1;2]); (T 2,[0;1;2])] []));
  (*19*) Del (T 2);
  (*20*) AddTo n_e_cc (Plain (Einsum [(n_f'ov,[0;1]); (n_t1,[0;1])] []));
  (*21*) AddTo n_e_cc (Plain (Einsum [(n_G,[0]); (n_s1,[0])] []))]
 [(n_e_cc,[])].

(** ebcc/codegen/GCCSD_SD_1_1.py:25-388 [update_amps] *)
Definition GCCSD_SD_1_1_update_amps : prog := mkprog
 [(n_g'boo,[3;0;0]); (n_g'bvo,[3;1;0]); (n_g'bov,[3;0;1]); (n_g'bvv,[3;1;1]); (n_t1,[0;1]); (n_v'oovv,[0;0;1;1]); (n_t2,[0;0;1;1]); (n_v'ooov,[0;0;0;1]); (n_s1,[3]); (n_f'ov,[0;1]); (n_u11,[3;0;1]); (n_f'oo,[0;0]); (n_v'ovvv,[0;1;1;1]); (n_f'vv,[1;1]); (n_G,[3]); (n_s2,[3;3]); (n_v'vvvv,[1;1;1;1]); (n_v'ovov,[0;1;0;1]); (n_v'vvov,[1;1;0;1]); (n_v'oooo,[0;0;0;0]); (n_v'ovoo,[0;1;0;0]); (n_w,[3;3]); (n_f'vo,[1;0]); (n_v'vvoo,[1;1;0;0])]
 [(*27*) Assign n_gc'boo (Plain (Transpose n_g'boo [0;2;1]));
  (*27*) Assign n_gc'bov (Plain (Transpose n_g'bvo [0;2;1]));
  (*27*) Assign n_gc'bvo (Plain (Transpose n_g'bov [0;2;1]));
  (*27*) Assign n_gc'bvv (Plain (Transpose n_g'bvv [0;2;1]));
  (*35*) Assign (T 1) (Plain (Zeros [0;0;0;1]));
  (*36*) AddTo (T 1) (Plain (Einsum [(n_t1,[0;1]); (n_v'oovv,[2;3;4;1])] [0;2;3;4]));
  (*37*) Assign (T 2) (Plain (Zeros [0;0;0;1]));
  (*38*) AddTo (T 2) (Times (Einsum [(T 1,[0;1;2;3])] [0;2;1;3]) (-1) 1);
  (*39*) Assign (T 31) (Plain (Zeros [0;0;0;1]));
  (*40*) AddTo (T 31) (Plain (Einsum [(n_t2,[0;1;2;3]); (T 1,[4;1;5;3])] [4;0;5;2]));
  (*41*) Assign (T 32) (Plain (Zeros [0;0;0;1]));
  (*42*) SubFrom (T 32) (Plain (Einsum [(T 31,[0;1;2;3])] [0;2;1;3]));
  (*43*) Del (T 31);
  (*44*) Assign (T 66) (Plain (Zeros [0;0;0;0]));
  (*45*) AddTo (T 66) (Plain (Einsum [(n_t1,[0;1]); (T 1,[2;3;4;1])] [2;0;4;3]));
  (*46*) Del (T 1);
  (*47*) Assign (T 67) (Plain (Zeros [0;0;0;0]));
  (*48*) AddTo (T 67) (Times (Einsum [(T 66,[0;1;2;3])] [2;3;1;0]) (-1) 1);
  (*49*) Assign (T 68) (Plain (Zeros [0;0;0;0]));
  (*50*) AddTo (T 68) (Times (Einsum [(T 66,[0;1;2;3])] [2;3;1;0]) (-1) 1);
  (*51*) Del (T 66);
  (*52*) AddTo (T 2) (Plain (Einsum [(n_v'ooov,[0;1;2;3])] [2;1;0;3]));
  (*53*) Assign n_t1new (Plain (Zeros [0;1]));
  (*54*) AddTo n_t1new (Times (Einsum [(n_t2,[0;1;2;3]); (T 2,[4;0;1;2])] [4;3]) (-1) 2);
  (*55*) Del (T 2);
  (*56*) Assign (T 3) (Plain (Zeros [0;1]));
  (*57*) AddTo (T 3) (Plain (Einsum [(n_s1,[0]); (n_g'bov,[0;1;2])] [1;2]));
  (*58*) Assign (T 5) (Plain (Zeros [0;1]));
  (*59*) AddTo (T 5) (Plain (Einsum [(T 3,[0;1])] [0;1]));
  (*60*) Assign (T 12) (Plain (Zeros [0;1]));
  (*61*) AddTo (T 12) (Plain (Einsum [(T 3,[0;1])] [0;1]));
  (*62*) Assign (T 79) (Plain (Zeros [0;1]));
  (*63*) AddTo (T 79) (Plain (Einsum [(T 3,[0;1])] [0;1]));
  (*64*) Del (T 3);
  (*65*) Assign (T 4) (Plain (Zeros [0;1]));
  (*66*) AddTo (T 4) (Plain (Einsum [(n_t1,[0;1]); (n_v'oovv,[2;0;3;1])] [2;3]));
  (*67*) AddTo (T 5) (Plain (Einsum [(T 4,[0;1])] [0;1]));
  (*68*) AddTo (T 12) (Plain (Einsum [(T 4,[0;1])] [0;1]));
  (*69*) Assign (T 78) (Plain (Zeros [1;1]));
  (*70*) AddTo (T 78) (Plain (Einsum [(n_t1,[0;1]); (T 4,[0;2])] [1;2]));
  (*71*) Del (T 4);
  (*72*) AddTo (T 5) (Plain (Einsum [(n_f'ov,[0;1])] [0;1]));
  (*73*) Assign (T 39) (Plain (Zeros [0;0;0;1]));
  (*74*) AddTo (T 39) (Plain (Einsum [(T 5,[0;1]); (n_t2,[2;3;1;4])] [2;3;0;4]));
  (*75*) Assign (T 40) (Plain (Zeros [0;0;0;1]));
  (*76*) AddTo (T 40) (Plain (Einsum [(T 39,[0;1;2;3])] [2;1;0;3]));
  (*77*) Del (T 39);
  (*78*) Assign (T 55) (Plain (Zeros [0;0]));
  (*79*) AddTo (T 55) (Plain (Einsum [(n_t1,[0;1]); (T 5,[2;1])] [0;2]));
  (*80*) Assign (T 56) (Plain (Zeros [0;0]));
  (*81*) AddTo (T 56) (Plain (Einsum [(T 55,[0;1])] [0;1]));
  (*82*) Del (T 55);
  (*83*) AddTo n_t1new (Plain (Einsum [(T 5,[0;1]); (n_t2,[0;2;1;3])] [2;3]));
  (*84*) Assign n_s1new (Plain (Zeros [3]));
  (*85*) AddTo n_s1new (Plain (Einsum [(T 5,[0;1]); (n_u11,[2;0;1])] [2]));
  (*86*) Del (T 5);
  (*87*) Assign (T 6) (Plain (Zeros [3;0;0]));
  (*88*) AddTo (T 6) (Plain (Einsum [(n_t1,[0;1]); (n_g'bov,[2;3;1])] [2;3;0]));
  (*89*) Assign (T 7) (Plain (Zeros [3;0;0]));
  (*90*) AddTo (T 7) (Plain (Einsum [(T 6,[0;1;2])] [0;1;2]));
  (*91*) Del (T 6);
  (*92*) AddTo (T 7) (Plain (Einsum [(n_g'boo,[0;1;2])] [0;1;2]));
  (*93*) Assign (T 26) (Plain (Zeros [3;0;1]));
  (*94*) AddTo (T 26) (Plain (Einsum [(n_t1,[0;1]); (T 7,[2;0;3])] [2;3;1]));
  (*95*) Assign (T 27) (Plain (Zeros [3;0;1]));
  (*96*) SubFrom (T 27) (Plain (Einsum [(T 26,[0;1;2])] [0;1;2]));
  (*97*) Del (T 26);
  (*98*) SubFrom n_t1new (Plain (Einsum [(n_u11,[0;1;2]); (T 7,[0;1;3])] [3;2]));
  (*99*) Del (T 7);
  (*100*) Assign (T 8) (Plain (Zeros [0;0]));
  (*101*) AddTo (T 8) (Plain (Einsum [(n_s1,[0]); (n_g'boo,[0;1;2])] [1;2]));
  (*102*) Assign (T 14) (Plain (Zeros [0;0]));
  (*103*) AddTo (T 14) (Plain (Einsum [(T 8,[0;1])] [0;1]));
  (*104*) AddTo (T 56) (Plain (Einsum [(T 8,[0;1])] [1;0]));
  (*105*) Del (T 8);
  (*106*) Assign (T 9) (Plain (Zeros [0;0]));
  (*107*) AddTo (T 9) (Plain (Einsum [(n_g'bov,[0;1;2]); (n_u11,[0;3;2])] [1;3]));
  (*108*) AddTo (T 14) (Plain (Einsum [(T 9,[0;1])] [0;1]));
  (*109*) Assign (T 58) (Plain (Zeros [0;0]));
  (*110*) AddTo (T 58) (Plain (Einsum [(T 9,[0;1])] [0;1]));
  (*111*) Del (T 9);
  (*112*) Assign (T 10) (Plain (Zeros [0;0]));
  (*113*) SubFrom (T 10) (Plain (Einsum [(n_t1,[0;1]); (n_v'ooov,[0;2;3;1])] [2;3]));
  (*114*) AddTo (T 14) (Plain (Einsum [(T 10,[0;1])] [0;1]));
  (*115*) AddTo (T 58) (Plain (Einsum [(T 10,[0;1])] [0;1]));
  (*116*) Del (T 10);
  (*117*) Assign (T 59) (Plain (Zeros [0;0;1;1]));
  (*118*) AddTo (T 59) (Plain (Einsum [(T 58,[0;1]); (n_t2,[0;2;3;4])] [2;1;3;4]));
  (*119*) Del (T 58);
  (*120*) Assign (T 60) (Plain (Zeros [0;0;1;1]));
  (*121*) SubFrom (T 60) (Plain (Einsum [(T 59,[0;1;2;3])] [0;1;3;2]));
  (*122*) Del (T 59);
  (*123*) Assign (T 11) (Plain (Zeros [0;0]));
  (*124*) SubFrom (T 11) (Plain (Einsum [(n_t2,[0;1;2;3]); (n_v'oovv,[1;4;2;3])] [0;4]));
  (*125*) AddTo (T 14) (Times (Einsum [(T 11,[0;1])] [1;0]) (1) 2);
  (*126*) Assign (T 63) (Plain (Zeros [0;0;1;1]));
  (*127*) AddTo (T 63) (Plain (Einsum [(T 11,[0;1]); (n_t2,[2;1;3;4])] [2;0;3;4]));
  (*128*) Del (T 11);
  (*129*) Assign (T 64) (Plain (Zeros [0;0;1;1]));
  (*130*) AddTo (T 64) (Times (Einsum [(T 63,[0;1;2;3])] [0;1;3;2]) (-1) 2);
  (*131*) Del (T 63);
  (*132*) AddTo (T 12) (Plain (Einsum [(n_f'ov,[0;1])] [0;1]));
  (*133*) Assign (T 13) (Plain (Zeros [0;0]));
  (*134*) AddTo (T 13) (Plain (Einsum [(n_t1,[0;1]); (T 12,[2;1])] [0;2]));
  (*135*) Del (T 12);
  (*136*) AddTo (T 14) (Plain (Einsum [(T 13,[0;1])] [1;0]));
  (*137*) Del (T 13);
  (*138*) AddTo (T 14) (Plain (Einsum [(n_f'oo,[0;1])] [0;1]));
  (*139*) AddTo n_t1new (Times (Einsum [(n_t1,[0;1]); (T 14,[0;2])] [2;1]) (-1) 1);
  (*140*) Assign n_u11new (Plain (Zeros [3;0;1]));
  (*141*) AddTo n_u11new (Times (Einsum [(T 14,[0;1]); (n_u11,[2;0;3])] [2;1;3]) (-1) 1);
  (*142*) Del (T 14);
  (*143*) Assign (T 15) (Plain (Zeros [1;1]));
  (*144*) AddTo (T 15) (Plain (Einsum [(n_s1,[0]); (n_g'bvv,[0;1;2])] [1;2]));
  (*145*) Assign (T 17) (Plain (Zeros [1;1]));
  (*146*) AddTo (T 17) (Plain (Einsum [(T 15,[0;1])] [0;1]));
  (*147*) Assign (T 35) (Plain (Zeros [0;0;1;1]));
  (*148*) AddTo (T 35) (Plain (Einsum [(T 15,[0;1]); (n_t2,[2;3;4;1])] [2;3;0;4]));
  (*149*) Assign (T 45) (Plain (Zeros [0;0;1;1]));
  (*150*) AddTo (T 45) (Plain (Einsum [(T 35,[0;1;2;3])] [0;1;2;3]));
  (*151*) Del (T 35);
  (*152*) AddTo (T 78) (Times (Einsum [(T 15,[0;1])] [0;1]) (-1) 1);
  (*153*) Del (T 15);
  (*154*) Assign (T 16) (Plain (Zeros [1;1]));
  (*155*) SubFrom (T 16) (Plain (Einsum [(n_t1,[0;1]); (n_v'ovvv,[0;2;1;3])] [2;3]));
  (*156*) SubFrom (T 17) (Plain (Einsum [(T 16,[0;1])] [0;1]));
  (*157*) Assign (T 43) (Plain (Zeros [1;1]));
  (*158*) AddTo (T 43) (Plain (Einsum [(T 16,[0;1])] [0;1]));
  (*159*) AddTo (T 78) (Plain (Einsum [(T 16,[0;1])] [0;1]));
  (*160*) Del (T 16);
  (*161*) AddTo (T 17) (Plain (Einsum [(n_f'vv,[0;1])] [0;1]));
  (*162*) AddTo n_t1new (Plain (Einsum [(n_t1,[0;1]); (T 17,[2;1])] [0;2]));
  (*163*) Del (T 17);
  (*164*) Assign (T 18) (Plain (Zeros [3]));
  (*165*) AddTo (T 18) (Plain (Einsum [(n_t1,[0;1]); (n_g'bov,[2;0;1])] [2]));
  (*166*) Assign (T 19) (Plain (Zeros [3]));
  (*167*) AddTo (T 19) (Plain (Einsum [(T 18,[0])] [0]));
  (*168*) Del (T 18);
  (*169*) AddTo (T 19) (Plain (Einsum [(n_G,[0])] [0]));
  (*170*) AddTo n_t1new (Plain (Einsum [(T 19,[0]); (n_u11,[0;1;2])] [1;2]));
  (*171*) AddTo n_s1new (Plain (Einsum [(T 19,[0]); (n_s2,[0;1])] [1]));
  (*172*) Del (T 19);
  (*173*) Assign (T 20) (Plain (Zeros [0;1;1;1]));
  (*174*) AddTo (T 20) (Plain (Einsum [(n_t1,[0;1]); (n_v'vvvv,[2;3;4;1])] [0;2;3;4]));
  (*175*) Assign n_t2new (Plain (Zeros [0;0;1;1]));
  (*176*) SubFrom n_t2new (Plain (Einsum [(n_t1,[0;1]); (T 20,[2;3;4;1])] [0;2;4;3]));
  (*177*) Del (T 20);
  (*178*) Assign (T 21) (Plain (Zeros [0;0;1;1]));
  (*179*) AddTo (T 21) (Plain (Einsum [(n_t2,[0;1;2;3]); (n_v'ovov,[1;4;5;3])] [0;5;2;4]));
  (*180*) Assign (T 34) (Plain (Zeros [0;0;1;1]));
  (*181*) SubFrom (T 34) (Plain (Einsum [(T 21,[0;1;2;3])] [0;1;2;3]));
  (*182*) Del (T 21);
  (*183*) Assign (T 22) (Plain (Zeros [0;0;1;1]));
  (*184*) AddTo (T 22) (Plain (Einsum [(n_t1,[0;1]); (n_v'ovvv,[2;3;4;1])] [0;2;3;4]));
  (*185*) Assign (T 23) (Plain (Zeros [0;0;1;1]));
  (*186*) SubFrom (T 23) (Plain (Einsum [(n_t2,[0;1;2;3]); (T 22,[4;1;5;3])] [4;0;2;5]));
  (*187*) AddTo (T 34) (Plain (Einsum [(T 23,[0;1;2;3])] [0;1;2;3]));
  (*188*) Del (T 23);
  (*189*) Assign (T 38) (Plain (Zeros [0;0;0;1]));
  (*190*) SubFrom (T 38) (Plain (Einsum [(n_t1,[0;1]); (T 22,[2;3;4;1])] [2;0;3;4]));
  (*191*) Del (T 22);
  (*192*) AddTo (T 40) (Plain (Einsum [(T 38,[0;1;2;3])] [2;1;0;3]));
  (*193*) Del (T 38);
  (*194*) Assign (T 41) (Plain (Zeros [0;0;1;1]));
  (*195*) AddTo (T 41) (Plain (Einsum [(n_t1,[0;1]); (T 40,[0;2;3;4])] [2;3;1;4]));
  (*196*) Del (T 40);
  (*197*) AddTo (T 45) (Plain (Einsum [(T 41,[0;1;2;3])] [1;0;2;3]));
  (*198*) Del (T 41);
  (*199*) Assign (T 24) (Plain (Zeros [3;0;1]));
  (*200*) AddTo (T 24) (Plain (Einsum [(n_t1,[0;1]); (n_g'bvv,[2;3;1])] [2;0;3]));
  (*201*) AddTo (T 27) (Plain (Einsum [(T 24,[0;1;2])] [0;1;2]));
  (*202*) Del (T 24);
  (*203*) Assign (T 25) (Plain (Zeros [3;0;1]));
  (*204*) AddTo (T 25) (Plain (Einsum [(n_g'bov,[0;1;2]); (n_t2,[3;1;4;2])] [0;3;4]));
  (*205*) AddTo (T 27) (Plain (Einsum [(T 25,[0;1;2])] [0;1;2]));
  (*206*) Del (T 25);
  (*207*) AddTo (T 27) (Plain (Einsum [(n_g'bvo,[0;1;2])] [0;2;1]));
  (*208*) Assign (T 28) (Plain (Zeros [0;0;1;1]));
  (*209*) AddTo (T 28) (Plain (Einsum [(n_u11,[0;1;2]); (T 27,[0;3;4])] [1;3;2;4]));
  (*210*) Del (T 27);
  (*211*) AddTo (T 34) (Plain (Einsum [(T 28,[0;1;2;3])] [1;0;3;2]));
  (*212*) Del (T 28);
  (*213*) Assign (T 29) (Plain (Zeros [0;0;0;1]));
  (*214*) AddTo (T 29) (Plain (Einsum [(n_t1,[0;1]); (n_v'ovov,[2;3;4;1])] [0;2;4;3]));
  (*215*) AddTo (T 32) (Plain (Einsum [(T 29,[0;1;2;3])] [0;1;2;3]));
  (*216*) Del (T 29);
  (*217*) Assign (T 30) (Plain (Zeros [0;0;0;1]));
  (*218*) SubFrom (T 30) (Plain (Einsum [(n_t2,[0;1;2;3]); (n_v'ooov,[1;4;5;3])] [0;4;5;2]));
  (*219*) AddTo (T 32) (Plain (Einsum [(T 30,[0;1;2;3])] [0;1;2;3]));
  (*220*) Del (T 30);
  (*221*) Assign (T 33) (Plain (Zeros [0;0;1;1]));
  (*222*) AddTo (T 33) (Plain (Einsum [(n_t1,[0;1]); (T 32,[2;0;3;4])] [2;3;1;4]));
  (*223*) Del (T 32);
  (*224*) AddTo (T 34) (Plain (Einsum [(T 33,[0;1;2;3])] [0;1;2;3]));
  (*225*) Del (T 33);
  (*226*) AddTo n_t2new (Plain (Einsum [(T 34,[0;1;2;3])] [0;1;2;3]));
  (*227*) SubFrom n_t2new (Plain (Einsum [(T 34,[0;1;2;3])] [0;1;3;2]));
  (*228*) SubFrom n_t2new (Plain (Einsum [(T 34,[0;1;2;3])] [1;0;2;3]));
  (*229*) AddTo n_t2new (Plain (Einsum [(T 34,[0;1;2;3])] [1;0;3;2]));
  (*230*) Del (T 34);
  (*231*) Assign (T 36) (Plain (Zeros [0;0;1;1]));
  (*232*) AddTo (T 36) (Plain (Einsum [(n_t2,[0;1;2;3]); (n_v'oovv,[1;4;3;5])] [0;4;2;5]));
  (*233*) Assign (T 37) (Plain (Zeros [0;0;1;1]));
  (*234*) AddTo (T 37) (Plain (Einsum [(n_t2,[0;1;2;3]); (T 36,[4;1;5;3])] [4;0;5;2]));
  (*235*) Del (T 36);
  (*236*) SubFrom (T 45) (Plain (Einsum [(T 37,[0;1;2;3])] [0;1;2;3]));
  (*237*) Del (T 37);
  (*238*) Assign (T 42) (Plain (Zeros [1;1]));
  (*239*) AddTo (T 42) (Plain (Einsum [(n_g'bov,[0;1;2]); (n_u11,[0;1;3])] [2;3]));
  (*240*) AddTo (T 43) (Plain (Einsum [(T 42,[0;1])] [1;0]));
  (*241*) Assign (T 44) (Plain (Zeros [0;0;1;1]));
  (*242*) AddTo (T 44) (Plain (Einsum [(T 43,[0;1]); (n_t2,[2;3;1;4])] [2;3;4;0]));
  (*243*) Del (T 43);
  (*244*) AddTo (T 45) (Plain (Einsum [(T 44,[0;1;2;3])] [1;0;2;3]));
  (*245*) Del (T 44);
  (*246*) SubFrom n_t2new (Plain (Einsum [(T 45,[0;1;2;3])] [0;1;2;3]));
  (*247*) AddTo n_t2new (Plain (Einsum [(T 45,[0;1;2;3])] [0;1;3;2]));
  (*248*) Del (T 45);
  (*249*) AddTo (T 78) (Plain (Einsum [(T 42,[0;1])] [1;0]));
  (*250*) Del (T 42);
  (*251*) Assign (T 46) (Plain (Zeros [0;0;0;1]));
  (*252*) AddTo (T 46) (Plain (Einsum [(n_t2,[0;1;2;3]); (n_v'ovvv,[4;5;2;3])] [0;1;4;5]));
  (*253*) Assign (T 47) (Plain (Zeros [0;0;1;1]));
  (*254*) AddTo (T 47) (Plain (Einsum [(n_t1,[0;1]); (T 46,[2;3;0;4])] [2;3;1;4]));
  (*255*) Del (T 46);
  (*256*) Assign (T 50) (Plain (Zeros [0;0;1;1]));
  (*257*) AddTo (T 50) (Times (Einsum [(T 47,[0;1;2;3])] [0;1;2;3]) (1) 2);
  (*258*) Del (T 47);
  (*259*) Assign (T 48) (Plain (Zeros [1;1]));
  (*260*) SubFrom (T 48) (Plain (Einsum [(n_t2,[0;1;2;3]); (n_v'oovv,[0;1;3;4])] [2;4]));
  (*261*) Assign (T 49) (Plain (Zeros [0;0;1;1]));
  (*262*) AddTo (T 49) (Plain (Einsum [(T 48,[0;1]); (n_t2,[2;3;4;1])] [2;3;4;0]));
  (*263*) AddTo (T 50) (Times (Einsum [(T 49,[0;1;2;3])] [0;1;2;3]) (1) 2);
  (*264*) Del (T 49);
  (*265*) AddTo n_t2new (Times (Einsum [(T 50,[0;1;2;3])] [0;1;2;3]) (-1) 1);
  (*266*) AddTo n_t2new (Plain (Einsum [(T 50,[0;1;2;3])] [0;1;3;2]));
  (*267*) Del (T 50);
  (*268*) AddTo (T 78) (Times (Einsum [(T 48,[0;1])] [0;1]) (1) 2);
  (*269*) Del (T 48);
  (*270*) Assign (T 51) (Plain (Zeros [0;0;1;1]));
  (*271*) AddTo (T 51) (Plain (Einsum [(n_t1,[0;1]); (n_v'vvov,[2;3;4;1])] [0;4;2;3]));
  (*272*) AddTo (T 60) (Plain (Einsum [(T 51,[0;1;2;3])] [0;1;3;2]));
  (*273*) Del (T 51);
  (*274*) Assign (T 52) (Plain (Zeros [0;0;0;0]));
  (*275*) AddTo (T 52) (Plain (Einsum [(n_t1,[0;1]); (n_v'ooov,[2;3;4;1])] [0;2;3;4]));
  (*276*) Assign (T 53) (Plain (Zeros [0;0;0;1]));
  (*277*) AddTo (T 53) (Plain (Einsum [(n_t1,[0;1]); (T 52,[2;3;0;4])] [2;3;4;1]));
  (*278*) Assign (T 54) (Plain (Zeros [0;0;1;1]));
  (*279*) SubFrom (T 54) (Plain (Einsum [(n_t1,[0;1]); (T 53,[2;0;3;4])] [2;3;4;1]));
  (*280*) Del (T 53);
  (*281*) AddTo (T 60) (Plain (Einsum [(T 54,[0;1;2;3])] [0;1;3;2]));
  (*282*) Del (T 54);
  (*283*) Assign (T 62) (Plain (Zeros [0;0;1;1]));
  (*284*) AddTo (T 62) (Plain (Einsum [(n_t2,[0;1;2;3]); (T 52,[4;0;1;5])] [4;5;2;3]));
  (*285*) Del (T 52);
  (*286*) AddTo (T 64) (Times (Einsum [(T 62,[0;1;2;3])] [0;1;3;2]) (-1) 2);
  (*287*) Del (T 62);
  (*288*) AddTo n_t2new (Times (Einsum [(T 64,[0;1;2;3])] [0;1;2;3]) (-1) 1);
  (*289*) AddTo n_t2new (Plain (Einsum [(T 64,[0;1;2;3])] [1;0;2;3]));
  (*290*) Del (T 64);
  (*291*) AddTo (T 56) (Plain (Einsum [(n_f'oo,[0;1])] [1;0]));
  (*292*) Assign (T 57) (Plain (Zeros [0;0;1;1]));
  (*293*) AddTo (T 57) (Plain (Einsum [(T 56,[0;1]); (n_t2,[1;2;3;4])] [2;0;3;4]));
  (*294*) Del (T 56);
  (*295*) AddTo (T 60) (Plain (Einsum [(T 57,[0;1;2;3])] [1;0;3;2]));
  (*296*) Del (T 57);
  (*297*) AddTo n_t2new (Plain (Einsum [(T 60,[0;1;2;3])] [0;1;2;3]));
  (*298*) SubFrom n_t2new (Plain (Einsum [(T 60,[0;1;2;3])] [1;0;2;3]));
  (*299*) Del (T 60);
  (*300*) Assign (T 61) (Plain (Zeros [0;0;1;1]));
  (*301*) AddTo (T 61) (Plain (Einsum [(n_f'vv,[0;1]); (n_t2,[2;3;4;1])] [2;3;0;4]));
  (*302*) AddTo n_t2new (Plain (Einsum [(T 61,[0;1;2;3])] [1;0;2;3]));
  (*303*) SubFrom n_t2new (Plain (Einsum [(T 61,[0;1;2;3])] [1;0;3;2]));
  (*304*) Del (T 61);
  (*305*) Assign (T 65) (Plain (Zeros [0;0;0;0]));
  (*306*) AddTo (T 65) (Plain (Einsum [(n_t2,[0;1;2;3]); (n_v'oovv,[4;5;2;3])] [0;1;4;5]));
  (*307*) AddTo (T 67) (Times (Einsum [(T 65,[0;1;2;3])] [3;2;1;0]) (1) 2);
  (*308*) AddTo (T 68) (Times (Einsum [(T 65,[0;1;2;3])] [3;2;1;0]) (5000000000000003) 10000000000000000);
  (*309*) Del (T 65);
  (*310*) AddTo (T 67) (Plain (Einsum [(n_v'oooo,[0;1;2;3])] [1;0;3;2]));
  (*311*) AddTo n_t2new (Times (Einsum [(n_t2,[0;1;2;3]); (T 67,[0;1;4;5])] [5;4;3;2]) (1) 2);
  (*312*) Del (T 67);
  (*313*) AddTo (T 68) (Plain (Einsum [(n_v'oooo,[0;1;2;3])] [1;0;3;2]));
  (*314*) Assign (T 69) (Plain (Zeros [0;0;0;1]));
  (*315*) AddTo (T 69) (Plain (Einsum [(n_t1,[0;1]); (T 68,[0;2;3;4])] [4;3;2;1]));
  (*316*) Del (T 68);
  (*317*) AddTo (T 69) (Plain (Einsum [(n_v'ovoo,[0;1;2;3])] [3;2;0;1]));
  (*318*) AddTo n_t2new (Plain (Einsum [(n_t1,[0;1]); (T 69,[2;3;0;4])] [2;3;1;4]));
  (*319*) Del (T 69);
  (*320*) Assign (T 70) (Plain (Zeros [3;0;1]));
  (*321*) AddTo (T 70) (Plain (Einsum [(n_u11,[0;1;2]); (n_v'oovv,[1;3;2;4])] [0;3;4]));
  (*322*) Assign (T 77) (Plain (Zeros [3;0;1]));
  (*323*) AddTo (T 77) (Plain (Einsum [(T 70,[0;1;2])] [0;1;2]));
  (*324*) Assign n_s2new (Plain (Zeros [3;3]));
  (*325*) AddTo n_s2new (Plain (Einsum [(n_u11,[0;1;2]); (T 70,[3;1;2])] [0;3]));
  (*326*) Del (T 70);
  (*327*) Assign (T 71) (Plain (Zeros [3;3]));
  (*328*) AddTo (T 71) (Plain (Einsum [(n_gc'bov,[0;1;2]); (n_u11,[3;1;2])] [0;3]));
  (*329*) Assign (T 75) (Plain (Zeros [3;3]));
  (*330*) AddTo (T 75) (Plain (Einsum [(T 71,[0;1])] [0;1]));
  (*331*) Del (T 71);
  (*332*) Assign (T 72) (Plain (Zeros [3;3]));
  (*333*) AddTo (T 72) (Plain (Einsum [(n_g'bov,[0;1;2]); (n_u11,[3;1;2])] [0;3]));
  (*334*) Assign (T 73) (Plain (Zeros [3;3]));
  (*335*) AddTo (T 73) (Plain (Einsum [(T 72,[0;1])] [1;0]));
  (*336*) Del (T 72);
  (*337*) AddTo (T 73) (Plain (Einsum [(n_w,[0;1])] [0;1]));
  (*338*) Assign (T 74) (Plain (Zeros [3;3]));
  (*339*) AddTo (T 74) (Plain (Einsum [(n_s2,[0;1]); (T 73,[2;0])] [1;2]));
  (*340*) AddTo (T 75) (Plain (Einsum [(T 74,[0;1])] [0;1]));
  (*341*) Del (T 74);
  (*342*) AddTo n_s2new (Plain (Einsum [(T 75,[0;1])] [0;1]));
  (*343*) AddTo n_s2new (Plain (Einsum [(T 75,[0;1])] [1;0]));
  (*344*) Del (T 75);
  (*345*) AddTo n_u11new (Plain (Einsum [(T 73,[0;1]); (n_u11,[1;2;3])] [0;2;3]));
  (*346*) Del (T 73);
  (*347*) Assign (T 76) (Plain (Zeros [3;0;1]));
  (*348*) AddTo (T 76) (Plain (Einsum [(n_s2,[0;1]); (n_g'bov,[1;2;3])] [0;2;3]));
  (*349*) AddTo (T 77) (Plain (Einsum [(T 76,[0;1;2])] [0;1;2]));
  (*350*) Del (T 76);
  (*351*) AddTo (T 77) (Plain (Einsum [(n_gc'bov,[0;1;2])] [0;1;2]));
  (*352*) Assign (T 80) (Plain (Zeros [3;0;0]));
  (*353*) AddTo (T 80) (Plain (Einsum [(n_t1,[0;1]); (T 77,[2;3;1])] [2;3;0]));
  (*354*) AddTo n_u11new (Plain (Einsum [(T 77,[0;1;2]); (n_t2,[1;3;2;4])] [0;3;4]));
  (*355*) Del (T 77);
  (*356*) AddTo (T 78) (Times (Einsum [(n_f'vv,[0;1])] [0;1]) (-1) 1);
  (*357*) AddTo n_u11new (Times (Einsum [(T 78,[0;1]); (n_u11,[2;3;1])] [2;3;0]) (-1) 1);
  (*358*) Del (T 78);
  (*359*) AddTo (T 79) (Plain (Einsum [(n_f'ov,[0;1])] [0;1]));
  (*360*) AddTo (T 80) (Plain (Einsum [(T 79,[0;1]); (n_u11,[2;3;1])] [2;0;3]));
  (*361*) Del (T 79);
  (*362*) AddTo (T 80) (Plain (Einsum [(n_gc'boo,[0;1;2])] [0;1;2]));
  (*363*) AddTo (T 80) (Plain (Einsum [(n_s2,[0;1]); (n_g'boo,[1;2;3])] [0;2;3]));
  (*364*) SubFrom (T 80) (Plain (Einsum [(n_u11,[0;1;2]); (n_v'ooov,[1;3;4;2])] [0;3;4]));
  (*365*) SubFrom n_u11new (Plain (Einsum [(n_t1,[0;1]); (T 80,[2;0;3])] [2;3;1]));
  (*366*) Del (T 80);
  (*367*) Assign (T 81) (Plain (Zeros [3;1;1]));
  (*368*) AddTo (T 81) (Plain (Einsum [(n_gc'bvv,[0;1;2])] [0;1;2]));
  (*369*) AddTo (T 81) (Plain (Einsum [(n_s2,[0;1]); (n_g'bvv,[1;2;3])] [0;2;3]));
  (*370*) AddTo (T 81) (Plain (Einsum [(n_u11,[0;1;2]); (n_v'ovvv,[1;3;2;4])] [0;3;4]));
  (*371*) AddTo n_u11new (Plain (Einsum [(n_t1,[0;1]); (T 81,[2;3;1])] [2;0;3]));
  (*372*) Del (T 81);
  (*373*) AddTo n_t1new (Plain (Einsum [(n_s1,[0]); (n_g'bvo,[0;1;2])] [2;1]));
  (*374*) AddTo n_t1new (Times (Einsum [(n_t2,[0;1;2;3]); (n_v'ovvv,[1;4;2;3])] [0;4]) (-1) 2);
  (*375*) SubFrom n_t1new (Plain (Einsum [(n_t1,[0;1]); (n_v'ovov,[0;2;3;1])] [3;2]));
  (*376*) AddTo n_t1new (Plain (Einsum [(n_f'vo,[0;1])] [1;0]));
  (*377*) AddTo n_t1new (Plain (Einsum [(n_g'bvv,[0;1;2]); (n_u11,[0;3;2])] [3;1]));
  (*378*) SubFrom n_t2new (Plain (Einsum [(n_t1,[0;1]); (n_v'ovoo,[0;2;3;4])] [4;3;2;1]));
  (*379*) AddTo n_t2new (Plain (Einsum [(n_v'vvoo,[0;1;2;3])] [3;2;1;0]));
  (*380*) AddTo n_t2new (Times (Einsum [(n_t2,[0;1;2;3]); (n_v'vvvv,[4;5;2;3])] [1;0;5;4]) (1) 2);
  (*381*) AddTo n_s1new (Plain (Einsum [(n_s1,[0]); (n_w,[1;0])] [1]));
  (*382*) AddTo n_s1new (Plain (Einsum [(n_G,[0])] [0]));
  (*383*) AddTo n_s1new (Plain (Einsum [(n_t1,[0;1]); (n_gc'bov,[2;0;1])] [2]));
  (*384*) AddTo n_u11new (Plain (Einsum [(n_s2,[0;1]); (n_g'bvo,[1;2;3])] [0;3;2]));
  (*385*) SubFrom n_u11new (Plain (Einsum [(n_u11,[0;1;2]); (n_v'ovov,[1;3;4;2])] [0;4;3]));
  (*386*) AddTo n_u11new (Plain (Einsum [(n_gc'bvo,[0;1;2])] [0;2;1]))]
 [(n_t1new,[0;1]); (n_t2new,[0;0;1;1]); (n_s1new,[3]); (n_s2new,[3;3]); (n_u11new,[3;0;1])].

(** ebcc/codegen/GCCSD_SD_1_1.py:390-987 [update_lams] *)
Definition GCCSD_SD_1_1_update_lams : prog := mkprog
 [(n_g'boo,[3;0;0]); (n_g'bvo,[3;1;0]); (n_g'bov,[3;0;1]); (n_g'bvv,[3;1;1]); (n_t1,[0;1]); (n_l2,[1;1;0;0]); (n_v'ooov,[0;0;0;1]); (n_t2,[0;0;1;1]); (n_v'ovov,[0;1;0;1]); (n_v'ovvv,[0;1;1;1]); (n_v'oovv,[0;0;1;1]); (n_f'ov,[0;1]); (n_l1,[1;0]); (n_s1,[3]); (n_u11,[3;0;1]); (n_ls1,[3]); (n_v'oooo,[0;0;0;0]); (n_v'ovoo,[0;1;0;0]); (n_v'vvov,[1;1;0;1]); (n_v'vvvv,[1;1;1;1]); (n_f'oo,[0;0]); (n_f'vv,[1;1]); (n_G,[3]); (n_f'vo,[1;0]); (n_lu11,[3;1;0]); (n_s2,[3;3]); (n_w,[3;3]); (n_ls2,[3;3])]
 [(*392*) Assign n_gc'boo (Plain (Transpose n_g'boo [0;2;1]));
  (*392*) Assign n_gc'bov (Plain (Transpose n_g'bvo [0;2;1]));
  (*392*) Assign n_gc'bvo (Plain (Transpose n_g'bov [0;2;1]));
  (*392*) Assign n_gc'bvv (Plain (Transpose n_g'bvv [0;2;1]));
  (*400*) Assign (T 1) (Plain (Zeros [0;0;0;1]));
  (*401*) AddTo (T 1) (Plain (Einsum [(n_t1,[0;1]); (n_l2,[2;1;3;4])] [3;4;0;2]));
  (*402*) Assign (T 6) (Plain (Zeros [0;0;0;0]));
  (*403*) AddTo (T 6) (Plain (Einsum [(n_t1,[0;1]); (T 1,[2;3;4;1])] [2;3;0;4]));
  (*404*) Assign (T 19) (Plain (Zeros [0;0;0;0]));
  (*405*) AddTo (T 19) (Times (Einsum [(T 6,[0;1;2;3])] [0;1;3;2]) (20000000000000013) 10000000000000000);
  (*406*) Assign (T 122) (Plain (Zeros [0;0;0;0]));
  (*407*) AddTo (T 122) (Times (Einsum [(T 6,[0;1;2;3])] [0;1;3;2]) (2) 1);
  (*408*) Assign n_l1new (Plain (Zeros [1;0]));
  (*409*) AddTo n_l1new (Times (Einsum [(n_v'ooov,[0;1;2;3]); (T 6,[4;2;1;0])] [3;4]) (1) 2);
  (*410*) Del (T 6);
  (*411*) Assign (T 20) (Plain (Zeros [0;0;0;1]));
  (*412*) AddTo (T 20) (Times (Einsum [(n_t2,[0;1;2;3]); (T 1,[4;1;5;3])] [4;0;5;2]) (-4) 1);
  (*413*) Assign (T 50) (Plain (Zeros [0;1]));
  (*414*) AddTo (T 50) (Plain (Einsum [(n_t2,[0;1;2;3]); (T 1,[0;1;4;2])] [4;3]));
  (*415*) Assign (T 54) (Plain (Zeros [0;1]));
  (*416*) AddTo (T 54) (Times (Einsum [(T 50,[0;1])] [0;1]) (1) 2);
  (*417*) Del (T 50);
  (*418*) Assign (T 96) (Plain (Zeros [0;0;1;1]));
  (*419*) SubFrom (T 96) (Plain (Einsum [(n_v'ooov,[0;1;2;3]); (T 1,[2;4;1;5])] [4;0;5;3]));
  (*420*) Assign (T 103) (Plain (Zeros [0;0;1;1]));
  (*421*) AddTo (T 103) (Plain (Einsum [(T 96,[0;1;2;3])] [0;1;2;3]));
  (*422*) Del (T 96);
  (*423*) SubFrom n_l1new (Plain (Einsum [(n_v'ovov,[0;1;2;3]); (T 1,[4;2;0;1])] [3;4]));
  (*424*) Assign n_l2new (Plain (Zeros [1;1;0;0]));
  (*425*) AddTo n_l2new (Plain (Einsum [(n_v'ovvv,[0;1;2;3]); (T 1,[4;5;0;1])] [3;2;5;4]));
  (*426*) Assign (T 2) (Plain (Zeros [0;0]));
  (*427*) SubFrom (T 2) (Plain (Einsum [(n_l2,[0;1;2;3]); (n_t2,[3;4;0;1])] [2;4]));
  (*428*) AddTo (T 20) (Times (Einsum [(n_t1,[0;1]); (T 2,[2;3])] [2;0;3;1]) (2) 1);
  (*429*) Assign (T 52) (Plain (Zeros [0;0]));
  (*430*) AddTo (T 52) (Plain (Einsum [(T 2,[0;1])] [0;1]));
  (*431*) Assign (T 64) (Plain (Zeros [0;0]));
  (*432*) AddTo (T 64) (Times (Einsum [(T 2,[0;1])] [0;1]) (1) 2);
  (*433*) Assign (T 67) (Plain (Zeros [0;0]));
  (*434*) AddTo (T 67) (Times (Einsum [(T 2,[0;1])] [0;1]) (1) 2);
  (*435*) Assign (T 104) (Plain (Zeros [0;0;1;1]));
  (*436*) SubFrom (T 104) (Plain (Einsum [(T 2,[0;1]); (n_v'oovv,[2;1;3;4])] [0;2;3;4]));
  (*437*) Assign (T 106) (Plain (Zeros [0;0;1;1]));
  (*438*) AddTo (T 106) (Times (Einsum [(T 104,[0;1;2;3])] [0;1;3;2]) (-1) 2);
  (*439*) Del (T 104);
  (*440*) Assign (T 124) (Plain (Zeros [0;0]));
  (*441*) AddTo (T 124) (Plain (Einsum [(T 2,[0;1])] [0;1]));
  (*442*) AddTo n_l1new (Times (Einsum [(n_f'ov,[0;1]); (T 2,[2;0])] [1;2]) (-1) 2);
  (*443*) Del (T 2);
  (*444*) Assign (T 3) (Plain (Zeros [0;0]));
  (*445*) AddTo (T 3) (Plain (Einsum [(n_l1,[0;1]); (n_t1,[2;0])] [1;2]));
  (*446*) AddTo (T 52) (Times (Einsum [(T 3,[0;1])] [0;1]) (2) 1);
  (*447*) AddTo (T 64) (Plain (Einsum [(T 3,[0;1])] [0;1]));
  (*448*) Assign (T 78) (Plain (Zeros [0;0]));
  (*449*) AddTo (T 78) (Plain (Einsum [(T 3,[0;1])] [0;1]));
  (*450*) Assign n_ls1new (Plain (Zeros [3]));
  (*451*) SubFrom n_ls1new (Plain (Einsum [(T 3,[0;1]); (n_g'boo,[2;1;0])] [2]));
  (*452*) Assign (T 4) (Plain (Zeros [0;1]));
  (*453*) AddTo (T 4) (Plain (Einsum [(n_s1,[0]); (n_g'bov,[0;1;2])] [1;2]));
  (*454*) Assign (T 13) (Plain (Zeros [0;1]));
  (*455*) AddTo (T 13) (Plain (Einsum [(T 4,[0;1])] [0;1]));
  (*456*) Assign (T 59) (Plain (Zeros [0;1]));
  (*457*) AddTo (T 59) (Plain (Einsum [(T 4,[0;1])] [0;1]));
  (*458*) Assign (T 85) (Plain (Zeros [0;1]));
  (*459*) AddTo (T 85) (Plain (Einsum [(T 4,[0;1])] [0;1]));
  (*460*) SubFrom n_l1new (Plain (Einsum [(T 3,[0;1]); (T 4,[1;2])] [2;0]));
  (*461*) Del (T 3);
  (*462*) Del (T 4);
  (*463*) Assign (T 5) (Plain (Zeros [0;0;0;0]));
  (*464*) AddTo (T 5) (Plain (Einsum [(n_l2,[0;1;2;3]); (n_t2,[4;5;0;1])] [2;3;4;5]));
  (*465*) AddTo (T 19) (Times (Einsum [(T 5,[0;1;2;3])] [1;0;3;2]) (-1) 1);
  (*466*) AddTo (T 20) (Times (Einsum [(n_t1,[0;1]); (T 19,[0;2;3;4])] [2;4;3;1]) (-1) 1);
  (*467*) Del (T 19);
  (*468*) AddTo (T 122) (Times (Einsum [(T 5,[0;1;2;3])] [1;0;3;2]) (-1) 1);
  (*469*) AddTo n_l2new (Times (Einsum [(n_v'oovv,[0;1;2;3]); (T 122,[4;5;0;1])] [3;2;5;4]) (-1) 4);
  (*470*) Del (T 122);
  (*471*) AddTo n_l1new (Times (Einsum [(n_v'ooov,[0;1;2;3]); (T 5,[4;2;0;1])] [3;4]) (-1) 4);
  (*472*) Del (T 5);
  (*473*) Assign (T 7) (Plain (Zeros [0;0;1;1]));
  (*474*) AddTo (T 7) (Plain (Einsum [(n_l2,[0;1;2;3]); (n_t2,[3;4;1;5])] [2;4;0;5]));
  (*475*) SubFrom n_l1new (Plain (Einsum [(n_v'ovvv,[0;1;2;3]); (T 7,[4;0;1;3])] [2;4]));
  (*476*) Del (T 7);
  (*477*) Assign (T 8) (Plain (Zeros [0;0;1;1]));
  (*478*) AddTo (T 8) (Plain (Einsum [(n_t1,[0;1]); (n_v'ovvv,[2;3;4;1])] [0;2;3;4]));
  (*479*) Assign (T 17) (Plain (Zeros [0;0;1;1]));
  (*480*) AddTo (T 17) (Times (Einsum [(T 8,[0;1;2;3])] [1;0;2;3]) (-1) 2);
  (*481*) Assign (T 99) (Plain (Zeros [0;0;1;1]));
  (*482*) AddTo (T 99) (Plain (Einsum [(T 8,[0;1;2;3])] [0;1;2;3]));
  (*483*) AddTo n_l1new (Plain (Einsum [(T 1,[0;1;2;3]); (T 8,[1;2;3;4])] [4;0]));
  (*484*) Del (T 8);
  (*485*) Assign (T 9) (Plain (Zeros [3;0;1]));
  (*486*) SubFrom (T 9) (Plain (Einsum [(n_u11,[0;1;2]); (n_l2,[2;3;4;1])] [0;4;3]));
  (*487*) Assign (T 66) (Plain (Zeros [3;0;1]));
  (*488*) AddTo (T 66) (Plain (Einsum [(T 9,[0;1;2])] [0;1;2]));
  (*489*) Assign (T 101) (Plain (Zeros [3;0;1]));
  (*490*) AddTo (T 101) (Plain (Einsum [(T 9,[0;1;2])] [0;1;2]));
  (*491*) AddTo n_l1new (Plain (Einsum [(n_g'bvv,[0;1;2]); (T 9,[0;3;1])] [2;3]));
  (*492*) Assign (T 10) (Plain (Zeros [0;0;0;1]));
  (*493*) AddTo (T 10) (Plain (Einsum [(n_t1,[0;1]); (n_v'oovv,[2;3;4;1])] [0;2;3;4]));
  (*494*) Assign (T 11) (Plain (Zeros [0;0;0;1]));
  (*495*) AddTo (T 11) (Times (Einsum [(T 10,[0;1;2;3])] [0;2;1;3]) (-1) 1);
  (*496*) Assign (T 15) (Plain (Zeros [0;0;0;1]));
  (*497*) AddTo (T 15) (Times (Einsum [(T 10,[0;1;2;3])] [2;1;0;3]) (5000000000000003) 10000000000000000);
  (*498*) Assign (T 97) (Plain (Zeros [0;0;1;1]));
  (*499*) AddTo (T 97) (Plain (Einsum [(T 1,[0;1;2;3]); (T 10,[1;4;2;5])] [0;4;3;5]));
  (*500*) SubFrom (T 103) (Plain (Einsum [(T 97,[0;1;2;3])] [0;1;2;3]));
  (*501*) Del (T 97);
  (*502*) Assign (T 111) (Plain (Zeros [0;0;1;1]));
  (*503*) SubFrom (T 111) (Plain (Einsum [(n_l1,[0;1]); (T 10,[1;2;3;4])] [3;2;0;4]));
  (*504*) Assign (T 119) (Plain (Zeros [0;0;1;1]));
  (*505*) AddTo (T 119) (Plain (Einsum [(T 111,[0;1;2;3])] [0;1;2;3]));
  (*506*) Del (T 111);
  (*507*) Assign (T 120) (Plain (Zeros [0;0;0;1]));
  (*508*) AddTo (T 120) (Times (Einsum [(T 10,[0;1;2;3])] [2;1;0;3]) (1) 2);
  (*509*) Del (T 10);
  (*510*) AddTo (T 11) (Plain (Einsum [(n_v'ooov,[0;1;2;3])] [2;1;0;3]));
  (*511*) Assign (T 18) (Plain (Zeros [0;0;0;1]));
  (*512*) AddTo (T 18) (Plain (Einsum [(n_t2,[0;1;2;3]); (T 11,[4;0;5;2])] [5;1;4;3]));
  (*513*) Assign (T 26) (Plain (Zeros [0;1]));
  (*514*) AddTo (T 26) (Times (Einsum [(n_t2,[0;1;2;3]); (T 11,[4;0;1;2])] [4;3]) (1) 2);
  (*515*) Del (T 11);
  (*516*) Assign (T 45) (Plain (Zeros [0;1]));
  (*517*) AddTo (T 45) (Plain (Einsum [(T 26,[0;1])] [0;1]));
  (*518*) Del (T 26);
  (*519*) Assign (T 12) (Plain (Zeros [0;1]));
  (*520*) SubFrom (T 12) (Plain (Einsum [(n_t1,[0;1]); (n_v'oovv,[0;2;3;1])] [2;3]));
  (*521*) AddTo (T 13) (Plain (Einsum [(T 12,[0;1])] [0;1]));
  (*522*) AddTo (T 59) (Plain (Einsum [(T 12,[0;1])] [0;1]));
  (*523*) Assign (T 79) (Plain (Zeros [0;1]));
  (*524*) AddTo (T 79) (Plain (Einsum [(T 12,[0;1])] [0;1]));
  (*525*) Assign (T 90) (Plain (Zeros [0;0]));
  (*526*) AddTo (T 90) (Plain (Einsum [(n_t1,[0;1]); (T 12,[2;1])] [0;2]));
  (*527*) Assign (T 91) (Plain (Zeros [0;0]));
  (*528*) AddTo (T 91) (Plain (Einsum [(T 90,[0;1])] [1;0]));
  (*529*) Del (T 90);
  (*530*) AddTo (T 103) (Plain (Einsum [(n_l1,[0;1]); (T 12,[2;3])] [1;2;0;3]));
  (*531*) Assign (T 114) (Plain (Zeros [0;0;1;1]));
  (*532*) SubFrom (T 114) (Plain (Einsum [(T 12,[0;1]); (T 1,[2;3;0;4])] [3;2;4;1]));
  (*533*) Del (T 12);
  (*534*) SubFrom (T 119) (Plain (Einsum [(T 114,[0;1;2;3])] [0;1;2;3]));
  (*535*) Del (T 114);
  (*536*) AddTo (T 13) (Plain (Einsum [(n_f'ov,[0;1])] [0;1]));
  (*537*) AddTo (T 18) (Times (Einsum [(T 13,[0;1]); (n_t2,[2;3;1;4])] [0;3;2;4]) (1) 2);
  (*538*) Assign (T 27) (Plain (Zeros [0;1]));
  (*539*) AddTo (T 27) (Plain (Einsum [(T 13,[0;1]); (n_t2,[0;2;1;3])] [2;3]));
  (*540*) AddTo (T 45) (Times (Einsum [(T 27,[0;1])] [0;1]) (-1) 1);
  (*541*) Del (T 27);
  (*542*) Assign (T 35) (Plain (Zeros [0;0]));
  (*543*) AddTo (T 35) (Plain (Einsum [(n_t1,[0;1]); (T 13,[2;1])] [0;2]));
  (*544*) Assign (T 36) (Plain (Zeros [0;0]));
  (*545*) AddTo (T 36) (Plain (Einsum [(T 35,[0;1])] [1;0]));
  (*546*) Del (T 35);
  (*547*) Assign n_lu11new (Plain (Zeros [3;1;0]));
  (*548*) AddTo n_lu11new (Times (Einsum [(n_ls1,[0]); (T 13,[1;2])] [0;2;1]) (2) 1);
  (*549*) Del (T 13);
  (*550*) Assign (T 14) (Plain (Zeros [0;0;0;0]));
  (*551*) AddTo (T 14) (Plain (Einsum [(n_t2,[0;1;2;3]); (n_v'oovv,[4;5;2;3])] [0;1;4;5]));
  (*552*) Assign (T 16) (Plain (Zeros [0;0;0;0]));
  (*553*) AddTo (T 16) (Times (Einsum [(T 14,[0;1;2;3])] [3;2;1;0]) (-1) 1);
  (*554*) Assign (T 121) (Plain (Zeros [0;0;0;0]));
  (*555*) AddTo (T 121) (Times (Einsum [(T 14,[0;1;2;3])] [3;2;1;0]) (1) 2);
  (*556*) Del (T 14);
  (*557*) AddTo (T 15) (Times (Einsum [(n_v'ooov,[0;1;2;3])] [1;0;2;3]) (-1) 1);
  (*558*) AddTo (T 16) (Times (Einsum [(n_t1,[0;1]); (T 15,[2;3;4;1])] [3;2;0;4]) (-4) 1);
  (*559*) Del (T 15);
  (*560*) AddTo (T 16) (Times (Einsum [(n_v'oooo,[0;1;2;3])] [1;0;3;2]) (-2) 1);
  (*561*) AddTo (T 18) (Times (Einsum [(n_t1,[0;1]); (T 16,[0;2;3;4])] [2;4;3;1]) (-1) 4);
  (*562*) Del (T 16);
  (*563*) AddTo (T 17) (Plain (Einsum [(n_v'ovov,[0;1;2;3])] [0;2;1;3]));
  (*564*) AddTo (T 18) (Times (Einsum [(n_t1,[0;1]); (T 17,[2;3;4;1])] [2;3;0;4]) (-1) 1);
  (*565*) Del (T 17);
  (*566*) AddTo (T 18) (Times (Einsum [(n_v'ovoo,[0;1;2;3])] [0;3;2;1]) (1) 2);
  (*567*) AddTo (T 18) (Times (Einsum [(n_t2,[0;1;2;3]); (n_v'ovvv,[4;5;2;3])] [4;1;0;5]) (1) 4);
  (*568*) AddTo n_l1new (Times (Einsum [(n_l2,[0;1;2;3]); (T 18,[4;2;3;0])] [1;4]) (-1) 1);
  (*569*) Del (T 18);
  (*570*) AddTo (T 20) (Times (Einsum [(n_l1,[0;1]); (n_t2,[2;3;4;0])] [1;3;2;4]) (-2) 1);
  (*571*) AddTo n_l1new (Times (Einsum [(n_v'oovv,[0;1;2;3]); (T 20,[4;0;1;2])] [3;4]) (-1) 4);
  (*572*) Del (T 20);
  (*573*) Assign (T 21) (Plain (Zeros [0;1;1;1]));
  (*574*) AddTo (T 21) (Times (Einsum [(n_v'vvov,[0;1;2;3])] [2;1;0;3]) (-1) 1);
  (*575*) AddTo (T 21) (Plain (Einsum [(n_t1,[0;1]); (n_v'vvvv,[2;3;4;1])] [0;3;2;4]));
  (*576*) AddTo n_l1new (Times (Einsum [(n_l2,[0;1;2;3]); (T 21,[2;0;1;4])] [4;3]) (1) 2);
  (*577*) Del (T 21);
  (*578*) Assign (T 22) (Plain (Zeros [0;1]));
  (*579*) AddTo (T 22) (Plain (Einsum [(n_s1,[0]); (n_g'bvo,[0;1;2])] [2;1]));
  (*580*) AddTo (T 45) (Times (Einsum [(T 22,[0;1])] [0;1]) (-1) 1);
  (*581*) Del (T 22);
  (*582*) Assign (T 23) (Plain (Zeros [0;1]));
  (*583*) AddTo (T 23) (Plain (Einsum [(n_g'bvv,[0;1;2]); (n_u11,[0;3;2])] [3;1]));
  (*584*) AddTo (T 45) (Times (Einsum [(T 23,[0;1])] [0;1]) (-1) 1);
  (*585*) Del (T 23);
  (*586*) Assign (T 24) (Plain (Zeros [0;1]));
  (*587*) AddTo (T 24) (Plain (Einsum [(n_t1,[0;1]); (n_v'ovov,[0;2;3;1])] [3;2]));
  (*588*) AddTo (T 45) (Plain (Einsum [(T 24,[0;1])] [0;1]));
  (*589*) Del (T 24);
  (*590*) Assign (T 25) (Plain (Zeros [0;1]));
  (*591*) SubFrom (T 25) (Plain (Einsum [(n_t2,[0;1;2;3]); (n_v'ovvv,[0;4;2;3])] [1;4]));
  (*592*) AddTo (T 45) (Times (Einsum [(T 25,[0;1])] [0;1]) (1) 2);
  (*593*) Del (T 25);
  (*594*) Assign (T 28) (Plain (Zeros [3;0;0]));
  (*595*) AddTo (T 28) (Plain (Einsum [(n_t1,[0;1]); (n_g'bov,[2;3;1])] [2;3;0]));
  (*596*) Assign (T 29) (Plain (Zeros [3;0;0]));
  (*597*) AddTo (T 29) (Plain (Einsum [(T 28,[0;1;2])] [0;1;2]));
  (*598*) Assign (T 69) (Plain (Zeros [3;0;0]));
  (*599*) AddTo (T 69) (Plain (Einsum [(T 28,[0;1;2])] [0;1;2]));
  (*600*) Del (T 28);
  (*601*) AddTo (T 29) (Plain (Einsum [(n_g'boo,[0;1;2])] [0;1;2]));
  (*602*) Assign (T 30) (Plain (Zeros [0;1]));
  (*603*) AddTo (T 30) (Plain (Einsum [(n_u11,[0;1;2]); (T 29,[0;1;3])] [3;2]));
  (*604*) Del (T 29);
  (*605*) AddTo (T 45) (Plain (Einsum [(T 30,[0;1])] [0;1]));
  (*606*) Del (T 30);
  (*607*) Assign (T 31) (Plain (Zeros [0;0]));
  (*608*) AddTo (T 31) (Plain (Einsum [(n_s1,[0]); (n_g'boo,[0;1;2])] [1;2]));
  (*609*) AddTo (T 36) (Plain (Einsum [(T 31,[0;1])] [0;1]));
  (*610*) Assign (T 87) (Plain (Zeros [0;0]));
  (*611*) AddTo (T 87) (Plain (Einsum [(T 31,[0;1])] [0;1]));
  (*612*) Del (T 31);
  (*613*) Assign (T 32) (Plain (Zeros [0;0]));
  (*614*) AddTo (T 32) (Plain (Einsum [(n_g'bov,[0;1;2]); (n_u11,[0;3;2])] [1;3]));
  (*615*) AddTo (T 36) (Plain (Einsum [(T 32,[0;1])] [0;1]));
  (*616*) AddTo (T 87) (Plain (Einsum [(T 32,[0;1])] [0;1]));
  (*617*) Del (T 32);
  (*618*) Assign (T 33) (Plain (Zeros [0;0]));
  (*619*) SubFrom (T 33) (Plain (Einsum [(n_t1,[0;1]); (n_v'ooov,[0;2;3;1])] [2;3]));
  (*620*) AddTo (T 36) (Plain (Einsum [(T 33,[0;1])] [0;1]));
  (*621*) AddTo (T 91) (Plain (Einsum [(T 33,[0;1])] [0;1]));
  (*622*) Del (T 33);
  (*623*) Assign (T 92) (Plain (Zeros [0;0;1;1]));
  (*624*) AddTo (T 92) (Plain (Einsum [(T 91,[0;1]); (n_l2,[2;3;1;4])] [4;0;2;3]));
  (*625*) Del (T 91);
  (*626*) Assign (T 93) (Plain (Zeros [0;0;1;1]));
  (*627*) SubFrom (T 93) (Plain (Einsum [(T 92,[0;1;2;3])] [0;1;3;2]));
  (*628*) Del (T 92);
  (*629*) Assign (T 34) (Plain (Zeros [0;0]));
  (*630*) SubFrom (T 34) (Plain (Einsum [(n_t2,[0;1;2;3]); (n_v'oovv,[4;0;2;3])] [1;4]));
  (*631*) AddTo (T 36) (Times (Einsum [(T 34,[0;1])] [1;0]) (1) 2);
  (*632*) Assign (T 105) (Plain (Zeros [0;0;1;1]));
  (*633*) AddTo (T 105) (Plain (Einsum [(T 34,[0;1]); (n_l2,[2;3;4;0])] [4;1;2;3]));
  (*634*) Del (T 34);
  (*635*) AddTo (T 106) (Times (Einsum [(T 105,[0;1;2;3])] [0;1;3;2]) (-1) 2);
  (*636*) Del (T 105);
  (*637*) AddTo n_l2new (Times (Einsum [(T 106,[0;1;2;3])] [2;3;0;1]) (-1) 1);
  (*638*) AddTo n_l2new (Plain (Einsum [(T 106,[0;1;2;3])] [2;3;1;0]));
  (*639*) Del (T 106);
  (*640*) AddTo (T 36) (Plain (Einsum [(n_f'oo,[0;1])] [0;1]));
  (*641*) Assign (T 37) (Plain (Zeros [0;1]));
  (*642*) AddTo (T 37) (Plain (Einsum [(n_t1,[0;1]); (T 36,[0;2])] [2;1]));
  (*643*) AddTo (T 45) (Plain (Einsum [(T 37,[0;1])] [0;1]));
  (*644*) Del (T 37);
  (*645*) AddTo n_l1new (Times (Einsum [(n_l1,[0;1]); (T 36,[2;1])] [0;2]) (-1) 1);
  (*646*) Del (T 36);
  (*647*) Assign (T 38) (Plain (Zeros [1;1]));
  (*648*) AddTo (T 38) (Plain (Einsum [(n_s1,[0]); (n_g'bvv,[0;1;2])] [1;2]));
  (*649*) Assign (T 40) (Plain (Zeros [1;1]));
  (*650*) AddTo (T 40) (Plain (Einsum [(T 38,[0;1])] [0;1]));
  (*651*) Assign (T 71) (Plain (Zeros [1;1]));
  (*652*) AddTo (T 71) (Plain (Einsum [(T 38,[0;1])] [0;1]));
  (*653*) Assign (T 116) (Plain (Zeros [1;1]));
  (*654*) AddTo (T 116) (Plain (Einsum [(T 38,[0;1])] [0;1]));
  (*655*) Del (T 38);
  (*656*) Assign (T 39) (Plain (Zeros [1;1]));
  (*657*) SubFrom (T 39) (Plain (Einsum [(n_t1,[0;1]); (n_v'ovvv,[0;2;1;3])] [2;3]));
  (*658*) AddTo (T 40) (Times (Einsum [(T 39,[0;1])] [0;1]) (-1) 1);
  (*659*) SubFrom (T 71) (Plain (Einsum [(T 39,[0;1])] [0;1]));
  (*660*) Assign (T 113) (Plain (Zeros [0;0;1;1]));
  (*661*) SubFrom (T 113) (Plain (Einsum [(T 39,[0;1]); (n_l2,[2;0;3;4])] [4;3;2;1]));
  (*662*) Del (T 39);
  (*663*) SubFrom (T 119) (Plain (Einsum [(T 113,[0;1;2;3])] [0;1;2;3]));
  (*664*) Del (T 113);
  (*665*) AddTo (T 40) (Plain (Einsum [(n_f'vv,[0;1])] [0;1]));
  (*666*) Assign (T 41) (Plain (Zeros [0;1]));
  (*667*) AddTo (T 41) (Plain (Einsum [(n_t1,[0;1]); (T 40,[2;1])] [0;2]));
  (*668*) Del (T 40);
  (*669*) AddTo (T 45) (Times (Einsum [(T 41,[0;1])] [0;1]) (-1) 1);
  (*670*) Del (T 41);
  (*671*) Assign (T 42) (Plain (Zeros [3]));
  (*672*) AddTo (T 42) (Plain (Einsum [(n_t1,[0;1]); (n_g'bov,[2;0;1])] [2]));
  (*673*) Assign (T 43) (Plain (Zeros [3]));
  (*674*) AddTo (T 43) (Plain (Einsum [(T 42,[0])] [0]));
  (*675*) Assign (T 75) (Plain (Zeros [3]));
  (*676*) AddTo (T 75) (Plain (Einsum [(T 42,[0])] [0]));
  (*677*) Del (T 42);
  (*678*) AddTo (T 43) (Plain (Einsum [(n_G,[0])] [0]));
  (*679*) Assign (T 44) (Plain (Zeros [0;1]));
  (*680*) AddTo (T 44) (Plain (Einsum [(T 43,[0]); (n_u11,[0;1;2])] [1;2]));
  (*681*) Del (T 43);
  (*682*) AddTo (T 45) (Times (Einsum [(T 44,[0;1])] [0;1]) (-1) 1);
  (*683*) Del (T 44);
  (*684*) AddTo (T 45) (Times (Einsum [(n_f'vo,[0;1])] [1;0]) (-1) 1);
  (*685*) AddTo n_l1new (Times (Einsum [(T 45,[0;1]); (n_l2,[1;2;0;3])] [2;3]) (-1) 1);
  (*686*) AddTo n_ls1new (Times (Einsum [(T 45,[0;1]); (n_lu11,[2;1;0])] [2]) (-1) 1);
  (*687*) Del (T 45);
  (*688*) Assign (T 46) (Plain (Zeros [0;1]));
  (*689*) AddTo (T 46) (Plain (Einsum [(n_ls1,[0]); (n_u11,[0;1;2])] [1;2]));
  (*690*) AddTo (T 54) (Times (Einsum [(T 46,[0;1])] [0;1]) (-1) 1);
  (*691*) Del (T 46);
  (*692*) Assign (T 47) (Plain (Zeros [0;1]));
  (*693*) AddTo (T 47) (Plain (Einsum [(n_l1,[0;1]); (n_t2,[2;1;3;0])] [2;3]));
  (*694*) AddTo (T 54) (Times (Einsum [(T 47,[0;1])] [0;1]) (-1) 1);
  (*695*) Del (T 47);
  (*696*) Assign (T 48) (Plain (Zeros [3;0;0]));
  (*697*) AddTo (T 48) (Plain (Einsum [(n_t1,[0;1]); (n_lu11,[2;1;3])] [2;3;0]));
  (*698*) Assign (T 49) (Plain (Zeros [0;1]));
  (*699*) AddTo (T 49) (Plain (Einsum [(n_u11,[0;1;2]); (T 48,[0;1;3])] [3;2]));
  (*700*) AddTo (T 54) (Plain (Einsum [(T 49,[0;1])] [0;1]));
  (*701*) Del (T 49);
  (*702*) Assign (T 51) (Plain (Zeros [0;0]));
  (*703*) AddTo (T 51) (Plain (Einsum [(n_lu11,[0;1;2]); (n_u11,[0;3;1])] [2;3]));
  (*704*) AddTo (T 52) (Times (Einsum [(T 51,[0;1])] [0;1]) (2) 1);
  (*705*) Assign (T 53) (Plain (Zeros [0;1]));
  (*706*) AddTo (T 53) (Times (Einsum [(n_t1,[0;1]); (T 52,[0;2])] [2;1]) (1) 2);
  (*707*) Del (T 52);
  (*708*) AddTo (T 54) (Plain (Einsum [(T 53,[0;1])] [0;1]));
  (*709*) Del (T 53);
  (*710*) AddTo (T 64) (Plain (Einsum [(T 51,[0;1])] [0;1]));
  (*711*) AddTo n_l1new (Times (Einsum [(T 64,[0;1]); (n_v'ooov,[1;2;0;3])] [3;2]) (-1) 1);
  (*712*) Del (T 64);
  (*713*) AddTo (T 67) (Plain (Einsum [(T 51,[0;1])] [0;1]));
  (*714*) Assign (T 68) (Plain (Zeros [3;0;0]));
  (*715*) AddTo (T 68) (Plain (Einsum [(n_s1,[0]); (T 67,[1;2])] [0;1;2]));
  (*716*) Del (T 67);
  (*717*) AddTo (T 78) (Plain (Einsum [(T 51,[0;1])] [0;1]));
  (*718*) Assign (T 89) (Plain (Zeros [0;0;1;1]));
  (*719*) AddTo (T 89) (Plain (Einsum [(T 78,[0;1]); (n_v'oovv,[1;2;3;4])] [2;0;3;4]));
  (*720*) AddTo (T 93) (Plain (Einsum [(T 89,[0;1;2;3])] [1;0;3;2]));
  (*721*) Del (T 89);
  (*722*) AddTo (T 124) (Times (Einsum [(T 51,[0;1])] [0;1]) (2) 1);
  (*723*) Del (T 51);
  (*724*) AddTo n_ls1new (Times (Einsum [(T 124,[0;1]); (n_g'boo,[2;1;0])] [2]) (-1) 2);
  (*725*) Del (T 124);
  (*726*) AddTo (T 54) (Times (Einsum [(n_t1,[0;1])] [0;1]) (-1) 1);
  (*727*) AddTo n_l1new (Times (Einsum [(T 54,[0;1]); (n_v'oovv,[0;2;1;3])] [3;2]) (-1) 1);
  (*728*) AddTo n_ls1new (Times (Einsum [(T 54,[0;1]); (n_g'bov,[2;0;1])] [2]) (-1) 1);
  (*729*) Del (T 54);
  (*730*) Assign (T 55) (Plain (Zeros [1;1]));
  (*731*) AddTo (T 55) (Plain (Einsum [(n_l1,[0;1]); (n_t1,[1;2])] [0;2]));
  (*732*) Assign (T 58) (Plain (Zeros [1;1]));
  (*733*) AddTo (T 58) (Plain (Einsum [(T 55,[0;1])] [0;1]));
  (*734*) AddTo n_ls1new (Plain (Einsum [(T 55,[0;1]); (n_g'bvv,[2;0;1])] [2]));
  (*735*) Del (T 55);
  (*736*) Assign (T 56) (Plain (Zeros [1;1]));
  (*737*) AddTo (T 56) (Plain (Einsum [(n_lu11,[0;1;2]); (n_u11,[0;2;3])] [1;3]));
  (*738*) AddTo (T 58) (Plain (Einsum [(T 56,[0;1])] [0;1]));
  (*739*) Assign (T 112) (Plain (Zeros [0;0;1;1]));
  (*740*) SubFrom (T 112) (Plain (Einsum [(T 56,[0;1]); (n_v'oovv,[2;3;4;1])] [3;2;0;4]));
  (*741*) AddTo (T 119) (Plain (Einsum [(T 112,[0;1;2;3])] [0;1;2;3]));
  (*742*) Del (T 112);
  (*743*) Assign (T 123) (Plain (Zeros [1;1]));
  (*744*) AddTo (T 123) (Plain (Einsum [(T 56,[0;1])] [0;1]));
  (*745*) Del (T 56);
  (*746*) Assign (T 57) (Plain (Zeros [1;1]));
  (*747*) SubFrom (T 57) (Plain (Einsum [(n_l2,[0;1;2;3]); (n_t2,[2;3;1;4])] [0;4]));
  (*748*) AddTo (T 58) (Times (Einsum [(T 57,[0;1])] [0;1]) (1) 2);
  (*749*) AddTo n_l1new (Times (Einsum [(T 58,[0;1]); (n_v'ovvv,[2;0;1;3])] [3;2]) (-1) 1);
  (*750*) Del (T 58);
  (*751*) Assign (T 109) (Plain (Zeros [0;0;1;1]));
  (*752*) SubFrom (T 109) (Plain (Einsum [(T 57,[0;1]); (n_v'oovv,[2;3;4;1])] [2;3;0;4]));
  (*753*) Assign (T 110) (Plain (Zeros [0;0;1;1]));
  (*754*) AddTo (T 110) (Times (Einsum [(T 109,[0;1;2;3])] [0;1;2;3]) (1) 2);
  (*755*) Del (T 109);
  (*756*) AddTo (T 123) (Times (Einsum [(T 57,[0;1])] [0;1]) (1) 2);
  (*757*) Del (T 57);
  (*758*) AddTo n_ls1new (Plain (Einsum [(T 123,[0;1]); (n_g'bvv,[2;0;1])] [2]));
  (*759*) Del (T 123);
  (*760*) AddTo (T 59) (Plain (Einsum [(n_f'ov,[0;1])] [0;1]));
  (*761*) Assign (T 62) (Plain (Zeros [3;0;0]));
  (*762*) AddTo (T 62) (Plain (Einsum [(T 59,[0;1]); (n_u11,[2;3;1])] [2;0;3]));
  (*763*) Assign (T 74) (Plain (Zeros [3]));
  (*764*) AddTo (T 74) (Plain (Einsum [(T 59,[0;1]); (n_u11,[2;0;1])] [2]));
  (*765*) Del (T 59);
  (*766*) Assign (T 77) (Plain (Zeros [3]));
  (*767*) AddTo (T 77) (Plain (Einsum [(T 74,[0])] [0]));
  (*768*) Del (T 74);
  (*769*) Assign (T 60) (Plain (Zeros [3;0;1]));
  (*770*) AddTo (T 60) (Plain (Einsum [(n_u11,[0;1;2]); (n_v'oovv,[1;3;2;4])] [0;3;4]));
  (*771*) Assign (T 61) (Plain (Zeros [3;0;1]));
  (*772*) AddTo (T 61) (Plain (Einsum [(T 60,[0;1;2])] [0;1;2]));
  (*773*) Assign (T 70) (Plain (Zeros [3;0;1]));
  (*774*) AddTo (T 70) (Plain (Einsum [(T 60,[0;1;2])] [0;1;2]));
  (*775*) Assign (T 95) (Plain (Zeros [0;0;1;1]));
  (*776*) AddTo (T 95) (Plain (Einsum [(n_lu11,[0;1;2]); (T 60,[0;3;4])] [2;3;1;4]));
  (*777*) Del (T 60);
  (*778*) AddTo (T 103) (Plain (Einsum [(T 95,[0;1;2;3])] [0;1;2;3]));
  (*779*) Del (T 95);
  (*780*) AddTo (T 61) (Plain (Einsum [(n_gc'bov,[0;1;2])] [0;1;2]));
  (*781*) AddTo (T 61) (Plain (Einsum [(n_s2,[0;1]); (n_g'bov,[0;2;3])] [1;2;3]));
  (*782*) AddTo (T 62) (Plain (Einsum [(n_t1,[0;1]); (T 61,[2;3;1])] [2;3;0]));
  (*783*) Del (T 61);
  (*784*) AddTo (T 62) (Plain (Einsum [(n_gc'boo,[0;1;2])] [0;1;2]));
  (*785*) AddTo (T 62) (Plain (Einsum [(n_s2,[0;1]); (n_g'boo,[0;2;3])] [1;2;3]));
  (*786*) AddTo (T 62) (Plain (Einsum [(n_u11,[0;1;2]); (n_v'ooov,[3;1;4;2])] [0;3;4]));
  (*787*) SubFrom n_l1new (Plain (Einsum [(n_lu11,[0;1;2]); (T 62,[0;3;2])] [1;3]));
  (*788*) Del (T 62);
  (*789*) Assign (T 63) (Plain (Zeros [3;1;1]));
  (*790*) AddTo (T 63) (Plain (Einsum [(n_gc'bvv,[0;1;2])] [0;1;2]));
  (*791*) AddTo (T 63) (Plain (Einsum [(n_s2,[0;1]); (n_g'bvv,[0;2;3])] [1;2;3]));
  (*792*) SubFrom (T 63) (Plain (Einsum [(n_u11,[0;1;2]); (n_v'ovvv,[1;3;4;2])] [0;3;4]));
  (*793*) AddTo n_l1new (Plain (Einsum [(n_lu11,[0;1;2]); (T 63,[0;1;3])] [3;2]));
  (*794*) Del (T 63);
  (*795*) Assign (T 65) (Plain (Zeros [3;0;1]));
  (*796*) AddTo (T 65) (Plain (Einsum [(n_s2,[0;1]); (n_lu11,[1;2;3])] [0;3;2]));
  (*797*) AddTo (T 66) (Plain (Einsum [(T 65,[0;1;2])] [0;1;2]));
  (*798*) AddTo (T 68) (Plain (Einsum [(n_t1,[0;1]); (T 66,[2;3;1])] [2;3;0]));
  (*799*) Del (T 66);
  (*800*) AddTo (T 101) (Plain (Einsum [(T 65,[0;1;2])] [0;1;2]));
  (*801*) Del (T 65);
  (*802*) Assign (T 102) (Plain (Zeros [0;0;1;1]));
  (*803*) AddTo (T 102) (Plain (Einsum [(n_g'bov,[0;1;2]); (T 101,[0;3;4])] [1;3;2;4]));
  (*804*) Del (T 101);
  (*805*) AddTo (T 103) (Plain (Einsum [(T 102,[0;1;2;3])] [0;1;2;3]));
  (*806*) Del (T 102);
  (*807*) AddTo (T 68) (Plain (Einsum [(n_l1,[0;1]); (n_u11,[2;3;0])] [2;1;3]));
  (*808*) AddTo n_l1new (Times (Einsum [(n_g'bov,[0;1;2]); (T 68,[0;3;1])] [2;3]) (-1) 1);
  (*809*) Del (T 68);
  (*810*) AddTo (T 69) (Plain (Einsum [(n_g'boo,[0;1;2])] [0;1;2]));
  (*811*) Assign (T 130) (Plain (Zeros [3;0;1]));
  (*812*) AddTo (T 130) (Plain (Einsum [(n_t1,[0;1]); (T 69,[2;0;3])] [2;3;1]));
  (*813*) Assign (T 131) (Plain (Zeros [3;0;1]));
  (*814*) SubFrom (T 131) (Plain (Einsum [(T 130,[0;1;2])] [0;1;2]));
  (*815*) Del (T 130);
  (*816*) SubFrom n_l1new (Plain (Einsum [(T 69,[0;1;2]); (T 9,[0;2;3])] [3;1]));
  (*817*) Del (T 9);
  (*818*) Del (T 69);
  (*819*) AddTo (T 70) (Plain (Einsum [(n_gc'bov,[0;1;2])] [0;1;2]));
  (*820*) SubFrom n_l1new (Plain (Einsum [(T 48,[0;1;2]); (T 70,[0;2;3])] [3;1]));
  (*821*) Del (T 70);
  (*822*) Del (T 48);
  (*823*) AddTo (T 71) (Plain (Einsum [(n_f'vv,[0;1])] [0;1]));
  (*824*) AddTo n_l1new (Plain (Einsum [(n_l1,[0;1]); (T 71,[0;2])] [2;1]));
  (*825*) Del (T 71);
  (*826*) Assign (T 72) (Plain (Zeros [3]));
  (*827*) AddTo (T 72) (Plain (Einsum [(n_s1,[0]); (n_w,[1;0])] [1]));
  (*828*) AddTo (T 77) (Plain (Einsum [(T 72,[0])] [0]));
  (*829*) Del (T 72);
  (*830*) Assign (T 73) (Plain (Zeros [3]));
  (*831*) AddTo (T 73) (Plain (Einsum [(n_t1,[0;1]); (n_gc'bov,[2;0;1])] [2]));
  (*832*) AddTo (T 77) (Plain (Einsum [(T 73,[0])] [0]));
  (*833*) Del (T 73);
  (*834*) AddTo (T 75) (Plain (Einsum [(n_G,[0])] [0]));
  (*835*) Assign (T 76) (Plain (Zeros [3]));
  (*836*) AddTo (T 76) (Plain (Einsum [(T 75,[0]); (n_s2,[0;1])] [1]));
  (*837*) AddTo (T 77) (Plain (Einsum [(T 76,[0])] [0]));
  (*838*) Del (T 76);
  (*839*) Assign (T 133) (Plain (Zeros [3;3]));
  (*840*) AddTo (T 133) (Plain (Einsum [(n_ls1,[0]); (T 75,[1])] [1;0]));
  (*841*) Del (T 75);
  (*842*) AddTo (T 77) (Plain (Einsum [(n_G,[0])] [0]));
  (*843*) AddTo n_l1new (Plain (Einsum [(T 77,[0]); (n_lu11,[0;1;2])] [1;2]));
  (*844*) AddTo n_ls1new (Plain (Einsum [(T 77,[0]); (n_ls2,[0;1])] [1]));
  (*845*) Del (T 77);
  (*846*) AddTo (T 79) (Plain (Einsum [(n_f'ov,[0;1])] [0;1]));
  (*847*) SubFrom n_l1new (Plain (Einsum [(T 78,[0;1]); (T 79,[1;2])] [2;0]));
  (*848*) Del (T 78);
  (*849*) Del (T 79);
  (*850*) Assign (T 80) (Plain (Zeros [3]));
  (*851*) AddTo (T 80) (Plain (Einsum [(n_s1,[0])] [0]));
  (*852*) AddTo (T 80) (Plain (Einsum [(n_ls1,[0]); (n_s2,[1;0])] [1]));
  (*853*) AddTo (T 80) (Plain (Einsum [(n_l1,[0;1]); (n_u11,[2;1;0])] [2]));
  (*854*) AddTo n_l1new (Plain (Einsum [(T 80,[0]); (n_g'bov,[0;1;2])] [2;1]));
  (*855*) Del (T 80);
  (*856*) Assign (T 81) (Plain (Zeros [0;0;1;1]));
  (*857*) AddTo (T 81) (Plain (Einsum [(n_l1,[0;1]); (n_v'ooov,[2;3;1;4])] [2;3;0;4]));
  (*858*) Assign (T 83) (Plain (Zeros [0;0;1;1]));
  (*859*) SubFrom (T 83) (Plain (Einsum [(T 81,[0;1;2;3])] [1;0;2;3]));
  (*860*) Del (T 81);
  (*861*) Assign (T 82) (Plain (Zeros [0;0;1;1]));
  (*862*) AddTo (T 82) (Plain (Einsum [(n_f'vv,[0;1]); (n_l2,[2;0;3;4])] [3;4;1;2]));
  (*863*) SubFrom (T 83) (Plain (Einsum [(T 82,[0;1;2;3])] [1;0;2;3]));
  (*864*) Del (T 82);
  (*865*) SubFrom n_l2new (Plain (Einsum [(T 83,[0;1;2;3])] [2;3;0;1]));
  (*866*) AddTo n_l2new (Plain (Einsum [(T 83,[0;1;2;3])] [3;2;0;1]));
  (*867*) Del (T 83);
  (*868*) Assign (T 84) (Plain (Zeros [0;0;1;1]));
  (*869*) AddTo (T 84) (Plain (Einsum [(n_l1,[0;1]); (n_v'ovvv,[2;0;3;4])] [1;2;3;4]));
  (*870*) AddTo (T 93) (Plain (Einsum [(T 84,[0;1;2;3])] [0;1;3;2]));
  (*871*) Del (T 84);
  (*872*) AddTo (T 85) (Plain (Einsum [(n_f'ov,[0;1])] [0;1]));
  (*873*) Assign (T 86) (Plain (Zeros [0;0]));
  (*874*) AddTo (T 86) (Plain (Einsum [(n_t1,[0;1]); (T 85,[2;1])] [0;2]));
  (*875*) AddTo (T 87) (Plain (Einsum [(T 86,[0;1])] [1;0]));
  (*876*) Del (T 86);
  (*877*) AddTo (T 103) (Plain (Einsum [(n_l1,[0;1]); (T 85,[2;3])] [2;1;3;0]));
  (*878*) Assign (T 118) (Plain (Zeros [0;0;1;1]));
  (*879*) AddTo (T 118) (Plain (Einsum [(T 85,[0;1]); (T 1,[2;3;0;4])] [2;3;4;1]));
  (*880*) Del (T 1);
  (*881*) Del (T 85);
  (*882*) SubFrom (T 119) (Plain (Einsum [(T 118,[0;1;2;3])] [1;0;3;2]));
  (*883*) Del (T 118);
  (*884*) AddTo (T 87) (Plain (Einsum [(n_f'oo,[0;1])] [0;1]));
  (*885*) Assign (T 88) (Plain (Zeros [0;0;1;1]));
  (*886*) AddTo (T 88) (Plain (Einsum [(T 87,[0;1]); (n_l2,[2;3;1;4])] [4;0;2;3]));
  (*887*) Del (T 87);
  (*888*) AddTo (T 93) (Plain (Einsum [(T 88,[0;1;2;3])] [1;0;3;2]));
  (*889*) Del (T 88);
  (*890*) AddTo n_l2new (Plain (Einsum [(T 93,[0;1;2;3])] [2;3;0;1]));
  (*891*) SubFrom n_l2new (Plain (Einsum [(T 93,[0;1;2;3])] [2;3;1;0]));
  (*892*) Del (T 93);
  (*893*) Assign (T 94) (Plain (Zeros [0;0;1;1]));
  (*894*) AddTo (T 94) (Plain (Einsum [(n_gc'bov,[0;1;2]); (n_lu11,[0;3;4])] [1;4;2;3]));
  (*895*) AddTo (T 103) (Plain (Einsum [(T 94,[0;1;2;3])] [0;1;2;3]));
  (*896*) Del (T 94);
  (*897*) Assign (T 98) (Plain (Zeros [0;0;1;1]));
  (*898*) AddTo (T 98) (Plain (Einsum [(n_t2,[0;1;2;3]); (n_v'oovv,[4;0;5;2])] [1;4;3;5]));
  (*899*) AddTo (T 99) (Plain (Einsum [(T 98,[0;1;2;3])] [0;1;2;3]));
  (*900*) Del (T 98);
  (*901*) SubFrom (T 99) (Plain (Einsum [(n_v'ovov,[0;1;2;3])] [2;0;1;3]));
  (*902*) Assign (T 100) (Plain (Zeros [0;0;1;1]));
  (*903*) AddTo (T 100) (Plain (Einsum [(n_l2,[0;1;2;3]); (T 99,[2;4;0;5])] [3;4;1;5]));
  (*904*) Del (T 99);
  (*905*) AddTo (T 103) (Plain (Einsum [(T 100,[0;1;2;3])] [0;1;2;3]));
  (*906*) Del (T 100);
  (*907*) AddTo n_l2new (Plain (Einsum [(T 103,[0;1;2;3])] [2;3;0;1]));
  (*908*) SubFrom n_l2new (Plain (Einsum [(T 103,[0;1;2;3])] [3;2;0;1]));
  (*909*) SubFrom n_l2new (Plain (Einsum [(T 103,[0;1;2;3])] [2;3;1;0]));
  (*910*) AddTo n_l2new (Plain (Einsum [(T 103,[0;1;2;3])] [3;2;1;0]));
  (*911*) Del (T 103);
  (*912*) Assign (T 107) (Plain (Zeros [1;1]));
  (*913*) SubFrom (T 107) (Plain (Einsum [(n_t2,[0;1;2;3]); (n_v'oovv,[0;1;4;2])] [3;4]));
  (*914*) Assign (T 108) (Plain (Zeros [0;0;1;1]));
  (*915*) SubFrom (T 108) (Plain (Einsum [(T 107,[0;1]); (n_l2,[2;0;3;4])] [4;3;2;1]));
  (*916*) Del (T 107);
  (*917*) AddTo (T 110) (Times (Einsum [(T 108,[0;1;2;3])] [0;1;2;3]) (1) 2);
  (*918*) Del (T 108);
  (*919*) AddTo n_l2new (Times (Einsum [(T 110,[0;1;2;3])] [2;3;0;1]) (-1) 1);
  (*920*) AddTo n_l2new (Plain (Einsum [(T 110,[0;1;2;3])] [3;2;0;1]));
  (*921*) Del (T 110);
  (*922*) Assign (T 115) (Plain (Zeros [1;1]));
  (*923*) AddTo (T 115) (Plain (Einsum [(n_g'bov,[0;1;2]); (n_u11,[0;1;3])] [2;3]));
  (*924*) SubFrom (T 116) (Plain (Einsum [(T 115,[0;1])] [1;0]));
  (*925*) Del (T 115);
  (*926*) Assign (T 117) (Plain (Zeros [0;0;1;1]));
  (*927*) AddTo (T 117) (Plain (Einsum [(T 116,[0;1]); (n_l2,[0;2;3;4])] [3;4;2;1]));
  (*928*) Del (T 116);
  (*929*) SubFrom (T 119) (Plain (Einsum [(T 117,[0;1;2;3])] [1;0;3;2]));
  (*930*) Del (T 117);
  (*931*) AddTo n_l2new (Plain (Einsum [(T 119,[0;1;2;3])] [2;3;0;1]));
  (*932*) SubFrom n_l2new (Plain (Einsum [(T 119,[0;1;2;3])] [3;2;0;1]));
  (*933*) Del (T 119);
  (*934*) AddTo (T 120) (Times (Einsum [(n_v'ooov,[0;1;2;3])] [1;0;2;3]) (-1) 1);
  (*935*) AddTo (T 121) (Times (Einsum [(n_t1,[0;1]); (T 120,[2;3;4;1])] [3;2;4;0]) (-2) 1);
  (*936*) Del (T 120);
  (*937*) AddTo (T 121) (Plain (Einsum [(n_v'oooo,[0;1;2;3])] [1;0;3;2]));
  (*938*) AddTo n_l2new (Times (Einsum [(n_l2,[0;1;2;3]); (T 121,[4;5;2;3])] [1;0;5;4]) (1) 2);
  (*939*) Del (T 121);
  (*940*) Assign (T 125) (Plain (Zeros [3;3]));
  (*941*) AddTo (T 125) (Plain (Einsum [(n_ls2,[0;1]); (n_w,[1;2])] [0;2]));
  (*942*) AddTo (T 133) (Plain (Einsum [(T 125,[0;1])] [0;1]));
  (*943*) Del (T 125);
  (*944*) Assign (T 126) (Plain (Zeros [3;3]));
  (*945*) AddTo (T 126) (Plain (Einsum [(n_g'bov,[0;1;2]); (n_u11,[3;1;2])] [0;3]));
  (*946*) Assign (T 127) (Plain (Zeros [3;3]));
  (*947*) AddTo (T 127) (Plain (Einsum [(n_ls2,[0;1]); (T 126,[2;1])] [2;0]));
  (*948*) Del (T 126);
  (*949*) AddTo (T 133) (Plain (Einsum [(T 127,[0;1])] [0;1]));
  (*950*) Del (T 127);
  (*951*) Assign (T 128) (Plain (Zeros [3;0;1]));
  (*952*) AddTo (T 128) (Plain (Einsum [(n_t1,[0;1]); (n_g'bvv,[2;3;1])] [2;0;3]));
  (*953*) AddTo (T 131) (Plain (Einsum [(T 128,[0;1;2])] [0;1;2]));
  (*954*) Del (T 128);
  (*955*) Assign (T 129) (Plain (Zeros [3;0;1]));
  (*956*) AddTo (T 129) (Plain (Einsum [(n_g'bov,[0;1;2]); (n_t2,[3;1;4;2])] [0;3;4]));
  (*957*) AddTo (T 131) (Plain (Einsum [(T 129,[0;1;2])] [0;1;2]));
  (*958*) Del (T 129);
  (*959*) AddTo (T 131) (Plain (Einsum [(n_g'bvo,[0;1;2])] [0;2;1]));
  (*960*) Assign (T 132) (Plain (Zeros [3;3]));
  (*961*) AddTo (T 132) (Plain (Einsum [(n_lu11,[0;1;2]); (T 131,[3;2;1])] [0;3]));
  (*962*) Del (T 131);
  (*963*) AddTo (T 133) (Plain (Einsum [(T 132,[0;1])] [1;0]));
  (*964*) Del (T 132);
  (*965*) Assign n_ls2new (Plain (Zeros [3;3]));
  (*966*) AddTo n_ls2new (Plain (Einsum [(T 133,[0;1])] [0;1]));
  (*967*) AddTo n_ls2new (Plain (Einsum [(T 133,[0;1])] [1;0]));
  (*968*) Del (T 133);
  (*969*) AddTo n_l1new (Plain (Einsum [(n_f'ov,[0;1])] [1;0]));
  (*970*) AddTo n_l1new (Plain (Einsum [(n_ls1,[0]); (n_gc'bov,[0;1;2])] [2;1]));
  (*971*) SubFrom n_l1new (Plain (Einsum [(n_l1,[0;1]); (n_v'ovov,[2;0;1;3])] [3;2]));
  (*972*) AddTo n_l2new (Times (Einsum [(n_l2,[0;1;2;3]); (n_v'vvvv,[0;1;4;5])] [5;4;3;2]) (1) 2);
  (*973*) AddTo n_l2new (Plain (Einsum [(n_v'oovv,[0;1;2;3])] [3;2;1;0]));
  (*974*) AddTo n_ls1new (Plain (Einsum [(n_ls1,[0]); (n_w,[0;1])] [1]));
  (*975*) AddTo n_ls1new (Plain (Einsum [(n_l1,[0;1]); (n_g'bvo,[2;0;1])] [2]));
  (*976*) AddTo n_ls1new (Plain (Einsum [(n_G,[0])] [0]));
  (*977*) AddTo n_lu11new (Plain (Einsum [(n_ls2,[0;1]); (n_gc'bov,[1;2;3])] [0;3;2]));
  (*978*) AddTo n_lu11new (Plain (Einsum [(n_w,[0;1]); (n_lu11,[0;2;3])] [1;2;3]));
  (*979*) SubFrom n_lu11new (Plain (Einsum [(n_f'oo,[0;1]); (n_lu11,[2;3;1])] [2;3;0]));
  (*980*) SubFrom n_lu11new (Plain (Einsum [(n_l1,[0;1]); (n_g'boo,[2;3;1])] [2;0;3]));
  (*981*) AddTo n_lu11new (Plain (Einsum [(n_g'bov,[0;1;2])] [0;2;1]));
  (*982*) AddTo n_lu11new (Plain (Einsum [(n_f'vv,[0;1]); (n_lu11,[2;0;3])] [2;1;3]));
  (*983*) AddTo n_lu11new (Plain (Einsum [(n_l1,[0;1]); (n_g'bvv,[2;0;3])] [2;3;1]));
  (*984*) AddTo n_lu11new (Plain (Einsum [(n_g'bvo,[0;1;2]); (n_l2,[3;1;4;2])] [0;3;4]));
  (*985*) SubFrom n_lu11new (Plain (Einsum [(n_lu11,[0;1;2]); (n_v'ovov,[3;1;2;4])] [0;4;3]))]
 [(n_l1new,[1;0]); (n_l2new,[1;1;0;0]); (n_ls1new,[3]); (n_ls2new,[3;3]); (n_lu11new,[3;1;0])].

(** ebcc/codegen/GCCSD_SD_1_1.py:989-1043 [make_rdm1_f]; assembly (line 1041) not translated *)
Definition GCCSD_SD_1_1_make_rdm1_f : prog := mkprog
 [(n_g'boo,[3;0;0]); (n_g'bvo,[3;1;0]); (n_g'bov,[3;0;1]); (n_g'bvv,[3;1;1]); (n_l1,[1;0]); (n_t1,[0;1]); (n_lu11,[3;1;0]); (n_u11,[3;0;1]); (n_l2,[1;1;0;0]); (n_t2,[0;0;1;1]); (n_ls1,[3])]
 [(*991*) Assign n_gc'boo (Plain (Transpose n_g'boo [0;2;1]));
  (*991*) Assign n_gc'bov (Plain (Transpose n_g'bvo [0;2;1]));
  (*991*) Assign n_gc'bvo (Plain (Transpose n_g'bov [0;2;1]));
  (*991*) Assign n_gc'bvv (Plain (Transpose n_g'bvv [0;2;1]));
  (*998*) Assign n_delta_oo (Plain (Eye 0));
  (*999*) Assign n_delta_vv (Plain (Eye 1));
  (*1002*) Assign (T 1) (Plain (Zeros [0;0]));
  (*1003*) AddTo (T 1) (Plain (Einsum [(n_l1,[0;1]); (n_t1,[2;0])] [1;2]));
  (*1004*) Assign (T 6) (Plain (Zeros [0;0]));
  (*1005*) AddTo (T 6) (Plain (Einsum [(T 1,[0;1])] [0;1]));
  (*1006*) Assign n_rdm1_f_oo (Plain (Zeros [0;0]));
  (*1007*) SubFrom n_rdm1_f_oo (Plain (Einsum [(T 1,[0;1])] [0;1]));
  (*1008*) Del (T 1);
  (*1009*) Assign (T 2) (Plain (Zeros [0;0]));
  (*1010*) AddTo (T 2) (Plain (Einsum [(n_lu11,[0;1;2]); (n_u11,[0;3;1])] [2;3]));
  (*1011*) AddTo (T 6) (Plain (Einsum [(T 2,[0;1])] [0;1]));
  (*1012*) SubFrom n_rdm1_f_oo (Plain (Einsum [(T 2,[0;1])] [0;1]));
  (*1013*) Del (T 2);
  (*1014*) Assign (T 3) (Plain (Zeros [0;0]));
  (*1015*) AddTo (T 3) (Plain (Einsum [(n_l2,[0;1;2;3]); (n_t2,[4;3;0;1])] [2;4]));
  (*1016*) AddTo (T 6) (Times (Einsum [(T 3,[0;1])] [0;1]) (1) 2);
  (*1017*) Assign n_rdm1_f_vo (Plain (Zeros [1;0]));
  (*1018*) AddTo n_rdm1_f_vo (Times (Einsum [(n_t1,[0;1]); (T 6,[0;2])] [1;2]) (-1) 1);
  (*1019*) Del (T 6);
  (*1020*) AddTo n_rdm1_f_oo (Times (Einsum [(T 3,[0;1])] [0;1]) (-1) 2);
  (*1021*) Del (T 3);
  (*1022*) Assign (T 4) (Plain (Zeros [3;0;0]));
  (*1023*) AddTo (T 4) (Plain (Einsum [(n_t1,[0;1]); (n_lu11,[2;1;3])] [2;3;0]));
  (*1024*) SubFrom n_rdm1_f_vo (Plain (Einsum [(n_u11,[0;1;2]); (T 4,[0;1;3])] [2;3]));
  (*1025*) Del (T 4);
  (*1026*) Assign (T 5) (Plain (Zeros [0;0;0;1]));
  (*1027*) AddTo (T 5) (Plain (Einsum [(n_t1,[0;1]); (n_l2,[2;1;3;4])] [3;4;0;2]));
  (*1028*) AddTo n_rdm1_f_vo (Times (Einsum [(n_t2,[0;1;2;3]); (T 5,[0;1;4;3])] [2;4]) (1) 2);
  (*1029*) Del (T 5);
  (*1030*) AddTo n_rdm1_f_oo (Plain (Einsum [(n_delta_oo,[0;1])] [1;0]));
  (*1031*) Assign n_rdm1_f_ov (Plain (Zeros [0;1]));
  (*1032*) AddTo n_rdm1_f_ov (Plain (Einsum [(n_l1,[0;1])] [1;0]));
  (*1033*) AddTo n_rdm1_f_vo (Plain (Einsum [(n_l1,[0;1]); (n_t2,[2;1;3;0])] [3;2]));
  (*1034*) AddTo n_rdm1_f_vo (Plain (Einsum [(n_ls1,[0]); (n_u11,[0;1;2])] [2;1]));
  (*1035*) AddTo n_rdm1_f_vo (Plain (Einsum [(n_t1,[0;1])] [1;0]));
  (*1036*) Assign n_rdm1_f_vv (Plain (Zeros [1;1]));
  (*1037*) AddTo n_rdm1_f_vv (Plain (Einsum [(n_lu11,[0;1;2]); (n_u11,[0;2;3])] [3;1]));
  (*1038*) AddTo n_rdm1_f_vv (Plain (Einsum [(n_l1,[0;1]); (n_t1,[1;2])] [2;0]));
  (*1039*) AddTo n_rdm1_f_vv (Times (Einsum [(n_l2,[0;1;2;3]); (n_t2,[2;3;4;0])] [4;1]) (-1) 2)]
 [(n_rdm1_f_oo,[0;0]); (n_rdm1_f_ov,[0;1]); (n_rdm1_f_vo,[1;0]); (n_rdm1_f_vv,[1;1])].

(** ebcc/codegen/GCCSD_SD_1_1.py:1045-1416 [make_rdm2_f]; assembly (line 1412) not translated *)
Definition GCCSD_SD_1_1_make_rdm2_f : prog := mkprog
 [(n_g'boo,[3;0;0]); (n_g'bvo,[3;1;0]); (n_g'bov,[3;0;1]); (n_g'bvv,[3;1;1]); (n_l2,[1;1;0;0]); (n_t2,[0;0;1;1]); (n_t1,[0;1]); (n_l1,[1;0]); (n_lu11,[3;1;0]); (n_u11,[3;0;1]); (n_ls1,[3]); (n_ls2,[3;3])]
 [(*1047*) Assign n_gc'boo (Plain (Transpose n_g'boo [0;2;1]));
  (*1047*) Assign n_gc'bov (Plain (Transpose n_g'bvo [0;2;1]));
  (*1047*) Assign n_gc'bvo (Plain (Transpose n_g'bov [0;2;1]));
  (*1047*) Assign n_gc'bvv (Plain (Transpose n_g'bvv [0;2;1]));
  (*1054*) Assign n_delta_oo (Plain (Eye 0));
  (*1055*) Assign n_delta_vv (Plain (Eye 1));
  (*1058*) Assign (T 1) (Plain (Zeros [0;0;0;0]));
  (*1059*) AddTo (T 1) (Plain (Einsum [(n_l2,[0;1;2;3]); (n_t2,[4;5;0;1])] [2;3;4;5]));
  (*1060*) Assign (T 21) (Plain (Zeros [0;0;0;0]));
  (*1061*) AddTo (T 21) (Times (Einsum [(T 1,[0;1;2;3])] [1;0;3;2]) (-1) 1);
  (*1062*) Assign (T 52) (Plain (Zeros [0;0;0;0]));
  (*1063*) AddTo (T 52) (Times (Einsum [(T 1,[0;1;2;3])] [1;0;3;2]) (-1) 1);
  (*1064*) Assign (T 53) (Plain (Zeros [0;0;0;0]));
  (*1065*) AddTo (T 53) (Times (Einsum [(T 1,[0;1;2;3])] [1;0;3;2]) (-1) 1);
  (*1066*) Assign n_rdm2_f_oooo (Plain (Zeros [0;0;0;0]));
  (*1067*) AddTo n_rdm2_f_oooo (Times (Einsum [(T 1,[0;1;2;3])] [1;0;3;2]) (1) 2);
  (*1068*) Del (T 1);
  (*1069*) Assign (T 2) (Plain (Zeros [0;0;0;1]));
  (*1070*) AddTo (T 2) (Plain (Einsum [(n_t1,[0;1]); (n_l2,[2;1;3;4])] [3;4;0;2]));
  (*1071*) Assign (T 3) (Plain (Zeros [0;0;0;0]));
  (*1072*) AddTo (T 3) (Plain (Einsum [(n_t1,[0;1]); (T 2,[2;3;4;1])] [2;3;0;4]));
  (*1073*) AddTo (T 21) (Times (Einsum [(T 3,[0;1;2;3])] [0;1;3;2]) (2) 1);
  (*1074*) Assign (T 22) (Plain (Zeros [0;0;0;1]));
  (*1075*) AddTo (T 22) (Times (Einsum [(n_t1,[0;1]); (T 21,[0;2;3;4])] [2;3;4;1]) (1) 2);
  (*1076*) Del (T 21);
  (*1077*) Assign n_rdm2_f_ovoo (Plain (Zeros [0;1;0;0]));
  (*1078*) AddTo n_rdm2_f_ovoo (Times (Einsum [(T 22,[0;1;2;3])] [0;3;2;1]) (-1) 1);
  (*1079*) Assign n_rdm2_f_vooo (Plain (Zeros [1;0;0;0]));
  (*1080*) AddTo n_rdm2_f_vooo (Plain (Einsum [(T 22,[0;1;2;3])] [3;0;2;1]));
  (*1081*) Del (T 22);
  (*1082*) AddTo (T 52) (Times (Einsum [(T 3,[0;1;2;3])] [0;1;3;2]) (20000000000000013) 10000000000000000);
  (*1083*) Assign n_rdm2_f_vvoo (Plain (Zeros [1;1;0;0]));
  (*1084*) AddTo n_rdm2_f_vvoo (Times (Einsum [(n_t2,[0;1;2;3]); (T 52,[0;1;4;5])] [3;2;5;4]) (-1) 4);
  (*1085*) Del (T 52);
  (*1086*) AddTo (T 53) (Times (Einsum [(T 3,[0;1;2;3])] [0;1;3;2]) (19999999999999987) 10000000000000000);
  (*1087*) Assign (T 54) (Plain (Zeros [0;0;0;1]));
  (*1088*) AddTo (T 54) (Times (Einsum [(n_t1,[0;1]); (T 53,[0;2;3;4])] [2;4;3;1]) (-1) 1);
  (*1089*) Del (T 53);
  (*1090*) AddTo n_rdm2_f_vvoo (Times (Einsum [(n_t1,[0;1]); (T 54,[0;2;3;4])] [1;4;3;2]) (-5000000000000003) 10000000000000000);
  (*1091*) Del (T 54);
  (*1092*) SubFrom n_rdm2_f_oooo (Plain (Einsum [(T 3,[0;1;2;3])] [0;1;3;2]));
  (*1093*) Del (T 3);
  (*1094*) Assign (T 10) (Plain (Zeros [0;0;0;1]));
  (*1095*) SubFrom (T 10) (Plain (Einsum [(n_t2,[0;1;2;3]); (T 2,[4;1;5;3])] [4;5;0;2]));
  (*1096*) Assign (T 16) (Plain (Zeros [0;0;0;1]));
  (*1097*) AddTo (T 16) (Plain (Einsum [(T 10,[0;1;2;3])] [0;1;2;3]));
  (*1098*) Assign (T 26) (Plain (Zeros [0;0;0;1]));
  (*1099*) SubFrom (T 26) (Plain (Einsum [(T 10,[0;1;2;3])] [0;1;2;3]));
  (*1100*) Assign (T 35) (Plain (Zeros [0;0;1;1]));
  (*1101*) AddTo (T 35) (Plain (Einsum [(n_t1,[0;1]); (T 10,[0;2;3;4])] [2;3;1;4]));
  (*1102*) Del (T 10);
  (*1103*) Assign (T 40) (Plain (Zeros [0;0;1;1]));
  (*1104*) SubFrom (T 40) (Plain (Einsum [(T 35,[0;1;2;3])] [0;1;2;3]));
  (*1105*) Del (T 35);
  (*1106*) Assign (T 17) (Plain (Zeros [0;1]));
  (*1107*) SubFrom (T 17) (Plain (Einsum [(n_t2,[0;1;2;3]); (T 2,[0;1;4;3])] [4;2]));
  (*1108*) Assign (T 19) (Plain (Zeros [0;1]));
  (*1109*) AddTo (T 19) (Plain (Einsum [(T 17,[0;1])] [0;1]));
  (*1110*) Del (T 17);
  (*1111*) Assign (T 29) (Plain (Zeros [0;0;1;1]));
  (*1112*) AddTo (T 29) (Plain (Einsum [(n_t1,[0;1]); (T 2,[2;0;3;4])] [2;3;4;1]));
  (*1113*) Assign (T 60) (Plain (Zeros [0;1;1;1]));
  (*1114*) SubFrom (T 60) (Plain (Einsum [(n_t1,[0;1]); (T 29,[0;2;3;4])] [2;3;4;1]));
  (*1115*) Assign n_rdm2_f_vvov (Plain (Zeros [1;1;0;1]));
  (*1116*) SubFrom n_rdm2_f_vvov (Plain (Einsum [(T 60,[0;1;2;3])] [3;2;0;1]));
  (*1117*) Assign n_rdm2_f_vvvo (Plain (Zeros [1;1;1;0]));
  (*1118*) AddTo n_rdm2_f_vvvo (Plain (Einsum [(T 60,[0;1;2;3])] [3;2;1;0]));
  (*1119*) Del (T 60);
  (*1120*) Assign n_rdm2_f_ovov (Plain (Zeros [0;1;0;1]));
  (*1121*) AddTo n_rdm2_f_ovov (Plain (Einsum [(T 29,[0;1;2;3])] [0;3;1;2]));
  (*1122*) Assign n_rdm2_f_ovvo (Plain (Zeros [0;1;1;0]));
  (*1123*) SubFrom n_rdm2_f_ovvo (Plain (Einsum [(T 29,[0;1;2;3])] [0;3;2;1]));
  (*1124*) Assign n_rdm2_f_voov (Plain (Zeros [1;0;0;1]));
  (*1125*) SubFrom n_rdm2_f_voov (Plain (Einsum [(T 29,[0;1;2;3])] [3;0;1;2]));
  (*1126*) Assign n_rdm2_f_vovo (Plain (Zeros [1;0;1;0]));
  (*1127*) AddTo n_rdm2_f_vovo (Plain (Einsum [(T 29,[0;1;2;3])] [3;0;2;1]));
  (*1128*) Del (T 29);
  (*1129*) Assign (T 59) (Plain (Zeros [0;1;1;1]));
  (*1130*) AddTo (T 59) (Plain (Einsum [(n_t2,[0;1;2;3]); (T 2,[0;1;4;5])] [4;5;2;3]));
  (*1131*) AddTo n_rdm2_f_vvov (Times (Einsum [(T 59,[0;1;2;3])] [2;3;0;1]) (1) 2);
  (*1132*) AddTo n_rdm2_f_vvvo (Times (Einsum [(T 59,[0;1;2;3])] [2;3;1;0]) (-1) 2);
  (*1133*) Del (T 59);
  (*1134*) Assign n_rdm2_f_ooov (Plain (Zeros [0;0;0;1]));
  (*1135*) SubFrom n_rdm2_f_ooov (Plain (Einsum [(T 2,[0;1;2;3])] [1;0;2;3]));
  (*1136*) Assign n_rdm2_f_oovo (Plain (Zeros [0;0;1;0]));
  (*1137*) AddTo n_rdm2_f_oovo (Plain (Einsum [(T 2,[0;1;2;3])] [1;0;3;2]));
  (*1138*) Del (T 2);
  (*1139*) Assign (T 4) (Plain (Zeros [0;0]));
  (*1140*) AddTo (T 4) (Plain (Einsum [(n_l2,[0;1;2;3]); (n_t2,[4;3;0;1])] [2;4]));
  (*1141*) Assign (T 18) (Plain (Zeros [0;1]));
  (*1142*) AddTo (T 18) (Plain (Einsum [(n_t1,[0;1]); (T 4,[0;2])] [2;1]));
  (*1143*) AddTo (T 19) (Plain (Einsum [(T 18,[0;1])] [0;1]));
  (*1144*) Del (T 18);
  (*1145*) Assign (T 20) (Plain (Zeros [0;0;0;1]));
  (*1146*) AddTo (T 20) (Times (Einsum [(n_delta_oo,[0;1]); (T 19,[2;3])] [1;0;2;3]) (1) 2);
  (*1147*) AddTo n_rdm2_f_vooo (Times (Einsum [(n_delta_oo,[0;1]); (T 19,[2;3])] [3;0;1;2]) (1) 2);
  (*1148*) AddTo n_rdm2_f_vooo (Times (Einsum [(n_delta_oo,[0;1]); (T 19,[2;3])] [3;0;2;1]) (-1) 2);
  (*1149*) AddTo n_rdm2_f_vvoo (Times (Einsum [(n_t1,[0;1]); (T 19,[2;3])] [1;3;0;2]) (-5000000000000003) 10000000000000000);
  (*1150*) AddTo n_rdm2_f_vvoo (Times (Einsum [(n_t1,[0;1]); (T 19,[2;3])] [3;1;0;2]) (5000000000000003) 10000000000000000);
  (*1151*) AddTo n_rdm2_f_vvoo (Times (Einsum [(n_t1,[0;1]); (T 19,[2;3])] [1;3;2;0]) (5000000000000003) 10000000000000000);
  (*1152*) AddTo n_rdm2_f_vvoo (Times (Einsum [(n_t1,[0;1]); (T 19,[2;3])] [3;1;2;0]) (-5000000000000003) 10000000000000000);
  (*1153*) Del (T 19);
  (*1154*) AddTo (T 20) (Times (Einsum [(n_t1,[0;1]); (T 4,[2;3])] [2;0;3;1]) (-1) 2);
  (*1155*) AddTo n_rdm2_f_ovoo (Times (Einsum [(T 20,[0;1;2;3])] [0;3;1;2]) (-1) 1);
  (*1156*) AddTo n_rdm2_f_ovoo (Plain (Einsum [(T 20,[0;1;2;3])] [0;3;2;1]));
  (*1157*) Del (T 20);
  (*1158*) Assign (T 51) (Plain (Zeros [0;0;1;1]));
  (*1159*) AddTo (T 51) (Plain (Einsum [(T 4,[0;1]); (n_t2,[2;0;3;4])] [2;1;3;4]));
  (*1160*) AddTo n_rdm2_f_vvoo (Times (Einsum [(T 51,[0;1;2;3])] [2;3;0;1]) (-1) 2);
  (*1161*) AddTo n_rdm2_f_vvoo (Times (Einsum [(T 51,[0;1;2;3])] [2;3;1;0]) (1) 2);
  (*1162*) Del (T 51);
  (*1163*) AddTo n_rdm2_f_oooo (Times (Einsum [(n_delta_oo,[0;1]); (T 4,[2;3])] [0;2;1;3]) (-1) 2);
  (*1164*) AddTo n_rdm2_f_oooo (Times (Einsum [(n_delta_oo,[0;1]); (T 4,[2;3])] [0;2;3;1]) (1) 2);
  (*1165*) AddTo n_rdm2_f_oooo (Times (Einsum [(n_delta_oo,[0;1]); (T 4,[2;3])] [2;1;0;3]) (1) 2);
  (*1166*) AddTo n_rdm2_f_oooo (Times (Einsum [(n_delta_oo,[0;1]); (T 4,[2;3])] [2;1;3;0]) (-1) 2);
  (*1167*) AddTo n_rdm2_f_vooo (Times (Einsum [(n_t1,[0;1]); (T 4,[2;3])] [1;2;0;3]) (-1) 2);
  (*1168*) AddTo n_rdm2_f_vooo (Times (Einsum [(n_t1,[0;1]); (T 4,[2;3])] [1;2;3;0]) (1) 2);
  (*1169*) Del (T 4);
  (*1170*) Assign (T 5) (Plain (Zeros [0;0]));
  (*1171*) AddTo (T 5) (Plain (Einsum [(n_l1,[0;1]); (n_t1,[2;0])] [1;2]));
  (*1172*) Assign (T 15) (Plain (Zeros [0;0]));
  (*1173*) AddTo (T 15) (Plain (Einsum [(T 5,[0;1])] [0;1]));
  (*1174*) Assign (T 24) (Plain (Zeros [0;1]));
  (*1175*) AddTo (T 24) (Plain (Einsum [(n_t1,[0;1]); (T 5,[0;2])] [2;1]));
  (*1176*) Assign (T 25) (Plain (Zeros [0;1]));
  (*1177*) SubFrom (T 25) (Plain (Einsum [(T 24,[0;1])] [0;1]));
  (*1178*) Del (T 24);
  (*1179*) Assign (T 45) (Plain (Zeros [0;0;1;1]));
  (*1180*) AddTo (T 45) (Plain (Einsum [(T 5,[0;1]); (n_t2,[2;0;3;4])] [1;2;3;4]));
  (*1181*) Assign (T 47) (Plain (Zeros [0;0;1;1]));
  (*1182*) SubFrom (T 47) (Plain (Einsum [(T 45,[0;1;2;3])] [0;1;3;2]));
  (*1183*) Del (T 45);
  (*1184*) SubFrom n_rdm2_f_oooo (Plain (Einsum [(n_delta_oo,[0;1]); (T 5,[2;3])] [1;2;0;3]));
  (*1185*) AddTo n_rdm2_f_oooo (Plain (Einsum [(n_delta_oo,[0;1]); (T 5,[2;3])] [2;1;0;3]));
  (*1186*) AddTo n_rdm2_f_oooo (Plain (Einsum [(n_delta_oo,[0;1]); (T 5,[2;3])] [1;2;3;0]));
  (*1187*) SubFrom n_rdm2_f_oooo (Plain (Einsum [(n_delta_oo,[0;1]); (T 5,[2;3])] [2;1;3;0]));
  (*1188*) Del (T 5);
  (*1189*) Assign (T 6) (Plain (Zeros [0;0]));
  (*1190*) AddTo (T 6) (Plain (Einsum [(n_lu11,[0;1;2]); (n_u11,[0;3;1])] [2;3]));
  (*1191*) Assign (T 13) (Plain (Zeros [0;1]));
  (*1192*) AddTo (T 13) (Plain (Einsum [(n_t1,[0;1]); (T 6,[0;2])] [2;1]));
  (*1193*) Assign (T 14) (Plain (Zeros [0;1]));
  (*1194*) AddTo (T 14) (Plain (Einsum [(T 13,[0;1])] [0;1]));
  (*1195*) Del (T 13);
  (*1196*) AddTo (T 15) (Plain (Einsum [(T 6,[0;1])] [0;1]));
  (*1197*) SubFrom (T 16) (Plain (Einsum [(n_t1,[0;1]); (T 15,[2;3])] [2;0;3;1]));
  (*1198*) AddTo (T 26) (Plain (Einsum [(n_t1,[0;1]); (T 15,[2;3])] [2;0;3;1]));
  (*1199*) Assign (T 55) (Plain (Zeros [0;1]));
  (*1200*) AddTo (T 55) (Plain (Einsum [(n_t1,[0;1]); (T 15,[0;2])] [2;1]));
  (*1201*) Del (T 15);
  (*1202*) Assign (T 56) (Plain (Zeros [0;1]));
  (*1203*) AddTo (T 56) (Plain (Einsum [(T 55,[0;1])] [0;1]));
  (*1204*) Assign (T 57) (Plain (Zeros [0;1]));
  (*1205*) AddTo (T 57) (Plain (Einsum [(T 55,[0;1])] [0;1]));
  (*1206*) Del (T 55);
  (*1207*) Assign (T 46) (Plain (Zeros [0;0;1;1]));
  (*1208*) AddTo (T 46) (Plain (Einsum [(T 6,[0;1]); (n_t2,[2;0;3;4])] [2;1;3;4]));
  (*1209*) AddTo (T 47) (Plain (Einsum [(T 46,[0;1;2;3])] [0;1;3;2]));
  (*1210*) Del (T 46);
  (*1211*) SubFrom n_rdm2_f_vvoo (Plain (Einsum [(T 47,[0;1;2;3])] [3;2;0;1]));
  (*1212*) AddTo n_rdm2_f_vvoo (Plain (Einsum [(T 47,[0;1;2;3])] [3;2;1;0]));
  (*1213*) Del (T 47);
  (*1214*) SubFrom n_rdm2_f_oooo (Plain (Einsum [(n_delta_oo,[0;1]); (T 6,[2;3])] [0;2;1;3]));
  (*1215*) AddTo n_rdm2_f_oooo (Plain (Einsum [(n_delta_oo,[0;1]); (T 6,[2;3])] [0;2;3;1]));
  (*1216*) AddTo n_rdm2_f_oooo (Plain (Einsum [(n_delta_oo,[0;1]); (T 6,[2;3])] [2;1;0;3]));
  (*1217*) SubFrom n_rdm2_f_oooo (Plain (Einsum [(n_delta_oo,[0;1]); (T 6,[2;3])] [2;1;3;0]));
  (*1218*) Del (T 6);
  (*1219*) Assign (T 7) (Plain (Zeros [0;0;0;1]));
  (*1220*) AddTo (T 7) (Plain (Einsum [(n_l1,[0;1]); (n_t2,[2;3;4;0])] [1;2;3;4]));
  (*1221*) Assign (T 41) (Plain (Zeros [0;0;1;1]));
  (*1222*) AddTo (T 41) (Plain (Einsum [(n_t1,[0;1]); (T 7,[0;2;3;4])] [2;3;1;4]));
  (*1223*) Assign (T 44) (Plain (Zeros [0;0;1;1]));
  (*1224*) AddTo (T 44) (Plain (Einsum [(T 41,[0;1;2;3])] [0;1;2;3]));
  (*1225*) Del (T 41);
  (*1226*) SubFrom n_rdm2_f_ovoo (Plain (Einsum [(T 7,[0;1;2;3])] [0;3;2;1]));
  (*1227*) AddTo n_rdm2_f_vooo (Plain (Einsum [(T 7,[0;1;2;3])] [3;0;2;1]));
  (*1228*) Del (T 7);
  (*1229*) Assign (T 8) (Plain (Zeros [3;0;0]));
  (*1230*) AddTo (T 8) (Plain (Einsum [(n_t1,[0;1]); (n_lu11,[2;1;3])] [2;3;0]));
  (*1231*) Assign (T 9) (Plain (Zeros [0;0;0;1]));
  (*1232*) AddTo (T 9) (Plain (Einsum [(n_u11,[0;1;2]); (T 8,[0;3;4])] [3;4;1;2]));
  (*1233*) AddTo (T 16) (Plain (Einsum [(T 9,[0;1;2;3])] [0;1;2;3]));
  (*1234*) SubFrom (T 26) (Plain (Einsum [(T 9,[0;1;2;3])] [0;1;2;3]));
  (*1235*) Del (T 9);
  (*1236*) SubFrom n_rdm2_f_vooo (Plain (Einsum [(T 26,[0;1;2;3])] [3;0;1;2]));
  (*1237*) AddTo n_rdm2_f_vooo (Plain (Einsum [(T 26,[0;1;2;3])] [3;0;2;1]));
  (*1238*) Del (T 26);
  (*1239*) Assign (T 12) (Plain (Zeros [0;1]));
  (*1240*) AddTo (T 12) (Plain (Einsum [(n_u11,[0;1;2]); (T 8,[0;1;3])] [3;2]));
  (*1241*) AddTo (T 14) (Plain (Einsum [(T 12,[0;1])] [0;1]));
  (*1242*) AddTo (T 56) (Plain (Einsum [(T 12,[0;1])] [0;1]));
  (*1243*) AddTo (T 57) (Plain (Einsum [(T 12,[0;1])] [0;1]));
  (*1244*) Del (T 12);
  (*1245*) Assign (T 37) (Plain (Zeros [3;0;1]));
  (*1246*) AddTo (T 37) (Plain (Einsum [(n_t1,[0;1]); (T 8,[2;0;3])] [2;3;1]));
  (*1247*) Del (T 8);
  (*1248*) Assign (T 38) (Plain (Zeros [3;0;1]));
  (*1249*) SubFrom (T 38) (Plain (Einsum [(T 37,[0;1;2])] [0;1;2]));
  (*1250*) Del (T 37);
  (*1251*) Assign (T 11) (Plain (Zeros [0;1]));
  (*1252*) AddTo (T 11) (Plain (Einsum [(n_l1,[0;1]); (n_t2,[2;1;3;0])] [2;3]));
  (*1253*) SubFrom (T 14) (Plain (Einsum [(T 11,[0;1])] [0;1]));
  (*1254*) AddTo (T 16) (Plain (Einsum [(n_delta_oo,[0;1]); (T 14,[2;3])] [1;0;2;3]));
  (*1255*) SubFrom n_rdm2_f_ovoo (Plain (Einsum [(T 16,[0;1;2;3])] [0;3;1;2]));
  (*1256*) AddTo n_rdm2_f_ovoo (Plain (Einsum [(T 16,[0;1;2;3])] [0;3;2;1]));
  (*1257*) Del (T 16);
  (*1258*) AddTo n_rdm2_f_vooo (Plain (Einsum [(n_delta_oo,[0;1]); (T 14,[2;3])] [3;0;1;2]));
  (*1259*) SubFrom n_rdm2_f_vooo (Plain (Einsum [(n_delta_oo,[0;1]); (T 14,[2;3])] [3;0;2;1]));
  (*1260*) Del (T 14);
  (*1261*) AddTo (T 40) (Plain (Einsum [(n_t1,[0;1]); (T 11,[2;3])] [0;2;1;3]));
  (*1262*) Del (T 11);
  (*1263*) Assign (T 23) (Plain (Zeros [0;1]));
  (*1264*) AddTo (T 23) (Plain (Einsum [(n_ls1,[0]); (n_u11,[0;1;2])] [1;2]));
  (*1265*) AddTo (T 25) (Plain (Einsum [(T 23,[0;1])] [0;1]));
  (*1266*) SubFrom (T 56) (Plain (Einsum [(T 23,[0;1])] [0;1]));
  (*1267*) SubFrom (T 57) (Plain (Einsum [(T 23,[0;1])] [0;1]));
  (*1268*) Del (T 23);
  (*1269*) AddTo n_rdm2_f_vvoo (Plain (Einsum [(n_t1,[0;1]); (T 57,[2;3])] [1;3;2;0]));
  (*1270*) SubFrom n_rdm2_f_vvoo (Plain (Einsum [(n_t1,[0;1]); (T 57,[2;3])] [3;1;2;0]));
  (*1271*) Del (T 57);
  (*1272*) AddTo (T 25) (Plain (Einsum [(n_t1,[0;1])] [0;1]));
  (*1273*) AddTo n_rdm2_f_ovoo (Plain (Einsum [(n_delta_oo,[0;1]); (T 25,[2;3])] [1;3;0;2]));
  (*1274*) SubFrom n_rdm2_f_ovoo (Plain (Einsum [(n_delta_oo,[0;1]); (T 25,[2;3])] [1;3;2;0]));
  (*1275*) AddTo n_rdm2_f_vooo (Plain (Einsum [(n_delta_oo,[0;1]); (T 25,[2;3])] [3;1;2;0]));
  (*1276*) SubFrom n_rdm2_f_vooo (Plain (Einsum [(n_delta_oo,[0;1]); (T 25,[2;3])] [3;1;0;2]));
  (*1277*) Del (T 25);
  (*1278*) Assign (T 27) (Plain (Zeros [0;0;1;1]));
  (*1279*) AddTo (T 27) (Plain (Einsum [(n_lu11,[0;1;2]); (n_u11,[0;3;4])] [2;3;1;4]));
  (*1280*) SubFrom n_rdm2_f_ovov (Plain (Einsum [(T 27,[0;1;2;3])] [0;3;1;2]));
  (*1281*) AddTo n_rdm2_f_ovvo (Plain (Einsum [(T 27,[0;1;2;3])] [0;3;2;1]));
  (*1282*) AddTo n_rdm2_f_voov (Plain (Einsum [(T 27,[0;1;2;3])] [3;0;1;2]));
  (*1283*) SubFrom n_rdm2_f_vovo (Plain (Einsum [(T 27,[0;1;2;3])] [3;0;2;1]));
  (*1284*) Del (T 27);
  (*1285*) Assign (T 28) (Plain (Zeros [0;0;1;1]));
  (*1286*) SubFrom (T 28) (Plain (Einsum [(n_l2,[0;1;2;3]); (n_t2,[4;3;5;0])] [2;4;1;5]));
  (*1287*) Assign (T 43) (Plain (Zeros [0;0;1;1]));
  (*1288*) AddTo (T 43) (Plain (Einsum [(n_t2,[0;1;2;3]); (T 28,[1;4;3;5])] [0;4;2;5]));
  (*1289*) AddTo (T 44) (Plain (Einsum [(T 43,[0;1;2;3])] [0;1;2;3]));
  (*1290*) Del (T 43);
  (*1291*) Assign (T 64) (Plain (Zeros [0;1;1;1]));
  (*1292*) AddTo (T 64) (Plain (Einsum [(n_t1,[0;1]); (T 28,[0;2;3;4])] [2;3;1;4]));
  (*1293*) Assign (T 66) (Plain (Zeros [0;1;1;1]));
  (*1294*) SubFrom (T 66) (Plain (Einsum [(T 64,[0;1;2;3])] [0;1;2;3]));
  (*1295*) Del (T 64);
  (*1296*) SubFrom n_rdm2_f_ovov (Plain (Einsum [(T 28,[0;1;2;3])] [0;3;1;2]));
  (*1297*) AddTo n_rdm2_f_ovvo (Plain (Einsum [(T 28,[0;1;2;3])] [0;3;2;1]));
  (*1298*) AddTo n_rdm2_f_voov (Plain (Einsum [(T 28,[0;1;2;3])] [3;0;1;2]));
  (*1299*) SubFrom n_rdm2_f_vovo (Plain (Einsum [(T 28,[0;1;2;3])] [3;0;2;1]));
  (*1300*) Del (T 28);
  (*1301*) Assign (T 30) (Plain (Zeros [1;1]));
  (*1302*) AddTo (T 30) (Plain (Einsum [(n_l1,[0;1]); (n_t1,[1;2])] [0;2]));
  (*1303*) Assign (T 33) (Plain (Zeros [1;1]));
  (*1304*) AddTo (T 33) (Plain (Einsum [(T 30,[0;1])] [0;1]));
  (*1305*) Assign (T 34) (Plain (Zeros [1;1]));
  (*1306*) AddTo (T 34) (Times (Einsum [(T 30,[0;1])] [0;1]) (2) 1);
  (*1307*) Assign (T 65) (Plain (Zeros [1;1]));
  (*1308*) AddTo (T 65) (Plain (Einsum [(T 30,[0;1])] [0;1]));
  (*1309*) Del (T 30);
  (*1310*) Assign (T 31) (Plain (Zeros [1;1]));
  (*1311*) AddTo (T 31) (Plain (Einsum [(n_lu11,[0;1;2]); (n_u11,[0;2;3])] [1;3]));
  (*1312*) AddTo (T 33) (Plain (Einsum [(T 31,[0;1])] [0;1]));
  (*1313*) AddTo (T 34) (Times (Einsum [(T 31,[0;1])] [0;1]) (2) 1);
  (*1314*) Assign (T 42) (Plain (Zeros [0;0;1;1]));
  (*1315*) AddTo (T 42) (Plain (Einsum [(T 31,[0;1]); (n_t2,[2;3;4;0])] [2;3;4;1]));
  (*1316*) SubFrom (T 44) (Plain (Einsum [(T 42,[0;1;2;3])] [0;1;2;3]));
  (*1317*) Del (T 42);
  (*1318*) SubFrom n_rdm2_f_vvoo (Plain (Einsum [(T 44,[0;1;2;3])] [2;3;1;0]));
  (*1319*) AddTo n_rdm2_f_vvoo (Plain (Einsum [(T 44,[0;1;2;3])] [3;2;1;0]));
  (*1320*) Del (T 44);
  (*1321*) AddTo (T 65) (Plain (Einsum [(T 31,[0;1])] [0;1]));
  (*1322*) Del (T 31);
  (*1323*) AddTo (T 66) (Plain (Einsum [(n_t1,[0;1]); (T 65,[2;3])] [0;2;1;3]));
  (*1324*) Del (T 65);
  (*1325*) Assign (T 32) (Plain (Zeros [1;1]));
  (*1326*) SubFrom (T 32) (Plain (Einsum [(n_l2,[0;1;2;3]); (n_t2,[2;3;4;0])] [1;4]));
  (*1327*) AddTo (T 33) (Times (Einsum [(T 32,[0;1])] [0;1]) (1) 2);
  (*1328*) AddTo n_rdm2_f_ovov (Plain (Einsum [(n_delta_oo,[0;1]); (T 33,[2;3])] [1;3;0;2]));
  (*1329*) AddTo n_rdm2_f_voov (Times (Einsum [(n_delta_oo,[0;1]); (T 33,[2;3])] [3;1;0;2]) (-1) 1);
  (*1330*) Del (T 33);
  (*1331*) AddTo (T 34) (Plain (Einsum [(T 32,[0;1])] [0;1]));
  (*1332*) AddTo n_rdm2_f_ovvo (Times (Einsum [(n_delta_oo,[0;1]); (T 34,[2;3])] [1;3;2;0]) (-1) 2);
  (*1333*) AddTo n_rdm2_f_vovo (Times (Einsum [(n_delta_oo,[0;1]); (T 34,[2;3])] [3;1;2;0]) (1) 2);
  (*1334*) Del (T 34);
  (*1335*) Assign (T 50) (Plain (Zeros [0;0;1;1]));
  (*1336*) AddTo (T 50) (Plain (Einsum [(T 32,[0;1]); (n_t2,[2;3;4;0])] [2;3;4;1]));
  (*1337*) AddTo n_rdm2_f_vvoo (Times (Einsum [(T 50,[0;1;2;3])] [2;3;1;0]) (1) 2);
  (*1338*) AddTo n_rdm2_f_vvoo (Times (Einsum [(T 50,[0;1;2;3])] [3;2;1;0]) (-1) 2);
  (*1339*) Del (T 50);
  (*1340*) AddTo n_rdm2_f_vvov (Times (Einsum [(n_t1,[0;1]); (T 32,[2;3])] [1;3;0;2]) (1) 2);
  (*1341*) AddTo n_rdm2_f_vvov (Times (Einsum [(n_t1,[0;1]); (T 32,[2;3])] [3;1;0;2]) (-1) 2);
  (*1342*) AddTo n_rdm2_f_vvvo (Times (Einsum [(n_t1,[0;1]); (T 32,[2;3])] [1;3;2;0]) (-1) 2);
  (*1343*) AddTo n_rdm2_f_vvvo (Times (Einsum [(n_t1,[0;1]); (T 32,[2;3])] [3;1;2;0]) (1) 2);
  (*1344*) Del (T 32);
  (*1345*) Assign (T 36) (Plain (Zeros [3;0;1]));
  (*1346*) AddTo (T 36) (Plain (Einsum [(n_lu11,[0;1;2]); (n_t2,[3;2;4;1])] [0;3;4]));
  (*1347*) AddTo (T 38) (Plain (Einsum [(T 36,[0;1;2])] [0;1;2]));
  (*1348*) Del (T 36);
  (*1349*) Assign (T 39) (Plain (Zeros [0;0;1;1]));
  (*1350*) AddTo (T 39) (Plain (Einsum [(n_u11,[0;1;2]); (T 38,[0;3;4])] [3;1;4;2]));
  (*1351*) Del (T 38);
  (*1352*) AddTo (T 40) (Plain (Einsum [(T 39,[0;1;2;3])] [0;1;2;3]));
  (*1353*) Del (T 39);
  (*1354*) AddTo n_rdm2_f_vvoo (Plain (Einsum [(T 40,[0;1;2;3])] [2;3;0;1]));
  (*1355*) SubFrom n_rdm2_f_vvoo (Plain (Einsum [(T 40,[0;1;2;3])] [3;2;0;1]));
  (*1356*) SubFrom n_rdm2_f_vvoo (Plain (Einsum [(T 40,[0;1;2;3])] [2;3;1;0]));
  (*1357*) AddTo n_rdm2_f_vvoo (Plain (Einsum [(T 40,[0;1;2;3])] [3;2;1;0]));
  (*1358*) Del (T 40);
  (*1359*) Assign (T 48) (Plain (Zeros [3;0;1]));
  (*1360*) AddTo (T 48) (Plain (Einsum [(n_ls2,[0;1]); (n_u11,[1;2;3])] [0;2;3]));
  (*1361*) Assign (T 49) (Plain (Zeros [0;0;1;1]));
  (*1362*) AddTo (T 49) (Plain (Einsum [(n_u11,[0;1;2]); (T 48,[0;3;4])] [3;1;4;2]));
  (*1363*) Del (T 48);
  (*1364*) SubFrom n_rdm2_f_vvoo (Plain (Einsum [(T 49,[0;1;2;3])] [3;2;0;1]));
  (*1365*) AddTo n_rdm2_f_vvoo (Plain (Einsum [(T 49,[0;1;2;3])] [3;2;1;0]));
  (*1366*) Del (T 49);
  (*1367*) SubFrom (T 56) (Plain (Einsum [(n_t1,[0;1])] [0;1]));
  (*1368*) AddTo n_rdm2_f_vvoo (Plain (Einsum [(n_t1,[0;1]); (T 56,[2;3])] [3;1;0;2]));
  (*1369*) SubFrom n_rdm2_f_vvoo (Plain (Einsum [(n_t1,[0;1]); (T 56,[2;3])] [1;3;0;2]));
  (*1370*) Del (T 56);
  (*1371*) Assign (T 58) (Plain (Zeros [0;1;1;1]));
  (*1372*) AddTo (T 58) (Plain (Einsum [(n_t1,[0;1]); (n_l2,[2;3;4;0])] [4;2;3;1]));
  (*1373*) Assign n_rdm2_f_ovvv (Plain (Zeros [0;1;1;1]));
  (*1374*) SubFrom n_rdm2_f_ovvv (Plain (Einsum [(T 58,[0;1;2;3])] [0;3;2;1]));
  (*1375*) Assign n_rdm2_f_vovv (Plain (Zeros [1;0;1;1]));
  (*1376*) AddTo n_rdm2_f_vovv (Plain (Einsum [(T 58,[0;1;2;3])] [3;0;2;1]));
  (*1377*) Assign n_rdm2_f_vvvv (Plain (Zeros [1;1;1;1]));
  (*1378*) SubFrom n_rdm2_f_vvvv (Plain (Einsum [(n_t1,[0;1]); (T 58,[0;2;3;4])] [1;4;3;2]));
  (*1379*) Del (T 58);
  (*1380*) Assign (T 61) (Plain (Zeros [0;1;1;1]));
  (*1381*) AddTo (T 61) (Plain (Einsum [(n_l1,[0;1]); (n_t2,[2;1;3;4])] [2;0;3;4]));
  (*1382*) SubFrom n_rdm2_f_vvov (Plain (Einsum [(T 61,[0;1;2;3])] [3;2;0;1]));
  (*1383*) AddTo n_rdm2_f_vvvo (Plain (Einsum [(T 61,[0;1;2;3])] [3;2;1;0]));
  (*1384*) Del (T 61);
  (*1385*) Assign (T 62) (Plain (Zeros [3;1;1]));
  (*1386*) AddTo (T 62) (Plain (Einsum [(n_t1,[0;1]); (n_lu11,[2;3;0])] [2;3;1]));
  (*1387*) Assign (T 63) (Plain (Zeros [0;1;1;1]));
  (*1388*) AddTo (T 63) (Plain (Einsum [(n_u11,[0;1;2]); (T 62,[0;3;4])] [1;3;4;2]));
  (*1389*) Del (T 62);
  (*1390*) SubFrom (T 66) (Plain (Einsum [(T 63,[0;1;2;3])] [0;1;2;3]));
  (*1391*) Del (T 63);
  (*1392*) AddTo n_rdm2_f_vvov (Plain (Einsum [(T 66,[0;1;2;3])] [2;3;0;1]));
  (*1393*) SubFrom n_rdm2_f_vvov (Plain (Einsum [(T 66,[0;1;2;3])] [3;2;0;1]));
  (*1394*) SubFrom n_rdm2_f_vvvo (Plain (Einsum [(T 66,[0;1;2;3])] [2;3;1;0]));
  (*1395*) AddTo n_rdm2_f_vvvo (Plain (Einsum [(T 66,[0;1;2;3])] [3;2;1;0]));
  (*1396*) Del (T 66);
  (*1397*) AddTo n_rdm2_f_oooo (Plain (Einsum [(n_delta_oo,[0;1]); (n_delta_oo,[2;3])] [1;3;0;2]));
  (*1398*) SubFrom n_rdm2_f_oooo (Plain (Einsum [(n_delta_oo,[0;1]); (n_delta_oo,[2;3])] [3;0;1;2]));
  (*1399*) AddTo n_rdm2_f_ooov (Plain (Einsum [(n_delta_oo,[0;1]); (n_l1,[2;3])] [1;3;0;2]));
  (*1400*) SubFrom n_rdm2_f_ooov (Plain (Einsum [(n_delta_oo,[0;1]); (n_l1,[2;3])] [3;1;0;2]));
  (*1401*) SubFrom n_rdm2_f_oovo (Plain (Einsum [(n_delta_oo,[0;1]); (n_l1,[2;3])] [1;3;2;0]));
  (*1402*) AddTo n_rdm2_f_oovo (Plain (Einsum [(n_delta_oo,[0;1]); (n_l1,[2;3])] [3;1;2;0]));
  (*1403*) Assign n_rdm2_f_oovv (Plain (Zeros [0;0;1;1]));
  (*1404*) AddTo n_rdm2_f_oovv (Plain (Einsum [(n_l2,[0;1;2;3])] [3;2;1;0]));
  (*1405*) SubFrom n_rdm2_f_ovov (Plain (Einsum [(n_l1,[0;1]); (n_t1,[2;3])] [1;3;2;0]));
  (*1406*) AddTo n_rdm2_f_ovvo (Plain (Einsum [(n_l1,[0;1]); (n_t1,[2;3])] [1;3;0;2]));
  (*1407*) AddTo n_rdm2_f_voov (Plain (Einsum [(n_l1,[0;1]); (n_t1,[2;3])] [3;1;2;0]));
  (*1408*) SubFrom n_rdm2_f_vovo (Plain (Einsum [(n_l1,[0;1]); (n_t1,[2;3])] [3;1;0;2]));
  (*1409*) AddTo n_rdm2_f_vvoo (Plain (Einsum [(n_t2,[0;1;2;3])] [3;2;1;0]));
  (*1410*) AddTo n_rdm2_f_vvvv (Times (Einsum [(n_l2,[0;1;2;3]); (n_t2,[2;3;4;5])] [5;4;1;0]) (1) 2)]
 [(n_rdm2_f_oooo,[0;0;0;0]); (n_rdm2_f_ooov,[0;0;0;1]); (n_rdm2_f_oovo,[0;0;1;0]); (n_rdm2_f_ovoo,[0;1;0;0]); (n_rdm2_f_vooo,[1;0;0;0]); (n_rdm2_f_oovv,[0;0;1;1]); (n_rdm2_f_ovov,[0;1;0;1]); (n_rdm2_f_ovvo,[0;1;1;0]); (n_rdm2_f_voov,[1;0;0;1]); (n_rdm2_f_vovo,[1;0;1;0]); (n_rdm2_f_vvoo,[1;1;0;0]); (n_rdm2_f_ovvv,[0;1;1;1]); (n_rdm2_f_vovv,[1;0;1;1]); (n_rdm2_f_vvov,[1;1;0;1]); (n_rdm2_f_vvvo,[1;1;1;0]); (n_rdm2_f_vvvv,[1;1;1;1])].

(** ebcc/codegen/GCCSD_SD_1_1.py:1418-1437 [make_sing_b_dm]; assembly (line 1435) not translated *)
Definition GCCSD_SD_1_1_make_sing_b_dm : prog := mkprog
 [(n_g'boo,[3;0;0]); (n_g'bvo,[3;1;0]); (n_g'bov,[3;0;1]); (n_g'bvv,[3;1;1]); (n_ls1,[3]); (n_s2,[3;3]); (n_l1,[1;0]); (n_u11,[3;0;1]); (n_s1,[3])]
 [(*1420*) Assign n_gc'boo (Plain (Transpose n_g'boo [0;2;1]));
  (*1420*) Assign n_gc'bov (Plain (Transpose n_g'bvo [0;2;1]));
  (*1420*) Assign n_gc'bvo (Plain (Transpose n_g'bov [0;2;1]));
  (*1420*) Assign n_gc'bvv (Plain (Transpose n_g'bvv [0;2;1]));
  (*1428*) Assign n_dm_b_cre (Plain (Zeros [3]));
  (*1429*) AddTo n_dm_b_cre (Plain (Einsum [(n_ls1,[0])] [0]));
  (*1430*) Assign n_dm_b_des (Plain (Zeros [3]));
  (*1431*) AddTo n_dm_b_des (Plain (Einsum [(n_ls1,[0]); (n_s2,[1;0])] [1]));
  (*1432*) AddTo n_dm_b_des (Plain (Einsum [(n_l1,[0;1]); (n_u11,[2;1;0])] [2]));
  (*1433*) AddTo n_dm_b_des (Plain (Einsum [(n_s1,[0])] [0]))]
 [(n_dm_b_cre,[3]); (n_dm_b_des,[3])].

(** ebcc/codegen/GCCSD_SD_1_1.py:1439-1454 [make_rdm1_b] *)
Definition GCCSD_SD_1_1_make_rdm1_b : prog := mkprog
 [(n_g'boo,[3;0;0]); (n_g'bvo,[3;1;0]); (n_g'bov,[3;0;1]); (n_g'bvv,[3;1;1]); (n_ls2,[3;3]); (n_s2,[3;3]); (n_ls1,[3]); (n_s1,[3]); (n_lu11,[3;1;0]); (n_u11,[3;0;1])]
 [(*1441*) Assign n_gc'boo (Plain (Transpose n_g'boo [0;2;1]));
  (*1441*) Assign n_gc'bov (Plain (Transpose n_g'bvo [0;2;1]));
  (*1441*) Assign n_gc'bvo (Plain (Transpose n_g'bov [0;2;1]));
  (*1441*) Assign n_gc'bvv (Plain (Transpose n_g'bvv [0;2;1]));
  (*1449*) Assign n_rdm1_b (Plain (Zeros [3;3]));
  (*1450*) AddTo n_rdm1_b (Plain (Einsum [(n_ls2,[0;1]); (n_s2,[2;1])] [0;2]));
  (*1451*) AddTo n_rdm1_b (Plain (Einsum [(n_ls1,[0]); (n_s1,[1])] [0;1]));
  (*1452*) AddTo n_rdm1_b (Plain (Einsum [(n_lu11,[0;1;2]); (n_u11,[3;2;1])] [0;3]))]
 [(n_rdm1_b,[3;3])].

(** ebcc/codegen/GCCSD_SD_1_1.py:1456-1597 [make_eb_coup_rdm]; assembly (line 1592) not translated *)
Definition GCCSD_SD_1_1_make_eb_coup_rdm : prog := mkprog
 [(n_g'boo,[3;0;0]); (n_g'bvo,[3;1;0]); (n_g'bov,[3;0;1]); (n_g'bvv,[3;1;1]); (n_t1,[0;1]); (n_lu11,[3;1;0]); (n_u11,[3;0;1]); (n_l1,[1;0]); (n_s2,[3;3]); (n_l2,[1;1;0;0]); (n_t2,[0;0;1;1]); (n_s1,[3]); (n_ls1,[3]); (n_ls2,[3;3])]
 [(*1458*) Assign n_gc'boo (Plain (Transpose n_g'boo [0;2;1]));
  (*1458*) Assign n_gc'bov (Plain (Transpose n_g'bvo [0;2;1]));
  (*1458*) Assign n_gc'bvo (Plain (Transpose n_g'bov [0;2;1]));
  (*1458*) Assign n_gc'bvv (Plain (Transpose n_g'bvv [0;2;1]));
  (*1465*) Assign n_delta_oo (Plain (Eye 0));
  (*1466*) Assign n_delta_vv (Plain (Eye 1));
  (*1469*) Assign (T 1) (Plain (Zeros [3;0;0]));
  (*1470*) AddTo (T 1) (Plain (Einsum [(n_t1,[0;1]); (n_lu11,[2;1;3])] [2;3;0]));
  (*1471*) Assign (T 22) (Plain (Zeros [0;1]));
  (*1472*) AddTo (T 22) (Plain (Einsum [(n_u11,[0;1;2]); (T 1,[0;1;3])] [3;2]));
  (*1473*) Assign n_rdm_eb_cre_oo (Plain (Zeros [3;0;0]));
  (*1474*) SubFrom n_rdm_eb_cre_oo (Plain (Einsum [(T 1,[0;1;2])] [0;2;1]));
  (*1475*) Assign n_rdm_eb_cre_ov (Plain (Zeros [3;0;1]));
  (*1476*) SubFrom n_rdm_eb_cre_ov (Plain (Einsum [(n_t1,[0;1]); (T 1,[2;0;3])] [2;3;1]));
  (*1477*) Del (T 1);
  (*1478*) Assign (T 2) (Plain (Zeros [3;0;0]));
  (*1479*) AddTo (T 2) (Plain (Einsum [(n_l1,[0;1]); (n_u11,[2;3;0])] [2;1;3]));
  (*1480*) Assign (T 18) (Plain (Zeros [3;0;0]));
  (*1481*) AddTo (T 18) (Plain (Einsum [(T 2,[0;1;2])] [0;1;2]));
  (*1482*) Assign n_rdm_eb_des_oo (Plain (Zeros [3;0;0]));
  (*1483*) SubFrom n_rdm_eb_des_oo (Plain (Einsum [(T 2,[0;1;2])] [0;2;1]));
  (*1484*) Del (T 2);
  (*1485*) Assign (T 3) (Plain (Zeros [3;0;1]));
  (*1486*) AddTo (T 3) (Plain (Einsum [(n_s2,[0;1]); (n_lu11,[1;2;3])] [0;3;2]));
  (*1487*) Assign (T 5) (Plain (Zeros [3;0;1]));
  (*1488*) AddTo (T 5) (Plain (Einsum [(T 3,[0;1;2])] [0;1;2]));
  (*1489*) Assign n_rdm_eb_des_vo (Plain (Zeros [3;1;0]));
  (*1490*) AddTo n_rdm_eb_des_vo (Plain (Einsum [(T 3,[0;1;2])] [0;2;1]));
  (*1491*) Del (T 3);
  (*1492*) Assign (T 4) (Plain (Zeros [3;0;1]));
  (*1493*) SubFrom (T 4) (Plain (Einsum [(n_u11,[0;1;2]); (n_l2,[2;3;4;1])] [0;4;3]));
  (*1494*) AddTo (T 5) (Plain (Einsum [(T 4,[0;1;2])] [0;1;2]));
  (*1495*) Assign (T 6) (Plain (Zeros [3;0;0]));
  (*1496*) AddTo (T 6) (Plain (Einsum [(n_t1,[0;1]); (T 5,[2;3;1])] [2;0;3]));
  (*1497*) AddTo (T 18) (Plain (Einsum [(T 6,[0;1;2])] [0;2;1]));
  (*1498*) Assign n_rdm_eb_des_ov (Plain (Zeros [3;0;1]));
  (*1499*) SubFrom n_rdm_eb_des_ov (Plain (Einsum [(n_t1,[0;1]); (T 18,[2;0;3])] [2;3;1]));
  (*1500*) Del (T 18);
  (*1501*) SubFrom n_rdm_eb_des_oo (Plain (Einsum [(T 6,[0;1;2])] [0;1;2]));
  (*1502*) Del (T 6);
  (*1503*) AddTo n_rdm_eb_des_ov (Plain (Einsum [(T 5,[0;1;2]); (n_t2,[1;3;2;4])] [0;3;4]));
  (*1504*) Assign n_rdm_eb_des_vv (Plain (Zeros [3;1;1]));
  (*1505*) AddTo n_rdm_eb_des_vv (Plain (Einsum [(n_t1,[0;1]); (T 5,[2;0;3])] [2;3;1]));
  (*1506*) Del (T 5);
  (*1507*) AddTo n_rdm_eb_des_vo (Plain (Einsum [(T 4,[0;1;2])] [0;2;1]));
  (*1508*) Del (T 4);
  (*1509*) Assign (T 7) (Plain (Zeros [0;0]));
  (*1510*) AddTo (T 7) (Plain (Einsum [(n_l1,[0;1]); (n_t1,[2;0])] [1;2]));
  (*1511*) Assign (T 10) (Plain (Zeros [0;0]));
  (*1512*) AddTo (T 10) (Times (Einsum [(T 7,[0;1])] [0;1]) (2) 1);
  (*1513*) Assign (T 17) (Plain (Zeros [0;0]));
  (*1514*) AddTo (T 17) (Plain (Einsum [(T 7,[0;1])] [0;1]));
  (*1515*) Assign (T 21) (Plain (Zeros [0;0]));
  (*1516*) AddTo (T 21) (Times (Einsum [(T 7,[0;1])] [0;1]) (19999999999999987) 10000000000000000);
  (*1517*) Del (T 7);
  (*1518*) Assign (T 8) (Plain (Zeros [0;0]));
  (*1519*) AddTo (T 8) (Plain (Einsum [(n_lu11,[0;1;2]); (n_u11,[0;3;1])] [2;3]));
  (*1520*) AddTo (T 10) (Times (Einsum [(T 8,[0;1])] [0;1]) (2) 1);
  (*1521*) AddTo (T 17) (Plain (Einsum [(T 8,[0;1])] [0;1]));
  (*1522*) AddTo (T 21) (Times (Einsum [(T 8,[0;1])] [0;1]) (19999999999999987) 10000000000000000);
  (*1523*) Del (T 8);
  (*1524*) Assign (T 9) (Plain (Zeros [0;0]));
  (*1525*) AddTo (T 9) (Plain (Einsum [(n_l2,[0;1;2;3]); (n_t2,[4;3;0;1])] [2;4]));
  (*1526*) AddTo (T 10) (Plain (Einsum [(T 9,[0;1])] [0;1]));
  (*1527*) AddTo (T 17) (Times (Einsum [(T 9,[0;1])] [0;1]) (1) 2);
  (*1528*) AddTo n_rdm_eb_des_ov (Times (Einsum [(T 17,[0;1]); (n_u11,[2;0;3])] [2;1;3]) (-1) 1);
  (*1529*) Del (T 17);
  (*1530*) AddTo (T 21) (Plain (Einsum [(T 9,[0;1])] [0;1]));
  (*1531*) Del (T 9);
  (*1532*) AddTo (T 22) (Times (Einsum [(n_t1,[0;1]); (T 21,[0;2])] [2;1]) (5000000000000003) 10000000000000000);
  (*1533*) Del (T 21);
  (*1534*) AddTo (T 10) (Times (Einsum [(n_delta_oo,[0;1])] [1;0]) (-2) 1);
  (*1535*) AddTo n_rdm_eb_des_oo (Times (Einsum [(n_s1,[0]); (T 10,[1;2])] [0;2;1]) (-1) 2);
  (*1536*) Del (T 10);
  (*1537*) Assign (T 11) (Plain (Zeros [3]));
  (*1538*) AddTo (T 11) (Plain (Einsum [(n_ls1,[0]); (n_s2,[1;0])] [1]));
  (*1539*) Assign (T 13) (Plain (Zeros [3]));
  (*1540*) AddTo (T 13) (Plain (Einsum [(T 11,[0])] [0]));
  (*1541*) Del (T 11);
  (*1542*) Assign (T 12) (Plain (Zeros [3]));
  (*1543*) AddTo (T 12) (Plain (Einsum [(n_l1,[0;1]); (n_u11,[2;1;0])] [2]));
  (*1544*) AddTo (T 13) (Plain (Einsum [(T 12,[0])] [0]));
  (*1545*) Del (T 12);
  (*1546*) AddTo n_rdm_eb_des_oo (Plain (Einsum [(T 13,[0]); (n_delta_oo,[1;2])] [0;2;1]));
  (*1547*) AddTo n_rdm_eb_des_ov (Plain (Einsum [(T 13,[0]); (n_t1,[1;2])] [0;1;2]));
  (*1548*) Del (T 13);
  (*1549*) Assign (T 14) (Plain (Zeros [1;1]));
  (*1550*) AddTo (T 14) (Plain (Einsum [(n_lu11,[0;1;2]); (n_u11,[0;2;3])] [1;3]));
  (*1551*) Assign (T 16) (Plain (Zeros [1;1]));
  (*1552*) AddTo (T 16) (Times (Einsum [(T 14,[0;1])] [0;1]) (2) 1);
  (*1553*) Assign (T 23) (Plain (Zeros [1;1]));
  (*1554*) AddTo (T 23) (Plain (Einsum [(T 14,[0;1])] [0;1]));
  (*1555*) Del (T 14);
  (*1556*) Assign (T 15) (Plain (Zeros [1;1]));
  (*1557*) SubFrom (T 15) (Plain (Einsum [(n_l2,[0;1;2;3]); (n_t2,[2;3;4;0])] [1;4]));
  (*1558*) AddTo (T 16) (Plain (Einsum [(T 15,[0;1])] [0;1]));
  (*1559*) AddTo n_rdm_eb_des_ov (Times (Einsum [(T 16,[0;1]); (n_u11,[2;3;0])] [2;3;1]) (-1) 2);
  (*1560*) Del (T 16);
  (*1561*) AddTo (T 23) (Times (Einsum [(T 15,[0;1])] [0;1]) (1) 2);
  (*1562*) Del (T 15);
  (*1563*) Assign (T 19) (Plain (Zeros [3;3]));
  (*1564*) AddTo (T 19) (Plain (Einsum [(n_ls2,[0;1]); (n_s2,[2;1])] [0;2]));
  (*1565*) AddTo (T 19) (Plain (Einsum [(n_lu11,[0;1;2]); (n_u11,[3;2;1])] [0;3]));
  (*1566*) AddTo n_rdm_eb_des_ov (Plain (Einsum [(T 19,[0;1]); (n_u11,[0;2;3])] [1;2;3]));
  (*1567*) Del (T 19);
  (*1568*) Assign (T 20) (Plain (Zeros [0;0;0;1]));
  (*1569*) AddTo (T 20) (Plain (Einsum [(n_t1,[0;1]); (n_l2,[2;1;3;4])] [3;4;0;2]));
  (*1570*) AddTo (T 22) (Times (Einsum [(n_t2,[0;1;2;3]); (T 20,[0;1;4;3])] [4;2]) (-5000000000000003) 10000000000000000);
  (*1571*) Del (T 20);
  (*1572*) AddTo (T 22) (Times (Einsum [(n_t1,[0;1])] [0;1]) (-1) 1);
  (*1573*) AddTo (T 22) (Times (Einsum [(n_ls1,[0]); (n_u11,[0;1;2])] [1;2]) (-1) 1);
  (*1574*) AddTo (T 22) (Times (Einsum [(n_l1,[0;1]); (n_t2,[2;1;3;0])] [2;3]) (-1) 1);
  (*1575*) AddTo n_rdm_eb_des_ov (Times (Einsum [(n_s1,[0]); (T 22,[1;2])] [0;1;2]) (-1) 1);
  (*1576*) Del (T 22);
  (*1577*) AddTo (T 23) (Plain (Einsum [(n_l1,[0;1]); (n_t1,[1;2])] [0;2]));
  (*1578*) AddTo n_rdm_eb_des_vv (Plain (Einsum [(n_s1,[0]); (T 23,[1;2])] [0;1;2]));
  (*1579*) Del (T 23);
  (*1580*) AddTo n_rdm_eb_cre_oo (Plain (Einsum [(n_ls1,[0]); (n_delta_oo,[1;2])] [0;2;1]));
  (*1581*) AddTo n_rdm_eb_cre_ov (Plain (Einsum [(n_ls2,[0;1]); (n_u11,[1;2;3])] [0;2;3]));
  (*1582*) AddTo n_rdm_eb_cre_ov (Plain (Einsum [(n_lu11,[0;1;2]); (n_t2,[3;2;4;1])] [0;3;4]));
  (*1583*) AddTo n_rdm_eb_cre_ov (Plain (Einsum [(n_ls1,[0]); (n_t1,[1;2])] [0;1;2]));
  (*1584*) Assign n_rdm_eb_cre_vo (Plain (Zeros [3;1;0]));
  (*1585*) AddTo n_rdm_eb_cre_vo (Plain (Einsum [(n_lu11,[0;1;2])] [0;1;2]));
  (*1586*) Assign n_rdm_eb_cre_vv (Plain (Zeros [3;1;1]));
  (*1587*) AddTo n_rdm_eb_cre_vv (Plain (Einsum [(n_t1,[0;1]); (n_lu11,[2;3;0])] [2;3;1]));
  (*1588*) AddTo n_rdm_eb_des_ov (Plain (Einsum [(n_u11,[0;1;2])] [0;1;2]));
  (*1589*) AddTo n_rdm_eb_des_vo (Plain (Einsum [(n_s1,[0]); (n_l1,[1;2])] [0;1;2]));
  (*1590*) AddTo n_rdm_eb_des_vv (Plain (Einsum [(n_l1,[0;1]); (n_u11,[2;1;3])] [2;0;3]))]
 [(n_rdm_eb_cre_oo,[3;0;0]); (n_rdm_eb_cre_ov,[3;0;1]); (n_rdm_eb_cre_vo,[3;1;0]); (n_rdm_eb_cre_vv,[3;1;1]); (n_rdm_eb_des_oo,[3;0;0]); (n_rdm_eb_des_ov,[3;0;1]); (n_rdm_eb_des_vo,[3;1;0]); (n_rdm_eb_des_vv,[3;1;1])].

