(** Generated by tools/translate_codegen.py from ebcc/codegen/RCCSDxTx.py; one statement per source line
    (the number in the comment before it). *)
From Coq Require Import ZArith List.
From Verif Require Import CgModel CgNames.
Import ListNotations.

(** ebcc/codegen/RCCSDxTx.py:7-25 [energy] *)
Definition RCCSDxTx_energy : prog := mkprog
 [(n_v'ovov,[0;1;0;1]); (n_t2,[0;0;1;1]); (n_f'ov,[0;1]); (n_t1,[0;1])]
 [(*9*) Assign (T 1) (Plain (Zeros [0;0;1;1]));
  (*10*) AddTo (T 1) (Times (Einsum [(n_v'ovov,[0;1;2;3])] [0;2;3;1]) (-1) 2);
  (*11*) AddTo (T 1) (Plain (Einsum [(n_v'ovov,[0;1;2;3])] [0;2;1;3]));
  (*12*) Assign n_e_cc (Plain (Zeros []));
  (*13*) AddTo n_e_cc (Times (Einsum [(n_t2,[0;1;2;3]); (T 1,[0;1;2;3])] []) (2) 1);
  (*14*) Del (T 1);
  (*15*) Assign (T 2) (Plain (Zeros [0;0;1;1]));
  (*16*) AddTo (T 2) (Plain (Einsum [(n_v'ovov,[0;1;2;3])] [0;2;3;1]));
  (*17*) AddTo (T 2) (Times (Einsum [(n_v'ovov,[0;1;2;3])] [0;2;1;3]) (-1) 2);
  (*18*) Assign (T 3) (Plain (Zeros [0;1]));
  (*19*) AddTo (T 3) (Plain (Einsum [(n_f'ov,[0;1])] [0;1]));
  (*20*) AddTo (T 3) (Plain (Einsum [(n_t1,[0;1]); (T 2,[0;2;3;1])] [2;3]));
  (*21*) Del (T 2);
  (*22*) AddTo n_e_cc (Times (Einsum [(n_t1,[0;1]); (T 3,[0;1])] []) (2) 1);
  (*23*) Del (T 3)]
 [(n_e_cc,[])].

(** ebcc/codegen/RCCSDxTx.py:27-300 [update_amps] *)
Definition RCCSDxTx_update_amps : prog := mkprog
 [(n_f'ov,[0;1]); (n_t2,[0;0;1;1]); (n_v'vvvv,[1;1;1;1]); (n_v'ovov,[0;1;0;1]); (n_v'oovv,[0;0;1;1]); (n_t1,[0;1]); (n_v'ooov,[0;0;0;1]); (n_v'ovvv,[0;1;1;1]); (n_f'vv,[1;1]); (n_f'oo,[0;0]); (n_v'oooo,[0;0;0;0])]
 [(*29*) Assign n_t1new (Plain (Zeros [0;1]));
  (*30*) AddTo n_t1new (Plain (Einsum [(n_f'ov,[0;1])] [0;1]));
  (*31*) Assign n_t2new (Plain (Zeros [0;0;1;1]));
  (*32*) AddTo n_t2new (Plain (Einsum [(n_t2,[0;1;2;3]); (n_v'vvvv,[4;2;5;3])] [0;1;4;5]));
  (*33*) AddTo n_t2new (Plain (Einsum [(n_v'ovov,[0;1;2;3])] [0;2;1;3]));
  (*34*) AddTo n_t2new (Times (Einsum [(n_t2,[0;1;2;3]); (n_v'ovov,[4;5;1;3])] [0;4;2;5]) (2) 1);
  (*35*) AddTo n_t2new (Times (Einsum [(n_t2,[0;1;2;3]); (n_v'oovv,[4;1;5;2])] [0;4;5;3]) (-1) 1);
  (*36*) AddTo n_t2new (Times (Einsum [(n_t2,[0;1;2;3]); (n_v'oovv,[4;1;5;3])] [0;4;2;5]) (-1) 1);
  (*37*) AddTo n_t2new (Times (Einsum [(n_t1,[0;1]); (n_v'ooov,[2;0;3;4])] [3;2;4;1]) (-1) 1);
  (*38*) Assign (T 1) (Plain (Zeros [0;1;1;1]));
  (*39*) AddTo (T 1) (Times (Einsum [(n_v'ovvv,[0;1;2;3])] [0;1;2;3]) (-1) 2);
  (*40*) AddTo (T 1) (Plain (Einsum [(n_v'ovvv,[0;1;2;3])] [0;2;1;3]));
  (*41*) AddTo n_t1new (Times (Einsum [(n_t2,[0;1;2;3]); (T 1,[1;2;3;4])] [0;4]) (2) 1);
  (*42*) Assign (T 2) (Plain (Zeros [0;0;0;1]));
  (*43*) AddTo (T 2) (Plain (Einsum [(n_t1,[0;1]); (n_v'ovov,[2;3;4;1])] [0;2;4;3]));
  (*44*) Assign (T 3) (Plain (Zeros [0;0;0;1]));
  (*45*) AddTo (T 3) (Times (Einsum [(n_v'ooov,[0;1;2;3])] [0;1;2;3]) (-1) 1);
  (*46*) AddTo (T 3) (Times (Einsum [(n_v'ooov,[0;1;2;3])] [0;2;1;3]) (2) 1);
  (*47*) AddTo (T 3) (Times (Einsum [(T 2,[0;1;2;3])] [0;1;2;3]) (2) 1);
  (*48*) AddTo (T 3) (Times (Einsum [(T 2,[0;1;2;3])] [0;2;1;3]) (-1) 1);
  (*49*) AddTo n_t1new (Times (Einsum [(n_t2,[0;1;2;3]); (T 3,[4;0;1;2])] [4;3]) (-1) 1);
  (*50*) Del (T 3);
  (*51*) Assign (T 4) (Plain (Zeros [0;0;1;1]));
  (*52*) AddTo (T 4) (Plain (Einsum [(n_v'ovov,[0;1;2;3])] [0;2;3;1]));
  (*53*) AddTo (T 4) (Times (Einsum [(n_v'ovov,[0;1;2;3])] [0;2;1;3]) (-1) 2);
  (*54*) Assign (T 5) (Plain (Zeros [0;1]));
  (*55*) AddTo (T 5) (Times (Einsum [(n_t1,[0;1]); (T 4,[0;2;3;1])] [2;3]) (2) 1);
  (*56*) Assign (T 6) (Plain (Zeros [0;1]));
  (*57*) AddTo (T 6) (Plain (Einsum [(n_f'ov,[0;1])] [0;1]));
  (*58*) AddTo (T 6) (Plain (Einsum [(T 5,[0;1])] [0;1]));
  (*59*) Del (T 5);
  (*60*) Assign (T 7) (Plain (Zeros [0;0;1;1]));
  (*61*) AddTo (T 7) (Times (Einsum [(n_t2,[0;1;2;3])] [0;1;3;2]) (2) 1);
  (*62*) AddTo (T 7) (Times (Einsum [(n_t2,[0;1;2;3])] [0;1;2;3]) (-1) 1);
  (*63*) AddTo n_t1new (Plain (Einsum [(T 6,[0;1]); (T 7,[0;2;3;1])] [2;3]));
  (*64*) Del (T 7);
  (*65*) Assign (T 8) (Plain (Zeros [0;0;1;1]));
  (*66*) AddTo (T 8) (Plain (Einsum [(n_v'ovov,[0;1;2;3])] [0;2;1;3]));
  (*67*) AddTo (T 8) (Times (Einsum [(n_v'oovv,[0;1;2;3])] [0;1;2;3]) (-1) 2);
  (*68*) AddTo n_t1new (Times (Einsum [(n_t1,[0;1]); (T 8,[0;2;1;3])] [2;3]) (2) 1);
  (*69*) Del (T 8);
  (*70*) Assign (T 9) (Plain (Zeros [1;1]));
  (*71*) AddTo (T 9) (Plain (Einsum [(n_f'vv,[0;1])] [0;1]));
  (*72*) AddTo (T 9) (Times (Einsum [(n_t1,[0;1]); (T 1,[0;2;1;3])] [2;3]) (2) 1);
  (*73*) Del (T 1);
  (*74*) AddTo n_t1new (Plain (Einsum [(n_t1,[0;1]); (T 9,[1;2])] [0;2]));
  (*75*) Del (T 9);
  (*76*) Assign (T 10) (Plain (Zeros [0;0;1;1]));
  (*77*) AddTo (T 10) (Times (Einsum [(n_v'ovov,[0;1;2;3])] [0;2;3;1]) (-1) 2);
  (*78*) AddTo (T 10) (Plain (Einsum [(n_v'ovov,[0;1;2;3])] [0;2;1;3]));
  (*79*) Assign (T 11) (Plain (Zeros [0;0;0;1]));
  (*80*) AddTo (T 11) (Plain (Einsum [(n_v'ooov,[0;1;2;3])] [0;1;2;3]));
  (*81*) AddTo (T 11) (Times (Einsum [(n_v'ooov,[0;1;2;3])] [0;2;1;3]) (-1) 2);
  (*82*) Assign (T 12) (Plain (Zeros [0;0]));
  (*83*) AddTo (T 12) (Plain (Einsum [(n_t1,[0;1]); (T 6,[2;1])] [2;0]));
  (*84*) Del (T 6);
  (*85*) Assign (T 13) (Plain (Zeros [0;0]));
  (*86*) AddTo (T 13) (Plain (Einsum [(n_f'oo,[0;1])] [0;1]));
  (*87*) AddTo (T 13) (Times (Einsum [(n_t2,[0;1;2;3]); (T 10,[1;4;3;2])] [4;0]) (2) 1);
  (*88*) AddTo (T 13) (Times (Einsum [(n_t1,[0;1]); (T 11,[2;3;0;1])] [3;2]) (2) 1);
  (*89*) AddTo (T 13) (Plain (Einsum [(T 12,[0;1])] [0;1]));
  (*90*) AddTo n_t1new (Times (Einsum [(n_t1,[0;1]); (T 13,[0;2])] [2;1]) (-1) 1);
  (*91*) Del (T 13);
  (*92*) Assign (T 14) (Plain (Zeros [0;1;1;1]));
  (*93*) AddTo (T 14) (Plain (Einsum [(n_t1,[0;1]); (n_v'vvvv,[2;3;4;1])] [0;2;3;4]));
  (*94*) AddTo n_t2new (Plain (Einsum [(n_t1,[0;1]); (T 14,[2;3;1;4])] [0;2;3;4]));
  (*95*) Del (T 14);
  (*96*) Assign (T 15) (Plain (Zeros [0;0;0;0]));
  (*97*) AddTo (T 15) (Plain (Einsum [(n_t1,[0;1]); (T 2,[2;3;4;1])] [2;0;4;3]));
  (*98*) AddTo n_t2new (Plain (Einsum [(n_t2,[0;1;2;3]); (T 15,[4;5;0;1])] [5;4;3;2]));
  (*99*) Assign (T 16) (Plain (Zeros [0;0;1;1]));
  (*100*) AddTo (T 16) (Plain (Einsum [(n_t2,[0;1;2;3]); (n_v'ovov,[4;5;1;2])] [0;4;3;5]));
  (*101*) AddTo n_t2new (Times (Einsum [(T 16,[0;1;2;3])] [0;1;2;3]) (-1) 1);
  (*102*) Assign (T 17) (Plain (Zeros [0;0;1;1]));
  (*103*) AddTo (T 17) (Plain (Einsum [(n_t1,[0;1]); (n_v'ovvv,[2;1;3;4])] [0;2;3;4]));
  (*104*) Assign (T 18) (Plain (Zeros [0;0;1;1]));
  (*105*) AddTo (T 18) (Plain (Einsum [(n_t2,[0;1;2;3]); (T 17,[4;1;5;2])] [4;0;3;5]));
  (*106*) Assign (T 19) (Plain (Zeros [0;0;1;1]));
  (*107*) AddTo (T 19) (Plain (Einsum [(n_t1,[0;1]); (T 2,[2;3;0;4])] [2;3;1;4]));
  (*108*) Assign (T 20) (Plain (Zeros [0;0;1;1]));
  (*109*) AddTo (T 20) (Times (Einsum [(n_v'ovov,[0;1;2;3])] [0;2;3;1]) (2) 1);
  (*110*) AddTo (T 20) (Times (Einsum [(n_v'ovov,[0;1;2;3])] [0;2;1;3]) (-1) 1);
  (*111*) Assign (T 21) (Plain (Zeros [0;0;1;1]));
  (*112*) AddTo (T 21) (Times (Einsum [(n_t2,[0;1;2;3]); (T 20,[1;4;5;3])] [4;0;5;2]) (1) 2);
  (*113*) Del (T 20);
  (*114*) Assign (T 22) (Plain (Zeros [0;0;1;1]));
  (*115*) AddTo (T 22) (Times (Einsum [(T 19,[0;1;2;3])] [0;1;2;3]) (1) 2);
  (*116*) Del (T 19);
  (*117*) AddTo (T 22) (Times (Einsum [(T 21,[0;1;2;3])] [1;0;3;2]) (-1) 1);
  (*118*) Del (T 21);
  (*119*) Assign (T 23) (Plain (Zeros [0;0;1;1]));
  (*120*) AddTo (T 23) (Times (Einsum [(n_t2,[0;1;2;3]); (T 22,[4;1;5;2])] [4;0;5;3]) (2) 1);
  (*121*) Del (T 22);
  (*122*) Assign (T 24) (Plain (Zeros [1;1]));
  (*123*) AddTo (T 24) (Times (Einsum [(n_t2,[0;1;2;3]); (T 4,[0;1;4;2])] [4;3]) (2) 1);
  (*124*) Assign (T 25) (Plain (Zeros [0;1;1;1]));
  (*125*) AddTo (T 25) (Times (Einsum [(n_v'ovvv,[0;1;2;3])] [0;1;2;3]) (-1) 1);
  (*126*) AddTo (T 25) (Times (Einsum [(n_v'ovvv,[0;1;2;3])] [0;2;1;3]) (2) 1);
  (*127*) Assign (T 26) (Plain (Zeros [1;1]));
  (*128*) AddTo (T 26) (Plain (Einsum [(n_t1,[0;1]); (T 25,[0;2;1;3])] [2;3]));
  (*129*) Del (T 25);
  (*130*) Assign (T 27) (Plain (Zeros [1;1]));
  (*131*) AddTo (T 27) (Plain (Einsum [(T 24,[0;1])] [0;1]));
  (*132*) Del (T 24);
  (*133*) AddTo (T 27) (Times (Einsum [(T 26,[0;1])] [0;1]) (-1) 1);
  (*134*) Del (T 26);
  (*135*) Assign (T 28) (Plain (Zeros [0;0;1;1]));
  (*136*) AddTo (T 28) (Plain (Einsum [(T 27,[0;1]); (n_t2,[2;3;0;4])] [2;3;1;4]));
  (*137*) Del (T 27);
  (*138*) Assign (T 29) (Plain (Zeros [0;0;0;1]));
  (*139*) AddTo (T 29) (Plain (Einsum [(n_t2,[0;1;2;3]); (n_v'ooov,[4;1;5;2])] [0;4;5;3]));
  (*140*) Assign (T 30) (Plain (Zeros [0;0;0;1]));
  (*141*) AddTo (T 30) (Times (Einsum [(T 2,[0;1;2;3])] [0;1;2;3]) (-1) 2);
  (*142*) AddTo (T 30) (Plain (Einsum [(T 2,[0;1;2;3])] [0;2;1;3]));
  (*143*) Assign (T 31) (Plain (Zeros [0;0;0;1]));
  (*144*) AddTo (T 31) (Times (Einsum [(n_t2,[0;1;2;3]); (T 30,[4;5;1;3])] [4;5;0;2]) (2) 1);
  (*145*) Del (T 30);
  (*146*) Assign (T 32) (Plain (Zeros [0;0;1;1]));
  (*147*) AddTo (T 32) (Plain (Einsum [(n_t2,[0;1;2;3])] [0;1;2;3]));
  (*148*) AddTo (T 32) (Plain (Einsum [(n_t1,[0;1]); (n_t1,[2;3])] [0;2;1;3]));
  (*149*) Assign (T 33) (Plain (Zeros [0;0;0;1]));
  (*150*) AddTo (T 33) (Plain (Einsum [(n_v'ovvv,[0;1;2;3]); (T 32,[4;5;3;1])] [0;4;5;2]));
  (*151*) Assign (T 34) (Plain (Zeros [0;0;0;1]));
  (*152*) AddTo (T 34) (Plain (Einsum [(T 2,[0;1;2;3])] [0;1;2;3]));
  (*153*) AddTo (T 34) (Times (Einsum [(T 29,[0;1;2;3])] [0;1;2;3]) (-1) 1);
  (*154*) Del (T 29);
  (*155*) AddTo (T 34) (Plain (Einsum [(T 31,[0;1;2;3])] [0;2;1;3]));
  (*156*) Del (T 31);
  (*157*) AddTo (T 34) (Plain (Einsum [(T 33,[0;1;2;3])] [2;1;0;3]));
  (*158*) Del (T 33);
  (*159*) Assign (T 35) (Plain (Zeros [0;0;1;1]));
  (*160*) AddTo (T 35) (Plain (Einsum [(n_t1,[0;1]); (T 34,[2;3;0;4])] [2;3;4;1]));
  (*161*) Del (T 34);
  (*162*) Assign (T 36) (Plain (Zeros [0;0]));
  (*163*) AddTo (T 36) (Plain (Einsum [(n_t2,[0;1;2;3]); (T 10,[1;4;3;2])] [4;0]));
  (*164*) Del (T 10);
  (*165*) Assign (T 37) (Plain (Zeros [0;0]));
  (*166*) AddTo (T 37) (Plain (Einsum [(n_t1,[0;1]); (T 11,[2;3;0;1])] [2;3]));
  (*167*) Del (T 11);
  (*168*) Assign (T 38) (Plain (Zeros [0;0]));
  (*169*) AddTo (T 38) (Plain (Einsum [(T 36,[0;1])] [0;1]));
  (*170*) Del (T 36);
  (*171*) AddTo (T 38) (Plain (Einsum [(T 37,[0;1])] [1;0]));
  (*172*) Del (T 37);
  (*173*) Assign (T 39) (Plain (Zeros [0;0;1;1]));
  (*174*) AddTo (T 39) (Times (Einsum [(T 38,[0;1]); (n_t2,[2;0;3;4])] [1;2;4;3]) (2) 1);
  (*175*) Del (T 38);
  (*176*) Assign (T 40) (Plain (Zeros [0;0;1;1]));
  (*177*) AddTo (T 40) (Plain (Einsum [(T 18,[0;1;2;3])] [0;1;2;3]));
  (*178*) Del (T 18);
  (*179*) AddTo (T 40) (Times (Einsum [(T 23,[0;1;2;3])] [0;1;2;3]) (-1) 1);
  (*180*) Del (T 23);
  (*181*) AddTo (T 40) (Plain (Einsum [(T 28,[0;1;2;3])] [1;0;3;2]));
  (*182*) Del (T 28);
  (*183*) AddTo (T 40) (Plain (Einsum [(T 35,[0;1;2;3])] [0;1;3;2]));
  (*184*) Del (T 35);
  (*185*) AddTo (T 40) (Plain (Einsum [(T 39,[0;1;2;3])] [1;0;3;2]));
  (*186*) Del (T 39);
  (*187*) AddTo n_t2new (Times (Einsum [(T 40,[0;1;2;3])] [0;1;2;3]) (-1) 1);
  (*188*) AddTo n_t2new (Times (Einsum [(T 40,[0;1;2;3])] [1;0;3;2]) (-1) 1);
  (*189*) Del (T 40);
  (*190*) Assign (T 41) (Plain (Zeros [0;0;1;1]));
  (*191*) AddTo (T 41) (Plain (Einsum [(n_f'vv,[0;1]); (n_t2,[2;3;4;1])] [2;3;0;4]));
  (*192*) Assign (T 42) (Plain (Zeros [0;0;1;1]));
  (*193*) AddTo (T 42) (Plain (Einsum [(n_t1,[0;1]); (n_v'ovvv,[2;3;4;1])] [0;2;3;4]));
  (*194*) Assign (T 43) (Plain (Zeros [0;0;0;0]));
  (*195*) AddTo (T 43) (Plain (Einsum [(n_t1,[0;1]); (n_v'ooov,[2;3;4;1])] [0;2;3;4]));
  (*196*) Assign (T 44) (Plain (Zeros [0;0;1;1]));
  (*197*) AddTo (T 44) (Plain (Einsum [(n_t2,[0;1;2;3]); (T 43,[4;5;0;1])] [4;5;2;3]));
  (*198*) Del (T 43);
  (*199*) Assign (T 45) (Plain (Zeros [0;0;1;1]));
  (*200*) AddTo (T 45) (Plain (Einsum [(n_t2,[0;1;2;3]); (T 17,[4;1;5;3])] [4;0;2;5]));
  (*201*) Del (T 17);
  (*202*) Assign (T 46) (Plain (Zeros [0;0;1;1]));
  (*203*) AddTo (T 46) (Plain (Einsum [(n_t2,[0;1;2;3])] [0;1;3;2]));
  (*204*) AddTo (T 46) (Times (Einsum [(n_t2,[0;1;2;3])] [0;1;2;3]) (-1) 2);
  (*205*) Assign (T 47) (Plain (Zeros [0;0;1;1]));
  (*206*) AddTo (T 47) (Times (Einsum [(T 42,[0;1;2;3]); (T 46,[1;4;5;2])] [4;0;5;3]) (2) 1);
  (*207*) Del (T 46);
  (*208*) Assign (T 48) (Plain (Zeros [0;0;0;1]));
  (*209*) AddTo (T 48) (Plain (Einsum [(n_t1,[0;1]); (n_v'oovv,[2;3;4;1])] [0;2;3;4]));
  (*210*) Assign (T 49) (Plain (Zeros [0;0;0;1]));
  (*211*) AddTo (T 49) (Plain (Einsum [(n_t2,[0;1;2;3]); (n_v'ooov,[4;1;5;3])] [0;4;5;2]));
  (*212*) Assign (T 50) (Plain (Zeros [0;0;0;1]));
  (*213*) AddTo (T 50) (Plain (Einsum [(n_t2,[0;1;2;3]); (T 2,[4;5;1;2])] [4;0;5;3]));
  (*214*) Del (T 2);
  (*215*) Assign (T 51) (Plain (Zeros [0;0;1;1]));
  (*216*) AddTo (T 51) (Times (Einsum [(n_t1,[0;1]); (n_t1,[2;3])] [0;2;1;3]) (1) 2);
  (*217*) AddTo (T 51) (Times (Einsum [(n_t2,[0;1;2;3])] [0;1;3;2]) (-1) 1);
  (*218*) AddTo (T 51) (Times (Einsum [(n_t2,[0;1;2;3])] [0;1;2;3]) (1) 2);
  (*219*) Assign (T 52) (Plain (Zeros [0;0;0;1]));
  (*220*) AddTo (T 52) (Times (Einsum [(n_v'ooov,[0;1;2;3]); (T 51,[2;4;5;3])] [0;1;4;5]) (2) 1);
  (*221*) Del (T 51);
  (*222*) Assign (T 53) (Plain (Zeros [0;1]));
  (*223*) AddTo (T 53) (Plain (Einsum [(n_t1,[0;1]); (T 4,[0;2;3;1])] [2;3]));
  (*224*) Assign (T 54) (Plain (Zeros [0;1]));
  (*225*) AddTo (T 54) (Times (Einsum [(n_f'ov,[0;1])] [0;1]) (1) 2);
  (*226*) AddTo (T 54) (Plain (Einsum [(T 53,[0;1])] [0;1]));
  (*227*) Del (T 53);
  (*228*) Assign (T 55) (Plain (Zeros [0;0;0;1]));
  (*229*) AddTo (T 55) (Times (Einsum [(T 54,[0;1]); (n_t2,[2;3;1;4])] [0;2;3;4]) (2) 1);
  (*230*) Del (T 54);
  (*231*) Assign (T 56) (Plain (Zeros [0;0;0;1]));
  (*232*) AddTo (T 56) (Times (Einsum [(T 48,[0;1;2;3])] [2;0;1;3]) (-1) 1);
  (*233*) Del (T 48);
  (*234*) AddTo (T 56) (Plain (Einsum [(T 49,[0;1;2;3])] [2;0;1;3]));
  (*235*) Del (T 49);
  (*236*) AddTo (T 56) (Plain (Einsum [(T 50,[0;1;2;3])] [2;0;1;3]));
  (*237*) Del (T 50);
  (*238*) AddTo (T 56) (Plain (Einsum [(T 52,[0;1;2;3])] [1;2;0;3]));
  (*239*) Del (T 52);
  (*240*) AddTo (T 56) (Times (Einsum [(T 55,[0;1;2;3])] [0;2;1;3]) (-1) 1);
  (*241*) Del (T 55);
  (*242*) Assign (T 57) (Plain (Zeros [0;0;1;1]));
  (*243*) AddTo (T 57) (Plain (Einsum [(n_t1,[0;1]); (T 56,[0;2;3;4])] [2;3;4;1]));
  (*244*) Del (T 56);
  (*245*) Assign (T 58) (Plain (Zeros [0;0]));
  (*246*) AddTo (T 58) (Plain (Einsum [(n_f'oo,[0;1])] [0;1]));
  (*247*) AddTo (T 58) (Plain (Einsum [(T 12,[0;1])] [1;0]));
  (*248*) Del (T 12);
  (*249*) Assign (T 59) (Plain (Zeros [0;0;1;1]));
  (*250*) AddTo (T 59) (Plain (Einsum [(T 58,[0;1]); (n_t2,[2;1;3;4])] [0;2;4;3]));
  (*251*) Del (T 58);
  (*252*) Assign (T 60) (Plain (Zeros [0;0;1;1]));
  (*253*) AddTo (T 60) (Plain (Einsum [(T 41,[0;1;2;3])] [0;1;2;3]));
  (*254*) Del (T 41);
  (*255*) AddTo (T 60) (Plain (Einsum [(T 42,[0;1;2;3])] [0;1;2;3]));
  (*256*) Del (T 42);
  (*257*) AddTo (T 60) (Plain (Einsum [(T 44,[0;1;2;3])] [0;1;2;3]));
  (*258*) Del (T 44);
  (*259*) AddTo (T 60) (Times (Einsum [(T 45,[0;1;2;3])] [0;1;2;3]) (-1) 1);
  (*260*) Del (T 45);
  (*261*) AddTo (T 60) (Plain (Einsum [(T 47,[0;1;2;3])] [1;0;2;3]));
  (*262*) Del (T 47);
  (*263*) AddTo (T 60) (Plain (Einsum [(T 57,[0;1;2;3])] [0;1;3;2]));
  (*264*) Del (T 57);
  (*265*) AddTo (T 60) (Times (Einsum [(T 59,[0;1;2;3])] [0;1;3;2]) (-1) 1);
  (*266*) Del (T 59);
  (*267*) AddTo n_t2new (Plain (Einsum [(T 60,[0;1;2;3])] [0;1;3;2]));
  (*268*) AddTo n_t2new (Plain (Einsum [(T 60,[0;1;2;3])] [1;0;2;3]));
  (*269*) Del (T 60);
  (*270*) Assign (T 61) (Plain (Zeros [0;0;1;1]));
  (*271*) AddTo (T 61) (Times (Einsum [(n_v'ovov,[0;1;2;3])] [0;2;1;3]) (2) 1);
  (*272*) AddTo (T 61) (Times (Einsum [(n_v'oovv,[0;1;2;3])] [0;1;2;3]) (-1) 1);
  (*273*) AddTo (T 61) (Times (Einsum [(n_t2,[0;1;2;3]); (T 4,[1;4;5;3])] [0;4;2;5]) (4) 1);
  (*274*) Del (T 4);
  (*275*) AddTo n_t2new (Plain (Einsum [(n_t2,[0;1;2;3]); (T 61,[4;1;5;3])] [4;0;5;2]));
  (*276*) Del (T 61);
  (*277*) Assign (T 62) (Plain (Zeros [0;0;0;0]));
  (*278*) AddTo (T 62) (Plain (Einsum [(n_v'oooo,[0;1;2;3])] [0;1;2;3]));
  (*279*) AddTo (T 62) (Plain (Einsum [(n_t2,[0;1;2;3]); (n_v'ovov,[4;2;5;3])] [4;0;1;5]));
  (*280*) AddTo n_t2new (Plain (Einsum [(T 32,[0;1;2;3]); (T 62,[0;4;5;1])] [5;4;3;2]));
  (*281*) Del (T 32);
  (*281*) Del (T 62);
  (*282*) Assign (T 63) (Plain (Zeros [0;0;0;1]));
  (*283*) AddTo (T 63) (Times (Einsum [(n_v'ooov,[0;1;2;3])] [0;2;1;3]) (-1) 1);
  (*284*) AddTo (T 63) (Plain (Einsum [(n_t1,[0;1]); (T 15,[2;3;0;4])] [3;2;4;1]));
  (*285*) Del (T 15);
  (*286*) AddTo n_t2new (Plain (Einsum [(n_t1,[0;1]); (T 63,[2;3;0;4])] [2;3;1;4]));
  (*287*) Del (T 63);
  (*288*) Assign (T 64) (Plain (Zeros [0;0;1;1]));
  (*289*) AddTo (T 64) (Times (Einsum [(n_v'ovov,[0;1;2;3])] [0;2;1;3]) (-1) 1);
  (*290*) AddTo (T 64) (Plain (Einsum [(T 16,[0;1;2;3])] [0;1;2;3]));
  (*291*) Del (T 16);
  (*292*) AddTo n_t2new (Plain (Einsum [(n_t2,[0;1;2;3]); (T 64,[4;1;5;2])] [4;0;5;3]));
  (*293*) Del (T 64);
  (*294*) Assign (T 65) (Plain (Zeros [0;0;1;1]));
  (*295*) AddTo (T 65) (Times (Einsum [(n_v'oovv,[0;1;2;3])] [0;1;2;3]) (-1) 1);
  (*296*) AddTo (T 65) (Plain (Einsum [(n_t2,[0;1;2;3]); (n_v'ovov,[4;2;1;5])] [0;4;3;5]));
  (*297*) AddTo n_t2new (Plain (Einsum [(n_t2,[0;1;2;3]); (T 65,[4;1;5;2])] [4;0;3;5]));
  (*298*) Del (T 65)]
 [(n_t1new,[0;1]); (n_t2new,[0;0;1;1])].

